(** SpecJson.v - a reader for JSON texts (RFC 8259), independent of the model of the code.
    Simplifications: bytes above 127 are taken as they are (UTF-8 is not validated), a
    [\u] escape denotes the UTF-8 encoding of that one code unit, numbers with a fraction
    or an exponent are kept as text. *)
From Verif Require Import Base.

Inductive json :=
| JNull
| JBool (b : bool)
| JInt (z : Z)
| JReal (lexeme : str)
| JStr (s : str)
| JArr (l : list json)
| JObj (l : list (str * json)).

Definition ws (c : ascii) : bool := existsb (Ascii.eqb c) [SP; HT; LF; CR].
Fixpoint skip_ws (s : str) : str :=
  match s with [] => [] | c :: t => if ws c then skip_ws t else s end.

(** ** Strings *)
Definition hexval (c : ascii) : option Z :=
  let n := code c in
  if (48 <=? n) && (n <=? 57) then Some (n - 48)
  else if (65 <=? n) && (n <=? 70) then Some (n - 55)
  else if (97 <=? n) && (n <=? 102) then Some (n - 87)
  else None.
Definition byte (z : Z) : ascii := ascii_of_N (Z.to_N z).
Definition utf8 (z : Z) : str :=
  if z <? 128 then [byte z]
  else if z <? 2048 then [byte (192 + z / 64); byte (128 + z mod 64)]
  else [byte (224 + z / 4096); byte (128 + z / 64 mod 64); byte (128 + z mod 64)].
Definition hex4 (a b c d : ascii) : option Z :=
  match hexval a, hexval b, hexval c, hexval d with
  | Some a, Some b, Some c, Some d => Some (((a * 16 + b) * 16 + c) * 16 + d)
  | _, _, _, _ => None
  end.
Definition simple_escape (c : ascii) : option ascii :=
  if Ascii.eqb c DQ then Some DQ
  else if Ascii.eqb c "\" then Some "\"%char
  else if Ascii.eqb c "/" then Some "/"%char
  else if Ascii.eqb c "b" then Some "008"%char
  else if Ascii.eqb c "f" then Some FF
  else if Ascii.eqb c "n" then Some LF
  else if Ascii.eqb c "r" then Some CR
  else if Ascii.eqb c "t" then Some HT
  else None.

(** The rest of a string after its opening quote: its content, and what follows it. *)
Fixpoint jstring (s : str) : option (str * str) :=
  match s with
  | [] => None
  | c :: t =>
    if Ascii.eqb c DQ then Some ([], t)
    else if Ascii.eqb c "\" then
      match t with
      | [] => None
      | e :: t1 =>
        if Ascii.eqb e "u" then
          match t1 with
          | h1 :: h2 :: h3 :: h4 :: t2 =>
            match hex4 h1 h2 h3 h4, jstring t2 with
            | Some z, Some (x, r) => Some (utf8 z ++ x, r)
            | _, _ => None
            end
          | _ => None
          end
        else match simple_escape e, jstring t1 with
             | Some d, Some (x, r) => Some (d :: x, r)
             | _, _ => None
             end
      end
    else if code c <? 32 then None
    else match jstring t with Some (x, r) => Some (c :: x, r) | None => None end
  end.

(** ** Numbers *)
Definition digit (c : ascii) : bool := (48 <=? code c) && (code c <=? 57).
Fixpoint digits (s : str) : str * str :=
  match s with
  | c :: t => if digit c then let '(d, r) := digits t in (c :: d, r) else ([], s)
  | [] => ([], [])
  end.
Fixpoint value_of_digits (acc : Z) (s : str) : Z :=
  match s with [] => acc | c :: t => value_of_digits (10 * acc + (code c - 48)) t end.

(** Fraction and exponent: the text consumed and the rest; None if malformed. *)
Definition fraction (s : str) : option (str * str) :=
  match s with
  | c :: t => if Ascii.eqb c "." then
                match digits t with ([], _) => None | (d, r) => Some (c :: d, r) end
              else Some ([], s)
  | [] => Some ([], [])
  end.
Definition exponent (s : str) : option (str * str) :=
  match s with
  | c :: t =>
    if Ascii.eqb c "e" || Ascii.eqb c "E" then
      let '(sg, t1) := match t with
                       | x :: y => if Ascii.eqb x "+" || Ascii.eqb x "-" then ([x], y) else ([], t)
                       | [] => ([], [])
                       end in
      match digits t1 with ([], _) => None | (d, r) => Some (c :: sg ++ d, r) end
    else Some ([], s)
  | [] => Some ([], [])
  end.
Definition jnumber (s : str) : option (json * str) :=
  let '(neg, s1) := match s with
                    | c :: t => if Ascii.eqb c "-" then (true, t) else (false, s)
                    | [] => (false, [])
                    end in
  let '(d, s2) := digits s1 in
  match d with
  | [] => None
  | c :: more =>
    if Ascii.eqb c "0" && negb (match more with [] => true | _ => false end) then None
    else
      match fraction s2 with
      | None => None
      | Some (f, s3) =>
        match exponent s3 with
        | None => None
        | Some (e, s4) =>
          let v := value_of_digits 0 d in
          match f, e with
          | [], [] => Some (JInt (if neg : bool then - v else v), s4)
          | _, _ => Some (JReal ((if neg then ["-"%char] else []) ++ d ++ f ++ e), s4)
          end
        end
      end
  end.

(** ** Values; the first argument bounds the recursion. *)
Definition keyword (k : str) (v : json) (s : str) : option (json * str) :=
  if forallb (fun p => Ascii.eqb (fst p) (snd p)) (combine k s) && (length k <=? length s)%nat
  then Some (v, skipn (length k) s) else None.

Fixpoint jvalue (n : nat) (s : str) {struct n} : option (json * str) :=
  match n with
  | O => None
  | S n' =>
    match skip_ws s with
    | [] => None
    | c :: t =>
      if Ascii.eqb c DQ then
        match jstring t with Some (x, r) => Some (JStr x, r) | None => None end
      else if Ascii.eqb c "[" then
        match skip_ws t with
        | [] => None
        | d :: r => if Ascii.eqb d "]" then Some (JArr [], r)
                    else match jelements n' t with
                         | Some (l, r') => Some (JArr l, r') | None => None end
        end
      else if Ascii.eqb c "{" then
        match skip_ws t with
        | [] => None
        | d :: r => if Ascii.eqb d "}" then Some (JObj [], r)
                    else match jmembers n' t with
                         | Some (l, r') => Some (JObj l, r') | None => None end
        end
      else if Ascii.eqb c "t" then keyword (L "true") (JBool true) (c :: t)
      else if Ascii.eqb c "f" then keyword (L "false") (JBool false) (c :: t)
      else if Ascii.eqb c "n" then keyword (L "null") JNull (c :: t)
      else jnumber (c :: t)
    end
  end
(** value ( , value )* ] *)
with jelements (n : nat) (s : str) {struct n} : option (list json * str) :=
  match n with
  | O => None
  | S n' =>
    match jvalue n' s with
    | None => None
    | Some (v, r) =>
      match skip_ws r with
      | [] => None
      | c :: r' =>
        if Ascii.eqb c "]" then Some ([v], r')
        else if Ascii.eqb c "," then
          match jelements n' r' with Some (l, r'') => Some (v :: l, r'') | None => None end
        else None
      end
    end
  end
(** string : value ( , string : value )* } *)
with jmembers (n : nat) (s : str) {struct n} : option (list (str * json) * str) :=
  match n with
  | O => None
  | S n' =>
    match skip_ws s with
    | [] => None
    | q :: t =>
      if negb (Ascii.eqb q DQ) then None else
      match jstring t with
      | None => None
      | Some (k, r) =>
        match skip_ws r with
        | [] => None
        | c :: r1 =>
          if negb (Ascii.eqb c ":") then None else
          match jvalue n' r1 with
          | None => None
          | Some (v, r2) =>
            match skip_ws r2 with
            | [] => None
            | c2 :: r3 =>
              if Ascii.eqb c2 "}" then Some ([(k, v)], r3)
              else if Ascii.eqb c2 "," then
                match jmembers n' r3 with
                | Some (l, r4) => Some ((k, v) :: l, r4) | None => None end
              else None
            end
          end
        end
      end
    end
  end.

(** A JSON text: one value, with white space around it. *)
Definition json_read (s : str) : option json :=
  match jvalue (2 * length s + 2) s with
  | Some (v, r) => match skip_ws r with [] => Some v | _ => None end
  | None => None
  end.

(** Strings that may stand between quotes as they are. *)
Definition plain_char (c : ascii) : Prop := 32 <= code c /\ c <> DQ /\ c <> "\"%char.
Definition plain (s : str) : Prop := Forall plain_char s.

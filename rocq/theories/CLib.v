(** CLib.v - the libc functions used by /repo, as specified by C11/POSIX and
    implemented by glibc (C locale).  They are not part of /repo: this file is
    part of the trusted base. *)
From Verif Require Export Base.

(** ** Character classes (<ctype.h>, C locale; glibc accepts negative chars and
    classifies them as neither space nor alphanumeric) *)
Definition isspace (c : ascii) : bool :=
  ((9 <=? code c) && (code c <=? 13)) || (code c =? 32).
Definition isdigit (c : ascii) : bool := (48 <=? code c) && (code c <=? 57).
Definition isupper (c : ascii) : bool := (65 <=? code c) && (code c <=? 90).
Definition islower (c : ascii) : bool := (97 <=? code c) && (code c <=? 122).
Definition isalnum (c : ascii) : bool := isdigit c || isupper c || islower c.
Definition tolower (c : ascii) : ascii :=
  if isupper c then ascii_of_N (N_of_ascii c + 32) else c.

(** ** Reading C strings *)

(** The content of the C string starting at the beginning of [b]. *)
Fixpoint cstr (b : buf) : outcome str :=
  match b with
  | [] => UB OobRead
  | None :: _ => UB UninitRead
  | Some c :: t => if ceq c NUL then Ok [] else r <- cstr t;; Ok (c :: r)
  end.

Definition strlen (b : buf) : outcome Z := s <- cstr b;; Ok (len s).

(** The content read by functions that look at no more than [n] bytes. *)
Fixpoint cstrn (n : nat) (b : buf) : outcome str :=
  match n with
  | O => Ok []
  | S n' =>
    match b with
    | [] => UB OobRead
    | None :: _ => UB UninitRead
    | Some c :: t => if ceq c NUL then Ok [] else r <- cstrn n' t;; Ok (c :: r)
    end
  end.

Definition strdup (b : buf) : outcome buf := s <- cstr b;; Ok (cs s).

(** ** Writing C strings *)
Definition strcpy (dst : buf) (off : Z) (s : str) : outcome buf := write_at dst off (cs s).

(** strcat(dst, s), also sprintf(dst + strlen(dst), ...) with the formatted text [s]. *)
Definition strcat (dst : buf) (s : str) : outcome buf :=
  n <- strlen dst;; strcpy dst n s.

(** strncpy(dst, src, n): copies at most n bytes and pads with NULs up to n. *)
Definition strncpy (dst : buf) (src : buf) (n : Z) : outcome buf :=
  s <- cstrn (Z.to_nat n) src;;
  write_at dst 0 (map Some s ++ repeat (Some NUL) (Z.to_nat n - length s)).

(** memcpy(dst + doff, src + soff, n) *)
Definition memcpy (dst : buf) (doff : Z) (src : buf) (soff n : Z) : outcome buf :=
  l <- slice src soff n;; write_at dst doff l.

(** ** Comparing: lockstep, stopping at the first difference or terminator, so that an
    unterminated object is read only as far as the call really reads it. *)

(** strcmp(a, b) == 0 *)
Fixpoint strcmp_eq (a b : buf) : outcome bool :=
  match a, b with
  | None :: _, _ | _, None :: _ => UB UninitRead
  | [], _ | _, [] => UB OobRead
  | Some x :: a', Some y :: b' =>
    if ceq x y then (if ceq x NUL then Ok true else strcmp_eq a' b') else Ok false
  end.

(** strncasecmp(a, b, n) == 0 *)
Fixpoint strncasecmp_eq (n : nat) (a b : buf) : outcome bool :=
  match n with
  | O => Ok true
  | S n' =>
    match a, b with
    | None :: _, _ | _, None :: _ => UB UninitRead
    | [], _ | _, [] => UB OobRead
    | Some x :: a', Some y :: b' =>
      if ceq (tolower x) (tolower y)
      then (if ceq x NUL then Ok true else strncasecmp_eq n' a' b')
      else Ok false
    end
  end.

(** Equality of byte strings: strcmp(a,b) == 0 on contents. *)
Fixpoint str_eqb (a b : str) : bool :=
  match a, b with
  | [], [] => true
  | x :: a', y :: b' => ceq x y && str_eqb a' b'
  | _, _ => false
  end.

(** strcasecmp(a,b) == 0 on contents. *)
Fixpoint str_caseeqb (a b : str) : bool :=
  match a, b with
  | [], [] => true
  | x :: a', y :: b' => ceq (tolower x) (tolower y) && str_caseeqb a' b'
  | _, _ => false
  end.

(** ** Searching in contents *)
Fixpoint prefixb (p s : str) : bool :=
  match p, s with
  | [], _ => true
  | x :: p', y :: s' => ceq x y && prefixb p' s'
  | _ :: _, [] => false
  end.

(** strstr(s, p): the index of the first occurrence. *)
Fixpoint strstr (s p : str) : option nat :=
  if prefixb p s then Some O
  else match s with [] => None | _ :: t => option_map S (strstr t p) end.

(** strcasestr(s, p) *)
Definition strcasestr (s p : str) : option nat := strstr (map tolower s) (map tolower p).

(** strchr(s, c) *)
Fixpoint strchr (s : str) (c : ascii) : option nat :=
  match s with
  | [] => None
  | x :: t => if ceq x c then Some O else option_map S (strchr t c)
  end.

(** strrchr(s, c): the index of the last occurrence. *)
Fixpoint strrchr (s : str) (c : ascii) : option nat :=
  match s with
  | [] => None
  | x :: t =>
    match strrchr t c with
    | Some n => Some (S n)
    | None => if ceq x c then Some O else None
    end
  end.

(** ** strtok: one call, on what remains of the string being tokenised.
    Returns the token and what the next call will continue with. *)
Definition is_delim (delims : str) (c : ascii) : bool := existsb (ceq c) delims.

Fixpoint drop_while (p : ascii -> bool) (s : str) : str :=
  match s with [] => [] | c :: t => if p c then drop_while p t else s end.
Fixpoint take_while (p : ascii -> bool) (s : str) : str :=
  match s with [] => [] | c :: t => if p c then c :: take_while p t else [] end.

Definition strtok (delims : str) (s : str) : option (str * str) :=
  let s1 := drop_while (is_delim delims) s in
  match s1 with
  | [] => None
  | _ :: _ =>
    let nd := fun c => negb (is_delim delims c) in
    Some (take_while nd s1, tl (drop_while nd s1))
  end.

(** ** Numbers *)

(** Value of a run of decimal digits. *)
Definition digit_val (c : ascii) : Z := code c - 48.
Definition dec_val (s : str) : Z := fold_left (fun a c => 10 * a + digit_val c) s 0.

Definition int_min : Z := - 2 ^ 31.
Definition int_max : Z := 2 ^ 31 - 1.
Definition long_min : Z := - 2 ^ 63.
Definition long_max : Z := 2 ^ 63 - 1.

(** Addition of ints. *)
Definition int_add (a b : Z) : outcome Z :=
  if (a + b <? int_min) || (int_max <? a + b) then UB IntOverflow else Ok (a + b).

(** Conversion to a 32-bit int (two's complement), to uint32_t. *)
Definition to_int (z : Z) : Z := (z + 2 ^ 31) mod 2 ^ 32 - 2 ^ 31.
Definition to_u32 (z : Z) : Z := z mod 2 ^ 32.

(** glibc atoi: (int) strtol(s, NULL, 10), strtol saturating. *)
Definition atoi (s : str) : Z :=
  let s1 := drop_while isspace s in
  let '(neg, s2) := match s1 with
                    | c :: t => if ceq c "-" then (true, t)
                                else if ceq c "+" then (false, t) else (false, s1)
                    | [] => (false, s1)
                    end in
  let v := dec_val (take_while isdigit s2) in
  let z := if neg : bool then - v else v in
  to_int (Z.max long_min (Z.min long_max z)).

Definition digit_char (d : Z) : ascii := ascii_of_N (Z.to_N (48 + d)).

(** Decimal digits of a non-negative number, least significant first. *)
Fixpoint rev_digits (fuel : nat) (n : Z) : str :=
  match fuel with
  | O => []
  | S f => if n <? 10 then [digit_char n]
           else digit_char (n mod 10) :: rev_digits f (n / 10)
  end.

(** printf %u / %zu / %lu (non-negative), and %d / %ld. *)
Definition dec_nat (n : Z) : str := rev (rev_digits (S (Z.to_nat (Z.log2 n))) n).
Definition dec (z : Z) : str := if z <? 0 then "-"%char :: dec_nat (- z) else dec_nat z.

(** printf %02x of a byte. *)
Definition hex_char (d : Z) : ascii :=
  if d <? 10 then ascii_of_N (Z.to_N (48 + d)) else ascii_of_N (Z.to_N (87 + d)).
Definition hex2 (c : ascii) : str := [hex_char (code c / 16); hex_char (code c mod 16)].

(** ** stdio on a file's remaining content *)

(** fgets(buf, n, fp): at most n-1 bytes, up to and including a newline; None at EOF. *)
Fixpoint take_line (n : nat) (s : str) : str * str :=
  match n with
  | O => ([], s)
  | S n' =>
    match s with
    | [] => ([], [])
    | c :: t => if ceq c LF then ([c], t)
                else let '(l, r) := take_line n' t in (c :: l, r)
    end
  end.
Definition fgets (n : Z) (s : str) : option (str * str) :=
  match s with [] => None | _ => Some (take_line (Z.to_nat (n - 1)) s) end.

(** getline(): up to and including a newline, of any length; None at EOF. *)
Definition getline (s : str) : option (str * str) :=
  match s with [] => None | _ => Some (take_line (length s) s) end.

(** What a C string function sees of a byte sequence just stored with a NUL after it. *)
Fixpoint upto_nul (s : str) : str :=
  match s with [] => [] | c :: t => if ceq c NUL then [] else c :: upto_nul t end.

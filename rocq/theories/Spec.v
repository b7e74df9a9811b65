(** Spec.v - what the properties mean, written without reference to the model of the
    code: only lists, positions and characters. *)
From Verif Require Import Base.

(** ** Whitespace and trimming *)

(** The six blanks of the C locale. *)
Definition blank (c : ascii) : Prop := In c [HT; LF; VT; FF; CR; SP].

(** [t] neither starts nor ends with a blank. *)
Definition no_blank_edges (t : str) : Prop :=
  (forall c r, t = c :: r -> ~ blank c) /\ (forall r c, t = r ++ [c] -> ~ blank c).

(** [t] is [s] without its maximal leading and trailing runs of blanks. *)
Definition trimmed (s t : str) : Prop :=
  exists l r, s = l ++ t ++ r /\ Forall blank l /\ Forall blank r /\ no_blank_edges t.

(** ** Separators *)

(** [c] occurs in [s], and [a], [b] are what is before and after its first occurrence. *)
Definition first_cut (c : ascii) (s a b : str) : Prop := s = a ++ c :: b /\ ~ In c a.

(** [ts] are the maximal runs of characters not in [d], in order: [s] is made of runs of
    characters of [d] and the elements of [ts], which are non-empty, free of [d], and
    followed by a character of [d] or the end. *)
Inductive tokens (d : str) : str -> list str -> Prop :=
| tokens_none : forall s, Forall (fun c => In c d) s -> tokens d s []
| tokens_more : forall a t r ts,
    Forall (fun c => In c d) a -> t <> [] -> Forall (fun c => ~ In c d) t ->
    (forall c r', r = c :: r' -> In c d) -> tokens d r ts ->
    tokens d (a ++ t ++ r) (t :: ts).

(** Strings separated by a delimiter. *)
Fixpoint separated (d : str) (l : list str) : str :=
  match l with
  | [] => []
  | [s] => s
  | s :: t => s ++ d ++ separated d t
  end.

(** ** Case-insensitive prefixes (ASCII letters) *)
Definition letter_pairs : list (ascii * ascii) :=
  combine (L "ABCDEFGHIJKLMNOPQRSTUVWXYZ") (L "abcdefghijklmnopqrstuvwxyz").
Definition same_letter (a b : ascii) : Prop :=
  a = b \/ In (a, b) letter_pairs \/ In (b, a) letter_pairs.
Definition ci_equal (p q : str) : Prop := Forall2 same_letter p q.
(** [p] is a prefix of [s] up to the case of letters. *)
Definition ci_prefix (p s : str) : Prop := exists q r, s = q ++ r /\ ci_equal p q.

(** ** Occurrences *)

(** [n] occurs in [h] at position [i]. *)
Definition occurs_at (n h : str) (i : Z) : Prop := exists a b, h = a ++ n ++ b /\ len a = i.
(** [n] occurs somewhere in [h]. *)
Definition substring (n h : str) : Prop := exists a b, h = a ++ n ++ b.

(** ** Alphanumeric characters *)
Definition alphanumeric (c : ascii) : Prop :=
  In c (L "0123456789ABCDEFGHIJKLMNOPQRSTUVWXYZabcdefghijklmnopqrstuvwxyz").

(** ** Hexadecimal text of a byte string *)
Definition hex_digits : str := L "0123456789abcdef".
Fixpoint hex_text (s : str) : str :=
  match s with
  | [] => []
  | c :: t => nth (nat_of_ascii c / 16) hex_digits NUL
              :: nth (nat_of_ascii c mod 16) hex_digits NUL :: hex_text t
  end.

(** The strings of an array whose NULL entries are skipped. *)
Fixpoint present (a : list (option str)) : list str :=
  match a with
  | [] => []
  | None :: t => present t
  | Some s :: t => s :: present t
  end.

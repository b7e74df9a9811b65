(** SpecDecode.v - what the text of a form is, for every multipart body. *)
From Verif Require Import Base CLib SpecMultipart SpecReq Spec.

(** [mark] occurs in [s], first after [a]; [b] follows. *)
Definition first_of (mark s a b : str) : Prop :=
  s = a ++ mark ++ b /\ forall a' b', s = a' ++ mark ++ b' -> (length a <= length a')%nat.

(** All parts of a body are read through one block.  A part is copied to its start; behind the part
    the block keeps its former bytes. *)
Definition laid (p old : str) : str := p ++ skipn (length p) old.
(** After the part the text in the block is trimmed in place: it moves to the start of the block and
    a NUL is put behind it.  The bytes behind that NUL stay as they were before or after the move. *)
Definition cleared (t t' : str) : Prop :=
  exists lead core trail r, t = lead ++ core ++ trail ++ NUL :: r /\ no_nul (lead ++ core ++ trail)
    /\ Forall blank lead /\ Forall blank trail /\ no_blank_edges core /\ (core = [] -> trail = [])
    /\ t' = core ++ NUL :: skipn 1 (trail ++ NUL :: skipn (length (core ++ trail) + 1) t).

(** The text of the form so far, ready for another field. *)
Definition opened (out : str) : str := match out with [] => [] | _ => out ++ L "&" end.

(** What the part [p] makes of the form text [out], if that is defined.  [t] are the bytes of the
    block: the name is searched in its text, which may go beyond the part; there is room for [n] bytes. *)
Inductive part_gives (n : Z) (t p out : str) : str -> Prop :=
| pg_nameless : forall T, seen_as t T -> ~ holds name_mark T -> part_gives n t p out out
| pg_cut : forall T a, seen_as t T -> first_of name_mark T a [] -> part_gives n t p out out
| pg_headers : forall T a b name, seen_as t T -> first_of name_mark T a b -> b <> [] -> p = a ++ name_mark ++ name ->
    (forall c d, t = c ++ SpecMultipart.blank_line ++ d -> len p <= len c) -> len (opened out) <= n -> part_gives n t p out (opened out)
| pg_value : forall T a b name c v x y value, seen_as t T -> first_of name_mark T a b -> b <> [] -> p = a ++ name_mark ++ name ->
    ~ holds filename_mark T -> first_of SpecMultipart.blank_line p c (v ++ [x; y]) -> seen_as v value ->
    len (opened out ++ visible name ++ L "=" ++ value) <= n ->
    part_gives n t p out (opened out ++ visible name ++ L "=" ++ value).

(** The rest [s] of a body of [n] bytes makes of [out] the text [res]: a part is what is between two
    boundaries; the second one is where the next part starts, except that the search for it begins one
    byte late. *)
Inductive decoded (n : Z) (bnd : str) : str -> str -> str -> str -> Prop :=
| de_none : forall s old out, ~ holds bnd s -> decoded n bnd s old out out
| de_last : forall s a q old out, first_of bnd s a q -> ~ holds bnd q -> decoded n bnd s old out out
| de_part : forall s a s1 p q c rest old next out out1 res, first_of bnd s a s1 -> first_of bnd s1 p q ->
    part_gives n (laid p old) p out out1 -> cleared (laid p old) next -> s1 = c :: rest ->
    decoded n bnd rest next out1 res -> decoded n bnd s old out res.

Definition form_text (bnd body text : str) : Prop :=
  decoded (len body) bnd body (repeat NUL (S (length body))) [] text.

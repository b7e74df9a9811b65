(** SpecScarceConf.v - which blocks reading and writing a configuration cannot do without, and what is
    lost without the others. *)
From Verif Require Import Base ConfParser SpecConf ScarceConf Spec.
(** From the model only the types [cblock] and [conf_item] and, for the lines read, the API function
    conf_parse_line (characterised by C18-C20) are used here. *)

(** ** Writing *)
(** The values of item [i] from the [j]th on whose copies got a block. *)
Fixpoint kept (ok : cblock -> bool) (i j : nat) (values : list str) : list str :=
  match values with
  | [] => []
  | v :: t => if ok (CElem i j) then v :: kept ok i (S j) t else kept ok i (S j) t
  end.
Definition kept_item (ok : cblock -> bool) (i : nat) (it : conf_item) : conf_item :=
  mkItem (key it) (value it) (kept ok i 0 (multivalue it)).
(** The lines of the items from the [i]th on. *)
Fixpoint kept_lines (ok : cblock -> bool) (i : nat) (items : list conf_item) : str :=
  match items with
  | [] => []
  | it :: t => line_text (kept_item ok i it) ++ [LF] ++ kept_lines ok (S i) t
  end.

Inductive line_wants (ok : cblock -> bool) (i : nat) (it : conf_item) : cblock -> Prop :=
| lw_new : line_wants ok i it (CNew i)
| lw_key : line_wants ok i it (CKeyOf i)
| lw_text : line_wants ok i it (CStr i KText)
| lw_value : multivalue it = [] -> value it <> [] -> line_wants ok i it (CValueOf i)
| lw_first : multivalue it <> [] -> line_wants ok i it (CElem i 0)
| lw_last : multivalue it <> [] -> line_wants ok i it (CElem i (length (multivalue it) - 1))
| lw_only : length (multivalue it) = 1%nat -> line_wants ok i it (CStr i KOnly)
| lw_joined : (2 <= length (multivalue it))%nat -> line_wants ok i it (CStr i KJoined)
| lw_copy j : (2 <= length (multivalue it))%nat -> (j < length (multivalue it))%nat -> ok (CElem i j) = true ->
    line_wants ok i it (CStr i (KCopy j)).
Definition save_wants (ok : cblock -> bool) (items : list conf_item) (b : cblock) : Prop :=
  b = CAll \/ exists i it, nth_error items i = Some it /\ line_wants ok i it b.

(** ** Reading *)
(** The blocks of line [n], whose text is [t]. *)
Inductive pass_wants (n : nat) (t : str) : cblock -> Prop :=
| pa_item : In "="%char t -> pass_wants n t (CItem n)
| pa_line : In "="%char t -> pass_wants n t (CLine n)
| pa_name : In "="%char t -> pass_wants n t (CName n)
| pa_value T k v r : In "="%char t -> trimmed t T -> tokens (L "=") T (k :: v :: r) -> pass_wants n t (CValue n).
Inductive multi_wants (n : nat) (v : str) : cblock -> Prop :=
| mw_list : multi_wants n v (CList n)
| mw_member ts j : tokens (L ",") v ts -> 0 <= j < len ts -> multi_wants n v (CMember n j).
(** The blocks of the lines from the [n]th on, up to one without '='. *)
Inductive read_wants (flags : list (str * bool)) : nat -> list str -> cblock -> Prop :=
| re_pass n t ls b : pass_wants n t b -> read_wants flags n (t :: ls) b
| re_multi n t ls it b : conf_parse_line t false = Ok (Some it) -> flagged flags (key it) true ->
    multi_wants n (value it) b -> read_wants flags n (t :: ls) b
| re_more n t ls b : In "="%char t -> read_wants flags (S n) ls b -> read_wants flags n (t :: ls) b.

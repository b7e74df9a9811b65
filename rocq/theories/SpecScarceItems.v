(** SpecScarceItems.v - which blocks items and their text cannot do without. *)
From Verif Require Import Base ConfParser SpecConf ScarceItems SpecScarceConf Spec.
(** From the model only the types [iblock], [cblock] and [conf_item] are used here. *)

(** To make item [i]. *)
Inductive make_wants (i : nat) (it : conf_item) : iblock -> Prop :=
| mk_item : make_wants i it (IMade i)
| mk_key : make_wants i it (IKey i)
| mk_value : value it <> [] -> make_wants i it (IValue i)
| mk_elem j : (j < length (multivalue it))%nat -> make_wants i it (IElem i j).
(** To make the items and to save them. *)
Definition made_wants (ok : iblock -> bool) (items : list conf_item) (b : iblock) : Prop :=
  (exists i it, nth_error items i = Some it /\ make_wants i it b)
  \/ exists c, b = IOf c /\ save_wants (fun c => ok (IOf c)) items c.

(** To show the items. *)
Definition shown_wants (ok : iblock -> bool) (items : list conf_item) (b : iblock) : Prop :=
  b = IShown \/ exists c, b = IOf c /\ save_wants (fun c => ok (IOf c)) items c.
Fixpoint kept_items (ok : cblock -> bool) (i : nat) (items : list conf_item) : list conf_item :=
  match items with [] => [] | it :: t => kept_item ok i it :: kept_items ok (S i) t end.

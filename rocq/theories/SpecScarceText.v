(** SpecScarceText.v - which blocks the builders of texts and the registration of routes cannot do
    without. *)
From Verif Require Import Base ScarceText Spec.
(** From the model only the type [chunk] is used here. *)

(** [x] is [y], if that is defined and every block of [W] is given; else it is undefined. *)
Definition if_given {K A} (ok : K -> bool) (W : K -> Prop) (x y : outcome A) : Prop :=
  (undefined y \/ (exists k, W k /\ ok k = false) -> undefined x)
  /\ ((forall k, W k -> ok k = true) -> forall v, y = Ok v -> x = Ok v).

(** Joining the elements [a]: none of the blocks, if the first is NULL; the copy of the only one; or the
    text and the copies of those that are not NULL. *)
Inductive join_wants (a : list (option str)) : chunk -> Prop :=
| jw_only s : a = [Some s] -> join_wants a KOnly
| jw_joined s p t : a = Some s :: p :: t -> join_wants a KJoined
| jw_copy s p t i x : a = Some s :: p :: t -> nth_error a i = Some (Some x) -> join_wants a (KCopy i).

Inductive strings_wants (a : list (option str)) : chunk -> Prop :=
| sw_text : strings_wants a KText
| sw_join k : join_wants a k -> strings_wants a k.
Inductive entities_wants (a : list (option str)) : chunk -> Prop :=
| ew_text : entities_wants a KText
| ew_pointers : a <> [] -> entities_wants a KPointers
| ew_join k : join_wants a k -> entities_wants a k.
Inductive ints_wants (size : Z) : chunk -> Prop :=
| iw_text : ints_wants size KText
| iw_int i : Z.of_nat i < size -> ints_wants size (KInt i).
Inductive route_wants (template : str) : chunk -> Prop :=
| rw_matcher : route_wants template KMatcher
| rw_template : In "{"%char template -> route_wants template KTemplate.

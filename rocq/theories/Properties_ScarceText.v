(** Properties_ScarceText.v - C109: texts and routes when memory is short (/repo/string_utils.c:136-169,
    json_utils.c, router.c:62-111). *)
From Verif Require Import StringUtils JsonUtils Router ScarceText SpecScarceText ScarceText_proofs Spec.

(** C109.  join: the copy of an only element is returned unlooked at, so NULL may be returned; else it is
    undefined exactly if it was or one of the blocks it wants is refused. *)
Theorem C109_join : forall ok,
  (forall size delim, join_s ok None size delim = Ok (Some JLit))
  /\ (forall a size delim, size < 1 -> join_s ok (Some a) size delim = Ok (Some JLit))
  /\ (forall s t delim, join_s ok (Some (Some s :: t)) 1 delim = Ok (if ok KOnly then Some (JHeap s) else None))
  /\ (forall a size delim, 1 <= size -> (size = 1 -> ok KOnly = true) ->
        if_given ok (join_wants (firstn (Z.to_nat size) a)) (join_s ok (Some a) size delim) (j <- join (Some a) size delim;; Ok (Some j))).
Proof.
  intros ok. split; [reflexivity|]. split; [|split; [reflexivity|]].
  - intros a size delim H. unfold join_s. now replace (size <=? 0) with true by lia.
  - intros a size delim Hs H1. apply meets_given. now apply join_meets.
Qed.
Print Assumptions C109_join.

(** The arrays of strings and of numbers: the empty one is returned unlooked at. *)
Theorem C109_strings : forall ok array size,
  (array = None \/ size < 1 -> json_array_of_strings_s ok array size = Ok (if ok KEmpty then Some (L "[]") else None))
  /\ (forall a, array = Some a -> 1 <= size ->
        if_given ok (strings_wants (firstn (Z.to_nat size) a)) (json_array_of_strings_s ok array size)
          (s <- json_array_of_strings array size;; Ok (Some s))).
Proof.
  intros ok array size. split.
  - intros H. destruct array as [a|]; [|reflexivity]. destruct H as [H|H]; [discriminate|].
    unfold json_array_of_strings_s. now replace (size <? 1) with true by lia.
  - intros a -> H. apply meets_given. now apply strings_meets.
Qed.
Print Assumptions C109_strings.
Theorem C109_ints : forall ok array size,
  (array = None \/ size < 1 -> json_array_of_ints_s ok array size = Ok (if ok KEmpty then Some (L "[]") else None))
  /\ (forall a, array = Some a -> 1 <= size ->
        if_given ok (ints_wants size) (json_array_of_ints_s ok array size) (s <- json_array_of_ints array size;; Ok (Some s))).
Proof.
  intros ok array size. split.
  - intros H. destruct array as [a|]; [|reflexivity]. destruct H as [H|H]; [discriminate|].
    unfold json_array_of_ints_s. now replace (size <? 1) with true by lia.
  - intros a -> H. apply meets_given. now apply ints_meets.
Qed.
Print Assumptions C109_ints.

(** The array of entities; here the empty one is written to. *)
Theorem C109_entities : forall ok ents,
  if_given ok (entities_wants ents) (json_array_of_entities_s ok ents) (json_array_of_entities ents).
Proof. intros ok ents. apply meets_given, entities_meets. Qed.
Print Assumptions C109_entities.

(** The members of objects. *)
Theorem C109_key_values : forall ok key,
  (forall v, if_given ok (fun k => k = KText) (json_key_value_s ok key v) (json_key_value key v))
  /\ (forall v, if_given ok (fun k => k = KText) (json_key_value_int_s ok key v) (json_key_value_int key v))
  /\ (forall v, if_given ok (fun k => k = KText) (json_key_value_bool_s ok key v) (json_key_value_bool key v))
  /\ (forall v, if_given ok (fun k => k = KText) (json_key_value_uint32_t_s ok key v) (json_key_value_uint32_t key v)).
Proof.
  intros ok key. split; [|split; [|split]]; intros v; apply meets_given; try (apply used_meets; reflexivity).
  destruct v as [v|]; [apply used_meets; reflexivity|apply meets_ub].
Qed.
Print Assumptions C109_key_values.

(** A route: the copy of its template is wanted only if that has a brace. *)
Theorem C109_route : forall ok t template handler filter,
  if_given ok (route_wants template) (router_add_route_s ok t template handler filter) (router_add_route t template handler filter).
Proof. intros ok t template handler filter. apply meets_given, route_meets. Qed.
Print Assumptions C109_route.

Definition no_block (k0 : chunk) : chunk -> bool :=
  fun k => negb match k, k0 with
                | KEmpty, KEmpty | KText, KText | KPointers, KPointers | KOnly, KOnly | KJoined, KJoined
                | KMatcher, KMatcher | KTemplate, KTemplate => true
                | KInt i, KInt j | KCopy i, KCopy j => Nat.eqb i j
                | _, _ => false end.
Example C109_case :
  let two := Some [Some (L "a"); None; Some (L "b")] in
  json_array_of_strings_s (no_block (KCopy 1)) two 3 = Ok (Some (L "[""a"",""b""]"))
  /\ json_array_of_strings_s (no_block (KCopy 2)) two 3 = UB NullDeref
  /\ json_array_of_strings_s (no_block KOnly) two 3 = Ok (Some (L "[""a"",""b""]"))
  /\ json_array_of_strings_s (no_block KOnly) two 1 = UB NullDeref
  /\ json_array_of_strings_s (no_block KJoined) two 1 = Ok (Some (L "[""a""]"))
  /\ json_array_of_strings_s (no_block KEmpty) two 0 = Ok None
  /\ join_s (no_block KOnly) two 1 (L ",") = Ok None
  /\ json_array_of_entities_s (no_block KJoined) [None; Some (L "{}")] = Ok (L "[]")
  /\ json_array_of_entities_s (no_block KPointers) [None; Some (L "{}")] = UB NullDeref
  /\ json_array_of_ints_s (no_block (KInt 2)) (Some [7; -1; 5]) 2 = Ok (Some (L "[7,-1]"))
  /\ json_array_of_ints_s (no_block (KInt 1)) (Some [7; -1; 5]) 2 = UB NullDeref
  /\ router_add_route_s (no_block KTemplate) [] (L "GET:/a") None None = router_add_route [] (L "GET:/a") None None
  /\ router_add_route_s (no_block KTemplate) [] (L "GET:/{a}") None None = UB NullDeref.
Proof. vm_compute. repeat split; reflexivity. Qed.

(** Properties_ScarceItems.v - C111: configuration items and their text when memory is short
    (/repo/conf_parser.c). *)
From Verif Require Import Lemmas ConfParser ConfParser_proofs SpecHttp SpecConf ScarceConf SpecScarceConf Properties_ScarceConf ScarceItems SpecScarceItems ScarceItems_proofs Spec.

(** C111.  Making an item is undefined if it gets no block of its own; any other refusal leaves a NULL in the
    item, in exactly that place, and is not reported. *)
Theorem C111_item : forall ok i k v mv, len mv <= 20 ->
  (undefined (new_conf_item_with_values_s ok i k v mv) <-> ok (IMade i) = false)
  /\ (ok (IMade i) = true -> exists it, new_conf_item_with_values_s ok i k v mv = Ok it
       /\ (if ok (IKey i) then n_key it = Some k else n_key it = None)
       /\ (n_value it = None <-> v <> [] /\ ok (IValue i) = false) /\ (forall x, n_value it = Some x -> x = v)
       /\ length (n_multi it) = length mv
       /\ forall j s, nth_error mv j = Some s -> nth_error (n_multi it) j = Some (if ok (IElem i j) then Some s else None)).
Proof. exact item_made. Qed.
Print Assumptions C111_item.

(** Items made and then saved: undefined exactly if a wanted block is refused - and every copy made for an
    item is wanted, since it is copied again.  Else the file holds the values whose second copies got a
    block, and the result is that of success. *)
Theorem C111_saved : forall ok f path items,
  Forall (fun it => no_nul (key it) /\ no_nul (value it) /\ Forall no_nul (multivalue it)) items ->
  Forall (fun it => len (multivalue it) <= 20) items -> len items <= 20 -> is_dir f path = false ->
  (undefined (save_made ok f path items) <-> exists b, made_wants ok items b /\ ok b = false)
  /\ ((forall b, made_wants ok items b -> ok b = true) ->
        save_made ok f path items = Ok (0, upd f path (Some (File (kept_lines (fun c => ok (IOf c)) 0 items))))).
Proof.
  intros ok f path items F M Hl Hd. destruct (made_gives ok f path items F M Hl Hd) as [((b & W & O) & U)|(H & E)].
  - split; [split; eauto|]. intros H. rewrite (H b W) in O. discriminate.
  - split; [|intros _; exact E]. split; [intros (u & X); congruence|]. intros (b & W & O). rewrite (H b W) in O. discriminate.
Qed.
Print Assumptions C111_saved.

(** The text of a list of items: undefined exactly if a wanted block is refused, or the text of what is left
    of the items has more than 1023 bytes; else that text. *)
Theorem C111_shown : forall ok path items d,
  Forall (fun it => no_nul (key it) /\ no_nul (value it) /\ Forall no_nul (multivalue it)) items -> len items <= 20 -> decimal d (len items) ->
  let t := L "[path=" ++ path ++ L ",n_items=" ++ d ++ flat_map (fun it => L "," ++ line_text it) (kept_items (fun c => ok (IOf c)) 0 items) ++ L "]" in
  (undefined (show_s ok path items) <-> (exists b, shown_wants ok items b /\ ok b = false) \/ 1024 <= len t)
  /\ ((forall b, shown_wants ok items b -> ok b = true) -> len t <= 1023 -> show_s ok path items = Ok t).
Proof. exact shown_exact. Qed.
Print Assumptions C111_shown.

(** With every block given these are the functions of C22 and C79. *)
Theorem C111_given : forall ok f path items,
  Forall (fun it => no_nul (key it) /\ no_nul (value it) /\ Forall no_nul (multivalue it)) items ->
  Forall (fun it => len (multivalue it) <= 20) items -> len items <= 20 -> (forall b, ok b = true) ->
  (is_dir f path = false -> save_made ok f path items = (s <- new_serializable path items;; write_conf f s))
  /\ show_s ok path items = (s <- new_serializable path items;; serializable_to_string s).
Proof.
  intros ok f path items F M Hl H. split.
  - intros Hd. rewrite (proj2 (C111_saved ok f path items F M Hl Hd)) by (intros; apply H).
    rewrite <- (C110_write_given (fun c => ok (IOf c)) f path items F Hd (fun _ => H _) Hl). symmetry. apply (C110_write _ f path items F Hl Hd). intros. apply H.
  - now apply show_given.
Qed.
Print Assumptions C111_given.

(** A list saved with success may be shown as one it is not: refuted that the text of a serializable has all
    the values of the items it was made of. *)
Theorem C111_text_complete_refuted : exists ok path items t,
  len items <= 20 /\ show_s ok path items = Ok t /\ show_s (fun _ => true) path items <> Ok t /\ (forall b, ok b = false -> b = IOf (CElem 0 1)).
Proof.
  exists (fun b => match b with IOf (CElem 0 1) => false | _ => true end), (L "/c"), [mkItem (L "m") [] [L "x"; L "y"; L "z"]], (L "[path=/c,n_items=1,m=x,z]").
  split; [vm_compute; discriminate|]. split; [vm_compute; reflexivity|]. split; [vm_compute; discriminate|].
  intros b H. destruct b as [c| | | | |]; try discriminate. destruct c as [| | | | | | | | | |i j|]; try discriminate. destruct i; [|discriminate]. destruct j as [|[|j]]; try discriminate. reflexivity.
Qed.
Print Assumptions C111_text_complete_refuted.

Definition no (b0 : iblock -> bool) : iblock -> bool := fun b => negb (b0 b).
Example C111_case :
  let f : fs := fun _ => None in
  let hosts := [mkItem (L "h") [] [L "x"; L "y"; L "z"]; mkItem (L "a") (L "1") []] in
  new_conf_item_with_values_s (no (fun b => match b with IKey 3 | IElem 3 1 => true | _ => false end)) 3 (L "k") [] [L "p"; L "q"] = Ok (mkN None (Some []) [Some (L "p"); None])
  /\ (exists g, save_made (no (fun b => match b with IValue 0 | IOf (CElem 0 1) | IElem 1 0 | IElem 0 3 => true | _ => false end)) f (L "c") hosts = Ok (0, g)
        /\ g (L "c") = Some (File (L "h=x,z" ++ [LF] ++ L "a=1" ++ [LF])))
  /\ save_made (no (fun b => match b with IElem 0 1 => true | _ => false end)) f (L "c") hosts = UB NullDeref
  /\ save_made (no (fun b => match b with IValue 1 => true | _ => false end)) f (L "c") hosts = UB NullDeref
  /\ show_s (no (fun b => match b with IKey _ | IOf (CElem 0 1) => true | _ => false end)) (L "c") hosts = Ok (L "[path=c,n_items=2,h=x,z,a=1]")
  /\ show_s (no (fun b => match b with IShown => true | _ => false end)) (L "c") [] = UB NullDeref
  /\ show_s (no (fun b => match b with IOf (CElem 0 0) => true | _ => false end)) (L "c") hosts = UB BadFree.
Proof.
  cbv zeta. split; [vm_compute; reflexivity|]. split; [eexists; split; [vm_compute; reflexivity|vm_compute; reflexivity]|]. repeat split; vm_compute; reflexivity.
Qed.

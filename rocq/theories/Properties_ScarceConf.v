(** Properties_ScarceConf.v - C110: configuration files when memory is short (/repo/conf_parser.c). *)
From Verif Require Import Lemmas StringUtils ConfParser ConfParser_proofs SpecConf ScarceText SpecScarceText ScarceText_proofs ScarceConf SpecScarceConf ScarceConf_proofs Spec.

(** C110.  Reading: as with enough memory if every block the lines want is given, and else undefined.
    [vs] are the lines of the file up to their first NUL. *)
Theorem C110_read : forall ok f path flags,
  (forall content ls vs, f path = Some (File content) -> lines 511 content ls -> Forall2 visible ls vs ->
     if_given ok (read_wants flags 0 vs) (parse_s ok f path flags) (parse f path flags))
  /\ ((forall content, f path <> Some (File content)) -> parse_s ok f path flags = parse f path flags).
Proof.
  intros ok f path flags. unfold parse_s, parse. split.
  - intros content ls vs -> H V. now apply meets_given, (parse_loop_meets ok path flags ls vs V).
  - intros H. destruct (f path) as [[c|]|]; auto. now destruct (H c).
Qed.
Print Assumptions C110_read.

(** Writing: undefined exactly if a block is refused that is wanted; else the values whose copies got no
    block are missing from the file, and the result is that of success. *)
Theorem C110_write : forall ok f path items,
  Forall (fun it => no_nul (key it) /\ no_nul (value it) /\ Forall no_nul (multivalue it)) items -> len items <= 20 -> is_dir f path = false ->
  ((exists b, save_wants ok items b /\ ok b = false) <-> undefined (save_s ok f path items))
  /\ ((forall b, save_wants ok items b -> ok b = true) ->
        save_s ok f path items = Ok (0, upd f path (Some (File (kept_lines ok 0 items))))).
Proof.
  intros ok f path items F Hl Hd. destruct (save_gives ok f path items F Hl Hd) as [((b & Hb & E) & U)|(H & E)].
  - split; [split; [intros _; exact U|intros _; exists b; auto]|]. intros H. now rewrite (H b Hb) in E.
  - split; [|intros _; exact E]. split.
    + intros (b & Hb & X). now rewrite (H b Hb) in X.
    + intros (e & X). congruence.
Qed.
Print Assumptions C110_write.
(** With every block given it is write_conf of the items (C22). *)
Theorem C110_write_given : forall ok f path items,
  Forall (fun it => no_nul (key it) /\ no_nul (value it) /\ Forall no_nul (multivalue it)) items -> is_dir f path = false ->
  (forall b, ok b = true) ->
  len items <= 20 -> save_s ok f path items = (s <- new_serializable path items;; write_conf f s).
Proof.
  intros ok f path items F Hd H Hl. rewrite (proj2 (C110_write ok f path items F Hl Hd)) by (intros; apply H).
  unfold new_serializable, CONF_MAX_ITEMS. replace (20 <? len items) with false by lia. cbn [bind].
  unfold write_conf. cbn [ser_path]. rewrite Hd. unfold write_conf_events. cbn [ser_items].
  assert (E : forall i, conf_lines items = Ok (kept_lines ok i items)); [|rewrite (E 0%nat); cbn [bind fold_left]; now rewrite fold_bytes].
  clear Hl. induction F as [|it items (Nk & Nv & Nm) _ IH]; intros i; [reflexivity|]. cbn [conf_lines kept_lines].
  rewrite item_to_string_eq, (IH (S i)) by assumption. cbn [bind].
  assert (K : forall l j, kept ok i j l = l) by (induction l as [|v l IHl]; intros j; [reflexivity|]; cbn [kept]; rewrite H, IHl; reflexivity).
  replace (kept_item ok i it) with it; [reflexivity|]. unfold kept_item. rewrite K. now destruct it.
Qed.
Print Assumptions C110_write_given.

(** Saved with success means saved: refuted.  Any value but the first and the last of its item goes missing
    without notice if its copy alone gets no block. *)
Theorem C110_success_saves_refuted : forall f path k v mv j,
  no_nul k -> no_nul v -> Forall no_nul mv -> is_dir f path = false -> (0 < j)%nat -> (S j < length mv)%nat ->
  exists ok, (forall b, ok b = false -> b = CElem 0 j)
    /\ save_s ok f path [mkItem k v mv] = Ok (0, upd f path (Some (File (k ++ L "=" ++ separated (L ",") (firstn j mv ++ skipn (S j) mv) ++ [LF])))).
Proof.
  intros f path k v mv j Nk Nv Nm Hd Hj Hm.
  exists (fun b => match b with CElem x y => negb (Nat.eqb x 0 && Nat.eqb y (0 + j)) | _ => true end). split.
  - intros b H. destruct b as [ | | | | | | | | | |x y| ]; try discriminate. apply negb_false_iff, andb_prop in H as (A & B).
    apply Nat.eqb_eq in A, B. now subst.
  - rewrite (proj2 (C110_write _ f path [mkItem k v mv] ltac:(repeat constructor; assumption) ltac:(cbn; lia) Hd)).
    + cbn [kept_lines]. unfold kept_item, line_text, value_text. cbn [key value multivalue]. rewrite kept_one.
      destruct j as [|j]; [lia|]. destruct mv as [|m0 mv]; [cbn in Hm; lia|]. cbn [firstn app].
      change ("="%char :: ?x) with (L "=" ++ x). now rewrite <- !app_assoc.
    + intros b [->|([|i] & it & E & H)]; [reflexivity| |destruct i; discriminate]. injection E as <-. cbn [multivalue] in H.
      destruct H; cbn [multivalue] in *; try reflexivity; apply negb_true_iff, andb_false_iff; right; apply Nat.eqb_neq; lia.
Qed.
Print Assumptions C110_success_saves_refuted.

Definition all_but (b0 : cblock -> bool) : cblock -> bool := fun b => negb (b0 b).
Example C110_case :
  let f : fs := fun p => if str_eqb p (L "c") then Some (File (L "a = 1" ++ [LF] ++ L "h=x, y,z" ++ [LF])) else None in
  let flags := [(L "h", true); (L "a", false)] in
  let hosts := [mkItem (L "h") [] [L "x"; L "y"; L "z"]; mkItem (L "a") (L "1") []] in
  parse_s (all_but (fun b => match b with CMember 0 _ | CList 0 => true | _ => false end)) f (L "c") flags = parse f (L "c") flags
  /\ parse f (L "c") flags = Ok (0, [mkItem (L "a") (L "1") []; mkItem (L "h") (L "x, y,z") [L "x"; L "y"; L "z"]])
  /\ parse_s (all_but (fun b => match b with CMember 1 2 => true | _ => false end)) f (L "c") flags = UB NullDeref
  /\ (exists g, save_s (all_but (fun b => match b with CElem 0 1 | CValueOf 0 | CStr 0 (KCopy 1) | CStr 0 KOnly => true | _ => false end)) f (L "c") hosts = Ok (0, g)
        /\ g (L "c") = Some (File (L "h=x,z" ++ [LF] ++ L "a=1" ++ [LF])))
  /\ save_s (all_but (fun b => match b with CElem 0 2 => true | _ => false end)) f (L "c") hosts = UB NullDeref
  /\ save_s (all_but (fun b => match b with CElem 0 0 => true | _ => false end)) f (L "c") hosts = UB BadFree.
Proof.
  cbv zeta. split; [vm_compute; reflexivity|]. split; [vm_compute; reflexivity|]. split; [vm_compute; reflexivity|].
  split; [eexists; split; [vm_compute; reflexivity|vm_compute; reflexivity]|]. split; vm_compute; reflexivity.
Qed.

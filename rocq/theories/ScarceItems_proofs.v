(** ScarceItems_proofs.v - the proofs of C111. *)
From Verif Require Import Lemmas StringUtils_proofs ConfParser_proofs HttpUtils_proofs SpecHttp SpecConf ScarceConf SpecScarceConf ScarceConf_proofs ScarceItems SpecScarceItems Spec.

Definition plain_item (it : conf_item) : Prop := no_nul (key it) /\ no_nul (value it) /\ Forall no_nul (multivalue it).
Definition made_item (ok : ilender) (i : nat) (it : conf_item) : nitem :=
  mkN (stored ok (IKey i) (key it)) (match value it with [] => Some [] | _ => stored ok (IValue i) (value it) end) (stored_all ok i 0 (multivalue it)).
Fixpoint made_list (ok : ilender) (i : nat) (l : list conf_item) : list nitem :=
  match l with [] => [] | it :: t => made_item ok i it :: made_list ok (S i) t end.
Lemma len_made ok l : forall i, len (made_list ok i l) = len l.
Proof. induction l as [|it l IH]; intros i; [reflexivity|]. cbn [made_list]. rewrite !len_cons, IH. reflexivity. Qed.

Lemma make_one ok i it : len (multivalue it) <= 20 -> ok (IMade i) = true ->
  new_conf_item_with_values_s ok i (key it) (value it) (multivalue it) = Ok (made_item ok i it).
Proof. intros H O. unfold new_conf_item_with_values_s, lent. rewrite O. cbn [bind]. unfold CONF_MAX_MULTI_ELEMENTS. now replace (20 <? len (multivalue it)) with false by lia. Qed.
Lemma make_either ok items : Forall (fun it => len (multivalue it) <= 20) items -> forall i,
  ((exists j it, nth_error items j = Some it /\ ok (IMade (i + j)) = false) /\ undefined (make_items ok i items))
  \/ ((forall j it, nth_error items j = Some it -> ok (IMade (i + j)) = true) /\ make_items ok i items = Ok (made_list ok i items)).
Proof.
  induction 1 as [|it items Hl _ IH]; intros i; cbn [make_items made_list].
  - right. split; [|reflexivity]. intros [|j] it H; discriminate.
  - destruct (ok (IMade i)) eqn:O.
    + rewrite make_one by assumption. cbn [bind]. destruct (IH (S i)) as [((j & it' & E & O') & (u & ->))|(H & ->)]; cbn [bind].
      * left. split; [|eexists; reflexivity]. exists (S j), it'. rewrite Nat.add_succ_r. auto.
      * right. split; [|reflexivity]. intros [|j] it' E; [now rewrite Nat.add_0_r|]. rewrite Nat.add_succ_r. apply (H j it' E).
    + left. split; [exists 0%nat, it; rewrite Nat.add_0_r; auto|]. unfold new_conf_item_with_values_s, lent. rewrite O. eexists. reflexivity.
Qed.

Lemma copies_n_either ok i l : forall j,
  ((exists n, (n < length l)%nat /\ ok (IElem i (j + n)) = false) /\ undefined (copies_n (for_conf ok) i j (stored_all ok i j l)))
  \/ ((forall n, (n < length l)%nat -> ok (IElem i (j + n)) = true) /\ copies_n (for_conf ok) i j (stored_all ok i j l) = Ok (copies (for_conf ok) i j l)).
Proof.
  induction l as [|s l IH]; intros j; cbn [copies_n stored_all copies length].
  - right. split; [lia|reflexivity].
  - unfold stored. destruct (ok (IElem i j)) eqn:O; cbn [strdup_n bind].
    + destruct (IH (S j)) as [((n & H & O') & (u & ->))|(H & ->)]; cbn [bind].
      * left. split; [|eexists; reflexivity]. exists (S n). rewrite Nat.add_succ_r. split; [lia|exact O'].
      * right. split; [|reflexivity]. intros [|n] Hn; [now rewrite Nat.add_0_r|]. rewrite Nat.add_succ_r. apply (H n). lia.
    + left. split; [exists 0%nat; rewrite Nat.add_0_r; split; [lia|exact O]|]. eexists. reflexivity.
Qed.
Lemma copy_n_either ok i it :
  ((exists b, make_wants i it b /\ ok b = false) /\ undefined (copy_conf_item_n (for_conf ok) i (made_item ok i it)))
  \/ ((forall b, make_wants i it b -> b <> IMade i -> ok b = true) /\ copy_conf_item_n (for_conf ok) i (made_item ok i it) = Ok (copy_conf_item_s (for_conf ok) i it)).
Proof.
  unfold copy_conf_item_n, made_item, copy_conf_item_s. cbn [n_key n_value n_multi]. unfold stored. destruct (ok (IKey i)) eqn:Ox; cbn [strdup_n bind].
  2:{ left. split; [exists (IKey i); split; [constructor|exact Ox]|eexists; reflexivity]. }
  assert (V : (value it <> [] /\ ok (IValue i) = false) \/ ((value it <> [] -> ok (IValue i) = true) /\
     match (match value it with [] => Some [] | _ => if ok (IValue i) then Some (value it) else None end) with Some [] => Ok (Some []) | Some (a :: l0) => Ok (copied (for_conf ok) (CValueOf i) (a :: l0)) | None => UB NullDeref end
       = Ok (match value it with [] => Some [] | v => copied (for_conf ok) (CValueOf i) v end))).
  { destruct (value it) as [|c v]; [right; split; [easy|reflexivity]|]. destruct (ok (IValue i)); [right; split; reflexivity|left; split; [discriminate|reflexivity]]. }
  destruct V as [(Vn & Ov)|(Ov & ->)]; cbn [bind].
  { left. split; [exists (IValue i); split; [now constructor|exact Ov]|]. rewrite Ov. destruct (value it); [easy|]. eexists. reflexivity. }
  destruct (copies_n_either ok i (multivalue it) 0) as [((n & H & O) & (u & ->))|(H & ->)]; cbn [bind].
  - left. split; [|eexists; reflexivity]. exists (IElem i n). split; [now constructor|exact O].
  - right. split; [|reflexivity]. intros b W N. destruct W as [| |Vn|j Hj]; [easy|exact Ox|now apply Ov|exact (H j Hj)].
Qed.
Lemma copy_list_either ok items : forall i,
  ((exists j it b, nth_error items j = Some it /\ make_wants (i + j) it b /\ ok b = false) /\ undefined (copy_items_n (for_conf ok) i (made_list ok i items)))
  \/ ((forall j it b, nth_error items j = Some it -> make_wants (i + j) it b -> b <> IMade (i + j) -> ok b = true)
      /\ copy_items_n (for_conf ok) i (made_list ok i items) = copy_items_s (for_conf ok) i items).
Proof.
  induction items as [|it items IH]; intros i; cbn [copy_items_n made_list copy_items_s].
  - right. split; [|reflexivity]. intros [|j] it b H; discriminate.
  - destruct (copy_n_either ok i it) as [((b & W & O) & (u & ->))|(H & ->)].
    { left. split; [exists 0%nat, it, b; rewrite Nat.add_0_r; auto|]. apply had_ub. eexists. reflexivity. }
    cbn [bind]. destruct (IH (S i)) as [((j & it' & b & E & W & O) & (u & ->))|(H' & ->)].
    + left. split; [exists (S j), it', b; rewrite Nat.add_succ_r; auto|]. apply had_ub. eexists. reflexivity.
    + right. split; [|reflexivity]. intros [|j] it' b E W N.
      * injection E as <-. rewrite Nat.add_0_r in W, N. now apply H.
      * rewrite Nat.add_succ_r in W, N. now apply (H' j it' b).
Qed.
Lemma made_gives ok f path items : Forall plain_item items -> Forall (fun it => len (multivalue it) <= 20) items -> len items <= 20 -> is_dir f path = false ->
  ((exists b, made_wants ok items b /\ ok b = false) /\ undefined (save_made ok f path items))
  \/ ((forall b, made_wants ok items b -> ok b = true) /\ save_made ok f path items = Ok (0, upd f path (Some (File (kept_lines (for_conf ok) 0 items))))).
Proof.
  intros F M Hl Hd. unfold save_made. destruct (make_either ok items M 0) as [((j & it & E & O) & (u & ->))|(Om & ->)]; cbn [bind].
  { left. split; [|eexists; reflexivity]. exists (IMade j). split; [left; exists j, it; split; [exact E|constructor]|exact O]. }
  destruct (copy_list_either ok items 0) as [((j & it & b & E & W & O) & U)|(Oc & E)].
  { left. split; [exists b; split; [left; exists j, it; auto|exact O]|]. unfold new_serializable_n. destruct U as (u & ->). unfold had. destruct (for_conf ok CAll); [|eexists; reflexivity]. cbn [bind].
    destruct (CONF_MAX_ITEMS <? _); eexists; reflexivity. }
  replace (s <- new_serializable_n (for_conf ok) path (made_list ok 0 items);; write_conf_s (for_conf ok) f s) with (save_s (for_conf ok) f path items)
    by (unfold save_s, new_serializable_n, new_serializable_s; now rewrite E, len_made).
  destruct (save_gives (for_conf ok) f path items F Hl Hd) as [((c & W & O) & U)|(H & E')].
  - left. split; [|exact U]. exists (IOf c). split; [right; exists c; auto|exact O].
  - right. split; [|exact E']. intros b [(j & it & En & W)|(c & -> & W)]; [|exact (H c W)]. destruct W; [exact (Om j it En)|..]; (apply (Oc j it); [exact En|now constructor|discriminate]).
Qed.

(** ** The text *)
Definition copied_list (ok : lender) := fix go (i : nat) (l : list conf_item) : list nitem := match l with [] => [] | it :: t => copy_conf_item_s ok i it :: go (S i) t end.
Lemma len_copied ok l : forall i, len (copied_list ok i l) = len l.
Proof. induction l as [|it l IH]; intros i; [reflexivity|]. cbn [copied_list]. rewrite !len_cons, IH. reflexivity. Qed.
Lemma len_kept ok l : forall i, len (kept_items ok i l) = len l.
Proof. induction l as [|it l IH]; intros i; [reflexivity|]. cbn [kept_items]. rewrite !len_cons, IH. reflexivity. Qed.
Lemma kept_plain ok l : Forall plain_item l -> forall i, Forall plain_item (kept_items ok i l).
Proof.
  induction 1 as [|it l (Nk & Nv & Nm) _ IH]; intros i; cbn [kept_items]; constructor; [|apply IH]. unfold plain_item, kept_item. cbn [key value multivalue]. auto using kept_no_nul.
Qed.
Lemma loop_either ok items : Forall plain_item items -> forall i,
  ((exists j it b, nth_error items j = Some it /\ text_wants ok (i + j) it b /\ ok b = false) /\ forall acc, undefined (ser_loop_s ok i (copied_list ok i items) acc))
  \/ ((forall j it b, nth_error items j = Some it -> text_wants ok (i + j) it b -> ok b = true) /\ forall acc, ser_loop_s ok i (copied_list ok i items) acc = ser_loop (kept_items ok i items) acc).
Proof.
  induction 1 as [|it items (Nk & Nv & Nm) _ IH]; intros i; cbn [copied_list kept_items ser_loop_s ser_loop].
  - right. split; [|reflexivity]. intros [|j] it b H; discriminate.
  - destruct (item_gives ok i it Nk Nv Nm) as [((b & W & O) & (u & ->))|(H & ->)].
    { left. split; [exists 0%nat, it, b; rewrite Nat.add_0_r; auto|]. intros acc. destruct (fits 1024 _); eexists; reflexivity. }
    destruct (IH (S i)) as [((j & it' & b & E & W & O) & U)|(H' & E')].
    + left. split; [exists (S j), it', b; rewrite Nat.add_succ_r; auto|]. intros acc. destruct (fits 1024 (acc ++ _)) as [a|u]; [|eexists; reflexivity]. cbn [bind].
      destruct (fits 1024 _) as [a2|u]; [|eexists; reflexivity]. apply U.
    + right. split.
      * intros [|j] it' b E W; [injection E as <-; rewrite Nat.add_0_r in W; now apply H|]. rewrite Nat.add_succ_r in W. now apply (H' j it' b).
      * intros acc. assert (P : plain_item (kept_item ok i it)) by (unfold plain_item, kept_item; cbn [key value multivalue]; auto using kept_no_nul). destruct P as (P1 & P2 & P3).
        rewrite (item_to_string_eq _ P1 P2 P3). fold (line_text (kept_item ok i it)). destruct (fits 1024 _) as [a|u]; [|reflexivity]. cbn [bind]. destruct (fits 1024 _) as [a2|u]; [|reflexivity]. cbn [bind]. apply E'.
Qed.
Lemma copied_gives ok items : forall i, gives ok (fun b => exists j, (j < length items)%nat /\ b = CNew (i + j)) (copy_items_s ok i items) (copied_list ok i items).
Proof. exact (copy_items_gives ok items). Qed.
Lemma shown_either ok path items : Forall plain_item items -> len items <= 20 ->
  ((exists b, shown_wants ok items b /\ ok b = false) /\ undefined (show_s ok path items))
  \/ ((forall b, shown_wants ok items b -> ok b = true) /\ show_s ok path items = serializable_to_string (mkSer path (kept_items (for_conf ok) 0 items))).
Proof.
  intros F Hl. unfold show_s, new_serializable_s, had, CONF_MAX_ITEMS. replace (20 <? len items) with false by lia. destruct (for_conf ok CAll) eqn:Oa; cbn [bind].
  2:{ left. split; [|eexists; reflexivity]. exists (IOf CAll). split; [right; exists CAll; split; [reflexivity|now left]|exact Oa]. }
  destruct (copied_gives (for_conf ok) items 0) as [((b & (j & Hj & ->) & O) & (u & ->))|(Oc & ->)]; cbn [bind].
  { left. split; [|eexists; reflexivity]. exists (IOf (CNew j)). split; [|exact O]. right. exists (CNew j). split; [reflexivity|]. right.
    destruct (nth_error items j) as [it|] eqn:E; [|apply nth_error_None in E; lia]. exists j, it. split; [exact E|constructor]. }
  unfold serializable_to_string_s, serializable_to_string, lent. cbn [fst snd ser_path ser_items]. rewrite len_copied, len_kept. destruct (ok IShown) eqn:Os; cbn [bind].
  2:{ left. split; [exists IShown; split; [now left|exact Os]|eexists; reflexivity]. }
  destruct (loop_either (for_conf ok) items F 0) as [((j & it & b & E & (W & _) & O) & U)|(H & E)].
  - left. split; [exists (IOf b); split; [right; exists b; split; [reflexivity|right; exists j, it; auto]|exact O]|]. destruct (fits 1024 _) as [a|u]; [|eexists; reflexivity]. cbn [bind].
    destruct (U a) as (u & ->). eexists. reflexivity.
  - right. split.
    + intros b [->|(c & -> & [->|(j & it & En & W)])]; [exact Os|exact Oa|].
      assert (D : c = CNew j \/ c <> CNew j). { destruct W; try (right; discriminate). now left. }
      destruct D as [->|N]; [apply (Oc (CNew j)); exists j; split; [apply nth_error_Some; congruence|reflexivity]|]. apply (H j it c En). split; [exact W|exact N].
    + destruct (fits 1024 _) as [a|u]; [|reflexivity]. cbn [bind]. now rewrite E.
Qed.
Lemma stored_len ok i l : forall j, length (stored_all ok i j l) = length l.
Proof. induction l as [|s l IH]; intros j; cbn [stored_all length]; auto. Qed.
Lemma stored_nth ok i l : forall j n s, nth_error l n = Some s -> nth_error (stored_all ok i j l) n = Some (if ok (IElem i (j + n)) then Some s else None).
Proof.
  induction l as [|x l IH]; intros j [|n] s H; try discriminate; cbn [stored_all nth_error] in *.
  - injection H as ->. now rewrite Nat.add_0_r.
  - rewrite Nat.add_succ_r. now apply (IH (S j)).
Qed.
Lemma item_made ok i k v mv : len mv <= 20 ->
  (undefined (new_conf_item_with_values_s ok i k v mv) <-> ok (IMade i) = false)
  /\ (ok (IMade i) = true -> exists it, new_conf_item_with_values_s ok i k v mv = Ok it
       /\ (if ok (IKey i) then n_key it = Some k else n_key it = None)
       /\ (n_value it = None <-> v <> [] /\ ok (IValue i) = false) /\ (forall x, n_value it = Some x -> x = v)
       /\ length (n_multi it) = length mv
       /\ forall j s, nth_error mv j = Some s -> nth_error (n_multi it) j = Some (if ok (IElem i j) then Some s else None)).
Proof.
  intros H. unfold new_conf_item_with_values_s, lent, CONF_MAX_MULTI_ELEMENTS. replace (20 <? len mv) with false by lia. destruct (ok (IMade i)); cbn [bind].
  - split; [split; [intros (u & X); discriminate|discriminate]|]. intros _. eexists. split; [reflexivity|]. cbn [n_key n_value n_multi]. unfold stored.
    split; [now destruct (ok (IKey i))|]. split; [|split; [|split; [apply stored_len|intros j s Hs; now apply (stored_nth ok i mv 0)]]].
    + destruct v as [|c v]; [split; [discriminate|intros [X _]; easy]|]. destruct (ok (IValue i)); split; try discriminate; auto; [intros [_ X]; discriminate|intros _; split; [discriminate|reflexivity]].
    + intros x. destruct v as [|c v]; [congruence|]. destruct (ok (IValue i)); [congruence|discriminate].
  - split; [split; [reflexivity|intros _; eexists; reflexivity]|discriminate].
Qed.
Lemma shown_exact ok path items d : Forall plain_item items -> len items <= 20 -> decimal d (len items) ->
  let t := L "[path=" ++ path ++ L ",n_items=" ++ d ++ flat_map (fun it => L "," ++ line_text it) (kept_items (fun c => ok (IOf c)) 0 items) ++ L "]" in
  (undefined (show_s ok path items) <-> (exists b, shown_wants ok items b /\ ok b = false) \/ 1024 <= len t)
  /\ ((forall b, shown_wants ok items b -> ok b = true) -> len t <= 1023 -> show_s ok path items = Ok t).
Proof.
  intros F Hl D. assert (d = dec (len items)) as ->.
  { apply (decimal_unique _ _ (len items)); [exact D|]. unfold dec. pose proof (len_nonneg _ items). replace (len items <? 0) with false by lia. now apply dec_nat_decimal. }
  cbv zeta. destruct (ser_string_eq path (kept_items (for_conf ok) 0 items) (kept_plain _ _ F _)) as [S1 S2]. rewrite len_kept in S1, S2. fold (for_conf ok).
  change (fun it => L "," ++ line_text it) with (fun it : conf_item => ","%char :: line_text it).
  set (t := L "[path=" ++ _) in *. destruct (shown_either ok path items F Hl) as [((b & W & O) & U)|(H & E)].
  - split; [split; [intros _; left; eauto|intros _; exact U]|]. intros H. rewrite (H b W) in O. discriminate.
  - rewrite E. split; [|intros _; exact S1]. split; [|intros [(b & W & O)|G]; [rewrite (H b W) in O; discriminate|now apply S2]].
    intros (u & X). right. destruct (Z_le_gt_dec 1024 (len t)) as [G|G]; [exact G|]. rewrite S1 in X by lia. discriminate.
Qed.
Lemma kept_all ok i l : (forall b, ok b = true) -> forall j, kept ok i j l = l.
Proof. intros H. induction l as [|v l IH]; intros j; [reflexivity|]. cbn [kept]. now rewrite H, IH. Qed.
Lemma kept_items_all ok l : (forall b, ok b = true) -> forall i, kept_items ok i l = l.
Proof. intros H. induction l as [|it l IH]; intros i; [reflexivity|]. cbn [kept_items]. rewrite IH. unfold kept_item. rewrite kept_all by exact H. now destruct it. Qed.
Lemma show_given ok path items : Forall plain_item items -> len items <= 20 -> (forall b, ok b = true) ->
  show_s ok path items = (s <- new_serializable path items;; serializable_to_string s).
Proof.
  intros F Hl H. destruct (shown_either ok path items F Hl) as [((b & _ & O) & _)|(_ & ->)]; [rewrite H in O; discriminate|].
  rewrite kept_items_all by (intros b; apply H). unfold new_serializable, CONF_MAX_ITEMS. now replace (20 <? len items) with false by lia.
Qed.

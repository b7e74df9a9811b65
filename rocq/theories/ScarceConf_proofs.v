(** ScarceConf_proofs.v - the proofs of C110. *)
From Verif Require Import Lemmas StringUtils_proofs ConfParser_proofs SpecConf ScarceText SpecScarceText ScarceText_proofs ScarceConf SpecScarceConf Spec.

Lemma meets_bad {K A} (ok : K -> bool) W (x y : outcome A) : undefined x -> undefined y -> meets ok W x y.
Proof. intros U U'. right. right. auto. Qed.
Lemma meets_had {A} ok q W (x y : outcome A) : meets ok W x y -> meets ok (fun k => k = q \/ W k) (_ <- had ok q;; x) y.
Proof.
  intros H. unfold had. destruct (ok q) eqn:E; cbn [bind].
  - destruct H as [((k & Hk & Ek) & U)|[(H & E')|U]].
    + left. split; [exists k; auto|exact U].
    + right. left. split; [|exact E']. intros k [->|Hk]; auto.
    + right. right. exact U.
  - left. split; [exists q; auto|]. eexists. reflexivity.
Qed.
Lemma had_ub {A} ok b (x : outcome A) : undefined x -> undefined (_ <- had ok b;; x).
Proof. intros U. unfold had. destruct (ok b); cbn [bind]; [exact U|eexists; reflexivity]. Qed.
Lemma tokens_same d a : forall s b, tokens d s a -> tokens d s b -> a = b.
Proof.
  induction a as [|t a IH]; intros s b Ha Hb; apply tokens_strtok in Ha; apply tokens_strtok in Hb; destruct b as [|u b]; auto.
  - destruct Hb as (r & E & _). congruence.
  - destruct Ha as (r & E & _). congruence.
  - destruct Ha as (r & E & Ha), Hb as (r' & E' & Hb). rewrite E in E'. injection E' as <- <-. f_equal. eauto.
Qed.

(** ** Reading *)
Lemma first_pass_meets ok n t : no_nul t ->
  meets ok (pass_wants n t) (conf_parse_first_pass_s ok n t) (conf_parse_first_pass t).
Proof.
  intros Hn. unfold conf_parse_first_pass_s, conf_parse_first_pass. destruct (strstr t DELIM) as [p|] eqn:E.
  2: { change DELIM with ["="%char] in E. apply strstr_char in E. eapply meets_weak; [apply meets_same|].
       intros k. split; [intros []|]. destruct 1; contradiction. }
  assert (I : In "="%char t).
  { destruct (in_dec ascii_dec "="%char t) as [I|I]; [exact I|]. apply strstr_char in I. change ["="%char] with DELIM in I. congruence. }
  destruct (exists_trimmed t) as (T & HT). rewrite (trim_str_ok _ _ Hn HT). cbn [bind].
  destruct (strtok DELIM T) as [(k, rest)|] eqn:Ek.
  2: { apply meets_bad; [apply had_ub, had_ub|]; eexists; reflexivity. }
  destruct (strtok DELIM rest) as [(v, rest')|] eqn:Ev.
  - eapply meets_weak.
    + apply meets_had, meets_had, meets_had, meets_step. intros k' _. apply meets_step. intros v1 _. apply meets_had, meets_same.
    + intros b. cbv beta. split.
      * intros [->|[->|[->|[->|[]]]]]; try (now constructor).
        destruct (tokens_exist (L "=") T) as (ts & Hts). pose proof (tokens_strtok _ _ _ Hts) as X.
        change (L "=") with DELIM in X. destruct ts as [|k1 ts]; [congruence|]. destruct X as (r & E1 & X).
        rewrite E1 in Ek. injection Ek as <- <-. apply tokens_strtok in X. destruct ts as [|v2 ts]; [congruence|].
        eapply pa_value; eauto.
      * destruct 1; auto.
  - eapply meets_weak.
    + apply meets_had, meets_had, meets_had, meets_same.
    + intros b. cbv beta. split.
      * intros [->|[->|[->|[]]]]; now constructor.
      * destruct 1 as [| | |T' k1 v1 r _ HT' Hts]; auto. exfalso.
        assert (T' = T). { pose proof (trim_str_ok _ _ Hn HT) as A. pose proof (trim_str_ok _ _ Hn HT') as B. congruence. } subst T'.
        apply tokens_strtok in Hts as (r1 & E1 & Hts). change (L "=") with DELIM in *. rewrite E1 in Ek. injection Ek as <- <-.
        apply tokens_strtok in Hts as (r2 & E2 & _). congruence.
Qed.

Lemma multi_loop_meets ok n ts : forall fuel i rest, tokens MULTI_DELIM rest ts -> 0 <= i < 20 ->
  meets ok (fun b => exists j, i < j <= i + len ts /\ b = CMember n j) (multi_loop_s ok n fuel i rest) (multi_loop fuel i rest).
Proof.
  induction ts as [|t ts IH]; intros fuel i rest Ht Hi; apply tokens_strtok in Ht.
  - assert (X : forall b, False <-> exists j, i < j <= i + len (@nil str) /\ b = CMember n j).
    { intros b. split; [intros []|]. intros (j & H & _). rewrite len_nil in H. lia. }
    eapply meets_weak; [|exact X]. destruct fuel; cbn [multi_loop_s multi_loop]; unfold CONF_MAX_MULTI_ELEMENTS; replace (i <? 20) with true by lia; rewrite Ht; apply meets_same.
  - destruct Ht as (r & E & Ht).
    assert (G : multi_loop_s ok n fuel i rest = if 20 <=? i + 1 then UB ArrayIndex else
              _ <- had ok (CMember n (i + 1));; v <- trim_str t;;
              match fuel with O => UB OutOfFuel | S f => '(l, m) <- multi_loop_s ok n f (i + 1) r;; Ok (v :: l, m) end).
    { destruct fuel; cbn [multi_loop_s]; unfold CONF_MAX_MULTI_ELEMENTS; replace (i <? 20) with true by lia; rewrite E; reflexivity. }
    assert (G' : multi_loop fuel i rest = if 20 <=? i + 1 then UB ArrayIndex else
              v <- trim_str t;;
              match fuel with O => UB OutOfFuel | S f => '(l, m) <- multi_loop f (i + 1) r;; Ok (v :: l, m) end).
    { destruct fuel; cbn [multi_loop]; unfold CONF_MAX_MULTI_ELEMENTS; replace (i <? 20) with true by lia; rewrite E; reflexivity. }
    rewrite G, G'. destruct (20 <=? i + 1) eqn:E20; [apply meets_ub|].
    destruct fuel as [|fuel].
    + apply meets_bad; [apply had_ub|]; destruct (trim_str t); eexists; reflexivity.
    + eapply meets_weak.
      * apply meets_had, meets_step. intros v _. apply meets_bind; [apply IH; [exact Ht|lia]|]. intros (l, m) _. apply meets_same.
      * intros b. cbv beta. rewrite len_cons. split.
        -- pose proof (len_nonneg _ ts). intros [->|[(j & H1 & ->)|[]]]; [exists (i + 1)|exists j]; split; try reflexivity; lia.
        -- intros (j & H & ->). destruct (Z.eq_dec j (i + 1)) as [->|N]; [auto|]. right. left. exists j. split; [lia|reflexivity].
Qed.
Lemma multi_meets ok n it : meets ok (multi_wants n (value it)) (conf_parse_multi_s ok n it) (conf_parse_multi it).
Proof.
  unfold conf_parse_multi_s, conf_parse_multi. destruct (tokens_exist (L ",") (value it)) as (ts & Hts).
  pose proof (tokens_strtok _ _ _ Hts) as X. change (L ",") with MULTI_DELIM in X. destruct ts as [|t ts].
  - rewrite X. eapply meets_weak; [apply meets_had, meets_same|]. intros b. split; [intros [->|[]]; constructor|].
    destruct 1 as [|ts' j H Hj]; [auto|]. rewrite (tokens_same _ _ _ _ H Hts), len_nil in Hj. lia.
  - destruct X as (r & E & X). rewrite E. eapply meets_weak.
    + apply meets_had, meets_had, meets_step. intros v0 _. apply meets_bind; [apply multi_loop_meets; [exact X|lia]|].
      intros (l, m) _. apply meets_same.
    + intros b. cbv beta. split.
      * pose proof (len_nonneg _ ts). intros [->|[->|[(j & Hj & ->)|[]]]]; [constructor|eapply mw_member; [exact Hts|]..]; rewrite len_cons; lia.
      * destruct 1 as [|ts' j H Hj]; [auto|]. rewrite (tokens_same _ _ _ _ H Hts), len_cons in Hj. right.
        destruct (Z.eq_dec j 0) as [->|N]; [auto|]. right. left. exists j. split; [lia|reflexivity].
Qed.
Lemma flag_conv flags k m : get_key_flag k flags = Some m -> flagged flags k m.
Proof.
  induction flags as [|[k' m'] fl IH]; [discriminate|]. cbn [get_key_flag]. destruct (str_eqb k' k) eqn:E.
  - intros [= ->]. apply str_eqb_eq in E as ->. exists [], fl. split; [reflexivity|]. intros [].
  - intros H. destruct (IH H) as (a & b & -> & N). exists ((k', m') :: a), b. split; [reflexivity|].
    cbn [map fst]. intros [->|I]; [|contradiction]. rewrite (proj2 (str_eqb_eq k k) eq_refl) in E. discriminate.
Qed.
Lemma line_parse t it : conf_parse_line t false = Ok (Some it) <-> conf_parse_first_pass t = Ok (Some it).
Proof. unfold conf_parse_line. destruct (conf_parse_first_pass t); cbn [bind]; reflexivity. Qed.
Lemma parse_loop_meets ok path flags ls vs : Forall2 visible ls vs -> forall n fuel c, lines 511 c ls ->
  meets ok (read_wants flags n vs) (parse_loop_s ok n fuel path flags c) (parse_loop fuel path flags c).
Proof.
  induction 1 as [|l t ls vs V _ IH]; intros n fuel c H; apply lines_fgets in H; change (511 + 1) with MAX_LINE_LEN in H.
  - apply (meets_weak ok (fun _ => False)); [|intros b; split; [intros []|inversion 1]].
    destruct fuel; cbn [parse_loop_s parse_loop]; rewrite H; apply meets_same.
  - destruct H as (r & E & H & _). destruct fuel as [|fuel]; cbn [parse_loop_s parse_loop]; rewrite E; [apply meets_ub|].
    rewrite (visible_upto _ _ V). assert (Nt : no_nul t) by (destruct V as (q & _ & N); now apply no_nul_in).
    eapply meets_weak.
    + eapply (meets_bind ok (pass_wants n t) (fun b => (exists it, conf_parse_line t false = Ok (Some it) /\ flagged flags (key it) true /\ multi_wants n (value it) b)
               \/ (In "="%char t /\ read_wants flags (S n) vs b))); [now apply first_pass_meets|].
      intros [it|] E1.
      * assert (I : In "="%char t). { destruct (in_dec ascii_dec "="%char t) as [I|I]; [exact I|]. rewrite first_pass_none in E1 by exact I. discriminate. }
        destruct (get_key_flag (key it) flags) as [[|]|] eqn:F.
        -- eapply meets_weak; [apply meets_bind; [apply multi_meets|]; intros it' _; apply meets_bind; [apply IH, H|]; intros (st, l') _; apply meets_same|].
           intros b. cbv beta. split.
           ++ intros [M|[R|[]]]; [left; exists it; split; [now apply line_parse|]; split; [now apply flag_conv|exact M]|auto].
           ++ intros [(it' & E2 & _ & M)|(_ & R)]; [|auto]. apply line_parse in E2. rewrite E2 in E1. injection E1 as ->. auto.
        -- cbn [bind]. eapply meets_weak; [apply meets_bind; [apply IH, H|]; intros (st, l') _; apply meets_same|].
           intros b. cbv beta. split; [intros [R|[]]; auto|]. intros [(it' & E2 & Fl & _)|(_ & R)]; [|auto].
           apply line_parse in E2. rewrite E2 in E1. injection E1 as ->. apply flag_some in Fl. congruence.
        -- eapply meets_weak; [apply IH, H|]. intros b. cbv beta. split; [auto|]. intros [(it' & E2 & Fl & _)|(_ & R)]; [|auto].
           apply line_parse in E2. rewrite E2 in E1. injection E1 as ->. apply flag_some in Fl. congruence.
      * eapply meets_weak; [apply meets_same|]. intros b. cbv beta. split; [intros []|].
        intros [(it & E2 & _)|(I & _)]; [apply line_parse in E2; congruence|].
        destruct (exists_trimmed t) as (T & HT). destruct (tokens_exist (L "=") T) as (ts & Hts). destruct ts as [|k ts].
        -- rewrite (first_pass_empty t T) in E1 by auto. discriminate.
        -- destruct (exists_trimmed k) as (k' & Hk'). destruct (exists_trimmed (hd [] ts)) as (v & Hv).
           rewrite (first_pass_eq t T k ts k' v) in E1 by auto. discriminate.
    + intros b. cbv beta. split.
      * intros [P|[(it & E1 & F & M)|(I & R)]]; [now apply re_pass|eapply re_multi; eauto|now apply re_more].
      * intros R. inversion R; subst; eauto 8.
Qed.

(** ** Writing *)
Lemma nth_copies ok i l : forall j n, nth_error (copies ok i j l) n = option_map (copied ok (CElem i (j + n))) (nth_error l n).
Proof.
  induction l as [|s l IH]; intros j [|n]; try reflexivity; cbn [copies nth_error].
  - cbn [option_map]. now rewrite Nat.add_0_r.
  - rewrite IH, Nat.add_succ_r. reflexivity.
Qed.
Lemma len_copies ok i l : forall j, length (copies ok i j l) = length l.
Proof. induction l as [|s l IH]; intros j; cbn [copies length]; auto. Qed.
Lemma present_copies ok i l : forall j, present (copies ok i j l) = kept ok i j l.
Proof. induction l as [|s l IH]; intros j; [reflexivity|]. cbn [copies kept]. unfold copied. destruct (ok (CElem i j)); cbn [present]; now rewrite IH. Qed.
Lemma copies_no_nul ok i l : Forall no_nul l -> forall j, Forall ptr_no_nul (copies ok i j l).
Proof.
  induction 1 as [|s l H _ IH]; intros j; cbn [copies]; constructor; auto. unfold copied, ptr_no_nul. destruct (ok _); [|discriminate].
  intros x [= <-]. exact H.
Qed.
Lemma kept_no_nul ok i l : Forall no_nul l -> forall j, Forall no_nul (kept ok i j l).
Proof. induction 1 as [|s l H _ IH]; intros j; cbn [kept]; [constructor|]. destruct (ok _); auto. Qed.

(** [x] is undefined if a block of [W] is refused, and else [v]. *)
Definition gives {A} (ok : lender) (W : cblock -> Prop) (x : outcome A) (v : A) : Prop :=
  ((exists k, W k /\ ok k = false) /\ undefined x) \/ ((forall k, W k -> ok k = true) /\ x = Ok v).
Lemma gives_weak {A} ok (W W' : cblock -> Prop) (x : outcome A) v : gives ok W x v -> (forall k, W k <-> W' k) -> gives ok W' x v.
Proof.
  intros [((k & Hk & E) & U)|(H & E)] I; [left|right]; (split; [|assumption]); [exists k; split; [now apply I|exact E]|].
  intros k Hk. apply H, I, Hk.
Qed.
Lemma gives_bind {A B} ok W1 W2 (x : outcome A) a (f : A -> outcome B) v :
  gives ok W1 x a -> gives ok W2 (f a) v -> gives ok (fun k => W1 k \/ W2 k) (bind x f) v.
Proof.
  intros [((k & Hk & E) & e & ->)|(H & ->)] H2; cbn [bind].
  - left. split; [exists k; auto|exists e; reflexivity].
  - destruct H2 as [((k & Hk & E) & U)|(H2 & E)]; [left|right]; (split; [|assumption]); [exists k; auto|]. intros k [Hk|Hk]; auto.
Qed.
Lemma gives_had {A} ok q W (x : outcome A) v : gives ok W x v -> gives ok (fun k => k = q \/ W k) (_ <- had ok q;; x) v.
Proof.
  intros H. unfold had. destruct (ok q) eqn:E; cbn [bind].
  - destruct H as [((k & Hk & Ek) & U)|(H & E')]; [left|right]; (split; [|assumption]); [exists k; auto|]. intros k [->|Hk]; auto.
  - left. split; [exists q; auto|]. eexists. reflexivity.
Qed.
Lemma gives_ok {A} ok (v : A) : gives ok (fun _ => False) (Ok v) v.
Proof. right. split; [intros k []|reflexivity]. Qed.

(** The text of a copied item, with its copies as they are. *)
Definition text_y (it : nitem) : outcome str :=
  j <- join (Some (n_multi it)) (len (n_multi it)) (L ",");;
  match n_key it with
  | Some k =>
    b <- strcpy (malloc (len (jcontent j) + len k + 20)) 0 (k ++ L "=" ++ jcontent j);;
    match j with JLit => UB BadFree | JHeap _ => cstr b end
  | None => UB NullDeref
  end.
Lemma text_meets ok it : 1 <= len (n_multi it) ->
  meets ok (fun k => join_wants (n_multi it) k \/ k = KText) (conf_item_to_string_s ok it) (text_y it).
Proof.
  intros Hl. unfold conf_item_to_string_s, text_y. replace (len (n_multi it) =? 0) with false by lia.
  destruct (n_key it) as [k|].
  - eapply meets_weak.
    + apply joined_meets; [exact Hl|]. intros j _. apply meets_used, meets_same.
    + intros q. cbv beta. replace (firstn (Z.to_nat (len (n_multi it))) (n_multi it)) with (n_multi it) by (unfold len; rewrite Nat2Z.id, firstn_all; reflexivity).
      tauto.
  - apply meets_bad.
    + destruct (join_s ok _ _ _) as [[j|]|]; cbn [bind joined]; eexists; reflexivity.
    + destruct (join _ _ _); cbn [bind]; eexists; reflexivity.
Qed.
Lemma meets_undef {K A} (ok : K -> bool) W (x y : outcome A) : meets ok W x y -> undefined y -> undefined x.
Proof. intros [(_ & U)|[(_ & ->)|(U & _)]]; auto. Qed.

Definition text_wants (ok : lender) (i : nat) (it : conf_item) (b : cblock) : Prop := line_wants ok i it b /\ b <> CNew i.
Lemma item_gives ok i it : no_nul (key it) -> no_nul (value it) -> Forall no_nul (multivalue it) ->
  gives ok (text_wants ok i it) (conf_item_to_string_s (fun k => ok (CStr i k)) (copy_conf_item_s ok i it)) (line_text (kept_item ok i it)).
Proof.
  intros Nk Nv Nm. destruct (multivalue it) as [|m0 ms] eqn:Em.
  - (* one value *)
    unfold conf_item_to_string_s, copy_conf_item_s. rewrite Em. cbn [copies n_multi n_key n_value]. change (len [] =? 0) with true. cbv iota.
    destruct (ok (CKeyOf i)) eqn:E1.
    2: { left. split; [exists (CKeyOf i); split; [split; [constructor|discriminate]|exact E1]|]. unfold copied. rewrite E1. eexists. reflexivity. }
    assert (Val : (value it = [] \/ ok (CValueOf i) = true) \/ (value it <> [] /\ ok (CValueOf i) = false)).
    { destruct (value it); [auto|]. destruct (ok (CValueOf i)); [auto|right; split; [discriminate|reflexivity]]. }
    destruct Val as [Val|(Ne & E2)].
    2: { left. split; [exists (CValueOf i); split; [split; [now constructor|discriminate]|exact E2]|]. unfold copied. rewrite E1, E2.
         destruct (value it); [contradiction|]. eexists. reflexivity. }
    assert (Ev : match value it with [] => Some [] | a :: l => copied ok (CValueOf i) (a :: l) end = Some (value it)).
    { destruct (value it); [reflexivity|]. destruct Val as [Val|Val]; [discriminate|]. unfold copied. now rewrite Val. }
    rewrite Ev. unfold copied at 1. rewrite E1. unfold used. destruct (ok (CStr i KText)) eqn:E3; cbn [bind].
    + right. split.
      * intros b (H & N). destruct H; try congruence; try (rewrite Em in *; cbn [length] in *; first [contradiction|lia]).
        destruct Val; [contradiction|assumption].
      * pose proof (item_to_string_eq it Nk Nv) as X. rewrite Em in X. specialize (X Nm).
        unfold conf_item_to_string in X. rewrite Em in X. change (len [] =? 0) with true in X. cbv iota in X. rewrite X.
        unfold line_text, value_text, kept_item. cbn [key value multivalue]. rewrite Em. reflexivity.
    + left. split; [exists (CStr i KText); split; [split; [constructor|discriminate]|exact E3]|]. eexists. reflexivity.
  - (* several *)
    set (n := copy_conf_item_s ok i it). set (mv := m0 :: ms) in *.
    assert (Hn : n_multi n = copies ok i 0 mv) by (unfold n, copy_conf_item_s; rewrite Em; reflexivity).
    assert (Hk : n_key n = copied ok (CKeyOf i) (key it)) by reflexivity.
    assert (Hl : len (n_multi n) = len mv) by (rewrite Hn; unfold len; now rewrite len_copies).
    assert (L1 : 1 <= len mv) by (unfold mv; rewrite len_cons; pose proof (len_nonneg _ ms); lia).
    pose proof (text_meets (fun k => ok (CStr i k)) n ltac:(lia)) as M.
    assert (Ne : mv <> []) by discriminate.
    destruct (ok (CElem i 0)) eqn:E0.
    2: { left. split; [exists (CElem i 0); split; [split; [apply lw_first; now rewrite Em|discriminate]|exact E0]|].
         apply (meets_undef _ _ _ _ M). unfold text_y. rewrite Hn. unfold mv. cbn [copies]. unfold copied at 1. rewrite E0.
         unfold join. destruct (len _ <=? 0); cbn [bind jcontent]; (destruct (n_key n); [|eexists; reflexivity]);
         destruct (strcpy _ _ _); eexists; reflexivity. }
    assert (N0 : nth_error (n_multi n) 0 = Some (Some m0)).
    { rewrite Hn, nth_copies. unfold copied. cbn. now rewrite E0. }
    assert (F : Forall ptr_no_nul (n_multi n)) by (rewrite Hn; now apply copies_no_nul).
    assert (ND : no_nul (L ",")) by (apply no_nul_dec_b; reflexivity).
    assert (Nl : exists y, nth_error mv (length mv - 1) = Some y).
    { destruct (nth_error mv (length mv - 1)) eqn:X; [eauto|]. apply nth_error_None in X. unfold mv in X. cbn [length] in X. lia. }
    destruct Nl as (y & Nl).
    destruct (ok (CElem i (length mv - 1))) eqn:E1.
    2: { left. split; [exists (CElem i (length mv - 1)); split; [split; [rewrite <- Em; apply lw_last; now rewrite Em|discriminate]|exact E1]|].
         apply (meets_undef _ _ _ _ M). unfold text_y.
         rewrite (join_last_null (n_multi n) (len (n_multi n)) (L ",") m0); [eexists; reflexivity|exact ND|exact F| |exact N0|].
         - split; [|lia]. rewrite Hl. destruct ms as [|m1 ms]; [cbn in E1; congruence|]. unfold mv. rewrite !len_cons. pose proof (len_nonneg _ ms). lia.
         - rewrite Hl. replace (Z.to_nat (len mv - 1)) with (length mv - 1)%nat by (unfold len; lia). rewrite Hn, nth_copies, Nl. cbn [option_map Nat.add].
           unfold copied. now rewrite E1. }
    destruct (ok (CKeyOf i)) eqn:E2.
    2: { left. split; [exists (CKeyOf i); split; [split; [constructor|discriminate]|exact E2]|].
         apply (meets_undef _ _ _ _ M). unfold text_y. rewrite Hk. unfold copied. rewrite E2.
         destruct (join _ _ _); eexists; reflexivity. }
    assert (J : join (Some (n_multi n)) (len (n_multi n)) (L ",") = Ok (JHeap (separated (L ",") (kept ok i 0 mv)))).
    { destruct ms as [|m1 ms].
      - rewrite Hn. unfold mv. cbn [copies kept]. unfold copied. rewrite E0. reflexivity.
      - rewrite (join_many (n_multi n) (len (n_multi n)) (L ",") m0 y); [|exact ND|exact F| |exact N0|].
        + unfold len at 1. rewrite Nat2Z.id, firstn_all, Hn, present_copies. reflexivity.
        + split; [|lia]. rewrite Hl. unfold mv. rewrite !len_cons. pose proof (len_nonneg _ ms). lia.
        + rewrite Hl. replace (Z.to_nat (len mv - 1)) with (length mv - 1)%nat by (unfold len; lia). rewrite Hn, nth_copies, Nl. cbn [option_map Nat.add].
          unfold copied. now rewrite E1. }
    assert (Y : text_y n = Ok (line_text (kept_item ok i it))).
    { unfold text_y. rewrite J, Hk. unfold copied. rewrite E2. cbn [bind jcontent].
      assert (N1 : no_nul (separated (L ",") (kept ok i 0 mv))) by (apply no_nul_separated; [exact ND|now apply kept_no_nul]).
      assert (N2 : no_nul (key it ++ L "=" ++ separated (L ",") (kept ok i 0 mv))).
      { apply no_nul_app. split; auto. apply no_nul_app. split; auto. apply no_nul_dec_b. reflexivity. }
      rewrite strcpy_0.
      2:{ rewrite !len_app, len_malloc. change (len (L "=")) with 1. lens. lia. }
      cbn [bind]. rewrite cstr_cs by auto. unfold line_text, value_text, kept_item. cbn [key value multivalue]. rewrite Em.
      fold mv. unfold mv. cbn [kept]. rewrite E0. reflexivity. }
    rewrite Y in M.
    assert (JW : forall k, join_wants (n_multi n) k -> line_wants ok i it (CStr i k)).
    { intros k Hk'. rewrite Hn in Hk'. destruct Hk' as [s E|s p t E|s p t j x E Hj];
      apply (f_equal (@length _)) in E; rewrite len_copies in E; cbn [length] in E.
      - apply lw_only. now rewrite Em.
      - apply lw_joined. rewrite Em, E. lia.
      - rewrite nth_copies in Hj. cbn [Nat.add] in Hj. destruct (nth_error mv j) as [z|] eqn:X; [|discriminate]. cbn [option_map] in Hj.
        apply lw_copy; [rewrite Em, E; lia| |].
        + rewrite Em. apply nth_error_Some. congruence.
        + unfold copied in Hj. destruct (ok (CElem i j)); [reflexivity|discriminate]. }
    destruct M as [((k & Hk' & E) & U)|[(H & E)|(_ & e & U)]]; [| |discriminate].
    + left. split; [|exact U]. exists (CStr i k). split; [|exact E]. split; [|discriminate].
      destruct Hk' as [Hk'| ->]; [now apply JW|constructor].
    + right. split; [|exact E]. intros b (Hb & N).
      assert (Two : (2 <= length mv)%nat -> exists p t, n_multi n = Some m0 :: p :: t).
      { intros X. rewrite Hn. unfold mv in *. destruct ms as [|m1 ms]; [cbn [length] in X; lia|]. cbn [copies]. unfold copied at 1. rewrite E0. eauto. }
      destruct Hb; rewrite ?Em in *; try congruence.
      * apply (H KText). auto.
      * apply (H KOnly). left. apply jw_only with m0. rewrite Hn. unfold mv in *. destruct ms; [|discriminate]. cbn [copies]. unfold copied. now rewrite E0.
      * apply (H KJoined). left. destruct Two as (p & t & Sh); [assumption|]. eapply jw_joined, Sh.
      * apply (H (KCopy j)). left. destruct Two as (p & t & Sh); [assumption|]. destruct (nth_error mv j) as [z|] eqn:X; [|apply nth_error_None in X; lia].
        apply jw_copy with m0 p t z; [exact Sh|]. rewrite Hn, nth_copies, X. cbn [option_map Nat.add]. unfold copied. match goal with E : ok (CElem i j) = true |- _ => now rewrite E end.
Qed.

Lemma copy_items_gives ok items : forall i, gives ok (fun b => exists j, (j < length items)%nat /\ b = CNew (i + j)) (copy_items_s ok i items)
  ((fix go i l := match l with [] => [] | it :: t => copy_conf_item_s ok i it :: go (S i) t end) i items).
Proof.
  induction items as [|it items IH]; intros i; cbn [copy_items_s].
  - eapply gives_weak; [apply gives_ok|]. intros b. split; [intros []|]. cbn [length]. intros (j & H & _). lia.
  - eapply gives_weak; [apply gives_had; eapply gives_bind; [apply IH|apply gives_ok]|].
    intros b. cbv beta. cbn [length]. split.
    + intros [->|[(j & H & ->)|[]]]; [exists 0%nat|exists (S j)]; (split; [lia|]); f_equal; lia.
    + intros ([|j] & H & ->); [left; f_equal; lia|]. right. left. exists j. split; [lia|]. f_equal. lia.
Qed.
Lemma lines_gives ok items : Forall (fun it => no_nul (key it) /\ no_nul (value it) /\ Forall no_nul (multivalue it)) items -> forall i,
  gives ok (fun b => exists j it, nth_error items j = Some it /\ text_wants ok (i + j) it b)
    (conf_lines_s ok i ((fix go i l := match l with [] => [] | it :: t => copy_conf_item_s ok i it :: go (S i) t end) i items))
    (kept_lines ok i items).
Proof.
  induction 1 as [|it items (Nk & Nv & Nm) _ IH]; intros i; cbn [conf_lines_s kept_lines].
  - eapply gives_weak; [apply gives_ok|]. intros b. split; [intros []|]. intros ([|j] & it & H & _); discriminate.
  - eapply gives_weak; [eapply gives_bind; [now apply item_gives|eapply gives_bind; [apply IH|apply gives_ok]]|].
    intros b. cbv beta. split.
    + intros [H|[(j & x & E & H)|[]]]; [exists 0%nat, it; rewrite Nat.add_0_r; auto|]. exists (S j), x. rewrite Nat.add_succ_r. auto.
    + intros ([|j] & x & E & H); [injection E as <-; rewrite Nat.add_0_r in H; auto|]. right. left. exists j, x. rewrite Nat.add_succ_r in H. auto.
Qed.
Lemma save_gives ok f path items : Forall (fun it => no_nul (key it) /\ no_nul (value it) /\ Forall no_nul (multivalue it)) items ->
  len items <= 20 -> is_dir f path = false ->
  gives ok (save_wants ok items) (save_s ok f path items) (0, upd f path (Some (File (kept_lines ok 0 items)))).
Proof.
  intros F Hl Hd. unfold save_s, new_serializable_s. unfold CONF_MAX_ITEMS. replace (20 <? len items) with false by lia.
  eapply gives_weak.
  - eapply gives_bind; [apply gives_had; eapply gives_bind; [apply copy_items_gives|apply gives_ok]|].
    unfold write_conf_s. cbn [fst snd]. rewrite Hd. eapply gives_bind; [now apply lines_gives|]. cbn [fold_left]. rewrite fold_bytes. apply gives_ok.
  - intros b. cbv beta. cbn [Nat.add]. split.
    + intros [[->|[(j & H & ->)|[]]]|[(j & it & E & H & _)|[]]]; [left; reflexivity| |right; exists j, it; auto].
      right. destruct (nth_error items j) as [it|] eqn:E; [|apply nth_error_None in E; lia]. exists j, it. split; [exact E|constructor].
    + intros [->|(i & it & E & H)]; [auto|].
      assert (D : b = CNew i \/ b <> CNew i). { destruct H; try (right; discriminate). now left. }
      destruct D as [->|N]; [|right; left; exists i, it; split; [exact E|split; assumption]].
      left. right. left. exists i. split; [|reflexivity]. apply nth_error_Some. congruence.
Qed.

(** All values but one. *)
Lemma kept_one i j : forall l n, kept (fun b => match b with CElem x y => negb (Nat.eqb x i && Nat.eqb y (n + j)) | _ => true end) i n l = firstn j l ++ skipn (S j) l.
Proof.
  revert j.
  assert (G : forall l n m, (n > m)%nat -> kept (fun b => match b with CElem x y => negb (Nat.eqb x i && Nat.eqb y m) | _ => true end) i n l = l).
  { induction l as [|v l IH]; intros n m H; [reflexivity|]. cbn [kept]. replace (Nat.eqb n m) with false by (symmetry; apply Nat.eqb_neq; lia).
    rewrite andb_false_r. cbn [negb]. rewrite IH by lia. reflexivity. }
  intros j l. revert j. induction l as [|v l IH]; intros [|j] n; try reflexivity; cbn [kept firstn skipn app].
  - rewrite Nat.add_0_r, !Nat.eqb_refl. cbn [andb negb]. apply G. lia.
  - replace (Nat.eqb n (n + S j)) with false by (symmetry; apply Nat.eqb_neq; lia). rewrite andb_false_r. cbn [negb]. f_equal.
    replace (n + S j)%nat with (S n + j)%nat by lia. apply IH.
Qed.

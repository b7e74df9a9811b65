(** ConfParser_proofs.v - proofs about ConfParser.v. *)
From Verif Require Export Spec SpecConf StringUtils_proofs ConfParser.

Lemma trim_str_ok s t : no_nul s -> trimmed s t -> trim_str s = Ok t.
Proof.
  intros Hn Ht. unfold trim_str. destruct (trim_str_eq s t [] Hn Ht) as (b & E & C).
  rewrite app_nil_r in E. rewrite E. exact C.
Qed.

Lemma tokens_strtok d s ts : tokens d s ts ->
  match ts with
  | [] => strtok d s = None
  | t :: ts' => exists r, strtok d s = Some (t, r) /\ tokens d r ts'
  end.
Proof.
  destruct 1 as [s F|a t r ts Fa Hne Ft Hr Ht].
  - now apply strtok_none.
  - exists (tl r). split.
    + apply strtok_eq; auto. destruct r; auto. eapply Hr; eauto.
    + destruct r as [|c r]; [exact Ht|]. eapply tokens_unskip; [|exact Ht]. eapply Hr; eauto.
Qed.

Lemma strtok_no_nul d s t r : strtok d s = Some (t, r) -> no_nul s -> no_nul t /\ no_nul r.
Proof.
  intros E Hn. apply strtok_some in E as (a & r0 & -> & _ & _ & _ & _ & ->).
  apply no_nul_app in Hn as [_ Hn]. apply no_nul_app in Hn as [? Hr]. split; auto.
  destruct r0; auto. now apply no_nul_cons in Hr.
Qed.

Lemma trimmed_self t : no_blank_edges t -> trimmed t t.
Proof. intros H. exists [], []. rewrite app_nil_r. repeat split; auto; apply H. Qed.
Lemma trimmed_edges s t : trimmed s t -> no_blank_edges t.
Proof. now intros (l & r & _ & _ & _ & H). Qed.
Lemma edges_nil : no_blank_edges [].
Proof. split; intros; [discriminate|]. destruct r; discriminate. Qed.

(** ** conf_parse_first_pass *)
Lemma first_pass_none line : ~ In "="%char line -> conf_parse_first_pass line = Ok None.
Proof. intros H. unfold conf_parse_first_pass. apply strstr_char in H. unfold DELIM. change (L "=") with ["="%char]. now rewrite H. Qed.

Lemma strstr_in line : In "="%char line -> exists n, strstr line DELIM = Some n.
Proof.
  intros H. destruct (strstr line DELIM) eqn:E; eauto.
  change DELIM with ["="%char] in E. now apply strstr_char in E.
Qed.

Lemma first_pass_empty line T : no_nul line -> In "="%char line -> trimmed line T ->
  tokens (L "=") T [] -> conf_parse_first_pass line = UB NullDeref.
Proof.
  intros Hn Hi HT Hk. unfold conf_parse_first_pass. destruct (strstr_in _ Hi) as [n ->].
  rewrite (trim_str_ok _ _ Hn HT). cbn [bind].
  apply tokens_strtok in Hk. unfold DELIM. now rewrite Hk.
Qed.

Lemma first_pass_eq line T k ts k' v : no_nul line -> In "="%char line -> trimmed line T ->
  tokens (L "=") T (k :: ts) -> trimmed k k' -> trimmed (hd [] ts) v ->
  conf_parse_first_pass line = Ok (Some (mkItem k' v [])).
Proof.
  intros Hn Hi HT Hk Hk' Hv. unfold conf_parse_first_pass. destruct (strstr_in _ Hi) as [n ->].
  rewrite (trim_str_ok _ _ Hn HT). cbn [bind].
  pose proof (trimmed_no_nul _ _ Hn HT) as HnT.
  apply tokens_strtok in Hk as (r & E & Hr). unfold DELIM. rewrite E.
  destruct (strtok_no_nul _ _ _ _ E HnT) as [Nk Nr].
  rewrite (trim_str_ok _ _ Nk Hk'). cbn [bind].
  apply tokens_strtok in Hr. destruct ts as [|v0 ts]; cbn [hd] in Hv.
  - rewrite Hr. f_equal. f_equal. f_equal. eapply trimmed_unique; [|exact Hv]. apply trimmed_self, edges_nil.
  - destruct Hr as (r' & Er & _). rewrite Er. destruct (strtok_no_nul _ _ _ _ Er Nr) as [Nv _].
    rewrite (trim_str_ok _ _ Nv Hv). cbn [bind].
    rewrite (trim_str_ok v v); auto; [eapply trimmed_no_nul; eauto|].
    apply trimmed_self. eapply trimmed_edges; eauto.
Qed.

(** ** K=V *)
Lemma not_blank_eq : ~ blank "="%char.
Proof. intros H. vm_compute in H. intuition discriminate. Qed.

Lemma blank_trimmed_nil r : Forall blank r -> trimmed r [].
Proof. intros H. exists r, []. repeat split; auto; try (apply edges_nil). now rewrite app_nil_r. Qed.

Lemma trimmed_nil_blank s : trimmed s [] -> Forall blank s.
Proof. intros (l & r & -> & ? & ? & _). now apply Forall_app. Qed.

Lemma no_blank_edges_split a b : a <> [] -> b <> [] -> 
  (forall c r, a = c :: r -> ~ blank c) -> (forall r c, b = r ++ [c] -> ~ blank c) -> forall m, no_blank_edges (a ++ m ++ b).
Proof.
  intros Ha Hb Ba Bb m. split.
  - intros c r E. destruct a; [easy|]. inv E. eapply Ba; eauto.
  - intros r c E. destruct (exists_last Hb) as (b' & x & ->).
    rewrite !app_assoc in E. apply app_inj_tail in E as [_ ->]. eapply Bb; eauto.
Qed.

Lemma kv_line K V k v : trimmed K k -> trimmed V v -> k <> [] ->
  ~ In "="%char K -> ~ In "="%char V ->
  exists T ts k0, trimmed (K ++ "="%char :: V) T /\ tokens (L "=") T (k0 :: ts)
    /\ trimmed k0 k /\ trimmed (hd [] ts) v.
Proof.
  intros (l & r & -> & Hl & Hr & Hk) (l' & r' & -> & Hl' & Hr' & Hv) Hne IK IV.
  assert (FK : Forall (fun c => ~ In c (L "=")) (k ++ r)).
  { rewrite Forall_forall. intros c Hc [<-|[]]. apply IK. rewrite !in_app_iff in *. tauto. }
  assert (Hkr : k ++ r <> []) by (destruct k; [easy|discriminate]).
  assert (HK : trimmed (k ++ r) k) by (exists [], r; auto).
  destruct v as [|v0 v'].
  - exists ((k ++ r) ++ ["="%char]), [], (k ++ r). cbn [hd]. split; [|split; [|split; auto]].
    + exists l, (l' ++ r'). split; [cbn [app]; rewrite <- !app_assoc; reflexivity|].
      split; auto. split; [now apply Forall_app|].
      rewrite <- app_assoc. apply no_blank_edges_split; auto; [discriminate|apply Hk|].
      intros r0 c E. change ["="%char] with ([] ++ ["="%char]) in E. apply app_inj_tail in E as [_ <-]. apply not_blank_eq.
    + change ((k ++ r) ++ ["="%char]) with ([] ++ (k ++ r) ++ ["="%char]). constructor; auto.
      * intros c q E. inv E. now left.
      * constructor. constructor; [now left|constructor].
    + apply trimmed_self, edges_nil.
  - set (v := v0 :: v') in *.
    assert (FV : Forall (fun c => ~ In c (L "=")) (l' ++ v)).
    { rewrite Forall_forall. intros c Hc [<-|[]]. apply IV. rewrite !in_app_iff in *. tauto. }
    exists ((k ++ r) ++ "="%char :: (l' ++ v)), [l' ++ v], (k ++ r). cbn [hd]. split; [|split; [|split; auto]].
    + exists l, r'. split; [cbn [app]; rewrite <- !app_assoc; cbn [app]; rewrite <- !app_assoc; reflexivity|].
      split; auto. split; auto. rewrite <- app_assoc.
      replace (k ++ r ++ "="%char :: l' ++ v) with (k ++ (r ++ "="%char :: l') ++ v)
        by (rewrite <- !app_assoc; reflexivity).
      apply no_blank_edges_split; auto; [discriminate|apply Hk|apply Hv].
    + change ((k ++ r) ++ "="%char :: l' ++ v) with ([] ++ (k ++ r) ++ ("="%char :: l' ++ v)).
      constructor; auto; [intros c q E; inv E; now left|].
      replace ("="%char :: l' ++ v) with (["="%char] ++ (l' ++ v) ++ []) by (now rewrite app_nil_r).
      constructor; auto.
      * constructor; [now left|constructor].
      * unfold v. destruct l'; discriminate.
      * intros c q E. discriminate.
      * constructor. constructor.
    + exists l', []. rewrite app_nil_r. auto.
Qed.

Lemma first_pass_kv K V k v : no_nul (K ++ "="%char :: V) -> trimmed K k -> trimmed V v -> k <> [] ->
  ~ In "="%char K -> ~ In "="%char V ->
  conf_parse_first_pass (K ++ "="%char :: V) = Ok (Some (mkItem k v [])).
Proof.
  intros Hn HK HV Hne IK IV. destruct (kv_line K V k v) as (T & ts & k0 & HT & Ht & Hk & Hv); auto.
  eapply first_pass_eq; eauto. rewrite in_app_iff. right. now left.
Qed.

Lemma Forall2_length A B (R : A -> B -> Prop) l m : Forall2 R l m -> length l = length m.
Proof. induction 1; cbn; congruence. Qed.

(** ** multi *)
Lemma multi_loop_eq ts mv : Forall2 trimmed ts mv -> forall fuel i rest,
  tokens MULTI_DELIM rest ts -> no_nul rest -> (length ts <= fuel)%nat -> 0 <= i < 20 ->
  multi_loop fuel i rest = if i + len ts <? 20 then Ok (mv, i + len ts + 1) else UB ArrayIndex.
Proof.
  induction 1 as [|t v ts mv Htv _ IH]; intros fuel i rest Ht Hn Hf Hi; apply tokens_strtok in Ht.
  - destruct fuel; cbn [multi_loop]; unfold CONF_MAX_MULTI_ELEMENTS;
    replace (i <? 20) with true by lia; rewrite Ht, len_nil; replace (i + 0 <? 20) with true by lia;
    do 3 f_equal; lia.
  - destruct Ht as (r & E & Hr). destruct (strtok_no_nul _ _ _ _ E Hn) as [Nt Nr].
    destruct fuel as [|f]; [cbn in Hf; lia|]. cbn [multi_loop]. unfold CONF_MAX_MULTI_ELEMENTS.
    replace (i <? 20) with true by lia. rewrite E, len_cons.
    destruct (20 <=? i + 1) eqn:B.
    + pose proof (len_nonneg _ ts). now replace (i + (len ts + 1) <? 20) with false by lia.
    + rewrite (trim_str_ok _ _ Nt Htv). cbn [bind].
      rewrite IH; auto; [|cbn in Hf; lia|lia].
      replace (i + 1 + len ts) with (i + (len ts + 1)) by lia.
      destruct (i + (len ts + 1) <? 20); reflexivity.
Qed.

Lemma tokens_length d s ts : tokens d s ts -> (length ts <= length s)%nat.
Proof.
  induction 1 as [|a t r ts _ Hne _ _ _ IH]; [cbn; lia|].
  rewrite !app_length. destruct t; [easy|]. cbn [length]. lia.
Qed.

Lemma parse_multi_eq item ts mv : no_nul (value item) -> tokens (L ",") (value item) ts ->
  Forall2 trimmed ts mv ->
  conf_parse_multi item = if len ts <=? 20 then Ok (mkItem (key item) (value item) mv) else UB ArrayIndex.
Proof.
  intros Hn Ht F. unfold conf_parse_multi. pose proof (tokens_length _ _ _ Ht) as HL.
  apply tokens_strtok in Ht. destruct F as [|t v ts mv Htv F].
  - unfold MULTI_DELIM. now rewrite Ht.
  - destruct Ht as (r & E & Hr). unfold MULTI_DELIM. rewrite E.
    destruct (strtok_no_nul _ _ _ _ E Hn) as [Nt Nr].
    rewrite (trim_str_ok _ _ Nt Htv). cbn [bind].
    rewrite (multi_loop_eq ts mv); auto; [|cbn in HL; lia|lia].
    rewrite len_cons. replace (0 + len ts <? 20) with (len ts + 1 <=? 20) by lia.
    destruct (len ts + 1 <=? 20); [|reflexivity]. cbn [bind].
    f_equal. f_equal. rewrite firstn_all2; auto.
    apply Forall2_length in F. unfold len. cbn [length]. lia.
Qed.

Lemma exists_trimmed_list ts : exists mv, Forall2 trimmed ts mv.
Proof.
  induction ts as [|t ts (mv & H)]; [exists []; constructor|].
  destruct (exists_trimmed t) as [v Hv]. exists (v :: mv). now constructor.
Qed.

(** ** conf_item_to_string *)
Lemma item_to_string_eq it : no_nul (key it) -> no_nul (value it) -> Forall no_nul (multivalue it) ->
  conf_item_to_string it = Ok (key it ++ "="%char :: value_text it).
Proof.
  intros Hk Hv Hm. unfold conf_item_to_string, value_text.
  destruct (multivalue it) as [|m ms].
  - change (len [] =? 0) with true. cbv iota.
    assert (N : no_nul (key it ++ L "=" ++ value it)).
    { apply no_nul_app. split; auto. apply no_nul_app. split; auto. apply no_nul_dec_b. reflexivity. }
    rewrite strcpy_0.
    2:{ rewrite !len_app, len_malloc. change (len (L "=")) with 1. lens. lia. }
    cbn [bind]. rewrite cstr_cs by auto. reflexivity.
  - replace (len (m :: ms) =? 0) with false by (symmetry; apply Z.eqb_neq; llia).
    rewrite join_map; [|discriminate|apply no_nul_dec_b; reflexivity|auto]. cbn [bind jcontent].
    assert (N0 : no_nul (separated (L ",") (m :: ms))) by (apply no_nul_separated; auto; apply no_nul_dec_b; reflexivity).
    assert (N : no_nul (key it ++ L "=" ++ separated (L ",") (m :: ms))).
    { apply no_nul_app. split; auto. apply no_nul_app. split; auto. apply no_nul_dec_b. reflexivity. }
    rewrite strcpy_0.
    2:{ rewrite !len_app, len_malloc. change (len (L "=")) with 1. lens. lia. }
    cbn [bind]. rewrite cstr_cs by auto. reflexivity.
Qed.

Lemma good_separated l : l <> [] -> Forall good_element l -> good_value (separated (L ",") l).
Proof.
  intros Hne H. split; [|split].
  - assert (G : forall l, Forall good_element l -> l <> [] -> separated (L ",") l <> []
       /\ (forall c r, separated (L ",") l = c :: r -> ~ blank c)
       /\ (forall r c, separated (L ",") l = r ++ [c] -> ~ blank c)).
    { clear. induction 1 as [|s l [Hs [[He _] _]] _ IH]; [easy|]. intros _.
      destruct l as [|s2 l]; [cbn [separated]; split; [auto|split; apply He]|].
      specialize (IH ltac:(discriminate)). destruct IH as (N & _ & E).
      change (separated (L ",") (s :: s2 :: l)) with (s ++ L "," ++ separated (L ",") (s2 :: l)).
      set (w := separated (L ",") (s2 :: l)) in *.
      assert (B : no_blank_edges (s ++ L "," ++ w)) by (apply no_blank_edges_split; auto; apply He).
      split; [destruct s; [easy|discriminate]|exact B]. }
    destruct (G l H Hne) as (_ & A & B). now split.
  - apply no_nul_separated; [apply no_nul_dec_b; reflexivity|]. eapply Forall_impl; [|exact H].
    intros s [_ [[_ [N _]] _]]. exact N.
  - clear Hne. induction H as [|s l [_ [[_ [_ Hs]] _]] _ IH]; [auto|]. destruct l; [exact Hs|].
    change (separated (L ",") (s :: l :: l0)) with (s ++ L "," ++ separated (L ",") (l :: l0)).
    rewrite !in_app_iff. intros [I|[[I|[]]|I]]; [auto|discriminate|auto].
Qed.

Lemma good_item_value it : good_item it -> good_value (value_text it).
Proof.
  intros (_ & _ & Hv & Hm). unfold value_text. destruct (multivalue it) eqn:E; auto.
  apply good_separated; auto. discriminate.
Qed.

Lemma good_item_string it : good_item it ->
  conf_item_to_string it = Ok (key it ++ "="%char :: value_text it).
Proof.
  intros ((_ & _ & Hk & _) & Hv & _ & Hm). apply item_to_string_eq; auto.
  eapply Forall_impl; [|exact Hm]. intros s (_ & (_ & N & _) & _). exact N.
Qed.

Lemma good_item_first_pass it x : good_item it -> Forall blank x ->
  conf_parse_first_pass (key it ++ "="%char :: value_text it ++ x)
  = Ok (Some (mkItem (key it) (value_text it) [])).
Proof.
  intros H Hx. pose proof (good_item_value it H) as (Ev & Nv & Iv).
  destruct H as ((Hne & Ek & Nk & Ik) & _).
  apply first_pass_kv; auto.
  - apply no_nul_app. split; auto. apply no_nul_cons. split; [discriminate|]. apply no_nul_app. split; auto.
    unfold no_nul. eapply Forall_impl; [|exact Hx]. apply blank_not_nul.
  - now apply trimmed_self.
  - exists [], x. auto.
  - rewrite in_app_iff. intros [I|I]; auto. rewrite Forall_forall in Hx. apply Hx in I. now apply not_blank_eq in I.
Qed.

Lemma good_multi_tokens it : Forall good_element (multivalue it) -> multivalue it <> [] ->
  tokens (L ",") (value_text it) (multivalue it) /\ Forall2 trimmed (multivalue it) (multivalue it).
Proof.
  intros H Hne. split.
  - unfold value_text. destruct (multivalue it) eqn:E; [easy|]. apply tokens_separated.
    eapply Forall_impl; [|exact H]. intros s (A & _ & B). auto.
  - induction H as [|s l (_ & (E & _) & _) _ IH]; constructor; [now apply trimmed_self|].
    destruct l; [constructor|]. apply IH. discriminate.
Qed.

(** ** Lines *)
Lemma take_line_nl n l r : ~ In LF l -> (length l < n)%nat -> take_line n (l ++ LF :: r) = (l ++ [LF], r).
Proof.
  revert n; induction l as [|c l IH]; intros n Hi Hn; (destruct n; [cbn in Hn; lia|]).
  - reflexivity.
  - cbn [take_line app]. rewrite ceq_neq by (intros ->; apply Hi; now left).
    rewrite IH; [reflexivity|firstorder|cbn in Hn; lia].
Qed.
Lemma take_line_full l r : ~ In LF l -> take_line (length l) (l ++ r) = (l, r).
Proof.
  induction l as [|c l IH]; intros Hi; [reflexivity|]. cbn [length take_line app].
  rewrite ceq_neq by (intros ->; apply Hi; now left). rewrite IH; [reflexivity|firstorder].
Qed.
Lemma take_line_last n l : ~ In LF l -> (length l <= n)%nat -> take_line n l = (l, []).
Proof.
  revert n; induction l as [|c l IH]; intros n Hi Hn; [destruct n; reflexivity|].
  destruct n; [cbn in Hn; lia|]. cbn [take_line].
  rewrite ceq_neq by (intros ->; apply Hi; now left).
  rewrite IH; [reflexivity|firstorder|cbn in Hn; lia].
Qed.

Lemma lines_fgets n c ls : lines n c ls ->
  match ls with
  | [] => fgets (n + 1) c = None
  | l :: ls' => exists r, fgets (n + 1) c = Some (l, r) /\ lines n r ls' /\ (length r < length c)%nat
  end.
Proof.
  destruct 1 as [|l Hne Hi Hl|l r ls Hi Hl H|l r ls Hne Hi Hl H].
  - reflexivity.
  - exists []. split; [|split; [constructor|destruct l; [easy|cbn; lia]]].
    unfold fgets. destruct l; [easy|]. rewrite take_line_last; auto. unfold len in Hl. lia.
  - exists r. split; [|split; [auto|rewrite app_length; cbn; lia]].
    unfold fgets. destruct (l ++ LF :: r) eqn:E; [destruct l; discriminate|]. rewrite <- E.
    rewrite take_line_nl; auto. unfold len in Hl. lia.
  - exists r. split; [|split; [auto|rewrite app_length; destruct l; [easy|cbn; lia]]].
    unfold fgets. destruct (l ++ r) eqn:E; [destruct l; [easy|discriminate]|]. rewrite <- E.
    replace (Z.to_nat (n + 1 - 1)) with (length l) by (unfold len in Hl; lia).
    now rewrite take_line_full.
Qed.

Lemma lines_exist n c : 0 < n -> exists ls, lines n c ls.
Proof.
  intros Hn. assert (X : forall k c, (length c < k)%nat -> exists ls, lines n c ls).
  { induction k as [|k IH]; intros s Hs; [lia|].
    destruct s as [|x s0] eqn:Es; [exists []; constructor|]. rewrite <- Es in *.
    assert (Hp : (0 < length s)%nat) by (rewrite Es; cbn; lia). clear Es x s0.
    set (p := firstn (Z.to_nat n) s).
    assert (Es : s = p ++ skipn (Z.to_nat n) s) by (symmetry; apply firstn_skipn).
    assert (Lp : (0 < length p)%nat) by (unfold p; rewrite firstn_length; lia).
    assert (Lp' : (length p <= Z.to_nat n)%nat) by (unfold p; rewrite firstn_length; lia).
    destruct (in_dec ascii_dec LF p) as [I|I].
    - apply first_cut_exists in I as (a & b & E & Ha). rewrite E in Es.
      destruct (IH (b ++ skipn (Z.to_nat n) s)) as [ls H].
      { apply (f_equal (@length ascii)) in Es. rewrite !app_length in *. cbn in Es. lia. }
      exists ((a ++ [LF]) :: ls). rewrite Es, <- app_assoc. cbn [app]. constructor; auto.
      rewrite E, app_length in Lp'. cbn in Lp'. unfold len. lia.
    - destruct (Nat.leb (Z.to_nat n) (length s)) eqn:B.
      + destruct (IH (skipn (Z.to_nat n) s)) as [ls H]; [rewrite skipn_length; lia|].
        exists (p :: ls). rewrite Es. apply lines_full; auto.
        * intros ->. cbn in Lp. lia.
        * unfold p, len. rewrite firstn_length. apply Nat.leb_le in B. lia.
      + apply Nat.leb_gt in B. exists [s]. assert (p = s) by (unfold p; apply firstn_all2; lia).
        rewrite H in *. constructor; auto; [intros ->; cbn in Lp; lia|unfold len; lia]. }
  apply (X (S (length c)) c). lia.
Qed.

Lemma visible_upto s t : visible s t -> upto_nul s = t.
Proof.
  intros (r & E & Hi). assert (Ht : no_nul t) by now apply no_nul_in.
  destruct r as [|x r _] using rev_ind.
  - apply app_inj_tail in E as [-> _]. now apply upto_nul_id.
  - change (t ++ NUL :: r ++ [x]) with (t ++ (NUL :: r) ++ [x]) in E. rewrite app_assoc in E.
    apply app_inj_tail in E as [-> _]. now apply upto_nul_stop.
Qed.
Lemma visible_self s : no_nul s -> visible s s.
Proof. intros H. exists []. split; auto. now apply no_nul_in. Qed.
Lemma visible_no_nul s t : visible s t -> no_nul t.
Proof. intros (r & _ & H). now apply no_nul_in. Qed.
Lemma visible_in s t c : visible s t -> In c t -> In c s.
Proof.
  intros (r & E & H) I. assert (J : In c (s ++ [NUL])) by (rewrite E, in_app_iff; auto).
  rewrite in_app_iff in J. destruct J as [J|[<-|[]]]; auto. contradiction.
Qed.

(** ** get_key_flag *)
Lemma flag_some flags k m : flagged flags k m -> get_key_flag k flags = Some m.
Proof.
  intros (a & b & -> & H). induction a as [|[k' m'] a IH]; cbn [app get_key_flag].
  - now rewrite str_eqb_refl.
  - destruct (str_eqb_spec k' k) as [->|Hne]; [exfalso; apply H; now left|]. apply IH. firstorder.
Qed.
Lemma flag_none flags k : unflagged flags k -> get_key_flag k flags = None.
Proof.
  intros H. induction flags as [|[k' m'] fl IH]; [reflexivity|]. cbn [get_key_flag].
  destruct (str_eqb_spec k' k) as [->|Hne]; [exfalso; apply H; now left|]. apply IH. firstorder.
Qed.
Lemma flag_cases flags k : unflagged flags k \/ exists m, flagged flags k m.
Proof.
  induction flags as [|[k' m'] fl IH]; [left; intros []|].
  destruct (str_eqb_spec k' k) as [->|Hne]; [right; exists m', [], fl; split; [reflexivity|intros []]|].
  destruct IH as [U|(m & a & b & -> & H)].
  - left. intros [E|I]; auto.
  - right. exists m, ((k', m') :: a), b. split; auto. intros [E|I]; auto.
Qed.

(** ** parse *)

Lemma multi_key item item' : conf_parse_multi item = Ok item' -> key item' = key item.
Proof.
  unfold conf_parse_multi. destruct (strtok MULTI_DELIM (value item)) as [[tok rest]|].
  - intros H. apply bind_ok_inv in H as (v & _ & H). apply bind_ok_inv in H as ([l n] & _ & H). now inv H.
  - intros H. now inv H.
Qed.

Lemma parse_loop_deliveries path flags pre gv out : Forall2 visible pre gv -> deliveries flags gv out ->
  forall c post fuel, lines 511 c (pre ++ post) -> (length c <= fuel)%nat ->
  exists c' fuel', lines 511 c' post /\ (length c' <= fuel')%nat /\
    parse_loop fuel path flags c
    = ('(st, l) <- parse_loop fuel' path flags c';; Ok (st, out ++ l)).
Proof.
  intros F D. revert pre F.
  induction D as [|t it gv out Hp Hu _ IH|t it m gv out Hp Hf _ IH]; intros pre F c post fuel Hl Hc; inv F.
  - exists c, fuel. repeat split; auto. destruct (parse_loop fuel path flags c) as [[? ?]|]; reflexivity.
  - cbn [app] in Hl. apply lines_fgets in Hl as (r & E & Hl & Hr). change (511 + 1) with MAX_LINE_LEN in E.
    destruct fuel as [|fuel]; [lia|].
    destruct (IH _ H3 r post fuel) as (c' & fuel' & Hl' & Hc' & E'); auto; [lia|].
    exists c', fuel'. repeat split; auto. cbn [parse_loop]. rewrite E.
    rewrite (visible_upto _ _ H2). unfold conf_parse_line in Hp. apply bind_ok_inv in Hp as (i0 & -> & Hp).
    inv Hp. cbn [bind]. rewrite (flag_none _ _ Hu). exact E'.
  - cbn [app] in Hl. apply lines_fgets in Hl as (r & E & Hl & Hr). change (511 + 1) with MAX_LINE_LEN in E.
    destruct fuel as [|fuel]; [lia|].
    destruct (IH _ H3 r post fuel) as (c' & fuel' & Hl' & Hc' & E'); auto; [lia|].
    exists c', fuel'. repeat split; auto. cbn [parse_loop]. rewrite E.
    rewrite (visible_upto _ _ H2). unfold conf_parse_line in Hp. apply bind_ok_inv in Hp as (i0 & -> & Hp).
    cbn [bind]. destruct m.
    + destruct i0 as [i0|]; [|discriminate]. apply bind_ok_inv in Hp as (i1 & Hm & Hp). inv Hp.
      rewrite <- (multi_key _ _ Hm). rewrite (flag_some _ _ _ Hf), Hm. cbn [bind]. rewrite E'.
      destruct (parse_loop fuel' path flags c') as [[? ?]|]; reflexivity.
    + inv Hp. rewrite (flag_some _ _ _ Hf). cbn [bind]. rewrite E'.
      destruct (parse_loop fuel' path flags c') as [[? ?]|]; reflexivity.
Qed.

Lemma parse_loop_bad path flags c bad b post fuel : lines 511 c (bad :: post) -> (length c <= fuel)%nat ->
  visible bad b -> ~ In "="%char b ->
  parse_loop fuel path flags c
  = (_ <- fits 120 (L "Entity in invalid format, path: " ++ path ++ [LF]);; Ok (-1, [])).
Proof.
  intros Hl Hc Hv Hi. apply lines_fgets in Hl as (r & E & Hl & Hr). change (511 + 1) with MAX_LINE_LEN in E.
  destruct fuel as [|fuel]; [lia|]. cbn [parse_loop]. rewrite E, (visible_upto _ _ Hv), first_pass_none by auto.
  reflexivity.
Qed.

Lemma parse_loop_end path flags c fuel : lines 511 c [] -> parse_loop fuel path flags c = Ok (0, []).
Proof.
  intros Hl. apply lines_fgets in Hl. change (511 + 1) with MAX_LINE_LEN in Hl.
  destruct fuel; cbn [parse_loop]; now rewrite Hl.
Qed.

Lemma visible_exists s : exists t, visible s t.
Proof.
  destruct (in_dec ascii_dec NUL s) as [I|I].
  - apply first_cut_exists in I as (a & b & -> & H). exists a, (b ++ [NUL]). rewrite <- app_assoc. auto.
  - exists s. apply visible_self. now apply no_nul_in.
Qed.

Lemma parse_loop_zero path flags ls : forall c fuel out, lines 511 c ls ->
  parse_loop fuel path flags c = Ok (0, out) -> Forall (fun l => exists t, visible l t /\ In "="%char t) ls.
Proof.
  induction ls as [|l ls IH]; intros c fuel out Hl H; [constructor|].
  apply lines_fgets in Hl as (r & E & Hl & Hr). change (511 + 1) with MAX_LINE_LEN in E.
  destruct fuel as [|fuel]; cbn [parse_loop] in H; rewrite E in H; [discriminate|].
  destruct (visible_exists l) as [t Ht]. rewrite (visible_upto _ _ Ht) in H.
  destruct (in_dec ascii_dec "="%char t) as [I|I].
  - constructor; [eauto|]. apply bind_ok_inv in H as (i & _ & H). destruct i as [i|].
    + destruct (get_key_flag (key i) flags).
      * apply bind_ok_inv in H as (i' & _ & H). apply bind_ok_inv in H as ([st l'] & E' & H). inv H. eauto.
      * eauto.
    + apply bind_ok_inv in H as (x & _ & H). discriminate.
  - rewrite first_pass_none in H by auto. cbn [bind] in H. apply bind_ok_inv in H as (x & _ & H). discriminate.
Qed.

(** ** write_conf *)
Lemma conf_lines_eq items : Forall good_item items ->
  conf_lines items = Ok (flat_map (fun it => line_text it ++ [LF]) items).
Proof.
  induction 1 as [|it items H _ IH]; [reflexivity|]. cbn [conf_lines flat_map].
  rewrite good_item_string, IH by auto. cbn [bind]. fold (line_text it). now rewrite <- app_assoc.
Qed.

Lemma fold_bytes t : forall old, fold_left apply_wevent (map WByte t) old = old ++ t.
Proof.
  induction t as [|c t IH]; intros old; cbn [map fold_left]; [now rewrite app_nil_r|].
  rewrite IH. cbn [apply_wevent]. now rewrite <- app_assoc.
Qed.

Lemma write_conf_eq f path items : Forall good_item items -> is_dir f path = false ->
  write_conf f (mkSer path items)
  = Ok (0, upd f path (Some (File (flat_map (fun it => line_text it ++ [LF]) items)))).
Proof.
  intros H Hd. unfold write_conf. cbn [ser_path]. rewrite Hd. unfold write_conf_events. cbn [ser_items].
  rewrite conf_lines_eq by auto. cbn [bind fold_left]. now rewrite fold_bytes.
Qed.

Lemma upd_same f p n : upd f p n p = n.
Proof. unfold upd. now rewrite str_eqb_refl. Qed.
Lemma upd_other f p n q : q <> p -> upd f p n q = f q.
Proof. intros H. unfold upd. apply str_eqb_neq in H. now rewrite H. Qed.

Lemma lines_of_items items : Forall (fun it => ~ In LF (line_text it) /\ len (line_text it) <= 510) items ->
  lines 511 (flat_map (fun it => line_text it ++ [LF]) items) (map (fun it => line_text it ++ [LF]) items).
Proof.
  induction 1 as [|it items [Hi Hl] _ IH]; [constructor|]. cbn [flat_map map].
  rewrite <- app_assoc. cbn [app]. constructor; auto. lia.
Qed.

Lemma crash_prefix old t k : (1 <= k)%nat ->
  crash_content old (WTrunc :: map WByte t) k = firstn (k - 1) t.
Proof.
  intros Hk. unfold crash_content. destruct k; [lia|]. cbn [firstn fold_left apply_wevent].
  rewrite firstn_map, fold_bytes. cbn [app]. f_equal. lia.
Qed.

(** ** Round trip through the file *)
Lemma Forall2_map_same A B (R : B -> B -> Prop) (f : A -> B) l :
  Forall (fun a => R (f a) (f a)) l -> Forall2 R (map f l) (map f l).
Proof. induction 1; constructor; auto. Qed.

Lemma blank_LF : Forall blank [LF].
Proof. constructor; [right; now left|constructor]. Qed.

Lemma trimmed_list_unique l : forall m1 m2, Forall2 trimmed l m1 -> Forall2 trimmed l m2 -> m1 = m2.
Proof.
  induction l as [|x l IH]; intros m1 m2 H1 H2; inv H1; inv H2; [reflexivity|].
  f_equal; [eapply trimmed_unique; eauto|auto].
Qed.

Lemma written_deliveries flags items : Forall good_item items ->
  (forall it, In it items -> flagged flags (key it) true ->
     exists ts, tokens (L ",") (value_text it) ts /\ len ts <= 20) ->
  exists out, handed_over flags items out
    /\ deliveries flags (map (fun it => line_text it ++ [LF]) items) out.
Proof.
  induction 1 as [|it items H _ IH]; intros Hm; [exists []; split; constructor|].
  destruct IH as (out & Ho & Hd); [intros; apply Hm; auto; now right|].
  pose proof (good_item_first_pass it [LF] H blank_LF) as P.
  assert (P' : conf_parse_first_pass (line_text it ++ [LF]) = Ok (Some (mkItem (key it) (value_text it) []))).
  { unfold line_text. rewrite <- app_assoc. exact P. } clear P.
  cbn [map]. destruct (flag_cases flags (key it)) as [U|([|] & F)].
  - exists out. split; [now constructor|]. eapply (dl_skip _ _ (mkItem (key it) (value_text it) [])); [|cbn [key]; exact U|exact Hd].
    unfold conf_parse_line. now rewrite P'.
  - destruct (Hm it (or_introl eq_refl) F) as (ts & Ht & Hl).
    destruct (exists_trimmed_list ts) as (mv & Hmv).
    exists (mkItem (key it) (value_text it) mv :: out). split.
    + destruct (multivalue it) eqn:E.
      * replace (value_text it) with (value it) in * by (unfold value_text; now rewrite E).
        eapply ho_pieces; eauto.
      * destruct (good_multi_tokens it) as [A B]; [apply H|congruence|].
        rewrite (tokens_unique _ _ _ _ Ht A) in Hmv.
        replace mv with (multivalue it).
        { apply ho_multi; auto. congruence. }
        eapply trimmed_list_unique; eauto.
    + eapply dl_take with (m := true); [|exact F|exact Hd].
      unfold conf_parse_line. rewrite P'. cbn [bind].
      rewrite (parse_multi_eq _ ts mv); cbn [value key]; auto; [|now apply good_item_value].
      replace (len ts <=? 20) with true by lia. reflexivity.
  - exists (mkItem (key it) (value_text it) [] :: out). split; [now constructor|].
    eapply dl_take with (m := false); [|exact F|exact Hd]. unfold conf_parse_line. now rewrite P'.
Qed.

Lemma line_text_no_nul it : good_item it -> no_nul (line_text it).
Proof.
  intros H. pose proof (good_item_value it H) as (_ & Nv & _). destruct H as ((_ & _ & Nk & _) & _).
  unfold line_text. apply no_nul_app. split; auto. apply no_nul_cons. split; [discriminate|auto].
Qed.

Lemma write_parse flags f path items : Forall good_item items ->
  Forall (fun it => ~ In LF (line_text it) /\ len (line_text it) <= 510) items ->
  (forall it, In it items -> flagged flags (key it) true ->
     exists ts, tokens (L ",") (value_text it) ts /\ len ts <= 20) ->
  is_dir f path = false ->
  exists f' out, write_conf f (mkSer path items) = Ok (0, f')
   /\ (forall q, q <> path -> f' q = f q)
   /\ handed_over flags items out /\ parse f' path flags = Ok (0, out).
Proof.
  intros Hg Hl Hm Hd. destruct (written_deliveries flags items Hg Hm) as (out & Ho & D).
  eexists _, out. split; [now apply write_conf_eq|]. split; [intros; now apply upd_other|].
  split; auto. unfold parse. rewrite upd_same.
  set (c := flat_map _ _).
  assert (Lc : lines 511 c (map (fun it => line_text it ++ [LF]) items ++ []))
    by (rewrite app_nil_r; now apply lines_of_items).
  set (ls := map (fun it => line_text it ++ [LF]) items) in *.
  assert (V : Forall2 visible ls ls).
  { apply Forall2_map_same. eapply Forall_impl; [|exact Hg]. intros it H. apply visible_self.
    apply no_nul_app. split; [now apply line_text_no_nul|]. apply no_nul_dec_b. reflexivity. }
  destruct (parse_loop_deliveries path flags ls ls out V D c [] (length c) Lc) as (c' & fuel' & Lc' & _ & E); auto.
  rewrite E, parse_loop_end by auto. cbn [bind]. now rewrite app_nil_r.
Qed.

(** ** serializable_to_string *)
Lemma ser_loop_eq items : Forall (fun it => no_nul (key it) /\ no_nul (value it) /\ Forall no_nul (multivalue it)) items -> forall acc,
  len acc + 1 <= 1024 ->
  let t := acc ++ flat_map (fun it => ","%char :: line_text it) items in
  (len t + 1 <= 1024 -> ser_loop items acc = Ok t) /\ (1024 < len t + 1 -> undefined (ser_loop items acc)).
Proof.
  induction 1 as [|it items (Hk & Hv & Hm) _ IH]; intros acc Ha; cbn [flat_map ser_loop].
  - rewrite app_nil_r. split; [reflexivity|lia].
  - cbn zeta. rewrite (item_to_string_eq it Hk Hv Hm). fold (line_text it). set (F := flat_map _ items) in *. rewrite !len_app, !len_cons.
    pose proof (len_nonneg _ F). pose proof (len_nonneg _ (line_text it)).
    destruct (Z_le_gt_dec (len acc + len (L ",") + 1) 1024) as [L1|L1]; change (len (L ",")) with 1 in *.
    2:{ rewrite fits_oob by (rewrite len_app; change (len (L ",")) with 1; lia). split; [lia|]. intros _. eexists. reflexivity. }
    rewrite fits_ok by (rewrite len_app; change (len (L ",")) with 1; lia). cbn [bind].
    destruct (Z_le_gt_dec (len acc + 1 + len (line_text it) + 1) 1024) as [L2|L2].
    2:{ rewrite fits_oob by (rewrite !len_app; change (len (L ",")) with 1; lia). split; [lia|]. intros _. eexists. reflexivity. }
    rewrite fits_ok by (rewrite !len_app; change (len (L ",")) with 1; lia). cbn [bind].
    destruct (IH ((acc ++ L ",") ++ line_text it)) as [I1 I2]; [rewrite !len_app; change (len (L ",")) with 1; lia|].
    assert (E : ((acc ++ L ",") ++ line_text it) ++ F = acc ++ (","%char :: line_text it) ++ F) by (rewrite <- !app_assoc; reflexivity).
    rewrite E in *. split; intros G; [apply I1|apply I2]; rewrite len_app, len_app, len_cons; lia.
Qed.
Lemma ser_string_eq path items : Forall (fun it => no_nul (key it) /\ no_nul (value it) /\ Forall no_nul (multivalue it)) items ->
  let t := L "[path=" ++ path ++ L ",n_items=" ++ dec (len items) ++ flat_map (fun it => ","%char :: line_text it) items ++ L "]" in
  (len t <= 1023 -> serializable_to_string (mkSer path items) = Ok t) /\ (1024 <= len t -> undefined (serializable_to_string (mkSer path items))).
Proof.
  intros N. cbn zeta. unfold serializable_to_string. cbn [ser_path ser_items].
  set (a0 := L "[path=" ++ path ++ L ",n_items=" ++ dec (len items)). set (F := flat_map _ items).
  assert (E : L "[path=" ++ path ++ L ",n_items=" ++ dec (len items) ++ F ++ L "]" = (a0 ++ F) ++ L "]") by (unfold a0; rewrite <- !app_assoc; reflexivity).
  rewrite E, len_app. change (len (L "]")) with 1.
  destruct (Z_le_gt_dec (len a0 + 1) 1024) as [L0|L0].
  2:{ rewrite fits_oob by lia. split; [rewrite len_app; pose proof (len_nonneg _ F); lia|]. intros _. eexists. reflexivity. }
  rewrite fits_ok by lia. cbn [bind]. destruct (ser_loop_eq items N a0 L0) as [I1 I2]. fold F in I1, I2.
  destruct (Z_le_gt_dec (len (a0 ++ F) + 1) 1024) as [L1|L1].
  - rewrite I1 by exact L1. cbn [bind]. split; intros G; [rewrite fits_ok; [reflexivity|]|rewrite fits_oob; [eexists; reflexivity|]]; rewrite len_app; change (len (L "]")) with 1; lia.
  - destruct I2 as (u & ->); [lia|]. split; [lia|]. intros _. eexists. reflexivity.
Qed.

(** ** Twenty items and twenty values *)
Lemma made path items k v mv :
  (len items <= 20 -> new_serializable path items = Ok (mkSer path items)) /\ (21 <= len items -> undefined (new_serializable path items))
  /\ (len mv <= 20 -> new_conf_item_with_values k v mv = Ok (mkItem k v mv)) /\ (21 <= len mv -> undefined (new_conf_item_with_values k v mv)).
Proof.
  unfold new_serializable, new_conf_item_with_values, CONF_MAX_ITEMS, CONF_MAX_MULTI_ELEMENTS.
  repeat split; intros H.
  - now replace (20 <? len items) with false by lia.
  - replace (20 <? len items) with true by lia. eexists. reflexivity.
  - now replace (20 <? len mv) with false by lia.
  - replace (20 <? len mv) with true by lia. eexists. reflexivity.
Qed.

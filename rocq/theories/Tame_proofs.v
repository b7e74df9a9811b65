(** Tame_proofs.v - lemmas for C91: no message of a request holds a line feed before a digit. *)
From Verif Require Import Trace Lemmas StringUtils_proofs ConfParser_proofs WsMultipart_proofs HttpUtils_proofs WsConn_proofs WsRequest_proofs
  WsDispatch_proofs Router_proofs Log_proofs Trace_proofs LogLine_proofs SpecJson SpecHttp SpecConn SpecReq SpecRouter SpecDispatch SpecApi SpecLog SpecTrace SpecLogLine Spec.

(** ** Tame texts *)
Lemma one_ends s : one_line s -> ends_line s.
Proof. intros H. exists s. auto. Qed.
Lemma ends_tame s : ends_line s -> tame s.
Proof.
  intros (a & Ha & [->| ->]) p c q E _.
  - apply Ha. rewrite E. apply in_or_app. right. now left.
  - destruct q as [|y q'] using rev_ind.
    + change [LF; c] with ([LF] ++ [c]) in E. rewrite app_assoc in E. apply app_inj_tail in E as [E _]. apply Ha. rewrite E. apply in_or_app. right. now left.
    + rewrite !app_comm_cons, app_assoc in E. apply app_inj_tail in E as [E _]. apply Ha. rewrite E. apply in_or_app. right. now left.
Qed.
Lemma one_tame s : one_line s -> tame s.
Proof. intros H. now apply ends_tame, one_ends. Qed.
Lemma tame_one a b : one_line a -> tame b -> tame (a ++ b).
Proof.
  revert b. induction a as [|x a IH]; intros b Ha Hb; [exact Hb|]. intros p c q E. destruct p as [|y p].
  - injection E as -> _. elim Ha. now left.
  - injection E as -> E. apply (IH b) with (p := p) (q := q); auto. intros I. apply Ha. now right.
Qed.
Lemma tame_mid a x b : ends_line a -> (exists c q, x = c :: q /\ (code c <? 48) = true) -> tame (x ++ b) -> tame (a ++ x ++ b).
Proof.
  intros (l & Hl & [->| ->]) (c & q & -> & Hc) T; [now apply tame_one|]. rewrite <- app_assoc. apply tame_one; auto.
  intros p d r E. destruct p as [|y p]; cbn [app] in E.
  - injection E as <- _. lia.
  - injection E as <- E. exact (T p d r E).
Qed.
Lemma one_app a b : one_line a -> one_line b -> one_line (a ++ b).
Proof. intros H H' I. apply in_app_or in I as [I|I]; auto. Qed.
Lemma one_lit t : forallb (fun x => negb (ceq x LF)) t = true -> one_line t.
Proof. exact (text_without LF t). Qed.
Ltac one := first [assumption | apply dec_one_line | (apply one_lit; reflexivity) | (apply one_app; one)].
Ltac tame :=
  lazymatch goal with
  | |- tame (?a ++ ?x ++ ?b) => first [apply tame_one; [one|] | apply tame_mid; [assumption|eexists _, _; split; [reflexivity|reflexivity]|]]; tame
  | |- tame (?a ++ ?b) => first [apply tame_one; [one|]; tame | (rewrite <- (app_nil_r b); apply tame_mid; [assumption|eexists _, _; split; [reflexivity|reflexivity]|]; rewrite app_nil_r; tame)]
  | |- tame ?a => first [apply one_tame; one | apply ends_tame; assumption]
  end.

(** ** Objects without a line feed, and objects where a NUL follows every line feed *)
Definition nolf (b : buf) : Prop := ~ In (Some LF) b.
Definition calm (b : buf) : Prop := forall p c q, b = p ++ Some LF :: c :: q -> c = Some NUL.

Lemma nolf_app a b : nolf (a ++ b) <-> nolf a /\ nolf b.
Proof. unfold nolf. split; [intros H; split; intros I; apply H; apply in_or_app; auto|]. intros [H H'] I. apply in_app_or in I as [I|I]; auto. Qed.
Lemma nolf_firstn n b : nolf b -> nolf (firstn n b).
Proof. intros H. rewrite <- (firstn_skipn n b) in H. now apply nolf_app in H. Qed.
Lemma nolf_skipn n b : nolf b -> nolf (skipn n b).
Proof. intros H. rewrite <- (firstn_skipn n b) in H. now apply nolf_app in H. Qed.
Lemma nolf_write b i l b' : write_at b i l = Ok b' -> nolf b -> nolf l -> nolf b'.
Proof.
  unfold write_at. destruct (_ && _); [|discriminate]. intros [= <-] H Hl. rewrite !nolf_app. split; [now apply nolf_firstn|]. split; [exact Hl|now apply nolf_skipn].
Qed.
Lemma nolf_map s : nolf (map Some s) <-> one_line s.
Proof. unfold nolf, one_line. rewrite in_map_iff. split; [intros H I; apply H; eauto|]. intros H (c & [= ->] & I). auto. Qed.
Lemma nolf_cs s : one_line s -> nolf (cs s).
Proof. intros H. unfold cs. apply nolf_app. split; [now apply nolf_map|]. intros [I|[]]. discriminate. Qed.
Lemma nolf_wr b i c b' : wr b i c = Ok b' -> c <> LF -> nolf b -> nolf b'.
Proof. intros H Hc Hb. apply (nolf_write _ _ _ _ H); auto. intros [I|[]]. congruence. Qed.
Lemma nolf_memcpy d i s j n d' : memcpy d i s j n = Ok d' -> nolf d -> nolf s -> nolf d'.
Proof.
  intros H Hd Hs. unfold memcpy in H. apply bind_ok_inv in H as (l & H1 & H). apply (nolf_write _ _ _ _ H); auto.
  unfold slice in H1. destruct (n <? 0); [discriminate|]. destruct (_ && _); [|discriminate]. injection H1 as <-. now apply nolf_firstn, nolf_skipn.
Qed.
Lemma nolf_malloc n : nolf (malloc n).
Proof. unfold malloc, nolf. intros I. apply repeat_spec in I. discriminate. Qed.
Lemma nolf_cstr b s : nolf b -> cstr b = Ok s -> one_line s.
Proof. intros H E. apply cstr_inv in E as (_ & r & ->). apply nolf_app in H as [H _]. unfold cs in H. apply nolf_app in H as [H _]. now apply nolf_map. Qed.
Lemma hex_one c : one_line (hex2 c).
Proof.
  assert (K : forallb (fun c => forallb (fun x => negb (ceq x LF)) (hex2 c)) (map ascii_of_nat (seq 0 256)) = true) by (vm_compute; reflexivity).
  rewrite forallb_forall in K. apply one_lit, K. apply in_map_iff. exists (nat_of_ascii c). split; [apply ascii_nat_embedding|].
  apply in_seq. pose proof (nat_ascii_bounded c). lia.
Qed.
Lemma md5_one md5 n data off k b s : md5sum md5 (malloc n) data off k = Ok b -> cstr b = Ok s -> one_line s.
Proof.
  intros H. apply nolf_cstr. unfold md5sum in H. apply bind_ok_inv in H as (m0 & H0 & H). apply bind_ok_inv in H as (msg & _ & H).
  apply bind_ok_inv in H as (m & H1 & H). apply bind_ok_inv in H as (o & H2 & H). apply (nolf_wr _ _ _ _ H); [discriminate|].
  apply (nolf_memcpy _ _ _ _ _ _ H2); [apply nolf_malloc|]. apply nolf_wr in H0; [|discriminate|apply nolf_malloc]. clear - H0 H1. revert H0 H1. generalize 0 at 1.
  revert m0. induction (md5 msg) as [|c d IH]; intros m0 i H0 H1; cbn [md5_hex] in H1; [now injection H1 as <-|].
  apply bind_ok_inv in H1 as (b' & H1 & H). eapply IH; [|exact H]. apply (nolf_write _ _ _ _ H1); auto. apply nolf_cs, hex_one.
Qed.
Lemma chop_one b b' s : chop_string b = Ok b' -> cstr b' = Ok s -> one_line s.
Proof.
  intros H E. assert (R : exists t r, no_nul t /\ b = cs t ++ r).
  { unfold chop_string in H. apply bind_ok_inv in H as (n & H & _). apply strlen_inv in H as (t & r & ? & ? & _). eauto. }
  destruct R as (t & r & Nn & ->).
  assert (C : Forall chopped t \/ exists p c q, t = p ++ c :: q /\ Forall chopped p /\ ~ chopped c).
  { clear. induction t as [|x t IH]; [now left|]. destruct (chopped_dec x) as [H|H]; [|right; exists [], x, t; auto].
    destruct IH as [IH|(p & c & q & -> & Hp & Hc)]; [left; now constructor|]. right. exists (x :: p), c, q. auto. }
  assert (K : forall l, Forall chopped l -> one_line l).
  { intros l F I. rewrite Forall_forall in F. apply F in I. unfold chopped in I. vm_compute in I. intuition discriminate. }
  destruct C as [F|(p & c & q & -> & F & Hc)].
  - rewrite chop_none in H by auto. injection H as <-. rewrite cstr_cs in E by auto. injection E as <-. auto.
  - rewrite chop_cut in H by auto. injection H as <-. rewrite cstr_cs in E by (now apply no_nul_app in Nn). injection E as <-. auto.
Qed.

Lemma calm_suffix a b : calm (a ++ b) -> calm b.
Proof. intros H p c q ->. apply (H (a ++ p) c q). now rewrite app_assoc. Qed.
Lemma calm_from b k : calm b -> calm (from b k).
Proof.
  intros H. unfold from. destruct (_ && _); [|intros p c q E; destruct p; discriminate E].
  rewrite <- (firstn_skipn (Z.to_nat k) b) in H. now apply calm_suffix in H.
Qed.
Lemma calm_read b s r : calm b -> no_nul s -> b = map Some s ++ r -> ends_line s.
Proof.
  intros H Nn ->. destruct (in_dec ascii_dec LF s) as [I|I]; [|exists s; auto].
  apply in_split in I as (p & q & ->). destruct q as [|c q].
  - exists p. destruct (in_dec ascii_dec LF p) as [I|I]; [|auto]. apply in_split in I as (p1 & p2 & ->). exfalso.
    assert (X : exists d w, p2 ++ [LF] = d :: w) by (destruct p2; cbn; eauto). destruct X as (d & w & X).
    rewrite <- app_assoc in H, Nn. cbn [app] in H, Nn. rewrite X in H, Nn. specialize (H (map Some p1) (Some d) (map Some w ++ r)). rewrite map_app, <- app_assoc in H. specialize (H eq_refl).
    apply no_nul_app in Nn as [_ Nn]. apply no_nul_cons in Nn as [_ Nn]. apply no_nul_cons in Nn as [Nd _]. congruence.
  - exfalso. specialize (H (map Some p) (Some c) (map Some q ++ r)). rewrite map_app, <- app_assoc in H. specialize (H eq_refl).
    apply no_nul_app in Nn as [_ Nn]. apply no_nul_cons in Nn as [_ Nn]. apply no_nul_cons in Nn as [Nd _]. congruence.
Qed.
Lemma calm_cstr b s : calm b -> cstr b = Ok s -> ends_line s.
Proof. intros H E. apply cstr_inv in E as (Nn & r & ->). unfold cs in H. rewrite <- app_assoc in H. eapply calm_read; eauto. Qed.
Lemma cstrn_inv n b s : cstrn n b = Ok s -> no_nul s /\ (length s <= n)%nat /\ exists r, b = map Some s ++ r.
Proof.
  revert b s. induction n as [|n IH]; intros b s H; cbn [cstrn] in H; [injection H as <-; split; [constructor|]; split; [auto|]; exists b; reflexivity|].
  destruct b as [|[c|] b]; try discriminate. destruct (ceq_spec c NUL) as [E|N].
  - injection H as <-. split; [constructor|]. split; [cbn; lia|]. eexists. reflexivity.
  - apply bind_ok_inv in H as (t & H1 & H). injection H as <-. apply IH in H1 as (Nn & Hl & r & ->).
    split; [now apply no_nul_cons|]. split; [cbn; lia|]. exists r. reflexivity.
Qed.
Lemma calm_strncpy d src n d' s : calm src -> len d = n -> strncpy d src n = Ok d' -> cstr d' = Ok s -> ends_line s.
Proof.
  intros C Ld H E. unfold strncpy in H. apply bind_ok_inv in H as (t & H1 & H). apply cstrn_inv in H1 as (Nn & Hl & r & ->).
  apply calm_read with (s := t) (r := r) in C; auto.
  assert (Ll : len (map (@Some ascii) t ++ repeat (Some NUL) (Z.to_nat n - length t)) = n).
  { rewrite len_app, len_map, len_repeat. unfold len in *. lia. }
  rewrite write_at_0 in H by lia. injection H as <-. rewrite skipn_all2 in E by (unfold len in *; lia). rewrite app_nil_r in E.
  destruct (Z.to_nat n - length t)%nat as [|k] eqn:Ek.
  - cbn [repeat] in E. rewrite app_nil_r in E. apply cstr_inv in E as (_ & r' & E). exfalso. unfold cs in E.
    assert (I : In (Some NUL) (map Some t)) by (rewrite E; apply in_or_app; left; apply in_or_app; right; now left).
    apply in_map_iff in I as (c & [= ->] & I). apply Forall_forall with (x := NUL) in Nn; auto.
  - cbn [repeat] in E. rewrite cstr_map in E by auto. injection E as <-. exact C.
Qed.
Lemma calm_strncpy26 src d' s : calm src -> strncpy (calloc 26) src 24 = Ok d' -> cstr d' = Ok s -> ends_line s.
Proof.
  intros C H E. unfold strncpy in H. apply bind_ok_inv in H as (t & H1 & H). apply cstrn_inv in H1 as (Nn & Hl & r & ->).
  apply calm_read with (s := t) (r := r) in C; auto. remember (Z.to_nat 24 - length t)%nat as k eqn:Ek.
  assert (Hk : (length t + k = 24)%nat) by lia. clear Ek.
  rewrite write_at_0 in H by (rewrite len_app, len_map, len_repeat; change (len (calloc 26)) with 26; unfold len; lia). injection H as <-.
  unfold calloc in E. change (Z.to_nat 26) with 26%nat in E. rewrite <- (app_nil_r (skipn _ _)) in E.
  rewrite cstr_map_pad in E; [injection E as <-; exact C|exact Nn|]. rewrite app_length, map_length, repeat_length. lia.
Qed.

(** The line buffer stays calm. *)
Lemma calm_nul a b : calm (a ++ [Some NUL]) -> calm b -> calm (a ++ Some NUL :: b).
Proof.
  revert b. induction a as [|x a IH]; intros b Ha Hb p c q E.
  - destruct p as [|y p]; [discriminate E|]. injection E as _ E. exact (Hb p c q E).
  - destruct p as [|y p].
    + injection E as -> E. destruct a as [|z a]; cbn [app] in E; injection E as <- _; [reflexivity|]. exact (Ha [] z (a ++ [Some NUL]) eq_refl).
    + injection E as -> E. apply (IH b) with (p := p) (q := q); auto. intros p' c' q' E'. apply (Ha (y :: p') c' q'). cbn. now rewrite E'.
Qed.
Lemma calm_nolf b : nolf b -> calm b.
Proof. intros H p c q ->. elim H. apply in_or_app. right. now left. Qed.
Lemma calm_line l : ends_line l -> calm (map Some l ++ [Some NUL]).
Proof.
  intros (a & Ha & [->| ->]).
  - apply calm_nolf. now apply nolf_cs.
  - intros p c q E. rewrite map_app, <- app_assoc in E. cbn [map app] in E. apply app_eq_app in E as (w & [(E1 & E2)|(E1 & E2)]).
    + destruct w as [|d w]; [injection E2 as <- _; reflexivity|]. injection E2 as <- _. exfalso. apply nolf_map in Ha. apply Ha. rewrite E1. apply in_or_app. right. now left.
    + destruct w as [|d w]; [injection E2 as <- _; reflexivity|]. injection E2 as _ E2. destruct w as [|? w]; [discriminate E2|]. injection E2 as _ E2. destruct w; discriminate E2.
Qed.
Lemma calm_skipn n b : calm b -> calm (skipn n b).
Proof. intros H. rewrite <- (firstn_skipn n b) in H. now apply calm_suffix in H. Qed.
Lemma calm_get_line s b n b' s' : len b = 1024 -> calm b -> get_line s b 1024 = Ok (n, b', s') -> calm b'.
Proof.
  intros Hb C H. destruct (line_of_exists 1024 ltac:(lia) s) as (l & rest & Hl). pose proof Hl as (_ & Ll & _).
  rewrite (get_line_eq 1024 s l rest b Hl) in H by lia. injection H as _ <- _. unfold cs. rewrite <- app_assoc. cbn [app].
  apply calm_nul; [apply calm_line; eapply line_ends; eauto|]. change (calm (skipn (S (length l)) b)). now apply calm_skipn.
Qed.
Lemma calm_first b b1 : calm b -> write_at b 0 [Some "A"%char; Some NUL] = Ok b1 -> calm b1.
Proof.
  intros C H. destruct (Z_le_dec 2 (len b)) as [G|G]; [|rewrite write_at_oob in H by (cbn; lia); discriminate].
  rewrite write_at_0 in H by exact G. injection H as <-. apply (calm_nul [Some "A"%char]); [|change (calm (skipn 2 b)); now apply calm_skipn]. apply calm_nolf. intros [I|[I|[]]]; discriminate.
Qed.

(** ** Headers *)
Lemma calm_part a b : calm (a ++ b) -> calm a.
Proof. intros H p c q ->. apply (H p c (q ++ b)). now rewrite <- app_assoc. Qed.
Lemma ip_first b : forall m, startswith b (L "X-Real-IP:") = Ok m -> forall s r, no_nul s -> b = cs s ++ r -> m = true -> ci_prefix (L "X-Real-IP:") s.
Proof. intros m H s r Nn -> ->. destruct (startswith_eq s r (L "X-Real-IP:")) as (x & E & K); auto; [apply no_nul_dec_b; reflexivity|]. rewrite E in H. injection H as ->. now apply K. Qed.
Lemma calm_trim_ip b b' : calm b -> startswith b (L "X-Real-IP:") = Ok true -> trim b = Ok b' -> calm b'.
Proof.
  intros C S H. assert (R : exists s r, no_nul s /\ b = cs s ++ r).
  { unfold trim in H. apply bind_ok_inv in H as (n & H & _). apply strlen_inv in H as (s & r & ? & ? & _). eauto. }
  destruct R as (s & r & Nn & ->). pose proof (ip_first _ _ S s r Nn eq_refl eq_refl) as P.
  destruct (exists_trimmed s) as (t & Ht). pose proof Ht as (l & w & Es & Hl & Hw & He).
  assert (l = []) as ->.
  { destruct l as [|x l]; [reflexivity|]. exfalso. inversion Hl as [|? ? Hx _]; subst. destruct P as (q & z & E & Hq). cbn [app] in E.
    destruct q as [|q0 q]; [inversion Hq|]. injection E as -> _. inversion Hq as [|? ? ? ? S1 _]; subst. revert Hx. eapply same_not_blank; eauto. apply isspace_not_blank. reflexivity. }
  cbn [app] in Es. subst s. assert (Nt : no_nul t) by (now apply no_nul_app in Nn).
  assert (Hne : t <> []).
  { intros ->. destruct P as (q & z & E & Hq). cbn [app] in E. destruct q as [|q0 q]; [inversion Hq|]. subst w. inversion Hw as [|? ? Hx _]; subst.
    inversion Hq as [|? ? ? ? S1 _]; subst. revert Hx. eapply same_not_blank; eauto. apply isspace_not_blank. reflexivity. }
  destruct w as [|c w].
  - rewrite app_nil_r in *. rewrite trim_fixed in H by auto. injection H as <-. exact C.
  - rewrite trim_right in H by auto. injection H as <-. unfold cs in *. rewrite map_app, <- !app_assoc in *. cbn [map app] in *.
    apply calm_nul.
    + assert (Ct : calm (map Some t)) by (now apply calm_part in C). intros p d q E. apply app_eq_app in E as (z & [(E1 & E2)|(E1 & E2)]).
      * destruct z as [|z0 z]; [discriminate E2|]. injection E2 as <- E2. destruct z as [|z1 z]; cbn [app] in E2; [now injection E2 as <- _|].
        injection E2 as <- _. exact (Ct _ _ _ E1).
      * destruct z as [|z0 z]; [discriminate E2|]. injection E2 as _ E2. destruct z; discriminate E2.
    + apply (calm_suffix (map Some t ++ [Some c])). now rewrite <- app_assoc.
Qed.

Definition told (ms : list note) : Prop := Forall (fun m => tame (snd m)) ms.
Lemma told_nil : told []. Proof. constructor. Qed.
Lemma told_app a b : told a -> told b -> told (a ++ b).
Proof. intros H H'. apply Forall_app. auto. Qed.
Lemma told_cons l s ms : tame s -> told ms -> told ((l, s) :: ms).
Proof. intros H H'. constructor; auto. Qed.

Ltac notes H := match type of H with Ok (_, ?x) = Ok (_, ?y) => let E := fresh in assert (E : y = x) by congruence; rewrite E; clear E H end.
Lemma store_told b hs hs' ms : line_buf b -> store_header_t b hs = Ok (hs', ms) -> told ms.
Proof.
  intros (_ & s & st & -> & Nn & He & Hl) H. unfold store_header_t in H. destruct (len hs <? HTTP_MAX_HEADERS); [|injection H as _ <-; apply told_nil].
  destruct (in_dec ascii_dec ":"%char s) as [I|I].
  - apply first_cut_exists in I as (a & b & Hc). destruct (exists_trimmed a) as (n & Hn). destruct (exists_trimmed b) as (v & Hv).
    assert (Hf : field_of s (n, v)) by (exists a, b; auto).
    destruct (field_facts s (n, v) Nn Hf) as (N1 & N2 & L1 & L2 & E2). cbn [fst snd] in *.
    rewrite (split_once_cut s a b n v) in H by auto. cbn [bind] in H.
    destruct (entry_cs n ltac:(lia)) as (r1 & Er1). destruct (entry_cs v ltac:(lia)) as (r2 & Er2). rewrite Er1, Er2 in H.
    rewrite !cstr_cs in H by auto. cbn [bind] in H.
    apply bind_ok_inv in H as (x1 & _ & H). apply bind_ok_inv in H as (x2 & _ & H). apply bind_ok_inv in H as (x3 & _ & H).
    assert (Em : ms = [(LOG_TRACE, L "Found header: " ++ n ++ L ", " ++ v)]) by congruence. subst ms. clear H.
    assert (On : one_line n).
    { apply (trimmed_one_line a); auto. destruct Hc as (-> & _). now apply ends_prefix in He as [He _]. }
    assert (Ov : one_line v).
    { apply (trimmed_one_line b); auto. destruct Hc as (-> & _). change (":"%char :: b) with ([":"%char] ++ b) in He. rewrite app_assoc in He. now apply ends_suffix in He. }
    apply told_cons; [tame|apply told_nil].
  - destruct (exists_trimmed s) as (t & Ht). rewrite (split_once_none s t) in H by auto. cbn [bind] in H. injection H as _ <-. apply told_nil.
Qed.

Definition hinv (h : hstate) : Prop :=
  line_buf (hs_buf h) /\ calm (hs_buf h) /\ ends_line (hs_ip h) /\ len (hs_session h) = MAX_SESSION
  /\ (forall s, cstr (hs_session h) = Ok s -> ends_line s).
Lemma take_ip_calm b x ip b' : calm b -> ends_line x -> take_ip b x = Ok (ip, b') -> calm b' /\ ends_line ip.
Proof.
  intros C Hx H. unfold take_ip in H. apply bind_ok_inv in H as (m & H1 & H). destruct m; [|injection H as <- <-; auto].
  apply bind_ok_inv in H as (b1 & H2 & H). apply bind_ok_inv in H as (i & H3 & H). apply bind_ok_inv in H as (s & H4 & H). injection H as <- <-.
  apply calm_trim_ip in H2; auto. split; [exact H2|]. exact (calm_strncpy26 _ _ _ (calm_from _ 11 H2) H3 H4).
Qed.
Lemma strncpy_len d s n d' : strncpy d s n = Ok d' -> len d' = len d.
Proof. intros H. unfold strncpy in H. apply bind_ok_inv in H as (t & _ & H). apply write_at_len in H. unfold len. congruence. Qed.
Lemma session_ends b x x' : calm b -> len x = MAX_SESSION -> (forall s, cstr x = Ok s -> ends_line s) -> take_session b x = Ok x' ->
  len x' = MAX_SESSION /\ (forall s, cstr x' = Ok s -> ends_line s).
Proof.
  intros C Lx Hx H. unfold take_session in H. apply bind_ok_inv in H as (m & _ & H). destruct m; [|injection H as <-; auto].
  apply bind_ok_inv in H as (y & H1 & H). split; [apply trim_keeps_len in H; apply strncpy_len in H1; congruence|].
  assert (R : exists s r, no_nul s /\ y = cs s ++ r).
  { unfold trim in H. apply bind_ok_inv in H as (n & H & _). apply strlen_inv in H as (s & r & ? & ? & _). eauto. }
  destruct R as (s & r & Nn & ->). intros u Hu. assert (He : ends_line s) by (eapply calm_strncpy; [apply calm_from; exact C|exact Lx|exact H1|now apply cstr_cs]).
  destruct (trim_holds s r Nn) as (t & junk & E & Ht & _). rewrite E in H. injection H as <-.
  assert (Nt : no_nul t) by (destruct Ht as (a & w & -> & _); apply no_nul_app in Nn as [_ Nn]; now apply no_nul_app in Nn).
  rewrite cstr_cs in Hu by auto. injection Hu as <-. apply one_ends. eapply trimmed_one_line; eauto.
Qed.
Lemma cookie_ends b x x' : calm b -> len x = MAX_SESSION -> (forall s, cstr x = Ok s -> ends_line s) -> take_cookie b x = Ok x' ->
  len x' = MAX_SESSION /\ (forall s, cstr x' = Ok s -> ends_line s).
Proof.
  intros C Lx Hx H. unfold take_cookie in H. apply bind_ok_inv in H as (m & _ & H). destruct m; [|injection H as <-; auto].
  apply bind_ok_inv in H as (c & _ & H). destruct (ceq c NUL); [|injection H as <-; auto].
  apply bind_ok_inv in H as (s & H1 & H). destruct (len s <? MAX_SESSION) eqn:G; [|injection H as <-; auto].
  pose proof H1 as H2. apply calm_cstr in H1; [|now apply calm_from]. apply cstr_inv in H2 as (Nn & _).
  split.
  - unfold strcpy in H. apply write_at_len in H. unfold len in *. congruence.
  - rewrite strcpy_0 in H by lia. injection H as <-. intros u Hu. rewrite cstr_cs in Hu by auto. injection Hu as <-. exact H1.
Qed.
Lemma header_line_told h h' ms : hinv h -> header_line_t h = Ok (h', ms) ->
  told ms /\ len (hs_buf h') = 1024 /\ calm (hs_buf h') /\ ends_line (hs_ip h') /\ len (hs_session h') = MAX_SESSION
  /\ (forall s, cstr (hs_session h') = Ok s -> ends_line s).
Proof.
  intros (Lb & C & Hi & Ls & Hs) H. unfold header_line_t in H. cbv zeta in H. apply bind_ok_inv in H as ((hs, m1) & H1 & H). apply bind_ok_inv in H as (ct & _ & H).
  apply bind_ok_inv in H as (bd & _ & H). apply bind_ok_inv in H as (cl & _ & H). apply bind_ok_inv in H as ((ip, b1) & H2 & H).
  apply bind_ok_inv in H as (s1 & H3 & H). apply bind_ok_inv in H as (s2 & H4 & H). injection H as <- <-. cbn [hs_buf hs_ip hs_session].
  split; [eapply store_told; eauto|]. pose proof (take_ip_len _ _ _ _ H2) as L2. apply take_ip_calm in H2 as (C1 & Hip); auto.
  destruct (session_ends _ _ _ C1 Ls Hs H3) as (L3 & K3). destruct (cookie_ends _ _ _ C1 L3 K3 H4) as (L4 & K4).
  split; [destruct Lb; congruence|]. auto.
Qed.
Lemma header_loop_told : forall fuel n h h' ms, hinv h -> header_loop_t fuel n h = Ok (h', ms) ->
  told ms /\ ends_line (hs_ip h') /\ (forall s, cstr (hs_session h') = Ok s -> ends_line s).
Proof.
  assert (K : forall h, hinv h -> told [] /\ ends_line (hs_ip h) /\ (forall s, cstr (hs_session h) = Ok s -> ends_line s)).
  { intros h (_ & _ & ? & _ & ?). split; [apply told_nil|auto]. }
  induction fuel as [|k IH]; intros n h h' ms I H; cbn [header_loop_t] in H; (destruct (0 <? n); [|injection H as <- <-; auto]);
    apply bind_ok_inv in H as (e1 & _ & H); (destruct e1; [injection H as <- <-; auto|]);
    apply bind_ok_inv in H as (e2 & _ & H); (destruct e2; [injection H as <- <-; auto|]);
    apply bind_ok_inv in H as ((h1, m1) & H1 & H); apply bind_ok_inv in H as (((n', b'), s') & H2 & H); [discriminate|].
  apply bind_ok_inv in H as ((h2, m2) & H3 & H). injection H as <- <-.
  destruct (header_line_told _ _ _ I H1) as (T1 & L1 & C1 & I1 & S1 & U1).
  apply IH in H3; [|].
  - destruct H3 as (T2 & H3). split; [now apply told_app|exact H3].
  - split; [cbn [hs_buf]; now apply get_line_buf in H2|]. split; [cbn [hs_buf]; eapply calm_get_line; eauto|]. auto.
Qed.

(** ** The request line *)
Lemma space_lf c : isspace c = false -> c <> LF.
Proof. intros H ->. discriminate. Qed.
Lemma word_one : forall k b j w j', word_scan k b j = Ok (w, j') -> one_line w.
Proof.
  induction k as [|k IH]; intros b j w j' H; cbn [word_scan] in H; apply bind_ok_inv in H as (c & _ & H); destruct (isspace c) eqn:E;
    try (injection H as <- _; intros []).
  apply bind_ok_inv in H as ((l, j1) & H1 & H). injection H as <- _. intros [I|I]; [now apply space_lf in E|]. revert I. eapply IH; eauto.
Qed.
Lemma url_one : forall k b j w, url_scan k b j = Ok w -> one_line w.
Proof.
  induction k as [|k IH]; intros b j w H; cbn [url_scan] in H; apply bind_ok_inv in H as (c & _ & H); destruct (isspace c) eqn:E;
    try (injection H as <-; intros []). destruct (j <? 1024); [|injection H as <-; intros []].
  apply bind_ok_inv in H as (l & H1 & H). injection H as <-. intros [I|I]; [now apply space_lf in E|]. revert I. eapply IH; eauto.
Qed.
Lemma held_one w b s n : one_line w -> write_at (malloc n) 0 (map Some w ++ [Some NUL]) = Ok b -> cstr b = Ok s -> one_line s.
Proof. intros O H. apply nolf_cstr. apply (nolf_write _ _ _ _ H); [apply nolf_malloc|]. now apply nolf_cs. Qed.
Lemma method_one b rl m j : parse_request_line b = Ok (rl, m, j) -> one_line m.
Proof.
  unfold parse_request_line. intros H. apply bind_ok_inv in H as (x & _ & H). apply bind_ok_inv in H as (y & _ & H). apply bind_ok_inv in H as (z & _ & H).
  apply bind_ok_inv in H as ((w, j') & H1 & H). apply bind_ok_inv in H as (mb & H2 & H). apply bind_ok_inv in H as (m' & H3 & H). injection H as _ <- _.
  apply word_one in H1. eapply held_one; eauto.
Qed.
Lemma parsed_url_one b j u : parse_url b j = Ok u -> one_line u /\ no_nul u.
Proof.
  unfold parse_url. intros H. apply bind_ok_inv in H as (j' & _ & H). apply bind_ok_inv in H as (w & H1 & H). apply bind_ok_inv in H as (ub & H2 & H).
  apply url_one in H1. split; [eapply held_one; eauto|]. now apply cstr_inv in H.
Qed.
Lemma token_chars d s ts : tokens d s ts -> one_line s -> Forall one_line ts.
Proof.
  induction 1 as [s _|a t r ts _ _ _ _ T IH]; intros O; constructor; [|apply IH]; intros I; apply O; apply in_or_app; right; apply in_or_app; auto.
Qed.
Lemma path_one u p q : one_line u -> no_nul u -> get_path_and_query_string u = Ok (p, q) -> one_line p /\ one_line q.
Proof.
  intros O Nn H. destruct (tokens_exist (L "?") u) as (ts & T). pose proof (token_chars _ _ _ T O) as F. destruct ts as [|t ts].
  - rewrite path_query_none in H by auto. discriminate.
  - destruct (Z_le_dec (len ts) 49) as [G1|G1].
    1: destruct (Z_le_dec (len t) 1022) as [G2|G2].
    1: destruct (Z_le_dec (len (hd [] ts)) 1022) as [G3|G3].
    2-4: destruct (path_query_oob u t ts Nn T) as (e & E); [lia|rewrite E in H; discriminate].
    rewrite (path_query_eq u t ts) in H by auto. injection H as <- <-. inversion F as [|? ? F1 F2]; subst. split; [exact F1|].
    destruct ts as [|t2 ts]; [intros []|]. now inversion F2.
Qed.

(** ** Connections *)
Lemma validate_told rules t ip path r ms : Forall (fun l => one_line (l_path l)) rules -> ends_line ip -> connection_validate_t rules t ip path = Ok (r, ms) -> told ms.
Proof.
  intros F Hi. induction F as [|l rules Hl F IH]; cbn [connection_validate_t]; intros H; [injection H as _ <-; apply told_nil|].
  destruct (l_path l) as [|c lp] eqn:E; [injection H as _ <-; apply told_nil|]. rewrite <- E in *. clear E c lp.
  apply bind_ok_inv in H as (m & _ & H). destruct m; [|auto]. apply bind_ok_inv in H as ((a, b) & _ & H).
  destruct (l_max l <? a); [notes H; apply told_cons; [tame|apply told_nil]|].
  destruct (l_max_ip l <? b); [notes H; apply told_cons; [tame|apply told_nil]|auto].
Qed.
Lemma add_told rules t socket ip path r t' ms : Forall (fun l => one_line (l_path l)) rules -> ends_line ip ->
  connection_add_t rules t socket ip path = Ok (r, t', ms) -> told ms.
Proof.
  intros F Hi H. unfold connection_add_t in H. apply bind_ok_inv in H as ((v, m1) & H1 & H). apply validate_told in H1; auto.
  destruct v; [|injection H as _ _ <-; exact H1]. apply bind_ok_inv in H as ((x, y) & _ & H). notes H. destruct x; [exact H1|].
  apply told_app; [exact H1|]. apply told_cons; [tame|apply told_nil].
Qed.

(** ** Static files *)
Lemma direct_told f r name st r' ms : one_line name -> direct_file_t f r name = Ok (st, r', ms) -> told ms.
Proof.
  intros O H. unfold direct_file_t in H. apply bind_ok_inv in H as ((x, y) & _ & H). notes H. destruct (is_file f name); [apply told_nil|].
  apply told_cons; [tame|apply told_nil].
Qed.
Lemma static_told v f r r' ms : plain_setup v -> ends_line (r_ip r) -> one_line (r_path r) -> handle_static_routes_t v f r = Ok (r', ms) -> told ms.
Proof.
  intros (P1 & P2 & P3 & _) Hi Hp H. unfold handle_static_routes_t in H. cbv zeta in H. apply bind_ok_inv in H as (n & _ & H). apply bind_ok_inv in H as (p & Hp' & H).
  assert (Op : one_line p).
  { destruct (_ || _); [injection Hp' as <-; exact P2|]. destruct (str_eqb _ _); [injection Hp' as <-; exact P3|].
    apply bind_ok_inv in Hp' as (c & _ & Hp'). destruct (ceq c "/"); [apply fits_inv in Hp' as [-> _]; one|injection Hp' as <-; exact Hp]. }
  apply bind_ok_inv in H as (file & Hf & H). apply fits_inv in Hf as [-> _].
  assert (Of : one_line (v_static_root v ++ L "/" ++ p)) by one.
  apply bind_ok_inv in H as (((st, r2), m1) & H1 & H). apply direct_told in H1; auto.
  assert (A : tame (L "Handle static route: " ++ r_path r)) by tame.
  assert (B : tame (L "IP:" ++ r_ip (set_path r p) ++ L " GET: " ++ p ++ L ", PATH: " ++ v_static_root v ++ L "/" ++ p)) by (cbn [r_ip set_path]; tame).
  destruct (st <? 0).
  - apply bind_ok_inv in H as (file' & Hf & H). apply fits_inv in Hf as [-> _]. apply bind_ok_inv in H as (((st', r3), m2) & H2 & H). notes H.
    apply direct_told in H2; [|one]. apply told_cons; [exact A|]. apply told_cons; [exact B|]. now apply told_app.
  - notes H. apply told_cons; [exact A|]. apply told_cons; [exact B|]. exact H1.
Qed.

(** ** Forms *)
Lemma write_file_told f name p off n f' ms : one_line name -> write_file_t f name p off n = Ok (f', ms) -> told ms.
Proof.
  intros O H. unfold write_file_t in H. apply bind_ok_inv in H as (k & _ & H). apply bind_ok_inv in H as (f1 & _ & H). notes H.
  apply told_cons; [tame|]. destruct (is_dir f name); [apply told_cons; [tame|]|]; apply told_nil.
Qed.
Lemma save_told e f tf field sf td ds al tf' f' ms : 0 <= mp_tid e -> save_tmp_file_t e f tf field sf td ds al = Ok (tf', f', ms) -> told ms.
Proof.
  intros He H. unfold save_tmp_file_t in H. cbv zeta in H. apply bind_ok_inv in H as (o1 & _ & H). apply bind_ok_inv in H as (o2 & _ & H).
  apply bind_ok_inv in H as (o3 & H1 & H). apply bind_ok_inv in H as (orig & H2 & H). pose proof (chop_one _ _ _ H1 H2) as Oo.
  apply bind_ok_inv in H as (m & H3 & H). apply bind_ok_inv in H as (s & H4 & H). pose proof (md5_one _ _ _ _ _ _ _ H3 H4) as Os.
  apply bind_ok_inv in H as (tmp & H5 & H). apply fits_inv in H5 as [-> _]. apply bind_ok_inv in H as (tp & H5 & H). apply fits_inv in H5 as [-> _].
  pose proof (dec_nat_one_line (mp_tid e) He) as On.
  apply bind_ok_inv in H as ((f2, m2) & H6 & H). apply write_file_told in H6; [|one]. apply bind_ok_inv in H as (t & _ & H).
  assert (Em : ms = (LOG_DEBUG, L "save_tmp_file, start_file: " ++ dec (to_int sf) ++ L ", data_start: " ++ dec (to_int ds) ++ L ", actuallength: " ++ dec (to_int al))
    :: (LOG_DEBUG, L "Original filename " ++ orig ++ [LF])
    :: (if is_dir f FILE_DOWNLOAD_TMP_DIR then [] else [(LOG_DEBUG, L "Creating FILE_DOWNLOAD_TMP_DIR: " ++ FILE_DOWNLOAD_TMP_DIR)]) ++ m2) by congruence.
  subst ms. clear H. apply told_cons; [tame|]. apply told_cons.
  - apply tame_one; [one|]. apply tame_one; [one|]. apply ends_tame. exists []. split; [intros []|right; reflexivity].
  - apply told_app; [|exact H6]. destruct (is_dir f _); [apply told_nil|]. apply told_cons; [tame|apply told_nil].
Qed.
Lemma part_told e ip f tf td n tf' f' ms : 0 <= mp_tid e -> ends_line ip -> part_parse_t e ip f tf td n = Ok (tf', f', ms) -> told ms.
Proof.
  intros He Hi H. unfold part_parse_t in H. cbv zeta in H. apply bind_ok_inv in H as (k & _ & H). apply bind_ok_inv in H as (st & _ & H).
  destruct (st <? 1).
  { assert (Em : ms = [(LOG_WARN, L "IP:" ++ ip ++ L " Multipart error: Form-data not found ")]) by congruence. subst ms. apply told_cons; [tame|apply told_nil]. }
  apply bind_ok_inv in H as (m & _ & H). destruct (m <=? 0); [injection H as _ _ <-; apply told_nil|].
  apply bind_ok_inv in H as (f0 & _ & H). apply bind_ok_inv in H as (f1 & _ & H). apply bind_ok_inv in H as (f2 & _ & H). apply bind_ok_inv in H as (fd & _ & H).
  apply bind_ok_inv in H as (ds & _ & H). apply bind_ok_inv in H as (tl & _ & H). apply bind_ok_inv in H as (tf1 & _ & H). apply bind_ok_inv in H as (sf & _ & H).
  destruct (0 <? ds); [|injection H as _ _ <-; apply told_nil]. destruct (0 <? sf); [eapply save_told; eauto|].
  apply bind_ok_inv in H as (v & _ & H). apply bind_ok_inv in H as (value & _ & H). apply bind_ok_inv in H as (t & _ & H). injection H as _ _ <-. apply told_nil.
Qed.
Lemma multipart_loop_told : forall fuel e ip f form tp tf bd cl ptr tf' f' ms, 0 <= mp_tid e -> ends_line ip ->
  multipart_loop_t fuel e ip f form tp tf bd cl ptr = Ok (tf', f', ms) -> told ms.
Proof.
  induction fuel as [|k IH]; intros e ip f form tp tf bd cl ptr tf' f' ms He Hi H; cbn [multipart_loop_t] in H; (destruct (ptr <? cl); [|injection H as _ _ <-; apply told_nil]);
    apply bind_ok_inv in H as (ps & _ & H); (destruct (ps <? 0); [injection H as _ _ <-; apply told_nil|]);
    apply bind_ok_inv in H as (pe & _ & H); (destruct (pe <? 0); [injection H as _ _ <-; apply told_nil|]); cbv zeta in H;
    apply bind_ok_inv in H as (tp1 & _ & H); apply bind_ok_inv in H as (((tf1, f1), m1) & H1 & H); apply bind_ok_inv in H as (tp2 & _ & H); [discriminate|].
  apply bind_ok_inv in H as (((tf2, f2), m2) & H2 & H). injection H as _ _ <-. apply part_told in H1; auto. apply IH in H2; auto. now apply told_app.
Qed.
Lemma multipart_told e ip f form bd cl form' f' ms : 0 <= mp_tid e -> ends_line ip -> multipart_parse_t e ip f form bd cl = Ok (form', f', ms) -> told ms.
Proof.
  intros He Hi H. unfold multipart_parse_t in H. apply bind_ok_inv in H as (((tf, f1), m1) & H1 & H). apply bind_ok_inv in H as (s & _ & H).
  apply bind_ok_inv in H as (fm & _ & H). injection H as _ _ <-. eapply multipart_loop_told; eauto.
Qed.

(** ** Routing *)
Lemma route_loop_told t m : forall r r' h fl ms, Forall (fun rt => one_line (rt_prefix rt) /\ one_line (rt_param rt)) t -> one_line m ->
  route_loop_t t m r = Ok (r', h, fl, ms) -> told ms /\ r_method r' = r_method r /\ r_path r' = r_path r /\ r_ip r' = r_ip r /\ r_url r' = r_url r.
Proof.
  induction t as [|rt t IH]; intros r r' h fl ms F O H; cbn [route_loop_t] in H; [injection H as <- _ _ <-; split; [apply told_nil|auto]|].
  inversion F as [|? ? (F1 & F2) F3]; subst.
  destruct (negb (rt_live rt)); [discriminate|]. cbv zeta in H. destruct (rt_type rt).
  - destruct (str_eqb _ _); [injection H as <- _ _ <-; split; [apply told_nil|auto]|eauto].
  - destruct (strstr _ _); [|eauto]. destruct (str_eqb _ _); [eauto|]. apply bind_ok_inv in H as (qs & _ & H). apply bind_ok_inv in H as (nf & _ & H).
    apply bind_ok_inv in H as (fm & _ & H).
    assert (Em : ms = [(LOG_DEBUG, L "router_extract_param(path=" ++ m ++ L ",prefix=" ++ rt_prefix rt ++ L ",param=" ++ rt_param rt ++ L ")")]) by congruence.
    assert (Er : r' = set_form r fm) by congruence. subst. split; [apply told_cons; [tame|apply told_nil]|auto].
Qed.
Lemma router_told a t r calls r' ms : Forall (fun rt => one_line (rt_prefix rt) /\ one_line (rt_param rt)) t -> ends_line (r_ip r) ->
  one_line (r_method r) -> one_line (r_path r) -> one_line (r_url r) -> router_handle_request_t a t r = Ok (calls, r', ms) -> told ms.
Proof.
  intros F Hi Hm Hp Hu H. unfold router_handle_request_t in H. cbv zeta in H. apply bind_ok_inv in H as (m & H1 & H). apply fits_inv in H1 as [-> _].
  apply bind_ok_inv in H as ((((r1, h), fl), m1) & H1 & H). apply route_loop_told in H1; [|exact F|one]. destruct H1 as (T & Em & Ep & Ei & Eu).
  assert (A : told ((LOG_DEBUG, L "Router handle request " ++ r_method r ++ L ":" ++ r_path r) :: m1)) by (apply told_cons; [tame|exact T]).
  destruct h as [h|].
  - destruct fl as [fl|]; [|assert (Es : ms = (LOG_DEBUG, L "Router handle request " ++ r_method r ++ L ":" ++ r_path r) :: m1) by congruence; now subst].
    destruct (on_filter a fl r1) as [r2 []]; assert (Es : ms = (LOG_DEBUG, L "Router handle request " ++ r_method r ++ L ":" ++ r_path r) :: m1) by congruence; now subst.
  - apply bind_ok_inv in H as (r2 & _ & H). rewrite Em, Ep, Ei, Eu in H.
    assert (Es : ms = (LOG_DEBUG, L "Router handle request " ++ r_method r ++ L ":" ++ r_path r) :: m1 ++ [(LOG_DEBUG, L "Unable to find matching route for method " ++ r_method r ++ L " and path " ++ r_path r);
      (LOG_DEBUG, L "IP:" ++ r_ip r ++ L " Ignored API URL: " ++ r_url r)]) by congruence.
    subst. rewrite app_comm_cons. apply told_app; [exact A|]. apply told_cons; [tame|]. apply told_cons; [tame|]. apply told_nil.
Qed.
Lemma api_told v f s r n bd calls r' f' ms : plain_setup v -> ends_line (r_ip r) -> (forall s, cstr (r_session r) = Ok s -> ends_line s) ->
  one_line (r_method r) -> one_line (r_path r) -> one_line (r_url r) -> one_line (r_query r) -> handle_api_request_t v f s r n bd = Ok (calls, r', f', ms) -> told ms.
Proof.
  intros (_ & _ & _ & Pt & Pr & _) Hi Hs Hm Hp Hu Hq H. unfold handle_api_request_t in H. cbv zeta in H. apply bind_ok_inv in H as (ses & H1 & H). apply Hs in H1.
  apply bind_ok_inv in H as (((r1, f1), m1) & H2 & H). apply bind_ok_inv in H as (((c, r2), m2) & H3 & H).
  remember (match r_query r with [] => [] | q => [(LOG_DEBUG, L "IP: " ++ r_ip r ++ L " PARAMETERS: " ++ q)] end) as mq eqn:Eq.
  assert (Em : ms = (LOG_DEBUG, L "IP:" ++ r_ip r ++ L ", URL:" ++ r_url r ++ L ", METHOD:" ++ r_method r ++ L ", PATH:" ++ r_path r ++ L ", SESSION:" ++ ses ++ L " ") :: mq ++ m1 ++ m2).
  { destruct (r_query r); subst mq; congruence. }
  subst ms. clear H.
  assert (K : told m1 /\ exists fm, r1 = set_form r fm).
  { destruct (0 <? n); [|injection H2 as <- _ <-; split; [apply told_nil|exists (r_form r); destruct r; reflexivity]].
    destruct (2 <=? len bd); [|injection H2 as <- _ <-; split; [apply told_nil|eexists; reflexivity]].
    apply bind_ok_inv in H2 as (((fm, f2), m3) & H2 & H4). injection H4 as <- _ <-. split; [exact (multipart_told _ _ _ _ _ _ _ _ _ Pt Hi H2)|eexists; reflexivity]. }
  destruct K as (T1 & fm & ->). apply router_told in H3; auto.
  apply told_cons; [tame|]. apply told_app; [|now apply told_app]. subst mq. destruct (r_query r) as [|q0 q]; [apply told_nil|]. apply told_cons; [tame|apply told_nil].
Qed.

(** ** The whole request *)
Local Opaque send_http_status bad_request too_many_connections startswithany startswith get_line parse_request_line parse_url connection_add_t finish
  header_loop_t get_path_and_query_string handle_static_routes_t handle_api_request_t str_caseeqb write_at.
Lemma rest_told v f t1 r2 m url b s1 res ms : plain_setup v -> len b = 1024 -> calm b -> ends_line (r_ip r2) -> one_line (r_method r2) -> r_url r2 = url -> one_line url -> no_nul url ->
  accept_rest_t v f t1 r2 m url b s1 = Ok (res, ms) -> told ms.
Proof.
  intros P Lb C Hi Hm Eu Hu Nu H. unfold accept_rest_t in H. apply bind_ok_inv in H as (b1 & Hb1 & H).
  pose proof (write_at_len _ _ _ _ Hb1) as L1. assert (L1' : len b1 = 1024) by (unfold len in *; lia). apply calm_first in Hb1; auto.
  apply bind_ok_inv in H as (((n2, b2), s2) & H4 & H). pose proof (get_line_buf _ _ _ _ _ L1' H4) as Lb2. apply calm_get_line in H4; auto.
  apply bind_ok_inv in H as ((h, m2) & H5 & H). apply header_loop_told in H5.
  2:{ split; [exact Lb2|]. split; [exact H4|]. split; [exact Hi|]. split; [reflexivity|]. intros s E. cbn [hs_session] in E. vm_compute in E. injection E as <-. apply one_ends. intros []. }
  destruct H5 as (T2 & Hip & Hses). cbv zeta in H.
  apply bind_ok_inv in H as ((path, query) & Hpq & H). apply path_one in Hpq as (Op & Oq); auto. apply bind_ok_inv in H as (api & _ & H).
  destruct api; cbn [negb] in H.
  - apply bind_ok_inv in H as (p & Hp & H). apply bind_ok_inv in H as ((((calls, r6), f'), m3) & H6 & H). injection H as _ <-.
    apply told_app; [exact T2|]. apply api_told in H6; auto.
    + apply nolf_cstr in Hp; [exact Hp|]. unfold from. destruct (_ && _); [|intros []]. now apply nolf_skipn, nolf_cs.
    + cbn. now rewrite Eu.
  - destruct (str_caseeqb m (L "GET")).
    + apply bind_ok_inv in H as ((r6, m3) & H6 & H). injection H as _ <-. apply told_app; [exact T2|]. apply static_told in H6; auto.
    + apply bind_ok_inv in H as (r6 & H6 & H). injection H as _ <-. exact T2.
Qed.
Local Opaque accept_rest_t.
Lemma accept_told v f t socket peer stream res ms : plain_setup v -> one_line peer -> accept_request_t v f t socket peer stream = Ok (res, ms) -> told ms.
Proof.
  intros P Hp H. rewrite accept_t_unfold in H. cbv zeta in H. apply bind_ok_inv in H as (r0 & H0 & H).
  assert (R0 : r_ip r0 = peer). { unfold new_request in H0. apply bind_ok_inv in H0 as (ip & Hf & H0). apply fits_inv in Hf as [-> _]. injection H0 as <-. reflexivity. }
  apply bind_ok_inv in H as (((n, b), s1) & H1 & H). pose proof (get_line_buf _ _ _ _ _ (eq_refl : len (calloc 1024) = 1024) H1) as Lb.
  apply calm_get_line in H1; [|reflexivity|]. 2:{ apply calm_nolf. intros I. apply repeat_spec in I. discriminate. }
  apply bind_ok_inv in H as (line & Hl & H). apply calm_cstr in Hl; auto. rewrite R0 in H.
  assert (A : tame (L "IP: " ++ peer ++ L ", Request: " ++ line)) by tame.
  remember (L "IP: " ++ peer ++ L ", Request: " ++ line) as txt eqn:Et.
  apply bind_ok_inv in H as (((rl, m), j) & H2 & H). apply method_one in H2.
  apply bind_ok_inv in H as (okm & _ & H). destruct okm; cbn [negb] in H.
  2:{ apply bind_ok_inv in H as (r2 & H3 & H). injection H as _ <-. apply told_cons; [exact A|apply told_nil]. }
  apply bind_ok_inv in H as (url & H3 & H). apply parsed_url_one in H3 as (Ou & Nu). apply bind_ok_inv in H as (((adm, t1), m1) & H4 & H).
  assert (T1 : told m1). { eapply add_told; [|  |exact H4]; [now destruct P as (_ & _ & _ & _ & _ & P)|]. cbn. rewrite R0. now apply one_ends. }
  destruct adm; cbn [negb] in H.
  - apply bind_ok_inv in H as ((res', m2) & H5 & H). injection H as _ <-. apply told_cons; [exact A|]. apply told_app; [exact T1|].
    eapply rest_told; [exact P|destruct Lb as (Lb & _); exact Lb|exact H1| | | |exact Ou|exact Nu|exact H5]; cbn; [|exact H2|reflexivity]. rewrite R0. now apply one_ends.
  - apply bind_ok_inv in H as (r2 & H3 & H). injection H as _ <-. apply told_cons; [exact A|exact T1].
Qed.

(** The warnings and errors of a form are one line (for C90). *)
Definition louds (ms : list note) : Prop := Forall (fun m => 2 <= fst m -> one_line (snd m)) ms.
Lemma save_louds e f tf field sf td ds al tf' f' ms : 0 <= mp_tid e -> save_tmp_file_t e f tf field sf td ds al = Ok (tf', f', ms) -> louds ms.
Proof.
  intros He H. unfold save_tmp_file_t in H. cbv zeta in H. apply bind_ok_inv in H as (o1 & _ & H). apply bind_ok_inv in H as (o2 & _ & H).
  apply bind_ok_inv in H as (o3 & H1 & H). apply bind_ok_inv in H as (orig & H2 & H).
  apply bind_ok_inv in H as (m & H3 & H). apply bind_ok_inv in H as (s & H4 & H). pose proof (md5_one _ _ _ _ _ _ _ H3 H4) as Os.
  apply bind_ok_inv in H as (tmp & H5 & H). apply fits_inv in H5 as [-> _]. apply bind_ok_inv in H as (tp & H5 & H). apply fits_inv in H5 as [-> _].
  pose proof (dec_nat_one_line (mp_tid e) He) as On.
  assert (Op : one_line (FILE_DOWNLOAD_TMP_DIR ++ L "/" ++ dec_nat (mp_tid e) ++ L "-" ++ s)) by one.
  remember (FILE_DOWNLOAD_TMP_DIR ++ L "/" ++ dec_nat (mp_tid e) ++ L "-" ++ s) as name eqn:En.
  apply bind_ok_inv in H as ((f2, m2) & H6 & H). apply bind_ok_inv in H as (t & _ & H).
  notes H. constructor; [cbn [fst]; unfold LOG_DEBUG; lia|]. constructor; [cbn [fst]; unfold LOG_DEBUG; lia|].
  apply Forall_app. split; [destruct (is_dir f _); [constructor|]; constructor; [cbn [fst]; unfold LOG_DEBUG; lia|constructor]|].
  unfold write_file_t in H6. apply bind_ok_inv in H6 as (k & _ & H). apply bind_ok_inv in H as (f3 & _ & H). notes H.
  constructor; [cbn [fst]; unfold LOG_DEBUG; lia|]. match goal with |- context [is_dir ?g ?x] => destruct (is_dir g x) end; [|constructor]. constructor; [|constructor]. intros _. cbn [snd]. one.
Qed.
Lemma part_louds e ip f tf td n tf' f' ms : 0 <= mp_tid e -> one_line ip -> part_parse_t e ip f tf td n = Ok (tf', f', ms) -> louds ms.
Proof.
  intros He Hi H. unfold part_parse_t in H. cbv zeta in H. apply bind_ok_inv in H as (k & _ & H). apply bind_ok_inv in H as (st & _ & H).
  destruct (st <? 1); [notes H; constructor; [intros _; cbn [snd]; one|constructor]|].
  apply bind_ok_inv in H as (m & _ & H). destruct (m <=? 0); [injection H as _ _ <-; constructor|].
  apply bind_ok_inv in H as (f0 & _ & H). apply bind_ok_inv in H as (f1 & _ & H). apply bind_ok_inv in H as (f2 & _ & H). apply bind_ok_inv in H as (fd & _ & H).
  apply bind_ok_inv in H as (ds & _ & H). apply bind_ok_inv in H as (tl & _ & H). apply bind_ok_inv in H as (tf1 & _ & H). apply bind_ok_inv in H as (sf & _ & H).
  destruct (0 <? ds); [|injection H as _ _ <-; constructor]. destruct (0 <? sf); [eapply save_louds; eauto|].
  apply bind_ok_inv in H as (v & _ & H). apply bind_ok_inv in H as (value & _ & H). apply bind_ok_inv in H as (t & _ & H). injection H as _ _ <-. constructor.
Qed.
Lemma multipart_loop_louds : forall fuel e ip f form tp tf bd cl ptr tf' f' ms, 0 <= mp_tid e -> one_line ip ->
  multipart_loop_t fuel e ip f form tp tf bd cl ptr = Ok (tf', f', ms) -> louds ms.
Proof.
  induction fuel as [|k IH]; intros e ip f form tp tf bd cl ptr tf' f' ms He Hi H; cbn [multipart_loop_t] in H; (destruct (ptr <? cl); [|injection H as _ _ <-; constructor]);
    apply bind_ok_inv in H as (ps & _ & H); (destruct (ps <? 0); [injection H as _ _ <-; constructor|]);
    apply bind_ok_inv in H as (pe & _ & H); (destruct (pe <? 0); [injection H as _ _ <-; constructor|]); cbv zeta in H;
    apply bind_ok_inv in H as (tp1 & _ & H); apply bind_ok_inv in H as (((tf1, f1), m1) & H1 & H); apply bind_ok_inv in H as (tp2 & _ & H); [discriminate|].
  apply bind_ok_inv in H as (((tf2, f2), m2) & H2 & H). injection H as _ _ <-. apply part_louds in H1; auto. apply IH in H2; auto. apply Forall_app. auto.
Qed.
Lemma form_step_louds v f ip after n bnd form f' mp : 0 <= mp_tid (v_mp v) -> one_line ip -> form_step v f ip after n bnd = Ok (form, f', mp) -> louds mp.
Proof.
  intros He Hi Ef. unfold form_step in Ef. cbv zeta in Ef. destruct (0 <? n); [|injection Ef as _ _ <-; constructor].
  destruct (2 <=? len bnd); [|injection Ef as _ _ <-; constructor]. apply bind_ok_inv in Ef as ([[fm' f2] ms2] & Em & Ef). injection Ef as _ _ <-.
  unfold multipart_parse_t in Em. apply bind_ok_inv in Em as (((tf, f1), m1) & H1 & H). apply bind_ok_inv in H as (s & _ & H).
  apply bind_ok_inv in H as (fm & _ & H). injection H as _ _ <-. eapply multipart_loop_louds; eauto.
Qed.

(** Defined_proofs.v - lemmas about when a request has a defined effect (/repo/ws.c). *)
From Verif Require Import WsRequest Lemmas StringUtils_proofs ConfParser_proofs WsMultipart_proofs HttpUtils_proofs WsConn_proofs WsRequest_proofs
  WsDispatch_proofs Log_proofs SpecJson SpecHttp SpecConn SpecReq SpecDispatch SpecDefined Spec.

(** ** The line buffer: 1024 bytes, the last one a NUL *)
Definition zbuf (b : buf) : Prop := exists s, b = map Some (s ++ [NUL]) /\ length s = 1023%nat.

Lemma seen_exists s : exists t, seen_as s t.
Proof.
  induction s as [|c s (t & Hn & Ht)]; [exists []; split; [constructor|auto]|].
  destruct (ascii_dec c NUL) as [->|N]; [exists []; split; [constructor|right; exists s; auto]|].
  exists (c :: t). split; [constructor; auto|]. destruct Ht as [->|(r & ->)]; [now left|right; exists r; auto].
Qed.
Lemma seen_cs s t : seen_as (s ++ [NUL]) t -> exists st, map Some (s ++ [NUL]) = cs t ++ map (@Some ascii) st.
Proof.
  intros (Hn & [E|(r & E)]).
  - exfalso. rewrite <- E in Hn. apply no_nul_app in Hn as [_ Hn]. inv Hn. congruence.
  - exists r. rewrite E. unfold cs. now rewrite map_app, <- app_assoc.
Qed.
Lemma zbuf_len b : zbuf b -> len b = 1024.
Proof. intros (s & -> & Hs). unfold len. rewrite map_length, app_length, Hs. reflexivity. Qed.
Lemma zbuf_from b k : zbuf b -> (k <= 1023)%nat -> exists t st, from b (Z.of_nat k) = cs t ++ map Some st /\ no_nul t /\ len t <= 1023 - Z.of_nat k.
Proof.
  intros (s & -> & Hs) Hk. assert (E : from (map Some (s ++ [NUL])) (Z.of_nat k) = map (@Some ascii) (skipn k s ++ [NUL])).
  { rewrite <- (firstn_skipn k s) at 1. rewrite <- app_assoc, map_app. apply from_app.
    unfold len. rewrite map_length, firstn_length. f_equal. lia. }
  destruct (seen_exists (skipn k s ++ [NUL])) as (t & Ht). destruct (seen_cs _ _ Ht) as (st & Es). exists t, st.
  rewrite E. split; [exact Es|]. split; [apply Ht|].
  apply (f_equal (@length _)) in Es. rewrite map_length, !app_length, map_length, cs_length, skipn_length in Es. cbn in Es. unfold len. lia.
Qed.
Lemma zbuf_view b : zbuf b -> exists t st, b = cs t ++ map Some st /\ no_nul t /\ len t <= 1023.
Proof. intros Hz. destruct (zbuf_from b 0 Hz ltac:(lia)) as (t & st & E & H). exists t, st. split; [|exact H]. rewrite <- E. apply zbuf_len in Hz. unfold from. cbn [Z.of_nat]. rewrite Hz. reflexivity. Qed.
Lemma cs_of_zbuf t st : zbuf (cs t ++ st) -> no_nul t -> len t <= 1023.
Proof.
  intros Hz Ht. apply zbuf_len in Hz. rewrite len_app, len_cs in Hz. pose proof (len_nonneg _ st). lia.
Qed.

(** Reading a line into it. *)
Lemma zbuf_line b l s rest t : zbuf b -> line_of 1024 s l rest -> seen_as l t ->
  exists b', get_line s b 1024 = Ok (len l, b', rest) /\ zbuf b' /\ exists st, b' = cs t ++ map Some st.
Proof.
  intros Hz Hl Ht. pose proof (zbuf_len _ Hz) as Lb. pose proof Hl as (_ & Hle & _).
  rewrite (get_line_eq 1024 s l rest b Hl) by lia. destruct Hz as (x & -> & Hx). eexists. split; [reflexivity|].
  assert (Ll : (length l <= 1023)%nat) by (unfold len in Hle; lia).
  split.
  - destruct (Nat.eq_dec (length l) 1023) as [E|N].
    + exists l. split; [|exact E]. rewrite skipn_all2 by (rewrite map_length, app_length; cbn; lia). rewrite app_nil_r.
      unfold cs. now rewrite map_app.
    + exists (l ++ NUL :: skipn (S (length l)) x). split.
      * rewrite skipn_map, skipn_app. replace (S (length l) - length x)%nat with O by lia. change (skipn 0 [NUL]) with [NUL].
        unfold cs. rewrite !map_app. cbn [map]. now rewrite <- !app_assoc.
      * rewrite app_length. cbn [length]. rewrite skipn_length. lia.
  - destruct Ht as (Hn & [<-|(r & ->)]).
    + exists (skipn (S (length l)) (x ++ [NUL])). now rewrite skipn_map.
    + exists (r ++ NUL :: skipn (S (length (t ++ NUL :: r))) (x ++ [NUL])). rewrite skipn_map. unfold cs.
      rewrite !map_app. cbn [map]. rewrite <- !app_assoc. reflexivity.
Qed.
Lemma calloc_zbuf : zbuf (calloc 1024).
Proof. exists (repeat NUL 1023). split; [vm_compute; reflexivity|apply repeat_length]. Qed.

Lemma strcasestr_inv s p n : strcasestr s p = Some n -> exists a b, ci_cut p s a b /\ length a = n.
Proof.
  unfold strcasestr. intros E. apply strstr_some in E as ((x & y & S & Hx) & Min).
  apply map_app_inv in S as (a1 & b1 & S1 & A1 & B1). apply map_app_inv in B1 as (q1 & b2 & -> & Q1 & B2).
  assert (Ha : length a1 = n) by (rewrite <- Hx, <- A1; now rewrite map_length).
  exists a1, b2. split; [|exact Ha]. exists q1. split; [exact S1|]. split; [now apply ci_equal_lower|].
  intros a' q' b' E' Q'. specialize (Min (map tolower a') (map tolower b')). rewrite map_length in Min.
  assert (n <= length a')%nat; [|unfold len; lia]. apply Min. rewrite E', !map_app. do 2 f_equal. now apply ci_equal_lower.
Qed.

(** ** One header line *)
Lemma rtrim_total t st sep : no_nul t -> exists a, rtrim (cs t ++ st) sep = Ok a.
Proof.
  intros Hn. destruct (in_dec ascii_dec sep t) as [I|N]; [|eexists; now apply rtrim_none].
  assert (exists a b, first_cut sep t a b) as (a & b & H).
  { clear Hn. induction t as [|c t IH]; [destruct I|]. destruct (ascii_dec c sep) as [->|N]; [exists [], t; split; [reflexivity|intros []]|].
    destruct I as [->|I]; [congruence|]. destruct (IH I) as (a & b & -> & H). exists (c :: a), b. split; [reflexivity|].
    intros [->|Q]; auto. }
  eexists. now apply (rtrim_cut t sep a b).
Qed.
Lemma zbuf_starts b p : zbuf b -> no_nul p -> exists r, startswith b p = Ok r.
Proof. intros Hz Hp. destruct (zbuf_view b Hz) as (t & st & -> & Hn & _). destruct (startswith_eq t (map Some st) p) as (r & E & _); auto. eauto. Qed.
Lemma type_total b x : zbuf b -> exists y, take_content_type b x = Ok y.
Proof.
  intros Hz. unfold take_content_type. destruct (zbuf_starts b (L "Content-Type:") Hz) as (r & ->); [apply no_nul_dec_b; reflexivity|]. cbn [bind].
  destruct r; [|eauto]. destruct (zbuf_from b 14 Hz ltac:(lia)) as (u & su & Eu & Nu & _).
  change (Z.of_nat 14) with 14 in Eu. rewrite Eu. destruct (rtrim_total u (map Some su) ";"%char Nu) as (a & Ea). rewrite Ea. cbn [bind]. eauto.
Qed.
Lemma length_total b x : zbuf b -> exists y, take_length b x = Ok y.
Proof.
  intros Hz. unfold take_length. destruct (zbuf_starts b (L "Content-Length:") Hz) as (r & ->); [apply no_nul_dec_b; reflexivity|]. cbn [bind].
  destruct r; [|eauto]. destruct (zbuf_from b 16 Hz ltac:(lia)) as (u & su & Eu & Nu & _).
  change (Z.of_nat 16) with 16 in Eu. rewrite Eu, cstr_cs by auto. cbn [bind]. eauto.
Qed.
Lemma boundary_total t st x : no_nul t ->
  (exists y, take_boundary (cs t ++ st) x = Ok y)
  \/ (undefined (take_boundary (cs t ++ st) x) /\ ci_prefix form_data t /\ exists a b, ci_cut (L "boundary=") t a b /\ 98 <= len b).
Proof.
  intros Hn. destruct (startswith_eq t st form_data) as (r & E & Hr); [auto|apply no_nul_dec_b; reflexivity|].
  destruct (strcasestr t (L "boundary=")) as [n|] eqn:F.
  - destruct (strcasestr_inv _ _ _ F) as (a & b & Hc & _). destruct r.
    + assert (P : ci_prefix form_data t) by now apply Hr. destruct (Z_le_dec 98 (len b)) as [G|G].
      * right. split; [exists OobWrite; eapply take_boundary_oob; eauto|]. split; [exact P|]. exists a, b. auto.
      * left. destruct (exists_trimmed (L "--" ++ b)) as (y & Hy). exists y. apply take_boundary_eq; auto.
        right. split; [exact P|]. exists a, b. split; [exact Hc|]. split; [lia|exact Hy].
    + left. exists x. unfold take_boundary. change (L "Content-Type: multipart/form-data") with form_data. now rewrite E.
  - left. exists x. unfold take_boundary. change (L "Content-Type: multipart/form-data") with form_data. rewrite E. cbn [bind].
    destruct r; [|reflexivity]. rewrite cstr_cs by auto. cbn [bind]. now rewrite F.
Qed.
Lemma strncpy_24 t st : no_nul t -> exists d, strncpy (calloc 26) (cs t ++ st) 24 = Ok d /\ cstr d = Ok (firstn 24 t).
Proof.
  intros Nt. unfold strncpy. change (Z.to_nat 24) with 24%nat. rewrite cstrn_cs by auto. cbn [bind].
  rewrite write_at_0.
  2:{ rewrite len_app, len_map, len_repeat, len_firstn, len_calloc, firstn_length. unfold len. lia. }
  eexists. split; [reflexivity|]. unfold calloc. change (Z.to_nat 26) with 26%nat.
  rewrite <- (app_nil_r (skipn _ _)). rewrite cstr_map_pad; [reflexivity|now apply no_nul_firstn|].
  rewrite app_length, map_length, repeat_length, firstn_length. lia.
Qed.
Lemma real_ip_start t : ci_prefix (L "X-Real-IP:") t -> exists c r, t = c :: r /\ ~ blank c.
Proof.
  intros P. destruct P as (h & r & -> & Hh). destruct h as [|c h]; [inversion Hh|]. exists c, (h ++ r). split; [reflexivity|].
  destruct (real_ip_edges (c :: h) Hh) as [H _]. eapply H. reflexivity.
Qed.

Lemma zbuf_cut x c y : zbuf (map Some (x ++ c :: y)) -> y <> [] -> zbuf (map Some (x ++ NUL :: y)).
Proof.
  intros (s & E & Hs) Hy. destruct (exists_last Hy) as (y' & d & ->).
  assert (E' : x ++ c :: y' ++ [d] = s ++ [NUL]).
  { apply (f_equal (map (fun o : option ascii => match o with Some a => a | None => NUL end))) in E. rewrite !map_map, !map_id in E. exact E. }
  assert (E2 : (x ++ c :: y') ++ [d] = s ++ [NUL]) by (rewrite <- E', <- app_assoc; reflexivity).
  apply app_inj_tail in E2 as [<- ->]. exists (x ++ NUL :: y'). split; [rewrite <- app_assoc; reflexivity|].
  rewrite app_length in *. exact Hs.
Qed.
Lemma ip_total t st x : zbuf (cs t ++ map Some st) -> no_nul t -> exists y t1 st1,
  take_ip (cs t ++ map Some st) x = Ok (y, cs t1 ++ map Some st1) /\ zbuf (cs t1 ++ map Some st1) /\ no_nul t1
  /\ (t1 = t \/ (ci_prefix (L "X-Real-IP:") t /\ ci_prefix (L "X-Real-IP:") t1)).
Proof.
  intros Hz Hn. unfold take_ip. sw r Hr. destruct r; [|exists x, t, st; auto].
  assert (P : ci_prefix (L "X-Real-IP:") t) by now apply Hr. destruct (real_ip_start t P) as (c & q & Et & Hc).
  destruct (exists_trimmed t) as (u & l0 & r & E & Hl0 & Hrb & He).
  assert (l0 = []) as ->.
  { destruct l0 as [|y l0]; [reflexivity|]. rewrite Et in E. injection E as <- _. inv Hl0. contradiction. }
  cbn [app] in E.
  assert (Hu : u <> []).
  { intros ->. cbn [app] in E. subst r. rewrite Et in Hrb. inv Hrb. contradiction. }
  assert (Pu : ci_prefix (L "X-Real-IP:") u).
  { destruct P as (h & rest & Eh & Hh). rewrite E in Eh. apply app_eq_app in Eh as (m & [(E1 & E2)|(E1 & E2)]).
    - exists h, m. auto.
    - destruct m as [|y m]; [exists h, []; rewrite app_nil_r in *; subst; auto|].
      exfalso. pose proof (real_ip_edges h Hh) as [_ H2]. destruct (@exists_last _ (y :: m) ltac:(discriminate)) as (m' & d & Em).
      rewrite Em in *. apply (H2 (u ++ m') d); [now rewrite E1, app_assoc|]. rewrite E2 in Hrb.
      apply Forall_app in Hrb as [Hrb _]. apply Forall_app in Hrb as [_ Hrb]. now inv Hrb. }
  assert (Nu : no_nul u) by (rewrite E in Hn; apply no_nul_app in Hn; tauto).
  assert (T : exists st1, trim (cs t ++ map Some st) = Ok (cs u ++ map Some st1) /\ zbuf (cs u ++ map Some st1)).
  { destruct r as [|d r].
    - rewrite app_nil_r in E. subst u. exists st. split; [now apply trim_fixed|exact Hz].
    - exists (r ++ NUL :: st). rewrite E. rewrite trim_right by auto. split.
      + do 2 f_equal. unfold cs. rewrite map_app. cbn [map]. now rewrite <- app_assoc.
      + assert (A : cs t ++ map Some st = map Some (u ++ d :: (r ++ NUL :: st))).
        { rewrite E. unfold cs. rewrite !map_app. cbn [map]. rewrite !map_app. cbn [map]. rewrite <- !app_assoc. reflexivity. }
        rewrite A in Hz. apply zbuf_cut in Hz; [|destruct r; discriminate].
        replace (cs u ++ map Some (r ++ NUL :: st)) with (map Some (u ++ NUL :: (r ++ NUL :: st))); [exact Hz|].
        unfold cs. rewrite map_app. cbn [map]. now rewrite <- app_assoc. }
  destruct T as (st1 & T & Z1). rewrite T. cbn [bind].
  destruct (zbuf_from _ 11 Z1 ltac:(lia)) as (w & sw & Ew & Nw & _). change (Z.of_nat 11) with 11 in Ew. rewrite Ew.
  destruct (strncpy_24 w (map Some sw) Nw) as (d & -> & Ed). cbn [bind]. rewrite Ed. cbn [bind].
  exists (firstn 24 w), u, st1. auto 8.
Qed.

Lemma session_total t st b s : no_nul t -> holds_session b s ->
  (exists b' s', take_session (cs t ++ st) b = Ok b' /\ holds_session b' s')
  \/ (undefined (take_session (cs t ++ st) b) /\ session_line t /\ 74 <= len t).
Proof.
  intros Hn Hb. destruct (session_header t st Hn) as (r & E & Hr). destruct r.
  - assert (S : session_line t) by now apply Hr. assert (exists u, tail_at 10 t u /\ len t = 10 + len u) as (u & Hu & Lu).
    { destruct S as [P|P]; apply ci_prefix_len in P; [change (len (L "X-Session:")) with 10 in P|change (len (L "Authorization:")) with 14 in P];
        exists (skipn 10 t); (split; [exists (firstn 10 t); split; [now rewrite firstn_skipn|]; rewrite firstn_length; unfold len in P; lia|]);
        rewrite len_skipn; unfold len in *; lia. }
    destruct Hb as (j & Eb & Ns & Lb). destruct (Z_le_dec 64 (len u)) as [G|G].
    + right. split; [exists OobRead; eapply take_session_oob; eauto|]. split; [exact S|lia].
    + left. destruct (exists_trimmed u) as (s' & Hs'). destruct (take_session_new t st b u s' Hn S Hu ltac:(lia) Hs' Lb) as (b' & E' & H').
      eauto.
  - left. exists b, s. split; [|exact Hb]. unfold take_session. now rewrite E.
Qed.
Lemma cookie_total b sess s : zbuf b -> holds_session sess s -> exists sess' s', take_cookie b sess = Ok sess' /\ holds_session sess' s'.
Proof.
  intros Hz Hb. unfold take_cookie. destruct (zbuf_starts b (L "Cookie:") Hz) as (r & ->); [apply no_nul_dec_b; reflexivity|]. cbn [bind].
  destruct r; [|eauto]. destruct (session_first _ _ Hb) as (c & -> & Hc). cbn [bind]. destruct (ceq c NUL); [|eauto].
  destruct (zbuf_from b 18 Hz ltac:(lia)) as (u & su & Eu & Nu & _). change (Z.of_nat 18) with 18 in Eu. rewrite Eu, cstr_cs by auto. cbn [bind].
  unfold MAX_SESSION. destruct (len u <? 64) eqn:G; [|eauto]. destruct Hb as (j & -> & _ & Lb).
  rewrite strcpy_0 by lia. eexists _, u. split; [reflexivity|]. eexists. split; [reflexivity|]. split; [auto|].
  unfold len in *. rewrite app_length, cs_length, skipn_length. lia.
Qed.

(** What the header loop's state holds. *)
Definition zrep (h : hstate) (fs : list (str * str)) : Prop :=
  hs_headers h = map stored (firstn 20 fs) /\ Forall (fun nv => no_nul (fst nv) /\ no_nul (snd nv)) fs
  /\ exists s, holds_session (hs_session h) s.

Lemma tells_exists t : exists new, tells_fields t [] new.
Proof.
  destruct (in_dec ascii_dec ":"%char t) as [I|N]; [|exists []; left; auto].
  assert (exists a b, first_cut ":" t a b) as (a & b & H).
  { induction t as [|c t IH]; [destruct I|]. destruct (ascii_dec c ":"%char) as [->|N]; [exists [], t; split; [reflexivity|intros []]|].
    destruct I as [->|I]; [congruence|]. destruct (IH I) as (a & b & -> & H). exists (c :: a), b. split; [reflexivity|]. intros [->|Q]; auto. }
  destruct (exists_trimmed a) as (n & Hna). destruct (exists_trimmed b) as (v & Hv).
  exists [(n, v)]. right. exists (n, v). split; [exists a, b; auto|reflexivity].
Qed.
Lemma tells_after t new fs : tells_fields t [] new -> tells_fields t fs (fs ++ new).
Proof. intros [(H & ->)|(nv & H & ->)]; [left; split; [auto|now rewrite app_nil_r]|right; exists nv; auto]. Qed.

Lemma header_line_total h t st fs new : hs_buf h = cs t ++ map Some st -> zbuf (hs_buf h) -> no_nul t -> zrep h fs -> tells_fields t [] new ->
  (bad_line t /\ undefined (header_line h))
  \/ (~ bad_line t /\ exists h', header_line h = Ok h' /\ zbuf (hs_buf h') /\ zrep h' (fs ++ new) /\ hs_stream h' = hs_stream h).
Proof.
  intros Eb Hz Hn (R1 & R2 & s & R3) T. pose proof Hz as Hz0. rewrite Eb in Hz0. pose proof (cs_of_zbuf _ _ Hz0 Hn) as Ll.
  unfold header_line. destruct (type_total _ (hs_content_type h) Hz) as (ct & Ect). destruct (length_total _ (hs_length h) Hz) as (cl & Ecl).
  rewrite Ect, Ecl, Eb, R1. rewrite (store_header_eq t _ _ _ Hn Ll (tells_after _ _ _ T)). cbn [bind].
  destruct (boundary_total t (map Some st) (hs_boundary h) Hn) as [(bd & Ebd)|((e & Ebd) & B)].
  2:{ left. split; [right; exact B|]. rewrite Ebd. exists e. reflexivity. }
  rewrite Ebd. cbn [bind]. destruct (ip_total t st (hs_ip h) Hz0 Hn) as (ip & t1 & st1 & Eip & Z1 & N1 & D). rewrite Eip. cbn [bind].
  assert (NB : ~ (ci_prefix form_data t /\ exists a b, ci_cut (L "boundary=") t a b /\ 98 <= len b)).
  { intros (P & a & b & Hc & G). rewrite (take_boundary_oob t (map Some st) _ a b Hn P Hc G) in Ebd. discriminate. }
  assert (SL : session_line t /\ 74 <= len t <-> session_line t1 /\ 74 <= len t1).
  { destruct D as [->|(P & P1)]; [tauto|]. assert (Dj : forall l, ci_prefix (L "X-Real-IP:") l -> ~ session_line l).
    { intros l Q [S|S]; (eapply ci_differ; [|exact Q|eassumption]); reflexivity. }
    split; intros [Q _]; exfalso; [exact (Dj t P Q)|exact (Dj t1 P1 Q)]. }
  destruct (session_total t1 (map Some st1) (hs_session h) s N1 R3) as [(s1 & v1 & Es & H1)|((e & Es) & S1)].
  2:{ left. split; [left; apply SL, S1|]. rewrite Es. exists e. reflexivity. }
  rewrite Es. cbn [bind]. destruct (cookie_total _ s1 v1 Z1 H1) as (s2 & v2 & Ec & H2). rewrite Ec. cbn [bind].
  right. split.
  - intros [Q|Q]; [|contradiction]. apply SL in Q as [Q1 Q2].
    assert (exists u, tail_at 10 t1 u /\ 64 <= len u) as (u & Hu & Lu).
    { exists (skipn 10 t1). split; [exists (firstn 10 t1); split; [now rewrite firstn_skipn|]; rewrite firstn_length; unfold len in Q2; lia|].
      rewrite len_skipn. unfold len in *. lia. }
    destruct R3 as (j & _ & _ & Lb). rewrite (take_session_oob t1 (map Some st1) _ u N1 Q1 Hu Lu Lb) in Es. discriminate.
  - eexists. split; [reflexivity|]. cbn [hs_buf hs_stream]. split; [exact Z1|]. split; [|reflexivity].
    split; [reflexivity|]. split; [|exists v2; exact H2]. apply Forall_app. split; [exact R2|].
    destruct T as [(_ & ->)|(nv & Hf & ->)]; [constructor|]. cbn [app]. constructor; [|constructor].
    destruct (field_facts _ _ Hn Hf) as (? & ? & _). auto.
Qed.

(** ** All header lines *)
Lemma blank_seen l t : seen_as l t -> (exists s rest, line_of 1024 s l rest) -> (blank_line t <-> blank_line l).
Proof.
  intros (Hn & [->|(r & E)]) (s & rest & _ & _ & Hl); [tauto|]. subst l. split.
  - intros Hb. exfalso. assert (I : In LF t) by (destruct Hb as [-> | ->]; [now left|right; now left]).
    destruct Hl as [(l' & El & Nl)|(Nl & _)]; [|apply Nl, in_or_app; auto].
    destruct (@exists_last _ (NUL :: r) ltac:(discriminate)) as (r' & d & Er). rewrite Er, app_assoc in El.
    apply app_inj_tail in El as [<- _]. apply Nl, in_or_app. auto.
  - intros [E|E]; exfalso; assert (I : In NUL (t ++ NUL :: r)) by (apply in_or_app; right; now left); rewrite E in I; cbn in I; intuition discriminate.
Qed.
Lemma first_line_unique s l rest l' rest' : line_of 1024 s l rest -> line_of 1024 s l' rest' -> l' = l /\ rest' = rest.
Proof. intros A B. destruct (line_of_unique _ _ _ _ _ _ A B) as [-> ->]. auto. Qed.
Lemma bad_at_blank s l rest : line_of 1024 s l rest -> blank_line l -> ~ bad_headers s.
Proof. intros Hl Hb B. inv B; match goal with H : line_of _ _ _ _ |- _ => destruct (first_line_unique _ _ _ _ _ Hl H) as [-> ->] end; contradiction. Qed.
Lemma bad_line_nil : ~ bad_line [].
Proof. intros [(_ & H)|(P & _)]; [cbn in H; lia|]. apply ci_prefix_len in P. cbn in P. lia. Qed.
Lemma bad_at_end : ~ bad_headers [].
Proof.
  assert (E : line_of 1024 [] [] []) by (split; [reflexivity|split; [cbn; lia|right; split; [easy|auto]]]).
  assert (G : forall s, bad_headers s -> s <> []).
  { induction 1 as [s l rest t Hl Hb Ht B|s l rest Hl Hb B IH]; intros ->; destruct (first_line_unique _ _ _ _ _ E Hl) as [-> ->].
    - destruct Ht as (_ & [<-|(r & Er)]); [now apply bad_line_nil|destruct t; discriminate Er].
    - now apply IH. }
  intros B. now apply (G [] B).
Qed.
Lemma bad_cases s l rest t : line_of 1024 s l rest -> seen_as l t -> ~ blank_line l -> (bad_headers s <-> bad_line t \/ bad_headers rest).
Proof.
  intros Hl Ht Hb. split.
  - intros B. inv B; match goal with H : line_of _ _ _ _ |- _ => destruct (first_line_unique _ _ _ _ _ Hl H) as [-> ->] end; auto.
    left. match goal with H : seen_as _ ?x, B : bad_line ?x |- _ => apply upto_seen in H; apply upto_seen in Ht; rewrite <- Ht, H; exact B end.
  - intros [B|B]; [eapply bh_here; eauto|eapply bh_later; eauto].
Qed.

Lemma header_loop_total : forall fuel s b h n fs, get_line s b 1024 = Ok (n, hs_buf h, hs_stream h) -> zbuf b -> (length s <= fuel)%nat -> zrep h fs ->
  (bad_headers s /\ undefined (header_loop fuel n h))
  \/ (~ bad_headers s /\ exists h' more, header_loop fuel n h = Ok h' /\ headers s more /\ zrep h' (fs ++ more)).
Proof.
  induction fuel as [fuel IH] using (well_founded_induction lt_wf). intros s b h n fs G Hz Hf R.
  destruct (line_of_exists 1024 ltac:(lia) s) as (l & rest & Hl). destruct (seen_exists l) as (t & Ht).
  destruct (zbuf_line b l s rest t Hz Hl Ht) as (b' & G' & Z' & st & Eb). rewrite G in G'.
  assert (Gn : n = len l) by congruence. assert (Gb : hs_buf h = b') by congruence. assert (Gs : hs_stream h = rest) by congruence.
  clear G G'. subst n. pose proof Hl as (Es & _ & _). destruct s as [|c0 s0].
  { right. split; [apply bad_at_end|]. symmetry in Es. apply app_eq_nil in Es as [-> ->]. exists h, []. rewrite app_nil_r.
    split; [destruct fuel; reflexivity|]. split; [constructor|exact R]. }
  assert (P : 0 < len l).
  { pose proof (line_of_nonempty 1024 _ _ _ ltac:(lia) Hl ltac:(discriminate)). destruct l; [easy|]. rewrite len_cons. lens. lia. }
  destruct fuel as [|fuel]; [cbn in Hf; lia|]. cbn [header_loop]. replace (0 <? len l) with true by lia.
  assert (Nt : no_nul t) by apply Ht.
  rewrite Gb, Eb, !strcmp_lit by (auto; apply no_nul_dec_b; reflexivity). cbn [bind].
  pose proof (blank_seen l t Ht (ex_intro _ _ (ex_intro _ _ Hl))) as BS.
  destruct (str_eqb [LF] t) eqn:B1.
  { apply str_eqb_eq in B1. assert (B : blank_line l) by (apply BS; left; auto). right. split; [eapply bad_at_blank; eauto|].
    exists h, []. rewrite app_nil_r. split; [reflexivity|]. split; [eapply hd_blank; eauto|exact R]. }
  destruct (str_eqb CRLF t) eqn:B2.
  { apply str_eqb_eq in B2. assert (B : blank_line l) by (apply BS; right; auto). right. split; [eapply bad_at_blank; eauto|].
    exists h, []. rewrite app_nil_r. split; [reflexivity|]. split; [eapply hd_blank; eauto|exact R]. }
  assert (NB : ~ blank_line l).
  { intros B. apply BS in B as [-> | ->]; [rewrite str_eqb_refl in B1|rewrite str_eqb_refl in B2]; discriminate. }
  pose proof (bad_cases _ _ _ _ Hl Ht NB) as BC. destruct (tells_exists t) as (new & Hnew).
  rewrite <- Gb in Eb. rewrite <- Gb in Z'.
  destruct (header_line_total h t st fs new Eb Z' Nt R Hnew) as [(B & e & E)|(B & h1 & E & Z1 & R1 & St)].
  { left. split; [apply BC; auto|]. rewrite E. exists e. reflexivity. }
  rewrite E. cbn [bind]. rewrite St, Gs. destruct (line_of_exists 1024 ltac:(lia) rest) as (l2 & r2 & Hl2).
  destruct (seen_exists l2) as (t2 & Ht2). destruct (zbuf_line (hs_buf h1) l2 rest r2 t2 Z1 Hl2 Ht2) as (b2 & G2 & Z2 & _).
  rewrite G2. cbn [bind].
  destruct (IH fuel ltac:(lia) rest (hs_buf h1) (mkH b2 r2 (hs_headers h1) (hs_content_type h1) (hs_boundary h1) (hs_length h1) (hs_ip h1) (hs_session h1))
    (len l2) (fs ++ new)) as [(Q & e & E2)|(Q & h' & more & E2 & Hm & R2)]; auto.
  { rewrite Es, app_length in Hf. unfold len in P. lia. }
  - left. split; [apply BC; auto|]. rewrite E2. exists e. reflexivity.
  - right. split; [intros X; apply BC in X as [X|X]; contradiction|]. exists h', (new ++ more). split; [exact E2|]. split.
    + eapply hd_line; eauto. intros ->. cbn in P. lia.
    + now rewrite app_assoc.
Qed.
Lemma headers_unique s fs : headers s fs -> forall fs', headers s fs' -> fs' = fs.
Proof.
  assert (E0 : line_of 1024 [] [] []) by (split; [reflexivity|split; [cbn; lia|right; split; [easy|auto]]]).
  assert (T : forall t a b, tells_fields t [] a -> tells_fields t [] b -> a = b).
  { intros t a b [(N & ->)|(nv & (x & y & C & X & Y) & ->)] [(N' & ->)|(nv' & (x' & y' & C' & X' & Y') & ->)]; auto.
    - destruct C' as [-> _]. elim N. apply in_or_app. right. now left.
    - destruct C as [-> _]. elim N'. apply in_or_app. right. now left.
    - assert (Q : x = x' /\ y = y').
      { destruct C as [-> N1]. destruct C' as [E' N2]. clear - E' N1 N2. revert x' E' N2. induction x as [|c x IH]; intros [|c' x'] E' N2; cbn in E'; inversion E'.
        - auto.
        - subst. elim N2. now left.
        - subst. elim N1. now left.
        - subst. destruct (IH ltac:(intros I; apply N1; now right) x' ltac:(assumption) ltac:(intros I; apply N2; now right)) as [-> ->]. auto. }
      destruct Q as [<- <-]. destruct nv as [n v], nv' as [n' v']. cbn [fst snd] in *.
      now rewrite (trimmed_unique _ _ _ X X'), (trimmed_unique _ _ _ Y Y'). }
  induction 1 as [|s l rest Hl Hb|s l rest t new fs Hl Hne Hb Ht Hn H IH]; intros fs' H'.
  - inv H'; auto. match goal with H : line_of 1024 [] _ _ |- _ => destruct (first_line_unique _ _ _ _ _ E0 H) as [-> ->] end. congruence.
  - inv H'; auto. match goal with H : line_of 1024 s _ _ |- _ => destruct (first_line_unique _ _ _ _ _ Hl H) as [-> ->] end. contradiction.
  - inv H'.
    + destruct (first_line_unique _ _ _ _ _ E0 Hl) as [-> ->]. congruence.
    + match goal with H : line_of 1024 s _ _ |- _ => destruct (first_line_unique _ _ _ _ _ Hl H) as [-> ->] end. contradiction.
    + match goal with H : line_of 1024 s _ _ |- _ => destruct (first_line_unique _ _ _ _ _ Hl H) as [-> ->] end.
      f_equal; [|now apply IH]. apply upto_seen in Ht.
      match goal with A : seen_as l ?x, B : tells_fields ?x _ _ |- _ => apply upto_seen in A; rewrite <- A in B; rewrite <- Ht in Hn; exact (T _ _ _ B Hn) end.
Qed.

(** ** The access log *)
Lemma strcmp_stored n name : no_nul n -> no_nul name -> len name <= 63 -> strcmp_eq (filled 64 n) (cs name) = Ok (str_eqb n name).
Proof.
  intros Hn Hm Hl. destruct (Z_lt_dec (len n) 64) as [G|G].
  - apply strcmp_cstr; auto. apply filled_holds; auto; lia.
  - assert (Ne : str_eqb n name = false) by (apply str_eqb_neq; intros ->; lia). rewrite Ne.
    unfold filled. replace (64 - length n)%nat with O by (unfold len in G; lia). cbn [repeat]. rewrite app_nil_r.
    assert (X : forall k (a c : str), no_nul a -> no_nul c -> (length c < k)%nat -> (k <= length a)%nat -> strcmp_eq (map Some (firstn k a)) (cs c) = Ok false).
    { clear. induction k as [|k IH]; intros a c Ha Hc H1 H2; [lia|]. destruct a as [|x a]; [cbn in H2; lia|]. apply no_nul_cons in Ha as [Hx Ha].
      cbn [firstn map]. destruct c as [|y c]; cbn [cs map app strcmp_eq].
      - now rewrite ceq_neq by auto.
      - destruct (ceq x y); [|reflexivity]. rewrite ceq_neq by auto. apply no_nul_cons in Hc as [_ Hc]. apply IH; auto; cbn in *; lia. }
    apply X; auto; unfold len in *; lia.
Qed.
Definition long_value (fl : list (str * str)) (name : str) : Prop :=
  exists a v b, fl = a ++ (name, v) :: b /\ ~ In name (map fst a) /\ 256 <= len v.
Lemma header_total fl name : Forall (fun nv => no_nul (fst nv) /\ no_nul (snd nv)) fl -> no_nul name -> len name <= 63 ->
  (long_value fl name /\ undefined (get_header_loop (map stored fl) name))
  \/ (~ long_value fl name /\ exists v, get_header_loop (map stored fl) name = Ok v).
Proof.
  intros F Hn Hl. induction F as [|(n, v) fl (N1 & N2) F IH].
  { right. split; [intros (a & v & b & E & _); destruct a; discriminate E|exists []; reflexivity]. }
  cbn [fst snd] in *. cbn [map get_header_loop stored h_name h_value fst snd]. rewrite strcmp_stored by auto. cbn [bind].
  destruct (str_eqb n name) eqn:E.
  - apply str_eqb_eq in E. subst n. destruct (Z_lt_dec (len v) 256) as [G|G].
    + right. split; [|exists v; apply filled_holds; auto; lia].
      intros (a & w & b & Ea & Na & Lw). destruct a as [|(x, y) a]; [injection Ea as -> _; lia|].
      injection Ea as -> _ _. apply Na. now left.
    + left. split; [exists [], v, fl; split; [reflexivity|split; [intros []|lia]]|]. exists OobRead. apply filled_long; auto. lia.
  - apply str_eqb_neq in E. assert (X : long_value ((n, v) :: fl) name <-> long_value fl name).
    { split; intros (a & w & b & Ea & Na & Lw).
      - destruct a as [|(x, y) a]; [injection Ea as -> _ _; congruence|]. injection Ea as -> -> Ea.
        exists a, w, b. split; [exact Ea|]. split; [intros I; apply Na; now right|exact Lw].
      - exists ((n, v) :: a), w, b. split; [now rewrite Ea|]. split; [intros [I|I]; auto|exact Lw]. }
    destruct IH as [(H & U)|(H & v' & U)]; [left|right]; rewrite X; eauto.
Qed.
Lemma long_logged_cases fs : long_logged fs <-> long_value (firstn 20 fs) (L "Referer") \/ long_value (firstn 20 fs) (L "User-Agent").
Proof.
  split.
  - intros (name & a & v & b & [<-|[<-|[]]] & H); [left|right]; exists a, v, b; exact H.
  - intros [(a & v & b & H)|(a & v & b & H)]; [exists (L "Referer")|exists (L "User-Agent")]; exists a, v, b; (split; [cbn [In]; auto|exact H]).
Qed.
Lemma log_total r fs st : r_headers r = map stored (firstn 20 fs) -> Forall (fun nv => no_nul (fst nv) /\ no_nul (snd nv)) fs ->
  (long_logged fs /\ undefined (log_access r st)) \/ (~ long_logged fs /\ exists r', log_access r st = Ok r').
Proof.
  intros E F. assert (F' : Forall (fun nv => no_nul (fst nv) /\ no_nul (snd nv)) (firstn 20 fs)).
  { apply Forall_forall. intros y Hy. rewrite Forall_forall in F. apply F. rewrite <- (firstn_skipn 20 fs). apply in_or_app. now left. }
  rewrite long_logged_cases. unfold log_access, http_get_header. rewrite E.
  destruct (header_total _ (L "Referer") F') as [(H & e & U)|(H & v & U)]; [apply no_nul_dec_b; reflexivity|vm_compute; discriminate| |].
  { left. split; [auto|]. rewrite U. exists e. reflexivity. }
  rewrite U. cbn [bind].
  destruct (header_total _ (L "User-Agent") F') as [(H2 & e & U2)|(H2 & v2 & U2)]; [apply no_nul_dec_b; reflexivity|vm_compute; discriminate| |].
  { left. split; [auto|]. rewrite U2. exists e. reflexivity. }
  rewrite U2. cbn [bind]. right. split; [tauto|eauto].
Qed.

(** ** The answers *)
Lemma bad_request_total r fs : r_headers r = map stored (firstn 20 fs) -> Forall (fun nv => no_nul (fst nv) /\ no_nul (snd nv)) fs ->
  (long_logged fs /\ undefined (bad_request r)) \/ (~ long_logged fs /\ exists r', bad_request r = Ok r').
Proof.
  intros E F. unfold bad_request. rewrite (send_status_unfold r 400 (L "HTTP/1.1 400 Bad Request") []) by (vm_compute; tauto).
  rewrite fits_ok by (vm_compute; discriminate). cbn [bind]. apply log_total; auto.
Qed.
Lemma status_plain r st line : supported st line -> len (line ++ CRLF ++ server ++ CRLF ++ L "Content-Length: 0" ++ CRLF) <= 1023 ->
  r_headers r = [] -> exists r', send_http_status r st [] = Ok r'.
Proof.
  intros S Hl E. rewrite (send_status_unfold r st line []) by auto. rewrite fits_ok by lia. cbn [bind].
  unfold log_access, http_get_header. cbn [after r_headers set_response_length prints]. unfold after, prints. cbn [set_response_length r_headers]. rewrite E. cbn [get_header_loop bind]. eauto.
Qed.
Lemma file_total f r fs name content sess : r_headers r = map stored (firstn 20 fs) -> Forall (fun nv => no_nul (fst nv) /\ no_nul (snd nv)) fs ->
  f name = Some (File content) -> len content <= 2 ^ 31 - 2048 -> cstr (r_session r) = Ok sess -> len sess <= 493 ->
  (long_logged fs /\ undefined (direct_file f r name)) \/ (~ long_logged fs /\ exists r', direct_file f r name = Ok (0, r')).
Proof.
  intros E F Hf Hc Hs Hl. pose proof (header_sends_len name sess Hl) as Hh. unfold direct_file, is_file. rewrite Hf. cbn [negb].
  rewrite (return_headers_eq r name sess) by auto. cbn [bind]. unfold return_file. rewrite Hf.
  pose proof (len_nonneg _ (concat (header_sends name sess))). pose proof (len_nonneg _ content).
  replace (int_max <? len content) with false by (unfold int_max; lia). cbn [bind].
  rewrite int_add_ok by lia. cbn [bind].
  destruct (log_total (set_response_length (http_print (prints r (header_sends name sess)) content) (len (concat (header_sends name sess)) + len content)) fs 200)
    as [(A & e & U)|(A & r' & U)]; auto; rewrite U; [left|right]; (split; [exact A|]); [exists e; reflexivity|exists r'; reflexivity].
Qed.
Lemma target_exists v junk path : junk <> [] -> exists p, static_target v junk path p.
Proof.
  intros Hj. destruct (in_dec (list_eq_dec ascii_dec) path [L "/"; L "/index.html"]) as [I|N]; [eexists; now apply st_index|].
  destruct (list_eq_dec ascii_dec path (L "/favicon.ico")) as [->|N2]; [eexists; apply st_favicon|].
  assert (N3 : ~ In path [L "/"; L "/index.html"; L "/favicon.ico"]) by (cbn [In] in *; intuition congruence).
  destruct (exists_last Hj) as (j & c & ->). destruct (ascii_dec c "/"%char) as [->|Nc]; eexists; [eapply st_slash; eauto|eapply st_plain; eauto].
Qed.
Lemma target_unique v junk path p p' : static_target v junk path p -> static_target v junk path p' -> p = p'.
Proof.
  intros A B. destruct A as [q I| |q j N J|q j c N J C]; inversion B as [q' I' E1 E2|E1 E2|q' j' N' J' E1 E2|q' j' c' N' J' C' E1 E2]; subst; auto;
    try (exfalso; cbn [In] in *; intuition (try congruence; try discriminate); fail).
  - exfalso. apply app_inj_tail in J' as [_ <-]. now apply C'.
  - exfalso. apply app_inj_tail in J' as [_ ->]. now apply C.
Qed.
Lemma target_len v junk path p : static_target v junk path p -> len path <= 254 -> len (v_index v) <= 264 -> len (v_favicon v) <= 264 -> len p <= 264.
Proof. intros H. destruct H; intros; auto; [rewrite len_app; change (len (L "index.html")) with 10; lia|lia]. Qed.
Lemma is_file_dec (f : fs) name : (exists c, f name = Some (File c)) \/ (forall c, f name <> Some (File c)).
Proof. destruct (f name) as [[c|]|]; [left; eauto|right; discriminate|right; discriminate]. Qed.

Lemma static_total v f r fs junk sess : r_headers r = map stored (firstn 20 fs) -> Forall (fun nv => no_nul (fst nv) /\ no_nul (snd nv)) fs ->
  cstr (r_session r) = Ok sess -> len sess <= 493 -> cstr (v_stk v) = Ok junk -> junk <> [] -> len (r_path r) <= 254 ->
  len (v_static_root v) <= 758 -> len (v_index v) <= 264 -> len (v_favicon v) <= 264 ->
  (forall name content, f name = Some (File content) -> len content <= 2 ^ 31 - 2048) ->
  (found v f junk (r_path r) /\ long_logged fs /\ undefined (handle_static_routes v f r))
  \/ (~ (found v f junk (r_path r) /\ long_logged fs) /\ exists r', handle_static_routes v f r = Ok r').
Proof.
  intros E F Hs Hsl Hj Hne Hp Hr Hi Hf Hc. destruct (target_exists v junk (r_path r) Hne) as (p & Ht).
  pose proof (target_len _ _ _ _ Ht Hp Hi Hf) as Lp.
  assert (L1 : len (v_static_root v ++ L "/" ++ p) <= 1023) by (rewrite !len_app; change (len (L "/")) with 1; lia).
  assert (L2 : len (v_static_root v ++ L "/" ++ v_index v) <= 1023) by (rewrite !len_app; change (len (L "/")) with 1; lia).
  rewrite (static_eq v f r junk p Hj Ht) by lia. rewrite fits_ok by lia. cbn [bind].
  destruct (is_file_dec f (v_static_root v ++ L "/" ++ p)) as [(c & Ec)|N].
  - assert (Fd : found v f junk (r_path r)) by (exists p, (v_static_root v ++ L "/" ++ p), c; split; [auto|split; [now left|auto]]).
    destruct (file_total f (set_path r p) fs _ c sess E F Ec (Hc _ _ Ec) Hs Hsl) as [(A & e & U)|(A & r' & U)]; rewrite U; cbn [bind].
    + left. split; [exact Fd|]. split; [exact A|]. exists e. reflexivity.
    + right. split; [tauto|]. exists r'. reflexivity.
  - rewrite direct_file_missing by auto. cbn [bind]. change (-1 <? 0) with true. cbv iota. rewrite fits_ok by lia. cbn [bind].
    destruct (is_file_dec f (v_static_root v ++ L "/" ++ v_index v)) as [(c & Ec)|N2].
    + assert (Fd : found v f junk (r_path r)) by (exists p, (v_static_root v ++ L "/" ++ v_index v), c; split; [auto|split; [right; now left|auto]]).
      destruct (file_total f (set_path r p) fs _ c sess E F Ec (Hc _ _ Ec) Hs Hsl) as [(A & e & U)|(A & r' & U)]; rewrite U; cbn [bind].
      * left. split; [exact Fd|]. split; [exact A|]. exists e. reflexivity.
      * right. split; [tauto|]. exists r'. reflexivity.
    + right. rewrite direct_file_missing by auto. cbn [bind]. split; [|eauto].
      intros ((p' & name & c & Ht' & I & Ec) & _). rewrite (target_unique _ _ _ _ _ Ht' Ht) in I.
      destruct I as [<-|[<-|[]]]; [apply (N c Ec)|apply (N2 c Ec)].
Qed.

(** ** After the first line *)
Local Opaque get_line header_loop get_path_and_query_string startswith handle_static_routes handle_api_request bad_request write_at connection_add
  startswithany parse_request_line parse_url too_many_connections.
Lemma zbuf_A b : zbuf b -> exists b1, write_at b 0 [Some "A"%char; Some NUL] = Ok b1 /\ zbuf b1.
Proof.
  intros (s & -> & Hs). rewrite write_at_0 by (unfold len; rewrite map_length, app_length, Hs; cbn; lia). eexists. split; [reflexivity|].
  exists ("A"%char :: NUL :: skipn 2 s). change (length [Some "A"%char; Some NUL]) with 2%nat. rewrite skipn_map, skipn_app.
  replace (2 - length s)%nat with O by lia. split; [reflexivity|]. cbn [length]. rewrite skipn_length. lia.
Qed.

Definition rest_wrong (v : wsenv) (f : fs) (junk m u s1 : str) : Prop :=
  bad_headers s1
  \/ (exists ts, tokens (L "?") u ts /\ (ts = [] \/ 50 < len ts))
  \/ (exists p q fs, url_parts u p q /\ (~ is_get m \/ found v f junk p) /\ headers s1 fs /\ long_logged fs).

Lemma parts_unique u p q p' q' : url_parts u p q -> url_parts u p' q' -> p = p' /\ q = q'.
Proof. intros (ts & T & _ & ->) (ts' & T' & _ & ->). pose proof (tokens_unique _ _ _ _ T T') as E. injection E as -> ->. auto. Qed.
Lemma parts_len u p q : url_parts u p q -> len p <= len u.
Proof. intros (ts & T & _). inv T. rewrite !len_app. lens. lia. Qed.

Lemma rest_total v f t1 socket peer rl m url b junk s1 : zbuf b -> no_nul m -> no_nul url -> len url <= 254 -> ~ api_url url ->
  cstr (v_stk v) = Ok junk -> junk <> [] -> len (v_static_root v) <= 758 -> len (v_index v) <= 264 -> len (v_favicon v) <= 264 ->
  (forall name content, f name = Some (File content) -> len content <= 2 ^ 31 - 2048) ->
  (rest_wrong v f junk m url s1 /\ undefined (accept_rest v f t1 (req2 socket peer rl m url) m url b s1))
  \/ (~ rest_wrong v f junk m url s1 /\ exists res, accept_rest v f t1 (req2 socket peer rl m url) m url b s1 = Ok res).
Proof.
  intros Hz Nm Nu Lu Na Hj Hne Hr Hi Hf Hc. unfold accept_rest. destruct (zbuf_A b Hz) as (b1 & -> & Z1). cbn [bind].
  destruct (line_of_exists 1024 ltac:(lia) s1) as (l & rest & Hl). destruct (seen_exists l) as (t & Ht).
  destruct (zbuf_line b1 l s1 rest t Z1 Hl Ht) as (b2 & G & Z2 & _). rewrite G. cbn [bind].
  change (r_ip (req2 socket peer rl m url)) with peer.
  destruct (header_loop_total (length s1) s1 b1 (mkH b2 rest [] None [] (-1) peer (calloc MAX_SESSION)) (len l) [] G Z1 ltac:(lia))
    as [(B & e & E)|(B & h & fs & E & Hh & R1 & R2 & sess & R3)].
  { split; [reflexivity|]. split; [constructor|]. exists []. exists (calloc 63). split; [reflexivity|]. split; [constructor|]. reflexivity. }
  { left. split; [left; exact B|]. rewrite E. exists e. reflexivity. }
  rewrite E. cbn [bind]. cbn [app] in R1, R2. 
  destruct (tokens_exist (L "?") url) as (ts & T).
  destruct ts as [|p ts].
  { left. split; [right; left; exists []; auto|]. rewrite (path_query_none url) by auto. eexists. reflexivity. }
  destruct (Z_lt_dec 49 (len ts)) as [G2|G2].
  { left. split; [right; left; exists (p :: ts); split; [exact T|right; rewrite len_cons; lia]|].
    destruct (path_query_oob url p ts Nu T ltac:(auto)) as (e & U). rewrite U. eexists. reflexivity. }
  assert (P : url_parts url p (hd [] ts)) by (exists ts; split; [exact T|split; [lia|reflexivity]]).
  rewrite (url_parts_eq url p (hd [] ts)) by auto. cbn [bind]. destruct (api_eq url Nu) as (api & Ea & Ha). rewrite Ea. cbn [bind].
  destruct api; [exfalso; apply Na, Ha; reflexivity|]. cbn [negb].
  assert (NT : ~ (exists ts, tokens (L "?") url ts /\ (ts = [] \/ 50 < len ts))).
  { intros (ts' & T' & D). rewrite (tokens_unique _ _ _ _ T' T) in D. destruct D as [D|D]; [discriminate|]. rewrite len_cons in D. lia. }
  assert (RW : rest_wrong v f junk m url s1 <-> (~ is_get m \/ found v f junk p) /\ long_logged fs).
  { unfold rest_wrong. split.
    - intros [X|[X|(p' & q' & fs' & P' & D & H' & Lg)]]; try contradiction. destruct (parts_unique _ _ _ _ _ P' P) as [-> _].
      rewrite (headers_unique _ _ Hh _ H') in Lg. auto.
    - intros (D & Lg). right. right. exists p, (hd [] ts), fs. auto. }
  rewrite RW. set (r := set_path _ p).
  assert (Rh : r_headers r = map stored (firstn 20 fs)) by exact R1.
  assert (Rs : cstr (r_session r) = Ok sess) by (destruct R3 as (j & Ej & Ns & _); change (r_session r) with (hs_session h); rewrite Ej; now apply cstr_cs).
  assert (Ls : len sess <= 493). { destruct R3 as (j & Ej & _ & L64). rewrite Ej, len_app, len_cs in L64. lens. lia. }
  assert (Rp : r_path r = p) by reflexivity. clearbody r.
  destruct (str_caseeqb m (L "GET")) eqn:Eg.
  - assert (IG : is_get m) by (now apply caseeqb_ci). pose proof (parts_len _ _ _ P) as Lp.
    destruct (static_total v f r fs junk sess Rh R2 Rs Ls Hj Hne ltac:(rewrite Rp; lia) Hr Hi Hf Hc) as [(Fd & Lg & e & U)|(N & r' & U)];
      rewrite U; cbn [bind]; rewrite Rp in *.
    + left. split; [auto|]. exists e. reflexivity.
    + right. split; [|eauto]. tauto.
  - assert (IG : ~ is_get m) by (intros X; apply caseeqb_ci in X; congruence).
    destruct (bad_request_total r fs Rh R2) as [(Lg & e & U)|(N & r' & U)]; rewrite U; cbn [bind].
    + left. split; [auto|]. exists e. reflexivity.
    + right. split; [|eauto]. tauto.
Qed.

(** ** The first line *)
Lemma app_inj_pre {A} (a b c d : list A) : a ++ b = c ++ d -> length a = length c -> a = c /\ b = d.
Proof.
  revert c. induction a as [|x a IH]; intros [|y c] E H; try discriminate; auto. cbn in E. injection E as -> E.
  destruct (IH c E ltac:(now injection H)) as [-> ->]. auto.
Qed.
Lemma Forall_firstn2 {A} (P : A -> Prop) n l : Forall P l -> Forall P (firstn n l).
Proof. intros H. rewrite <- (firstn_skipn n l) in H. now apply Forall_app in H. Qed.
(** Every text is a run of characters with a property, and the rest. *)
Lemma run_exists (P : ascii -> Prop) (dec : forall c, {P c} + {~ P c}) s : exists a b, s = a ++ b /\ Forall P a /\ (b = [] \/ exists c r, b = c :: r /\ ~ P c).
Proof.
  induction s as [|c s (a & b & -> & F & H)]; [exists [], []; auto|]. destruct (dec c) as [Y|N].
  - exists (c :: a), b. auto.
  - exists [], (c :: a ++ b). split; [reflexivity|]. split; [constructor|]. right. exists c, (a ++ b). auto.
Qed.
Lemma blank_dec c : {blank c} + {~ blank c}.
Proof. unfold blank. apply in_dec, ascii_dec. Qed.
Lemma not_blank_dec c : {~ blank c} + {~ ~ blank c}.
Proof. destruct (blank_dec c); [right|left]; auto. Qed.

Lemma first_line_exists stream : exists seen m url s1, first_line stream seen m url s1.
Proof.
  destruct (line_of_exists 1024 ltac:(lia) stream) as (l & s1 & Hl). destruct (seen_exists l) as (seen & Hs).
  pose proof Hl as (_ & Hle & _). set (B := l ++ repeat NUL (1024 - length l)).
  assert (LB : length B = 1024%nat) by (unfold B; rewrite app_length, repeat_length; unfold len in Hle; lia).
  assert (EB : exists B', B = B' ++ [NUL]).
  { unfold B. replace (1024 - length l)%nat with (S (1023 - length l)) by (unfold len in Hle; lia).
    exists (l ++ repeat NUL (1023 - length l)). now rewrite <- app_assoc, <- repeat_cons. }
  destruct EB as (B' & EB).
  assert (W : exists w rest, B = w ++ rest /\ Forall (fun c => ~ blank c) w /\ (len w = 254 \/ (len w < 254 /\ exists c r, rest = c :: r /\ blank c))).
  { destruct (run_exists _ not_blank_dec B) as (a & b & E & Fa & D). destruct (le_lt_dec 254 (length a)) as [G|G].
    - exists (firstn 254 a), (skipn 254 a ++ b). split; [now rewrite app_assoc, firstn_skipn|]. split; [now apply Forall_firstn2|].
      left. unfold len. rewrite firstn_length. lia.
    - exists a, b. split; [exact E|]. split; [exact Fa|]. right. split; [unfold len; lia|].
      destruct D as [->|(c & r & -> & Nn)]; [rewrite E, app_nil_r in LB; lia|]. exists c, r. split; [reflexivity|].
      destruct (blank_dec c); [auto|contradiction]. }
  destruct W as (w & rest & E & Fw & Dw). destruct (run_exists _ blank_dec rest) as (sp & b & -> & Fs & Ds).
  destruct (run_exists _ not_blank_dec b) as (u & more & -> & Fu & Du).
  assert (Hu : u <> []).
  { intros ->. cbn [app] in *. destruct more as [|c r].
    - rewrite app_nil_r in E. destruct sp as [|y sp] using rev_ind.
      + rewrite app_nil_r in E. rewrite E in LB. destruct Dw as [Dw|(Dw & c & r & X & _)]; [|discriminate X]. unfold len in Dw. lia.
      + rewrite app_assoc, EB in E. apply app_inj_tail in E as [_ <-]. apply Forall_app in Fs as [_ Fs]. inv Fs. now apply nul_not_blank.
    - destruct Ds as [Ds|(c1 & r1 & Ec & Nc)]; [discriminate|]. injection Ec as <- _.
      destruct Du as [Du|(c2 & r2 & Ec & Nc2)]; [discriminate|]. injection Ec as <- _. contradiction. }
  destruct (seen_exists w) as (m & Hm). destruct (seen_exists (firstn 254 u)) as (x & Hx).
  assert (Sp : len w = 254 \/ (len w < 254 /\ sp <> [])).
  { destruct Dw as [Dw|(Dw & c & r & Ec & Bc)]; [auto|]. right. split; [exact Dw|]. intros ->. cbn [app] in Ec.
    destruct u as [|y u]; [now elim Hu|]. inv Fu. injection Ec as -> _. contradiction. }
  assert (Mo : more = [] \/ exists c r, more = c :: r /\ blank c).
  { destruct Du as [Du|(c & r & Ec & Nc)]; [auto|]. right. exists c, r. split; [auto|]. destruct (blank_dec c); [auto|contradiction]. }
  assert (D : (exists x, Some x = Some x /\ seen_as (firstn 254 u) x /\ (more <> [] \/ 255 <= len u)) \/ (more = [] /\ len u <= 254)).
  { destruct more as [|c r]; [|left; exists x; split; [auto|split; [auto|left; discriminate]]].
    destruct (Z_le_dec 255 (len u)); [left; exists x; auto|right; split; [auto|lia]]. }
  destruct D as [(y & _ & Hy & D)|D].
  - exists seen, m, (Some y), s1, l, w, sp, u, more. do 10 (split; [assumption|]). left. exists y. auto.
  - exists seen, m, None, s1, l, w, sp, u, more. do 10 (split; [assumption|]). right. auto.
Qed.

Local Transparent parse_request_line parse_url.
Lemma len_254 (w : str) : len w = 254 -> length w = 254%nat.
Proof. unfold len. lia. Qed.
Lemma first_line_reads stream seen m url s1 : first_line stream seen m url s1 ->
  exists b n j, zbuf b /\ get_line stream (calloc 1024) 1024 = Ok (n, b, s1)
    /\ no_nul m
    /\ (2 <= len seen -> parse_request_line b = Ok (firstn (length seen - 2) seen, m, j))
    /\ parse_url b j = match url with Some x => Ok x | None => UB OobRead end
    /\ forall x, url = Some x -> no_nul x /\ len x <= 254.
Proof.
  intros (l & w & sp & u & more & Hl & Hs & EB & Fw & Dw & Fs & Hu & Fu & Mo & Hm & Du). pose proof Hl as (_ & Hle & _).
  set (B := w ++ sp ++ u ++ more) in *.
  assert (LB : length B = 1024%nat) by (rewrite <- EB, app_length, repeat_length; unfold len in Hle; lia).
  assert (G : get_line stream (calloc 1024) 1024 = Ok (len l, map Some B, s1)).
  { rewrite (get_line_eq 1024 stream l s1 (calloc 1024) Hl) by (rewrite len_calloc; lia). do 2 f_equal. f_equal. rewrite <- EB.
    unfold cs, calloc. change (Z.to_nat 1024) with (1024%nat). rewrite map_app, <- app_assoc. f_equal. cbn [app].
    assert (K : forall k n, (k < n)%nat -> Some NUL :: skipn (S k) (repeat (Some NUL) n) = map Some (repeat NUL (n - k))).
    { clear. induction k as [|k IH]; intros [|n] H; try lia.
      - cbn [repeat skipn Nat.sub map]. f_equal. clear. induction n as [|n IH]; [reflexivity|]. cbn. now f_equal.
      - cbn [repeat Nat.sub]. change (skipn (S (S k)) (Some NUL :: repeat (Some NUL) n)) with (skipn (S k) (repeat (Some NUL) n)). apply IH. lia. }
    apply K. unfold len in Hle. lia. }
  assert (Z : zbuf (map Some B)).
  { rewrite <- EB. exists (l ++ repeat NUL (1023 - length l)). replace (1024 - length l)%nat with (S (1023 - length l)) by (unfold len in Hle; lia).
    split; [f_equal; now rewrite <- app_assoc, <- repeat_cons|]. rewrite app_length, repeat_length. unfold len in Hle. lia. }
  exists (map Some B), (len l), (len w). split; [exact Z|]. split; [exact G|]. split; [apply Hm|]. split; [|split].
  - intros H2. unfold parse_request_line.
    replace (map Some B) with (map Some l ++ Some NUL :: map Some (repeat NUL (1023 - length l))) at 1.
    2:{ rewrite <- EB. replace (1024 - length l)%nat with (S (1023 - length l)) by (unfold len in Hle; lia). rewrite map_app. reflexivity. }
    rewrite upto_nul_cstr. cbn [bind]. rewrite (upto_seen _ _ Hs).
    destruct (line_start seen ltac:(apply Hs) H2) as (rl & E1 & E2). rewrite E1. cbn [bind]. rewrite E2. cbn [bind].
    assert (Ws : word_scan 254 (map Some B) 0 = Ok (w, len w)).
    { unfold B. destruct sp as [|c sp].
      - destruct Dw as [Dw|(_ & Dw)]; [|now elim Dw]. destruct u as [|x u]; [now elim Hu|]. inv Fu.
        replace (map Some (w ++ [] ++ (x :: u) ++ more)) with (map Some [] ++ map Some (w ++ [x]) ++ map Some (u ++ more)).
        2:{ cbn [map app]. rewrite <- map_app, <- app_assoc. reflexivity. }
        change 0 with (len (@nil ascii)). rewrite word_scan_cut.
        + assert (Fi : firstn 254 (w ++ [x]) = w) by (rewrite <- (len_254 w Dw), firstn_app, Nat.sub_diag, firstn_all; apply app_nil_r).
          rewrite Fi, Dw. reflexivity.
        + apply Forall_app. split; [auto|]. constructor; auto.
        + rewrite app_length, (len_254 w Dw). reflexivity.
      - inv Fs. replace (map Some (w ++ (c :: sp) ++ u ++ more)) with (map Some [] ++ map Some w ++ Some c :: map Some (sp ++ u ++ more)).
        2:{ rewrite (map_app _ w). reflexivity. }
        change 0 with (len (@nil ascii)). rewrite word_scan_eq; auto. unfold len in *. destruct Dw as [Dw|(Dw & _)]; lia. }
    rewrite Ws. cbn [bind]. rewrite word_buf by (destruct Dw as [Dw|(Dw & _)]; lia). cbn [bind].
    unfold cs. rewrite <- app_assoc. cbn [app]. rewrite upto_nul_cstr. cbn [bind]. now rewrite (upto_seen _ _ Hm).
  - unfold parse_url. destruct u as [|x u]; [now elim Hu|].
    assert (LB2 : len w + len sp + len (x :: u) + len more = 1024).
    { apply (f_equal Z.of_nat) in LB. unfold B in LB. rewrite !app_length in LB. unfold len. lia. }
    pose proof (len_nonneg _ w). pose proof (len_nonneg _ sp). pose proof (len_nonneg _ u). pose proof (len_nonneg _ more).
    assert (S : skip_space 1024 (map Some B) (len w) = Ok (len (w ++ sp))).
    { unfold B. rewrite !map_app. cbn [map app]. rewrite skip_space_eq.
      - now rewrite len_app.
      - auto.
      - now inv Fu.
      - unfold len in *. lia.
      - rewrite len_cons in LB2. lia. }
    rewrite S. cbn [bind]. unfold B. rewrite app_assoc, map_app.
    assert (Lu : len (firstn 254 (x :: u)) <= 254) by (rewrite len_firstn; lia).
    destruct Du as [(y & -> & Hy & D)|(-> & -> & D)].
    + assert (Sc : url_scan 254 (map Some (w ++ sp) ++ map Some ((x :: u) ++ more)) (len (w ++ sp)) = Ok (firstn 254 (x :: u))).
      { destruct more as [|c more].
        - destruct D as [D|D]; [now elim D|]. rewrite app_nil_r. rewrite <- (firstn_skipn 255 (x :: u)) at 1. rewrite (map_app _ (firstn 255 (x :: u))). rewrite url_scan_open.
          + rewrite firstn_firstn. reflexivity.
          + now apply Forall_firstn2.
          + rewrite firstn_length. unfold len in D. lia.
          + rewrite len_firstn, len_app. lia.
        - destruct Mo as [Mo|(c' & r & Ec & Bc)]; [discriminate|]. injection Ec as <- <-.
          rewrite (map_app _ (x :: u)). change (map Some (c :: more)) with (Some c :: map Some more). apply url_scan_eq; auto. rewrite len_app. lia. }
      rewrite Sc. cbn [bind]. rewrite word_buf by lia. cbn [bind]. unfold cs. rewrite <- app_assoc. cbn [app].
      rewrite upto_nul_cstr. now rewrite (upto_seen _ _ Hy).
    + rewrite app_nil_r. rewrite url_scan_oob; auto; [unfold len in D; lia|]. rewrite len_app. rewrite len_nil in LB2. lia.
  - intros x ->. destruct Du as [(y & [= <-] & (Ny & D) & _)|(E & _)]; [|discriminate]. split; [exact Ny|].
    assert (Lu : len (firstn 254 u) <= 254) by (rewrite len_firstn; lia). destruct D as [D|(r & D)]; rewrite D in Lu; [lia|]. rewrite len_app in Lu. lens. lia.
Qed.

(** ** The request as a whole *)
Local Opaque parse_request_line parse_url.
Local Transparent connection_add.
Lemma admit_total v t socket peer url : Forall (fun r => no_nul (l_path r)) (v_limits v) -> Forall ok_path (occupied t) -> no_nul url ->
  len url <= 254 -> len peer <= 15 ->
  exists ok t1, connection_add (v_limits v) t socket peer url = Ok (ok, t1) /\ (ok = true <-> let_in v t peer url).
Proof.
  intros Hr Ho Nu Lu Lp. unfold connection_add. rewrite validate_eq by auto. cbn [bind]. unfold let_in.
  pose proof (overb_iff (v_limits v) (occupied t) peer url Hr Ho Nu) as OI.
  destruct (overb (v_limits v) (occupied t) peer url); cbn [negb].
  - exists false, t. split; [reflexivity|]. split; [discriminate|intros [H _]; elim H; now apply OI].
  - destruct (Z_lt_dec (len (occupied t)) (len t)) as [G|G].
    + destruct (claim_free t socket peer url G ltac:(lia) Lp) as (a & c & b & _ & _ & _ & E). 
      eexists true, _. split; [exact E|]. split; [intros _; split; [intros H; apply OI in H; discriminate|exact G]|reflexivity].
    + rewrite claim_full by (pose proof (occupied_le t); lia). exists false, t. split; [reflexivity|]. split; [discriminate|]. intros [_ H]. lia.
Qed.
Local Opaque connection_add.
Local Transparent bad_request too_many_connections.

Lemma accept_total v f t socket peer stream junk seen m url s1 : sound_setting v f t peer junk -> first_line stream seen m url s1 ->
  (forall u, url = Some u -> ~ api_url u) ->
  (wrong v f t peer junk seen m url s1 /\ undefined (accept_request v f t socket peer stream))
  \/ (~ wrong v f t peer junk seen m url s1 /\ exists res, accept_request v f t socket peer stream = Ok res).
Proof.
  intros (Hp & Hr & Ho & Hj & Hne & H1 & H2 & H3 & Hc) FL NA.
  destruct (first_line_reads _ _ _ _ _ FL) as (b & n & j & Z & G & Nm & PL & PU & HU).
  destruct (Z_lt_dec (len seen) 2) as [S2|S2].
  { left. split; [left; exact S2|]. destruct FL as (l & w & sp & u & more & Hl & Hs & _). eapply short_line_oob; eauto. }
  rewrite accept_unfold. unfold new_request. rewrite fits_ok by lia. cbn [bind]. rewrite G. cbn [bind]. rewrite PL by lia. cbn [bind].
  destruct (methods_eq m Nm) as (ok & Em & Hm). rewrite Em. cbn [bind]. fold (req0 socket peer).
  destruct ok; cbn [negb].
  2:{ right. split.
      - intros [W|[(W & _)|(W & _)]]; [lia| |]; apply Hm in W; discriminate.
      - unfold bad_request. destruct (status_plain (set_method (set_request_line (req0 socket peer) (firstn (length seen - 2) seen)) m) 400 (L "HTTP/1.1 400 Bad Request"))
          as (r' & U); [vm_compute; tauto|vm_compute; discriminate|reflexivity|]. rewrite U. cbn [bind]. eauto. }
  assert (Al : allowed m) by now apply Hm. rewrite PU. destruct url as [u|].
  2:{ left. split; [right; left; auto|]. eexists. reflexivity. }
  cbn [bind]. destruct (HU u eq_refl) as (Nu & Lu). specialize (NA u eq_refl).
  destruct (admit_total v t socket peer u Hr Ho Nu Lu Hp) as (ok & t1 & Ea & Ha).
  change (r_ip (set_url _ u)) with peer. rewrite Ea. cbn [bind].
  destruct ok; cbn [negb].
  2:{ right. split.
      - intros [W|[(_ & W)|(_ & u' & [= <-] & W & _)]]; [lia|discriminate|]. apply Ha in W. discriminate.
      - unfold too_many_connections.
        destruct (status_plain (set_url (set_method (set_request_line (req0 socket peer) (firstn (length seen - 2) seen)) m) u) 429 (L "HTTP/1.1 429 Too many connections"))
          as (r' & U); [vm_compute; tauto|vm_compute; discriminate|reflexivity|]. rewrite U. cbn [bind]. eauto. }
  assert (LI : let_in v t peer u) by now apply Ha.
  change (set_url (set_method (set_request_line (req0 socket peer) (firstn (length seen - 2) seen)) m) u) with (req2 socket peer (firstn (length seen - 2) seen) m u).
  destruct (rest_total v f t1 socket peer (firstn (length seen - 2) seen) m u b junk s1 Z Nm Nu Lu NA Hj Hne H1 H2 H3 Hc) as [(W & U)|(W & U)].
  - left. split; [|exact U]. right. right. split; [exact Al|]. exists u. split; [reflexivity|]. split; [exact LI|exact W].
  - right. split; [|exact U]. intros [X|[(_ & X)|(_ & u' & [= <-] & _ & X)]]; [lia|discriminate|]. now apply W.
Qed.

Lemma headers_exist s : exists fs, headers s fs.
Proof.
  assert (G : forall n (s : str), (length s <= n)%nat -> exists fs, headers s fs).
  { clear s. induction n as [|n IH]; intros s Hs; [destruct s; [exists []; constructor|cbn in Hs; lia]|].
    destruct s as [|c s]; [exists []; constructor|]. destruct (line_of_exists 1024 ltac:(lia) (c :: s)) as (l & rest & Hl).
    pose proof (line_of_nonempty 1024 _ _ _ ltac:(lia) Hl ltac:(discriminate)) as Hn.
    destruct (list_eq_dec ascii_dec l [LF]) as [E|N1]; [exists []; eapply hd_blank; eauto; now left|].
    destruct (list_eq_dec ascii_dec l CRLF) as [E|N2]; [exists []; eapply hd_blank; eauto; now right|].
    destruct (seen_exists l) as (t & Ht). destruct (tells_exists t) as (new & Hnew).
    destruct (IH rest) as (fs & H).
    { pose proof Hl as (E & _). apply (f_equal (@length _)) in E. rewrite app_length in E. destruct l; [easy|]. cbn in *. lia. }
    exists (new ++ fs). eapply hd_line; eauto. intros [B|B]; auto. }
  eauto.
Qed.
Lemma rest_reading v f t1 socket peer rl m url b s1 : zbuf b -> no_nul url -> len url <= 254 ->
  bad_headers s1 \/ (exists ts, tokens (L "?") url ts /\ (ts = [] \/ 50 < len ts)) ->
  undefined (accept_rest v f t1 (req2 socket peer rl m url) m url b s1).
Proof.
  intros Hz Nu Lu D. unfold accept_rest. destruct (zbuf_A b Hz) as (b1 & -> & Z1). cbn [bind].
  destruct (line_of_exists 1024 ltac:(lia) s1) as (l & rest & Hl). destruct (seen_exists l) as (t & Ht).
  destruct (zbuf_line b1 l s1 rest t Z1 Hl Ht) as (b2 & G & Z2 & _). rewrite G. cbn [bind].
  change (r_ip (req2 socket peer rl m url)) with peer.
  destruct (header_loop_total (length s1) s1 b1 (mkH b2 rest [] None [] (-1) peer (calloc MAX_SESSION)) (len l) [] G Z1 ltac:(lia))
    as [(B & e & E)|(B & h & fs & E & _)].
  { split; [reflexivity|]. split; [constructor|]. exists []. exists (calloc 63). split; [reflexivity|]. split; [constructor|]. reflexivity. }
  { rewrite E. exists e. reflexivity. }
  destruct D as [D|(ts & T & D)]; [contradiction|]. rewrite E. cbn [bind]. destruct D as [->|D].
  - rewrite (path_query_none url) by auto. eexists. reflexivity.
  - destruct ts as [|p ts]; [rewrite len_nil in D; lia|]. rewrite len_cons in D.
    destruct (path_query_oob url p ts Nu T ltac:(left; lia)) as (e & U). rewrite U. eexists. reflexivity.
Qed.
Lemma accept_reading v f t socket peer stream seen m url s1 : len peer <= 15 -> Forall (fun r => no_nul (l_path r)) (v_limits v) ->
  Forall ok_path (occupied t) -> first_line stream seen m url s1 ->
  len seen < 2 \/ (allowed m /\ url = None)
  \/ (allowed m /\ exists u, url = Some u /\ let_in v t peer u /\
       (bad_headers s1 \/ (exists ts, tokens (L "?") u ts /\ (ts = [] \/ 50 < len ts)))) ->
  undefined (accept_request v f t socket peer stream).
Proof.
  intros Hp Hr Ho FL D. destruct (first_line_reads _ _ _ _ _ FL) as (b & n & j & Z & G & Nm & PL & PU & HU).
  destruct (Z_lt_dec (len seen) 2) as [S2|S2].
  { destruct FL as (l & w & sp & u & more & Hl & Hs & _). eapply short_line_oob; eauto. }
  destruct D as [D|D]; [lia|]. assert (Al : allowed m) by (destruct D as [(D & _)|(D & _)]; exact D).
  rewrite accept_unfold. unfold new_request. rewrite fits_ok by lia. cbn [bind]. rewrite G. cbn [bind]. rewrite PL by lia. cbn [bind].
  destruct (methods_eq m Nm) as (ok & Em & Hm). rewrite Em. cbn [bind]. fold (req0 socket peer).
  destruct ok; [|apply Hm in Al; discriminate]. cbn [negb]. rewrite PU. destruct D as [(_ & ->)|(_ & u & -> & LI & D)]; [eexists; reflexivity|].
  cbn [bind]. destruct (HU u eq_refl) as (Nu & Lu).
  destruct (admit_total v t socket peer u Hr Ho Nu Lu Hp) as (ok & t1 & Ea & Ha).
  change (r_ip (set_url _ u)) with peer. rewrite Ea. cbn [bind]. destruct ok; [|apply Ha in LI; discriminate]. cbn [negb].
  change (set_url (set_method (set_request_line (req0 socket peer) (firstn (length seen - 2) seen)) m) u) with (req2 socket peer (firstn (length seen - 2) seen) m u).
  now apply rest_reading.
Qed.

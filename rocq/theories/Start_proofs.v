(** Start_proofs.v - proofs about Start.v. *)
From Verif Require Import Start Lemmas JsonUtils_proofs HttpUtils_proofs ConfParser_proofs FileUtils_proofs LogMain_proofs Log_proofs SpecJson SpecHttp SpecConf SpecMain SpecStart Spec.

Definition out (f : logfile) : logfile := match f with LogNull => LogStderr | f => f end.
Lemma say_fatal : forall s done text k, vocal s -> fatal s done text k = Ok (Ended (mkLog (lg_level s) (out (lg_file s)) (lg_out s ++ [(5, text, out (lg_file s))]) true) done).
Proof.
  intros s done text k (H & F & E). unfold fatal, logger. change LOG_FATAL with 5. replace (5 <? lg_level s) with false by lia.
  change ((5 <? 0) || (5 <? 5)) with false. cbv iota. destruct (lg_file s) eqn:Ef; try congruence; reflexivity.
Qed.
Lemma say_error : forall s done text, vocal s -> exists o, failed s done text = Ok (Ended (mkLog (lg_level s) o (if 4 <? lg_level s then lg_out s else lg_out s ++ [(4, text, o)]) true) done).
Proof.
  intros s done text (H & F & E). unfold failed, logger. change LOG_ERROR with 4.
  destruct (4 <? lg_level s) eqn:L; [eexists; reflexivity|]. change ((4 <? 0) || (5 <? 4)) with false. cbv iota. destruct (lg_file s) eqn:Ef; try congruence; eexists; reflexivity.
Qed.
(** Messages below FATAL leave the log vocal. *)
Lemma say : forall s level text, vocal s -> 0 <= level <= 4 -> exists s', logger s level text = Ok s' /\ vocal s' /\ lg_level s' = lg_level s
  /\ (level < lg_level s -> s' = s) /\ (lg_level s <= level -> lg_out s' = lg_out s ++ [(level, text, out (lg_file s))] /\ lg_file s' = out (lg_file s)).
Proof.
  intros s level text (H & F & E) R. unfold logger. destruct (Z.ltb_spec level (lg_level s)).
  - exists s. repeat split; auto; lia.
  - replace ((level <? 0) || (5 <? level)) with false by lia. destruct (lg_file s) eqn:Ef; try congruence; (eexists; split; [reflexivity|]);
      unfold LOG_FATAL; replace (level =? 5) with false by lia; (split; [unfold vocal; cbn [lg_level lg_file lg_exited]; repeat split; auto; congruence|]); cbn [lg_level lg_out lg_file]; repeat split; auto; lia.
Qed.
Lemma upload_eq : forall m f, fst (check_createdir (m_mkdir m) f TMP_DIR) = true <-> upload_dir m f.
Proof.
  intros m f. unfold check_createdir, upload_dir, is_dir, TMP_DIR. destruct (f (L "/tmp/wayuu")) as [[x|]|] eqn:E; cbn [fst].
  - split; [discriminate|]. intros [H|[H _]]; discriminate.
  - split; auto.
  - destruct (m_mkdir m); cbn [fst]; split; auto; try discriminate. intros [H|[_ H]]; discriminate.
Qed.
Lemma limits_same : forall m f root, load_limits (snd (check_createdir (m_mkdir m) f TMP_DIR)) root = load_limits f root.
Proof.
  intros m f root. unfold load_limits. destruct (fits _ _) as [p|] eqn:E; [|reflexivity]. cbn [bind].
  assert (P : p = root ++ L "/etc/limits") by (unfold fits in E; destruct (_ <=? _); congruence).
  unfold check_createdir. destruct (is_dir f TMP_DIR); [reflexivity|]. destruct (f TMP_DIR); [reflexivity|]. destruct (m_mkdir m); [|reflexivity].
  cbn [snd]. rewrite upd_other; [reflexivity|]. subst p. intros X. apply (f_equal (@rev _)) in X. rewrite rev_app_distr in X. discriminate.
Qed.
(** The rest of ws_launch, named. *)
Definition pool (m : machine) (c : config) (f' : fs) (rules : list limit) (d2 : list deed) (s : logstate) : outcome started :=
  let d3 := d2 ++ map Dthread (seq 0 POOL_SIZE) ++ [Dlisten (m_socket m)] in
  let go (s : logstate) :=
    s4 <- logger s LOG_INFO (L "WAYUU WS " ++ L "1.5.0" ++ L " running on port " ++ dec (cf_port c));;
    Ok (Accepting s4 f' rules empty_table (m_socket m) (workers_started m) d3) in
  if m_listen m (m_socket m) then go s else fatal s d3 (L "Error while listening to socket") go.
Definition bound (m : machine) (c : config) (f' : fs) (rules : list limit) (d1 : list deed) (s : logstate) : outcome started :=
  let addr := m_inet m (cf_bind c) in
  s1 <- logger s LOG_INFO (L "WAYUU binding to address: " ++ cf_bind c);;
  s2 <- logger s1 LOG_INFO (L "WAYUU starting on port " ++ dec (cf_port c));;
  s3 <- (if m_reuse m then Ok s2 else logger s2 LOG_ERROR (L "setsockopt(SO_REUSEADDR) failed"));;
  let d2 := d1 ++ [Dsocket; Dbind (m_socket m) addr (bound_port c)] in
  if m_bind m (m_socket m) addr (bound_port c) then pool m c f' rules d2 s3
  else fatal s3 d2 (L "Unable to bind to port " ++ dec (cf_port c)) (pool m c f' rules d2).
Definition sockets (m : machine) (c : config) (f' : fs) (s : logstate) (d0 : list deed) : outcome started :=
  rules <- load_limits f' (cf_root c);;
  let d1 := d0 ++ [Dlimits (cf_root c)] in
  if m_socket m =? -1 then fatal s (d1 ++ [Dsocket]) (L "Unable to obtain socket handle") (bound m c f' rules d1) else bound m c f' rules d1 s.
Lemma launch_unfold : forall m c f s, ws_launch m c f s =
  let f' := snd (check_createdir (m_mkdir m) f TMP_DIR) in
  let rest s := tls_setup m c s (sockets m c f' s) in
  if fst (check_createdir (m_mkdir m) f TMP_DIR) then rest s else fatal s [] (L "Cannot create path " ++ TMP_DIR) rest.
Proof. intros m c f s. unfold ws_launch. destruct (check_createdir (m_mkdir m) f TMP_DIR). reflexivity. Qed.

Lemma tls_ok : forall m c s k, tls_ready m c -> len (cf_root c) <= 255 ->
  tls_setup m c s k = k (if cf_ssl c then [Dtls (cf_root c ++ L "/ssl/cert.pem") (cf_root c ++ L "/ssl/key.pem")] else []).
Proof.
  intros m c s k T R. unfold tls_setup. destruct (cf_ssl c) eqn:E; [|reflexivity]. destruct (T E) as (-> & C & K). cbn [negb].
  rewrite !fits_ok by (unfold ROOT_PATH_MAX; rewrite len_app; change (len (L "/ssl/cert.pem")) with 13; change (len (L "/ssl/key.pem")) with 12; lia).
  cbn [bind]. now rewrite C, K.
Qed.
Lemma bound_port_eq : forall c, bound_port c = cf_port c mod 65536.
Proof. reflexivity. Qed.

Lemma pool_ok : forall m c f' rules d2 s, vocal s -> 
  (m_listen m (m_socket m) = true -> exists s', pool m c f' rules d2 s = Ok (Accepting s' f' rules empty_table (m_socket m) (workers_started m) (d2 ++ map Dthread (seq 0 POOL_SIZE) ++ [Dlisten (m_socket m)])) /\ vocal s')
  /\ (m_listen m (m_socket m) = false -> exists s', pool m c f' rules d2 s = Ok (Ended s' (d2 ++ map Dthread (seq 0 POOL_SIZE) ++ [Dlisten (m_socket m)])) /\ lg_exited s' = true
       /\ exists o file, lg_out s' = o ++ [(5, L "Error while listening to socket", file)]).
Proof.
  intros m c f' rules d2 s V. unfold pool. cbv zeta. split; intros ->.
  - destruct (say s LOG_INFO (L "WAYUU WS " ++ L "1.5.0" ++ L " running on port " ++ dec (cf_port c)) V ltac:(unfold LOG_INFO; lia)) as (s' & -> & V' & _).
    exists s'. split; [reflexivity|exact V'].
  - rewrite say_fatal by auto. eexists. split; [reflexivity|]. split; [reflexivity|]. eexists _, _. reflexivity.
Qed.
Definition before_threads (m : machine) (c : config) : list deed :=
  (if cf_ssl c then [Dtls (cf_root c ++ L "/ssl/cert.pem") (cf_root c ++ L "/ssl/key.pem")] else []) ++ [Dlimits (cf_root c)]
  ++ [Dsocket; Dbind (m_socket m) (m_inet m (cf_bind c)) (cf_port c mod 65536)].
Lemma bound_logs : forall m c f' rules d1 s, vocal s -> exists s3, vocal s3 /\
  bound m c f' rules d1 s = let d2 := d1 ++ [Dsocket; Dbind (m_socket m) (m_inet m (cf_bind c)) (cf_port c mod 65536)] in
    if m_bind m (m_socket m) (m_inet m (cf_bind c)) (cf_port c mod 65536) then pool m c f' rules d2 s3
    else fatal s3 d2 (L "Unable to bind to port " ++ dec (cf_port c)) (pool m c f' rules d2).
Proof.
  intros m c f' rules d1 s V. unfold bound. rewrite bound_port_eq. cbv zeta.
  destruct (say s LOG_INFO (L "WAYUU binding to address: " ++ cf_bind c) V ltac:(unfold LOG_INFO; lia)) as (s1 & -> & V1 & _). cbn [bind].
  destruct (say s1 LOG_INFO (L "WAYUU starting on port " ++ dec (cf_port c)) V1 ltac:(unfold LOG_INFO; lia)) as (s2 & -> & V2 & _). cbn [bind].
  destruct (m_reuse m).
  - exists s2. split; [exact V2|reflexivity].
  - destruct (say s2 LOG_ERROR (L "setsockopt(SO_REUSEADDR) failed") V2 ltac:(unfold LOG_ERROR; lia)) as (s3 & -> & V3 & _). exists s3. split; [exact V3|reflexivity].
Qed.
Lemma starts : forall m c f s rules, vocal s -> len (cf_root c) <= 255 -> load_limits f (cf_root c) = Ok rules -> can_start m c f ->
  exists s', ws_launch m c f s = Ok (Accepting s' (snd (check_createdir (m_mkdir m) f TMP_DIR)) rules empty_table (m_socket m) (workers_started m)
    (before_threads m c ++ map Dthread (seq 0 POOL_SIZE) ++ [Dlisten (m_socket m)])) /\ vocal s'.
Proof.
  intros m c f s rules V R E (H1 & H2 & H3 & H4 & H5). rewrite launch_unfold. cbv zeta. rewrite (proj2 (upload_eq m f) H1), (tls_ok _ _ _ _ H2 R).
  unfold sockets. rewrite limits_same, E. cbn [bind]. replace (m_socket m =? -1) with false by lia.
  match goal with |- exists s', bound m c ?f' rules ?d1 s = _ /\ _ => destruct (bound_logs m c f' rules d1 s V) as (s3 & V3 & ->) end. cbv zeta.
  unfold bindable in H4. rewrite H4. match goal with |- exists s', pool m c ?f' rules ?d2 s3 = _ /\ _ => destruct (proj1 (pool_ok m c f' rules d2 s3 V3) H5) as (s' & -> & V') end.
  exists s'. split; [|exact V']. unfold before_threads. now rewrite <- !app_assoc.
Qed.
Lemma stops : forall m c f s rules level text, vocal s -> lg_level s <= 4 -> len (cf_root c) <= 255 -> load_limits f (cf_root c) = Ok rules -> missing m c f level text ->
  exists s' done o file, ws_launch m c f s = Ok (Ended s' done) /\ lg_exited s' = true /\ lg_out s' = o ++ [(level, text, file)]
    /\ (forall n, In (Dthread n) done -> text = L "Error while listening to socket").
Proof.
  intros m c f s rules level text V V4 R E M. rewrite launch_unfold. cbv zeta.
  assert (FT : forall k done t, (forall n, In (Dthread n) done -> t = L "Error while listening to socket") -> forall s, vocal s ->
    exists s' done' o file, fatal s done t k = Ok (Ended s' done') /\ lg_exited s' = true /\ lg_out s' = o ++ [(5, t, file)] /\ (forall n, In (Dthread n) done' -> t = L "Error while listening to socket")).
  { intros k done t N s0 V0. rewrite say_fatal by auto. eexists _, _, _, _. split; [reflexivity|]. split; [reflexivity|]. split; [reflexivity|exact N]. }
  assert (FL : forall t, exists s' done o file, failed s [] t = Ok (Ended s' done) /\ lg_exited s' = true /\ lg_out s' = o ++ [(4, t, file)] /\ (forall n, In (Dthread n) done -> t = L "Error while listening to socket")).
  { intros t. destruct (say_error s [] t V) as (o & ->). replace (4 <? lg_level s) with false by lia. eexists _, _, _, _. split; [reflexivity|]. split; [reflexivity|]. split; [reflexivity|]. intros n []. }
  assert (TLS : forall d n, In (Dthread n) ((if cf_ssl c then [Dtls (cf_root c ++ L "/ssl/cert.pem") (cf_root c ++ L "/ssl/key.pem")] else []) ++ d) -> In (Dthread n) d).
  { intros d n I. apply in_app_or in I as [I|I]; [|exact I]. destruct (cf_ssl c); [|destruct I]. destruct I as [I|[]]. discriminate. }
  inversion M; subst.
  - replace (fst (check_createdir (m_mkdir m) f TMP_DIR)) with false by (symmetry; apply not_true_iff_false; now rewrite upload_eq).
    change (L "Cannot create path " ++ TMP_DIR) with (L "Cannot create path /tmp/wayuu"). apply FT; [intros n []|exact V].
  - rewrite (proj2 (upload_eq m f) H). unfold tls_setup. rewrite H0, H1. cbn [negb]. apply FL.
  - rewrite (proj2 (upload_eq m f) H). unfold tls_setup. rewrite H0, H1. cbn [negb].
    rewrite !fits_ok by (unfold ROOT_PATH_MAX; rewrite len_app; change (len (L "/ssl/cert.pem")) with 13; change (len (L "/ssl/key.pem")) with 12; lia).
    cbn [bind]. rewrite H2. cbn [negb]. apply FL.
  - rewrite (proj2 (upload_eq m f) H). unfold tls_setup. rewrite H0, H1. cbn [negb].
    rewrite !fits_ok by (unfold ROOT_PATH_MAX; rewrite len_app; change (len (L "/ssl/cert.pem")) with 13; change (len (L "/ssl/key.pem")) with 12; lia).
    cbn [bind]. rewrite H2, H3. cbn [negb]. apply FL.
  - rewrite (proj2 (upload_eq m f) H), (tls_ok _ _ _ _ H0 R). unfold sockets. rewrite limits_same, E. cbn [bind]. rewrite H1. cbn [Z.eqb Pos.eqb].
    apply FT; [|exact V]. intros n I. rewrite <- app_assoc in I. apply TLS in I. destruct I as [I|[I|[]]]; discriminate.
  - rewrite (proj2 (upload_eq m f) H), (tls_ok _ _ _ _ H0 R). unfold sockets. rewrite limits_same, E. cbn [bind]. replace (m_socket m =? -1) with false by lia.
    match goal with |- exists s' done o file, bound m c ?f' rules ?d1 s = _ /\ _ => destruct (bound_logs m c f' rules d1 s V) as (s3 & V3 & ->) end. cbv zeta.
    unfold bindable in H2. apply not_true_iff_false in H2. rewrite H2. apply FT; [|exact V3].
    intros n I. rewrite <- app_assoc in I. apply TLS in I. destruct I as [I|[I|[I|[]]]]; discriminate.
  - rewrite (proj2 (upload_eq m f) H), (tls_ok _ _ _ _ H0 R). unfold sockets. rewrite limits_same, E. cbn [bind]. replace (m_socket m =? -1) with false by lia.
    match goal with |- exists s' done o file, bound m c ?f' rules ?d1 s = _ /\ _ => destruct (bound_logs m c f' rules d1 s V) as (s3 & V3 & ->) end. cbv zeta.
    unfold bindable in H2. rewrite H2.
    match goal with |- exists s' done o file, pool m c ?f' rules ?d2 s3 = _ /\ _ => destruct (proj2 (pool_ok m c f' rules d2 s3 V3) H3) as (s' & -> & X & o & file & O) end.
    exists s'. eexists _, o, file. split; [reflexivity|]. split; [exact X|]. split; [exact O|]. reflexivity.
Qed.
Lemma start_or_missing : forall m c f, can_start m c f \/ exists level text, missing m c f level text.
Proof.
  intros m c f. destruct (fst (check_createdir (m_mkdir m) f TMP_DIR)) eqn:D.
  2:{ right. eexists _, _. apply mi_dir. intros H. apply upload_eq in H. congruence. }
  apply upload_eq in D.
  assert (T : tls_ready m c \/ exists level text, missing m c f level text).
  { destruct (cf_ssl c) eqn:S; [|left; unfold tls_ready; congruence].
    destruct (m_context m) eqn:A; [|right; eexists _, _; now apply mi_context].
    destruct (m_cert m (cf_root c ++ L "/ssl/cert.pem")) eqn:B; [|right; eexists _, _; now apply mi_cert].
    destruct (m_key m (cf_root c ++ L "/ssl/key.pem")) eqn:C; [|right; eexists _, _; now apply mi_key].
    left. intros _. auto. }
  destruct T as [T|T]; [|auto]. destruct (Z.eq_dec (m_socket m) (-1)) as [E|N]; [right; eexists _, _; now apply mi_socket|].
  destruct (m_bind m (m_socket m) (m_inet m (cf_bind c)) (cf_port c mod 65536)) eqn:B.
  2:{ right. eexists _, _. apply mi_bind; auto. unfold bindable. congruence. }
  destruct (m_listen m (m_socket m)) eqn:Li; [|right; eexists _, _; now apply mi_listen]. left. unfold can_start. auto 6.
Qed.
Lemma missing_not_start : forall m c f level text, missing m c f level text -> ~ can_start m c f.
Proof. intros m c f level text M (H1 & H2 & H3 & H4 & H5). inversion M; subst; unfold tls_ready in *; try tauto; try congruence; destruct (H2 ltac:(assumption)) as (X1 & X2 & X3); congruence. Qed.
(** Undefined limits. *)
Lemma bad_limits : forall m c f s u, upload_dir m f -> tls_ready m c -> len (cf_root c) <= 255 -> load_limits f (cf_root c) = UB u -> ws_launch m c f s = UB u.
Proof. intros m c f s u H1 H2 R E. rewrite launch_unfold. cbv zeta. rewrite (proj2 (upload_eq m f) H1), (tls_ok _ _ _ _ H2 R). unfold sockets. now rewrite limits_same, E. Qed.
(** Above FATAL nothing is logged and nothing ends the process but wayuu_failed. *)
Lemma mute_fatal : forall s done text k, 5 < lg_level s -> lg_exited s = false -> fatal s done text k = k s.
Proof. intros s done text k H E. unfold fatal, logger, LOG_FATAL. replace (5 <? lg_level s) with true by lia. cbn [bind]. now rewrite E. Qed.
Lemma mute : forall s level text, level <= 5 -> 5 < lg_level s -> logger s level text = Ok s.
Proof. intros s level text H K. unfold logger. now replace (level <? lg_level s) with true by lia. Qed.
Lemma muted : forall m c f s rules, 5 < lg_level s -> lg_exited s = false -> tls_ready m c -> len (cf_root c) <= 255 -> load_limits f (cf_root c) = Ok rules ->
  exists done, ws_launch m c f s = Ok (Accepting s (snd (check_createdir (m_mkdir m) f TMP_DIR)) rules empty_table (m_socket m) (workers_started m) done).
Proof.
  intros m c f s rules H X T R E. rewrite launch_unfold. cbv zeta. rewrite mute_fatal by auto.
  match goal with |- exists done, (if ?b then ?x else ?x) = _ => replace (if b then x else x) with x by (destruct b; reflexivity) end.
  rewrite (tls_ok _ _ _ _ T R). unfold sockets. rewrite limits_same, E. cbn [bind]. rewrite mute_fatal by auto.
  match goal with |- exists done, (if ?b then ?x else ?x) = _ => replace (if b then x else x) with x by (destruct b; reflexivity) end.
  unfold bound. rewrite !mute by (unfold LOG_INFO; lia || auto). cbn [bind]. rewrite !mute by (unfold LOG_INFO; lia || auto). cbn [bind].
  replace (if m_reuse m then Ok s else logger s LOG_ERROR (L "setsockopt(SO_REUSEADDR) failed")) with (Ok s) by (destruct (m_reuse m); [reflexivity|symmetry; apply mute; unfold LOG_ERROR; lia]).
  cbn [bind]. rewrite mute_fatal by auto.
  match goal with |- exists done, (if ?b then ?x else ?x) = _ => replace (if b then x else x) with x by (destruct b; reflexivity) end.
  unfold pool. cbv zeta. rewrite mute_fatal by auto.
  match goal with |- exists done, (if ?b then ?x else ?x) = _ => replace (if b then x else x) with x by (destruct b; reflexivity) end.
  rewrite mute by (unfold LOG_INFO; lia || auto). eexists. reflexivity.
Qed.
(** ** main *)
Lemma main_loop_ok f l : forall c c', main_loop f c l = Ok (Launch c') -> len (cf_root c) <= 255 -> (cf_level c = 1 \/ cf_level c = 2) ->
  len (cf_root c') <= 255 /\ (cf_level c' = 1 \/ cf_level c' = 2).
Proof.
  induction l as [|o l IH]; intros c c' H R V; [inv H; auto|].
  destruct o; cbn [main_loop] in H; try discriminate H; try (apply IH in H; cbn [cf_root cf_level]; auto; fail).
  - apply bind_ok_inv in H as (b & _ & H). apply IH in H; auto.
  - apply bind_ok_inv in H as (b & E & H). destruct (is_dir f b); [|discriminate]. apply IH in H; cbn [cf_root cf_level]; auto.
    unfold fits, ROOT_PATH_MAX in E. destruct (Z.leb_spec (len a + 1) 256); [|discriminate]. inv E. lia.
Qed.
Lemma main_launch_ok f args c : main_options f args = Ok (Launch c) -> len (cf_root c) <= 255 /\ (cf_level c = 1 \/ cf_level c = 2).
Proof. intros H. apply (main_loop_ok _ _ _ _ H); [vm_compute; discriminate|]. right. reflexivity. Qed.
Lemma main_log : forall level, level = 1 \/ level = 2 -> let s := log_set_file (log_set_level log_init level) (L "/var/log/wayuu.log") true in vocal s /\ lg_level s <= 4 /\ lg_exited s = false.
Proof. intros level H. unfold vocal. cbn. repeat split; try congruence; lia. Qed.

(** ** Addresses *)
Lemma dot_free n : 0 <= n -> ~ In "."%char (dec_nat n).
Proof. intros H. rewrite dec_nat_dec by auto. apply dec_not_in; [|discriminate]. intros d D ->. discriminate D. Qed.
Lemma dec_nat_inj x y : 0 <= x -> 0 <= y -> dec_nat x = dec_nat y -> x = y.
Proof. intros Hx Hy E. rewrite !dec_nat_dec in E by auto. now apply dec_inj. Qed.
Lemma ntoa_dots a : valid a -> count_occ ascii_dec (inet_ntoa a) "."%char = 3%nat.
Proof.
  intros (H1 & H2 & H3 & H4). unfold octet in *. unfold inet_ntoa. change (L ".") with ["."%char]. rewrite !count_occ_app.
  repeat (rewrite (proj1 (count_occ_not_In ascii_dec (dec_nat _) "."%char)) by (apply dot_free; lia)). reflexivity.
Qed.
Lemma ntoa_parts a b u v : valid a -> valid b -> inet_ntoa b = u ++ inet_ntoa a ++ v ->
  dec_nat (a_1 b) = u ++ dec_nat (a_1 a) /\ a_2 b = a_2 a /\ a_3 b = a_3 a /\ dec_nat (a_4 b) = dec_nat (a_4 a) ++ v.
Proof.
  intros Va Vb E. pose proof (f_equal (fun s => count_occ ascii_dec s "."%char) E) as C. cbv beta in C.
  rewrite !count_occ_app, !ntoa_dots in C by auto.
  assert (U : ~ In "."%char u) by (apply (count_occ_not_In ascii_dec); lia). assert (W : ~ In "."%char v) by (apply (count_occ_not_In ascii_dec); lia).
  destruct Va as (A1 & A2 & A3 & A4), Vb as (B1 & B2 & B3 & B4). unfold octet in *. unfold inet_ntoa in E.
  replace (u ++ (dec_nat (a_1 a) ++ L "." ++ dec_nat (a_2 a) ++ L "." ++ dec_nat (a_3 a) ++ L "." ++ dec_nat (a_4 a)) ++ v)
    with ((u ++ dec_nat (a_1 a)) ++ "."%char :: dec_nat (a_2 a) ++ "."%char :: dec_nat (a_3 a) ++ "."%char :: dec_nat (a_4 a) ++ v) in E
    by (rewrite <- !app_assoc; reflexivity).
  change (dec_nat (a_1 b) ++ L "." ++ dec_nat (a_2 b) ++ L "." ++ dec_nat (a_3 b) ++ L "." ++ dec_nat (a_4 b))
    with (dec_nat (a_1 b) ++ "."%char :: dec_nat (a_2 b) ++ "."%char :: dec_nat (a_3 b) ++ "."%char :: dec_nat (a_4 b)) in E.
  apply cut_unique in E as [E1 E]; [|apply dot_free; lia|].
  2:{ intros I. apply in_app_or in I as [I|I]; [auto|]. revert I. apply dot_free. lia. }
  apply cut_unique in E as [E2 E]; [|apply dot_free; lia..]. apply cut_unique in E as [E3 E4]; [|apply dot_free; lia..].
  apply dec_nat_inj in E2; [|lia..]. apply dec_nat_inj in E3; [|lia..]. auto.
Qed.
Lemma ntoa_inj a b : valid a -> valid b -> inet_ntoa a = inet_ntoa b -> a = b.
Proof.
  intros Va Vb E. destruct (ntoa_parts b a [] [] Vb Va) as (E1 & E2 & E3 & E4); [cbn [app]; now rewrite app_nil_r|]. cbn [app] in E1. rewrite app_nil_r in E4.
  destruct Va as (A1 & A2 & A3 & A4), Vb as (B1 & B2 & B3 & B4). unfold octet in *.
  apply dec_nat_inj in E1; [|lia..]. apply dec_nat_inj in E4; [|lia..]. destruct a, b. cbn in *. congruence.
Qed.
(** Beginnings and ends of the texts of octets, by cases. *)
Fixpoint beginb (a b : str) : bool := match a, b with [], _ => true | x :: a, y :: b => ceq x y && beginb a b | _, [] => false end.
Lemma beginb_eq a : forall b, beginb a b = true <-> exists v, b = a ++ v.
Proof.
  induction a as [|x a IH]; intros b; [cbn; split; eauto|]. destruct b as [|y b]; cbn [beginb app].
  - split; [discriminate|]. intros (v & E). discriminate.
  - unfold ceq. rewrite andb_true_iff, IH, Ascii.eqb_eq. split.
    + intros [-> (v & ->)]. now exists v.
    + intros (v & E). inv E. eauto.
Qed.
Definition octets : list Z := map Z.of_nat (seq 0 256).
Definition begins_b (x y : Z) : bool := (x =? y) || (10 <=? y) && (x =? y / 10) || (100 <=? y) && (x =? y / 100).
Definition ends_b (x y : Z) : bool := (x =? y) || (10 <=? y) && (x =? y mod 10) || (100 <=? y) && (10 <=? x) && (x =? y mod 100).
Lemma octets_in n : octet n -> In n octets.
Proof. intros H. unfold octet in H. apply in_map_iff. exists (Z.to_nat n). split; [lia|]. apply in_seq. lia. Qed.
Lemma octets_checked : forallb (fun x => forallb (fun y =>
  Bool.eqb (beginb (dec_nat x) (dec_nat y)) (begins_b x y) && Bool.eqb (beginb (rev (dec_nat x)) (rev (dec_nat y))) (ends_b x y)) octets) octets = true.
Proof. vm_compute. reflexivity. Qed.
Lemma octet_texts x y : octet x -> octet y ->
  ((exists v, dec_nat y = dec_nat x ++ v) <-> begins x y) /\ ((exists u, dec_nat y = u ++ dec_nat x) <-> ends x y).
Proof.
  intros X Y. pose proof octets_checked as H. rewrite forallb_forall in H. specialize (H _ (octets_in _ X)). cbv beta in H.
  rewrite forallb_forall in H. specialize (H _ (octets_in _ Y)). cbv beta in H. apply andb_true_iff in H as [H1 H2].
  apply eqb_prop in H1. apply eqb_prop in H2. split.
  - rewrite <- beginb_eq, H1. unfold begins, begins_b. rewrite !orb_true_iff, !andb_true_iff, !Z.eqb_eq, !Z.leb_le. tauto.
  - transitivity (exists v, rev (dec_nat y) = rev (dec_nat x) ++ v).
    { split; intros (u & E); exists (rev u); [now rewrite E, rev_app_distr|]. apply (f_equal (@rev _)) in E. now rewrite rev_app_distr, !rev_involutive in E. }
    rewrite <- beginb_eq, H2. unfold ends, ends_b. rewrite !orb_true_iff, !andb_true_iff, !Z.eqb_eq, !Z.leb_le. tauto.
Qed.
Lemma substring_hits a b : valid a -> valid b -> (substring (inet_ntoa a) (inet_ntoa b) <-> hits b a).
Proof.
  intros Va Vb. pose proof Va as (A1 & A2 & A3 & A4). pose proof Vb as (B1 & B2 & B3 & B4). unfold hits.
  rewrite <- (proj2 (octet_texts _ _ A1 B1)), <- (proj1 (octet_texts _ _ A4 B4)). split.
  - intros (u & v & E). destruct (ntoa_parts a b u v Va Vb E) as (E1 & E2 & E3 & E4). repeat split; eauto.
  - intros ((u & E1) & E2 & E3 & v & E4). exists u, v. unfold inet_ntoa. rewrite E1, E2, E3, E4. now rewrite <- !app_assoc.
Qed.
Lemma octet_len n : octet n -> 1 <= len (dec_nat n) <= 3.
Proof.
  intros H. assert (C : forallb (fun n => (1 <=? len (dec_nat n)) && (len (dec_nat n) <=? 3)) octets = true) by (vm_compute; reflexivity).
  rewrite forallb_forall in C. specialize (C _ (octets_in _ H)). cbv beta in C. lia.
Qed.
Lemma ntoa_len a : valid a -> 7 <= len (inet_ntoa a) <= 15.
Proof.
  intros (H1 & H2 & H3 & H4). apply octet_len in H1, H2, H3, H4. unfold inet_ntoa. rewrite !len_app. change (len (L ".")) with 1. lia.
Qed.
Lemma ntoa_chars a : valid a -> Forall (fun c => digit c = true \/ c = "."%char) (inet_ntoa a).
Proof.
  intros (H1 & H2 & H3 & H4). unfold octet in *. unfold inet_ntoa. 
  assert (D : forall n, 0 <= n -> Forall (fun c => digit c = true \/ c = "."%char) (dec_nat n)).
  { intros n H. destruct (dec_nat_spec n H) as (D & _). eapply Forall_impl; [|exact D]. auto. }
  repeat (apply Forall_app; split); try (apply D; lia); (constructor; [right; reflexivity|constructor]).
Qed.
Lemma peer_eq f g a : valid a -> admitted_peer f g a = allowed_address f g (inet_ntoa a).
Proof. intros V. unfold admitted_peer. rewrite fits_ok; [reflexivity|]. pose proof (ntoa_len a V). lia. Qed.

(** Program_proofs.v - lemmas for C104. *)
From Verif Require Import Program Lemmas StringUtils_proofs FileUtils_proofs LogMain_proofs WsConn_proofs Effects_proofs Workers_proofs Start_proofs
  Gate_proofs Safe_proofs Properties_Workers Properties_Harmless SpecJson SpecHttp SpecConf SpecConn SpecMain SpecStart SpecSafe SpecReq SpecDispatch SpecLog SpecEffects SpecDefined SpecDefinedApi SpecWorkers SpecProgram Spec.
From Coq Require Import Permutation.

(** ** Limits *)
Lemma fields_no_nul prev line r prev' : no_nul line -> limit_fields prev line = Ok (Some r, prev') -> no_nul (l_path r).
Proof.
  intros N H. unfold limit_fields in H. destruct (strtok (L ",") line) as [[p r1]|] eqn:E; [|discriminate].
  apply strtok_some in E as (a & r0 & -> & _ & _ & _ & _ & _). apply bind_ok_inv in H as (path & E & H). apply fits_inv in E as [-> _].
  assert (Np : no_nul p). { unfold no_nul in *. apply Forall_app in N as [_ N]. now apply Forall_app in N as [N _]. }
  destruct (strtok _ r1) as [[a1 r2]|]; [|discriminate]. destruct (strtok _ r2) as [[b r3]|]; [|discriminate]. destruct (strtok _ r3) as [[s r4]|]; inversion H; subst; exact Np.
Qed.
Lemma loop_no_nul : forall fuel n prev content rules, limits_loop fuel n prev content = Ok rules -> Forall (fun r => no_nul (l_path r)) rules.
Proof.
  induction fuel as [|fuel IH]; intros n prev content rules H; cbn [limits_loop] in H; destruct (getline content) as [[line rest]|]; try discriminate; try (inv H; constructor).
  destruct line as [|c line]; [eauto|]. destruct (ceq c "/"); [|eauto]. apply bind_ok_inv in H as ([r prev'] & E & H). destruct r as [r|]; [|eauto].
  apply fields_no_nul in E; [|apply upto_nul_no_nul]. destruct (_ <=? _); [inv H; auto|]. apply bind_ok_inv in H as (l & E2 & H). inv H. constructor; eauto.
Qed.
Lemma limits_no_nul f root rules : load_limits f root = Ok rules -> Forall (fun r => no_nul (l_path r)) rules.
Proof.
  unfold load_limits. intros H. apply bind_ok_inv in H as (p & _ & H). destruct (f p) as [[c|]|]; [eapply loop_no_nul; exact H| |]; inv H; constructor.
Qed.

(** ** The file system of the running program *)
Definition files_of (m : machine) (f : fs) : fs := snd (check_createdir (m_mkdir m) f TMP_DIR).
Lemma files_other m f p : p <> TMP_DIR -> files_of m f p = f p.
Proof.
  intros N. unfold files_of, check_createdir. destruct (is_dir f TMP_DIR); [reflexivity|]. destruct (f TMP_DIR); [reflexivity|]. destruct (m_mkdir m); [|reflexivity].
  cbn [snd]. now rewrite upd_other.
Qed.
Lemma not_tmp root c l : (c =? "u")%char = false -> root ++ l ++ [c] <> TMP_DIR.
Proof.
  intros H X. rewrite app_assoc in X. change TMP_DIR with (L "/tmp/wayu" ++ [ "u"%char ]) in X. apply app_inj_tail in X as [_ ->]. discriminate.
Qed.
Lemma files_allow m f root : files_of m f (root ++ L "/etc/allow") = f (root ++ L "/etc/allow").
Proof. apply files_other. exact (not_tmp root "w"%char (L "/etc/allo") eq_refl). Qed.
Lemma files_deny m f root : files_of m f (root ++ L "/etc/deny") = f (root ++ L "/etc/deny").
Proof. apply files_other. exact (not_tmp root "y"%char (L "/etc/den") eq_refl). Qed.
Lemma files_www m f p : files_of m f (L "/etc/wayuu/www/" ++ p) = f (L "/etc/wayuu/www/" ++ p).
Proof. apply files_other. discriminate. Qed.

(** ** The lists *)
Definition full_lists (root : str) : ipconf := mkIpconf root (root ++ L "/etc/allow") (root ++ L "/etc/deny").
Lemma peer_answer f root ls a : len root <= 277 -> valid a -> lists_ok root ls ->
  (exists u, admitted_peer f ls a = UB u /\ bad_lists f root (inet_ntoa a))
  \/ (exists b, admitted_peer f ls a = Ok (b, full_lists root) /\ (b = true <-> SpecConf.allowed f root (inet_ntoa a)) /\ ~ bad_lists f root (inet_ntoa a)).
Proof.
  intros R V O. rewrite peer_eq by exact V. set (ip := inet_ntoa a).
  assert (P : ip_paths ls = Ok (full_lists root)). { destruct O as [-> | ->]; [now apply ip_paths_first|apply ip_paths_later; destruct root; discriminate]. }
  assert (B : undefined (allowed_address f ls ip) <-> bad_lists f root ip).
  { destruct O as [-> | ->]; [apply lists_bad|now apply lists_later]. }
  destruct (allowed_address f ls ip) as [[b ls']|u] eqn:E.
  2:{ left. exists u. split; [reflexivity|]. apply B. now exists u. }
  right. exists b. assert (N : ~ bad_lists f root ip) by (rewrite <- B; apply ok_defined).
  unfold allowed_address in E. rewrite P in E. cbn [bind full_lists ws_deny ws_allow] in E. unfold SpecConf.allowed.
  destruct (small_or_big f (root ++ L "/etc/deny")) as [Sd|Bd].
  2:{ exfalso. apply N. right. now left. }
  destruct (find_listed f _ ip Sd) as (rd & Ed & Hd). rewrite Ed in E. cbn [bind] in E. destruct rd.
  { injection E as <- <-. split; [reflexivity|]. split; [|exact N]. split; [discriminate|]. intros [X _]. exfalso. apply X. now apply Hd. }
  assert (Nl : ~ listed f (root ++ L "/etc/deny") ip) by (intros X; apply Hd in X; discriminate).
  destruct (small_or_big f (root ++ L "/etc/allow")) as [Sa|Ba].
  2:{ exfalso. apply N. right. now right. }
  destruct (is_file f (root ++ L "/etc/allow")) eqn:If; cbn [negb] in E.
  - destruct (find_listed f _ ip Sa) as (ra & Ea & Ha). rewrite Ea in E. cbn [bind] in E. injection E as <- <-. split; [reflexivity|]. split; [|exact N].
    rewrite Ha. split; [auto|]. intros [_ [X|X]]; [|exact X]. exfalso. unfold is_file in If. destruct (f (root ++ L "/etc/allow")) as [[c|]|] eqn:F; try discriminate. now apply (X c).
  - injection E as <- <-. split; [reflexivity|]. split; [|exact N]. split; [|reflexivity]. intros _. split; [exact Nl|]. left. intros c X. unfold is_file in If. now rewrite X in If.
Qed.
Lemma files_listed m f root ip x : x = L "/etc/allow" \/ x = L "/etc/deny" -> listed (files_of m f) (root ++ x) ip <-> listed f (root ++ x) ip.
Proof. intros H. unfold listed. destruct H as [-> | ->]; [rewrite files_allow|rewrite files_deny]; reflexivity. Qed.
Lemma files_allowed m f root ip : SpecConf.allowed (files_of m f) root ip <-> SpecConf.allowed f root ip.
Proof. unfold SpecConf.allowed. rewrite !files_listed by auto. now rewrite files_allow. Qed.
Lemma files_bad m f root ip : bad_lists (files_of m f) root ip <-> bad_lists f root ip.
Proof. unfold bad_lists, big. rewrite files_listed by auto. now rewrite files_allow, files_deny. Qed.

(** ** The start *)
Lemma main_served f args c : main_options f args = Ok (Launch c) -> cf_static_root c = L "/etc/wayuu/www" /\ cf_index c = L "/index.html" /\ cf_favicon c = L "/favicon.ico".
Proof. intros H. exact (main_launch_same f _ _ _ H). Qed.
Definition first_state (m : machine) (f : fs) (root : str) (coming : list arrival) : program :=
  mkProgram (pool_start (files_of m f) [] (workers_started m)) (mkIpconf root [] []) coming [] [].
Lemma start_ok m f args routes coming c rules : running m f args c -> load_limits f (cf_root c) = Ok rules ->
  program_start m f args routes coming = Ok (Some (mkSettings c rules routes, first_state m f (cf_root c) coming)).
Proof.
  intros (E & Lf & S) El. unfold program_start. rewrite E. cbn [bind]. unfold main_run. rewrite E. cbn [bind]. destruct (main_launch_ok _ _ _ E) as [R V].
  rewrite Lf. destruct (main_log _ V) as (V1 & V2 & V3). rewrite V3. destruct (starts m c f _ rules V1 R El S) as (s' & -> & _). reflexivity.
Qed.
Lemma start_inv m f args routes coming : match program_start m f args routes coming with
  | UB u => undefined (main_run m f args)
  | Ok None => ~ undefined (main_run m f args) /\ forall c, ~ running m f args c
  | Ok (Some (g, s)) => exists c rules, running m f args c /\ load_limits f (cf_root c) = Ok rules /\ g = mkSettings c rules routes /\ s = first_state m f (cf_root c) coming
  end.
Proof.
  destruct (program_start m f args routes coming) as [[[g s]|]|u] eqn:H; pose proof H as H0; unfold program_start in H.
  - apply bind_ok_inv in H as (r & E & H). unfold main_run in H. rewrite E in H. cbn [bind] in H. destruct r as [c|code]; [|discriminate].
    destruct (main_launch_ok _ _ _ E) as [R V]. destruct (m_logfile m) eqn:Lf; [|cbn in H; discriminate]. destruct (main_log _ V) as (V1 & V2 & V3). rewrite V3 in H.
    destruct (load_limits f (cf_root c)) as [rules|u] eqn:El.
    2:{ exfalso. destruct (launch_bad m c f _ V1 V2 R) as [Q _]. destruct (ws_launch m c f _) as [st|u'] eqn:Es in H; [|discriminate]. cbn [bind] in H. destruct st as [|]; [discriminate|].
        destruct (start_or_missing m c f) as [S|(level & text & M)].
        - destruct S as (S1 & S2 & _). rewrite (Start_proofs.bad_limits m c f _ u S1 S2 R El) in Es. discriminate.
        - clear Q. revert Es. rewrite launch_unfold. cbv zeta. destruct (fst (check_createdir (m_mkdir m) f TMP_DIR)) eqn:D; [|rewrite say_fatal by auto; discriminate].
          destruct (tls_cases m c (log_set_file (log_set_level log_init (cf_level c)) (L "/var/log/wayuu.log") true) (sockets m c (snd (check_createdir (m_mkdir m) f TMP_DIR)) (log_set_file (log_set_level log_init (cf_level c)) (L "/var/log/wayuu.log") true)) V1 R) as [T|N].
          + rewrite (tls_ok _ _ _ _ T R). unfold sockets. rewrite limits_same, El. discriminate.
          + intros Es. unfold tls_setup in Es. destruct (cf_ssl c) eqn:Sl.
            * destruct (m_context m); cbn [negb] in Es; [|match type of Es with failed ?s [] ?t = _ => destruct (say_error s [] t V1) as (o & X) end; rewrite X in Es; discriminate].
              rewrite !fits_ok in Es by (unfold ROOT_PATH_MAX; rewrite len_app; change (len (L "/ssl/cert.pem")) with 13; change (len (L "/ssl/key.pem")) with 12; lia). cbn [bind] in Es.
              destruct (m_cert m _); cbn [negb] in Es; [|match type of Es with failed ?s [] ?t = _ => destruct (say_error s [] t V1) as (o & X) end; rewrite X in Es; discriminate].
              destruct (m_key m _); cbn [negb] in Es; [|match type of Es with failed ?s [] ?t = _ => destruct (say_error s [] t V1) as (o & X) end; rewrite X in Es; discriminate].
              unfold sockets in Es. rewrite limits_same, El in Es. discriminate.
            * unfold sockets in Es. rewrite limits_same, El in Es. discriminate. }
    destruct (start_or_missing m c f) as [S|(level & text & M)].
    + exists c, rules. assert (Rn : running m f args c) by (split; [exact E|split; [exact Lf|exact S]]). split; [exact Rn|]. split; [exact El|]. rewrite (start_ok m f args routes coming c rules Rn El) in H0. injection H0 as <- <-. auto.
    + exfalso. destruct (stops m c f _ rules level text V1 V2 R El M) as (s' & done & o & file & X & _). rewrite X in H. cbn [bind] in H. discriminate.
  - apply bind_ok_inv in H as (r & E & H). apply bind_ok_inv in H as (st & E2 & H). split; [rewrite E2; apply ok_defined|].
    intros c Rn. pose proof (proj1 Rn) as E3. destruct (load_limits f (cf_root c)) as [rules|u] eqn:El; [rewrite (start_ok _ _ _ _ _ _ _ Rn El) in H0; discriminate|].
    assert (U : undefined (main_run m f args)).
    { apply run_bad. right. exists c. split; [exact E3|]. split; [apply Rn|]. destruct Rn as (_ & _ & S1 & S2 & _). split; [exact S1|]. split; [exact S2|]. apply rules_bad. rewrite El. apply ub_undefined. }
    rewrite E2 in U. now apply ok_defined in U.
  - unfold bind in H. destruct (main_options f args) as [r|u1] eqn:E; [|unfold main_run; rewrite E; apply ub_undefined].
    destruct (main_run m f args) as [st|u2] eqn:E2; [discriminate|apply ub_undefined].
Qed.

(** ** The pool with more connections behind its queue *)
Definition extend (p : Workers.pool) (ext : list incoming) : Workers.pool := mkPool (w_queue p ++ ext) (w_threads p) (w_table p) (w_fs p) (w_answers p).
Lemma extend_extend p a b : extend (extend p a) b = extend p (a ++ b).
Proof. unfold extend. cbn. now rewrite <- app_assoc. Qed.
Lemma extend_nil p : extend p [] = p.
Proof. unfold extend. rewrite app_nil_r. now destruct p. Qed.
Local Opaque serve read_head connection_validate too_many_connections.
Lemma step_extend p k ext : match wstep p k with
  | Some (Ok p') => wstep (extend p ext) k = Some (Ok (extend p' ext))
  | Some (UB u) => wstep (extend p ext) k = Some (UB u)
  | None => True
  end.
Proof.
  unfold wstep. cbn [extend w_threads w_queue w_table w_fs w_answers]. destruct (nth_error (w_threads p) k) as [[|q|q h|q h|q h i|q h|q h|q k' r]|]; try exact I; try reflexivity.
  - destruct (w_queue p) as [|q rest]; [exact I|reflexivity].
  - destruct (read_head q); reflexivity.
  - destruct (connection_validate _ _ _ _); reflexivity.
  - destruct (fits HTTP_MAX_PATH _); [|reflexivity]. cbn [bind]. destruct (fits HTTP_MAX_IP _); reflexivity.
  - destruct (too_many_connections _); reflexivity.
  - destruct (serve _ _ _) as [[[k' r] f]|]; reflexivity.
Qed.
Lemma run_extend sched ext : forall p, match wrun p sched with
  | Some (Ok p') => wrun (extend p ext) sched = Some (Ok (extend p' ext))
  | Some (UB u) => wrun (extend p ext) sched = Some (UB u)
  | None => True
  end.
Proof.
  unfold wrun. induction sched as [|k l IH]; intros p; cbn [run_with]; [reflexivity|]. pose proof (step_extend p k ext) as S. destruct (wstep p k) as [[p1|u]|]; [|now rewrite S|exact I].
  rewrite S. apply IH.
Qed.
Lemma run_app a b : forall p, wrun p (a ++ b) = match wrun p a with Some (Ok p') => wrun p' b | x => x end.
Proof. unfold wrun. induction a as [|k l IH]; intros p; cbn [app run_with]; [reflexivity|]. destruct (wstep p k) as [[p1|u]|]; auto. Qed.
Lemma prun_app g a b : forall s, prun g s (a ++ b) = match prun g s a with Some (Ok s') => prun g s' b | x => x end.
Proof. induction a as [|k l IH]; intros s; cbn [app prun]; [reflexivity|]. destruct (pstep g s k) as [[s1|u]|]; auto. Qed.

(** ** A run of the program is a run of the pool *)
Definition workers_of (sched : list who) : list nat := flat_map (fun w => match w with Main => [] | Worker k => [k] end) sched.
Definition with_pool (s : program) (p : Workers.pool) : program := mkProgram p (p_lists s) (p_coming s) (p_denied s) (p_lost s).
Lemma prun_workers g ws : forall s, prun g s (map Worker ws) = match wrun (p_pool s) ws with Some (Ok p') => Some (Ok (with_pool s p')) | Some (UB u) => Some (UB u) | None => None end.
Proof.
  unfold wrun. induction ws as [|k l IH]; intros s; cbn [map prun run_with]; [now destruct s|]. cbn [pstep]. destruct (wstep (p_pool s) k) as [[p1|u]|]; cbn [bind]; [|reflexivity|reflexivity].
  rewrite IH. reflexivity.
Qed.

(** [f]: the files when it has been started.  [kept]: the connections queued so far. *)
Lemma dealt_perm past k d l : dealt past k d l -> Permutation past (k ++ d ++ l).
Proof.
  induction 1; [constructor| | |]; rewrite IHdealt.
  - rewrite <- !app_assoc. apply Permutation_app_head. rewrite (app_assoc d). rewrite Permutation_app_comm. reflexivity.
  - rewrite <- !app_assoc. apply Permutation_app_head, Permutation_app_head, Permutation_app_comm.
  - rewrite <- !app_assoc. reflexivity.
Qed.
Definition reached (f : fs) (g : settings) (n : nat) (coming kept : list arrival) (ws : list nat) (s : program) : Prop :=
  wrun (pool_start f (map (enqueued g) kept) n) ws = Some (Ok (p_pool s))
  /\ lists_ok (cf_root (st_config g)) (p_lists s)
  /\ (exists past, coming = past ++ p_coming s /\ dealt past kept (p_denied s) (p_lost s))
  /\ Forall (let_in_by f (cf_root (st_config g))) kept /\ Forall (let_in_by f (cf_root (st_config g))) (p_lost s)
  /\ Forall (fun a => ~ let_in_by f (cf_root (st_config g)) a) (p_denied s).
Definition good_settings (g : settings) : Prop := len (cf_root (st_config g)) <= 255 /\ Forall (fun r => no_nul (l_path r)) (st_rules g).
Definition as_made (q : incoming) : Prop := mp_md5_size (v_mp (q_env q)) = 36 /\ Forall (fun r => no_nul (l_path r)) (v_limits (q_env q)).
Lemma enqueued_made g l : good_settings g -> Forall proper l -> Forall as_made (map (enqueued g) l).
Proof. intros [_ N] P. apply Forall_forall. intros q I. apply in_map_iff in I as (a & <- & I). rewrite Forall_forall in P. split; [apply (P a I)|exact N]. Qed.
Lemma made_sound qs : Forall as_made qs -> Forall sound qs.
Proof. intros H. eapply Forall_impl; [|exact H]. intros q [A B]. split; [lia|exact B]. Qed.
Lemma kept_in f g n coming kept ws s : reached f g n coming kept ws s -> forall a, In a (kept ++ p_denied s ++ p_lost s ++ p_coming s) <-> In a coming.
Proof.
  intros (_ & _ & (past & -> & P) & _) a. apply dealt_perm in P. split; intros I.
  - rewrite !app_assoc in I. apply in_app_or in I as [I|I]; apply in_or_app; [left|now right]. apply (Permutation_in _ (Permutation_sym P)). now rewrite app_assoc.
  - rewrite !app_assoc. apply in_app_or in I as [I|I]; apply in_or_app; [left|now right]. apply (Permutation_in _ P) in I. now rewrite app_assoc in I.
Qed.
Lemma kept_proper f g n coming kept ws s : Forall proper coming -> reached f g n coming kept ws s -> Forall proper kept.
Proof. intros P R. rewrite Forall_forall in P |- *. intros a I. apply P. apply (kept_in _ _ _ _ _ _ _ R). apply in_or_app. now left. Qed.
Lemma reached_files f g n coming kept ws s : good_settings g -> Forall proper coming -> reached f g n coming kept ws s -> w_fs (p_pool s) = f.
Proof.
  intros G P R. pose proof (pinv_run f _ ws (made_sound _ (enqueued_made g kept G (kept_proper _ _ _ _ _ _ _ P R))) _ (pinv_start f _ n)) as Q.
  destruct R as (R & _). rewrite R in Q. apply Q.
Qed.
Lemma main_step f g n coming kept ws s : good_settings g -> Forall proper coming -> reached f g n coming kept ws s ->
  match p_coming s with
  | [] => pstep g s Main = None
  | a :: rest =>
    (exists u, pstep g s Main = Some (UB u) /\ bad_lists f (cf_root (st_config g)) (inet_ntoa (ar_addr a)))
    \/ (exists s', pstep g s Main = Some (Ok s') /\ p_coming s' = rest /\ ~ bad_lists f (cf_root (st_config g)) (inet_ntoa (ar_addr a))
         /\ (w_queue (p_pool s) = [] -> p_lost s' = p_lost s /\ (let_in_by f (cf_root (st_config g)) a -> reached f g n coming (kept ++ [a]) ws s' /\ p_pool s' = extend (p_pool s) [enqueued g a]))
         /\ (len (w_queue (p_pool s)) <= 1023 -> p_lost s' = p_lost s) /\ len (w_queue (p_pool s')) <= len (w_queue (p_pool s)) + 1 /\ (len (w_queue (p_pool s)) <= 1024 -> len (w_queue (p_pool s')) <= 1024)
         /\ (reached f g n coming kept ws s' \/ reached f g n coming (kept ++ [a]) ws s'))
  end.
Proof.
  intros G P R. pose proof (reached_files _ _ _ _ _ _ _ G P R) as F. destruct (p_coming s) as [|a rest] eqn:C; cbn [pstep]; unfold accept_next; rewrite C; [reflexivity|].
  assert (Pa : proper a). { rewrite Forall_forall in P. apply P. apply (kept_in _ _ _ _ _ _ _ R). rewrite C. rewrite !in_app_iff. cbn. auto. }
  destruct R as (R & O & (past & E & Pm) & K & Lo & D). rewrite C in E. destruct G as [Gr Gn].
  replace (admitted_peer (w_fs (p_pool s)) (p_lists s) (ar_addr a)) with (admitted_peer f (p_lists s) (ar_addr a)) by now rewrite F.
  destruct (peer_answer f (cf_root (st_config g)) (p_lists s) (ar_addr a) ltac:(lia) (proj1 Pa) O) as [(u & -> & B)|(b & -> & Hb & B)]; [left; exists u; split; [reflexivity|exact B]|]. right. cbn [bind].
  assert (E' : coming = (past ++ [a]) ++ rest) by (rewrite <- app_assoc; exact E).
  assert (Fl : lists_ok (cf_root (st_config g)) (full_lists (cf_root (st_config g)))) by (right; reflexivity).
  assert (More : wrun (pool_start f (map (enqueued g) (kept ++ [a])) n) ws = Some (Ok (extend (p_pool s) [enqueued g a]))).
  { pose proof (run_extend ws [enqueued g a] (pool_start f (map (enqueued g) kept) n)) as X. rewrite R in X. rewrite map_app. exact X. }
  destruct b; cbn [negb].
  - assert (A : let_in_by f (cf_root (st_config g)) a) by now apply Hb.
    assert (Rk : forall ls, ls = full_lists (cf_root (st_config g)) -> reached f g n coming (kept ++ [a]) ws (mkProgram (extend (p_pool s) [enqueued g a]) ls rest (p_denied s) (p_lost s))).
    { intros ls ->. split; [exact More|]. split; [exact Fl|]. cbn [p_coming p_denied p_lost]. split; [exists (past ++ [a]); split; [exact E'|now constructor]|].
      split; [apply Forall_app; auto|]. auto. }
    destruct (Z.eqb_spec (len (w_queue (p_pool s))) WS_MAX_CONNECTIONS) as [X|X].
    + eexists. split; [reflexivity|]. split; [reflexivity|]. split; [exact B|]. unfold WS_MAX_CONNECTIONS in X. split; [intros Q; rewrite Q in X; discriminate|]. split; [lia|]. split; [cbn [p_pool]; lia|]. split; [cbn [p_pool]; lia|].
      left. split; [exact R|]. split; [exact Fl|]. cbn [p_coming p_denied p_lost]. split; [exists (past ++ [a]); split; [exact E'|now constructor]|].
      split; [exact K|]. split; [apply Forall_app; auto|exact D].
    + eexists. split; [reflexivity|]. split; [reflexivity|]. split; [exact B|]. specialize (Rk _ eq_refl). split; [intros _; split; [reflexivity|intros _; split; [exact Rk|reflexivity]]|]. split; [reflexivity|].
      unfold WS_MAX_CONNECTIONS in X. split; [|split; [|right; exact Rk]]; cbn [p_pool w_queue]; rewrite len_app; change (len [enqueued g a]) with 1; lia.
  - assert (A : ~ let_in_by f (cf_root (st_config g)) a) by (intros X; apply Hb in X; discriminate).
    eexists. split; [reflexivity|]. split; [reflexivity|]. split; [exact B|]. split; [intros _; split; [reflexivity|intros X; contradiction]|]. split; [reflexivity|]. split; [cbn [p_pool]; lia|]. split; [cbn [p_pool]; lia|].
    left. split; [exact R|]. split; [exact Fl|]. cbn [p_coming p_denied p_lost]. split; [exists (past ++ [a]); split; [exact E'|now constructor]|].
    split; [exact K|]. split; [exact Lo|]. apply Forall_app; auto.
Qed.
Lemma worker_step f g n coming kept ws s k : reached f g n coming kept ws s ->
  match pstep g s (Worker k) with
  | None => True
  | Some (UB u) => wrun (pool_start f (map (enqueued g) kept) n) (ws ++ [k]) = Some (UB u)
  | Some (Ok s') => reached f g n coming kept (ws ++ [k]) s' /\ p_coming s' = p_coming s /\ p_lost s' = p_lost s /\ len (w_queue (p_pool s')) <= len (w_queue (p_pool s))
  end.
Proof.
  intros (R & O & Q). cbn [pstep]. destruct (wstep (p_pool s) k) as [[p1|u]|] eqn:E; cbn [bind]; [| |exact I].
  - split; [|split; [reflexivity|split; [reflexivity|]]].
    + split; [|split; [exact O|exact Q]]. rewrite run_app, R. unfold wrun. cbn [run_with]. rewrite E. reflexivity.
    + cbn [p_pool]. clear - E. unfold wstep in E. destruct (nth_error (w_threads (p_pool s)) k) as [[|q|q h|q h|q h i|q h|q h|q k' r]|]; try discriminate.
      * destruct (w_queue (p_pool s)) as [|q rest]; [discriminate|]. injection E as <-. cbn [w_queue]. rewrite len_cons. lia.
      * destruct (read_head q); [|discriminate]. injection E as <-. cbn. lia.
      * destruct (connection_validate _ _ _ _); [|discriminate]. injection E as <-. cbn. lia.
      * injection E as <-. cbn. lia.
      * destruct (fits HTTP_MAX_PATH _); [|discriminate]. cbn [bind] in E. destruct (fits HTTP_MAX_IP _); [|discriminate]. injection E as <-. cbn. lia.
      * destruct (too_many_connections _); [|discriminate]. injection E as <-. cbn. lia.
      * destruct (serve _ _ _) as [[[k' r] f0]|]; [|discriminate]. injection E as <-. cbn. lia.
      * injection E as <-. cbn. lia.
  - rewrite run_app, R. unfold wrun. cbn [run_with]. now rewrite E.
Qed.
Lemma run_reached f g n coming sched : good_settings g -> Forall proper coming -> forall s kept ws, reached f g n coming kept ws s ->
  match prun g s sched with
  | None => True
  | Some (Ok s') => exists kept' ws', reached f g n coming kept' ws' s'
      /\ len (w_queue (p_pool s')) + len (p_coming s') <= len (w_queue (p_pool s)) + len (p_coming s)
      /\ (len (w_queue (p_pool s)) + len (p_coming s) <= 1024 -> p_lost s' = p_lost s)
      /\ len (p_coming s') + len sched + len ws = len (p_coming s) + len ws'
      /\ (len (w_queue (p_pool s)) <= 1024 -> len (w_queue (p_pool s')) <= 1024)
  | Some (UB u) => (exists a, In a (p_coming s) /\ bad_lists f (cf_root (st_config g)) (inet_ntoa (ar_addr a)))
      \/ exists kept' ws', incl kept' coming /\ Forall (let_in_by f (cf_root (st_config g))) kept' /\ wrun (pool_start f (map (enqueued g) kept') n) ws' = Some (UB u)
  end.
Proof.
  intros G P. induction sched as [|w l IH]; intros s kept ws R; cbn [prun].
  { exists kept, ws. split; [exact R|]. split; [lia|]. split; [reflexivity|]. rewrite len_nil. split; lia. }
  destruct w as [|k].
  - pose proof (main_step f g n coming kept ws s G P R) as M. destruct (p_coming s) as [|a rest] eqn:C; [now rewrite M|].
    destruct M as [(u & -> & B)|(s' & -> & C' & B & _ & L1 & L2 & L3 & M)]; [left; exists a; split; [now left|exact B]|].
    assert (M' : exists kept', reached f g n coming kept' ws s') by (destruct M as [M|M]; eauto). destruct M' as (kept' & M'). specialize (IH s' kept' ws M').
    destruct (prun g s' l) as [[s2|u]|]; [| |exact I].
    + destruct IH as (k2 & w2 & R2 & I1 & I2 & I3 & I4). exists k2, w2. split; [exact R2|]. rewrite C' in *. rewrite !len_cons. pose proof (len_nonneg _ rest). split; [lia|]. split; [|split; lia].
      intros X. rewrite I2 by lia. apply L1. lia.
    + destruct IH as [(a' & I & B')|X]; [|now right]. left. exists a'. split; [|exact B']. rewrite C' in I. now right.
  - pose proof (worker_step f g n coming kept ws s k R) as M. destruct (pstep g s (Worker k)) as [[s1|u]|]; [| |exact I].
    + destruct M as (R1 & C1 & L1 & Q1). specialize (IH s1 kept (ws ++ [k]) R1). destruct (prun g s1 l) as [[s2|u]|]; [| |exact I].
      * destruct IH as (k2 & w2 & R2 & I1 & I2 & I3 & I4). exists k2, w2. split; [exact R2|]. rewrite C1, L1, len_app in *. change (len [k]) with 1 in *. rewrite !len_cons. split; [lia|]. split; [|split; lia].
        intros X. apply I2. lia.
      * rewrite C1 in IH. exact IH.
    + right. exists kept, (ws ++ [k]). split; [|split; [apply R|exact M]]. intros a I. apply (kept_in _ _ _ _ _ _ _ R). apply in_or_app. now left.
Qed.

(** ** Emptying the queue *)
Lemma drain f qs n : Forall as_made qs -> (0 < n)%nat -> forall d sched p, (7 * length qs < length sched + d)%nat -> wrun (pool_start f qs n) sched = Some (Ok p) ->
  exists more, (exists u, wrun p more = Some (UB u)) \/ (exists p', wrun p more = Some (Ok p') /\ w_queue p' = [] /\ Forall (fun s => s = SIdle) (w_threads p')).
Proof.
  intros B N. induction d as [|d IH]; intros sched p D R.
  - exfalso. destruct (C95_ends f qs n sched p B N R) as (E & _). unfold len in E. lia.
  - assert (X : (exists k, wstep p k <> None) \/ forall k, (k < length (w_threads p))%nat -> wstep p k = None).
    { generalize (length (w_threads p)). intros m. induction m as [|m [(k & S)|IHm]]; [right; lia|left; eauto|].
      destruct (wstep p m) eqn:E; [left; exists m; congruence|]. right. intros k Hk. destruct (Nat.eq_dec k m) as [->|Nk]; [exact E|apply IHm; lia]. }
    destruct X as [(k & S)|X].
    + destruct (wstep p k) as [[p1|u]|] eqn:E; [| |easy].
      * destruct (IH (sched ++ [k]) p1) as (more & Q); [rewrite app_length; cbn; lia|rewrite run_app, R; unfold wrun; cbn [run_with]; now rewrite E|].
        exists (k :: more). unfold wrun in *. cbn [run_with]. now rewrite E.
      * exists [k]. left. exists u. unfold wrun. cbn [run_with]. now rewrite E.
    + exists []. right. exists p. split; [reflexivity|]. apply at_rest.
      * intros k. destruct (le_lt_dec (length (w_threads p)) k) as [Hk|Hk]; [|now apply X]. unfold wstep. now rewrite (proj2 (nth_error_None _ _) Hk).
      * rewrite <- length_zero_iff_nil, (run_length _ _ _ R). destruct (start_more f qs n) as (_ & _ & ->). lia.
Qed.
Lemma reached_start m f g coming : reached (files_of m f) g (workers_started m) coming [] [] (first_state m f (cf_root (st_config g)) coming).
Proof.
  split; [reflexivity|]. split; [left; reflexivity|]. split; [exists []; split; [reflexivity|constructor]|]. repeat split; constructor.
Qed.
Lemma reached_more f g n coming kept ws s more p' : reached f g n coming kept ws s -> wrun (p_pool s) more = Some (Ok p') -> reached f g n coming kept (ws ++ more) (with_pool s p').
Proof. intros (R & Q) E. split; [|exact Q]. rewrite run_app, R. exact E. Qed.

(** ** One connection with nothing else going on *)
Lemma then_ub p k p' : wstep p k = Some (Ok p') -> (exists more u, wrun p' more = Some (UB u)) -> exists more u, wrun p more = Some (UB u).
Proof. intros E (more & u & H). exists (k :: more), u. unfold wrun in *. cbn [run_with]. now rewrite E. Qed.
Lemma now_ub p k u : wstep p k = Some (UB u) -> exists more u, wrun p more = Some (UB u).
Proof. intros E. exists [k], u. unfold wrun. cbn [run_with]. now rewrite E. Qed.
Lemma owns_run f qs sched : Forall sound qs -> Forall (fun q => keeps_socket (v_app (q_env q))) qs -> forall p p', pinv f qs p -> owns p -> wrun p sched = Some (Ok p') -> owns p'.
Proof.
  intros Hq Hk. unfold wrun. induction sched as [|k l IH]; intros p p' P O E; cbn [run_with] in E; [now inversion E; subst|].
  pose proof (pinv_step f qs p k Hq P) as S. destruct (wstep p k) as [[p1|u]|] eqn:E1; try discriminate. eapply IH; [exact S| |exact E]. exact (owns_step f qs p k p1 Hq Hk P O E1).
Qed.
Lemma idle_empty p : owns p -> Forall (fun s => s = SIdle) (w_threads p) -> occupied (w_table p) = [].
Proof.
  intros O I. assert (C : flat_map claimed (w_threads p) = []) by (clear O; induction I as [|x l -> I IH]; [reflexivity|exact IH]). unfold owns in O. rewrite C in O. apply cnt_le in O.
  rewrite map_length in O. cbn in O. now apply length_zero_iff_nil, Nat.le_0_r.
Qed.
Local Opaque alone empty_table.
Lemma solo f qs p q rest u : Forall sound qs -> pinv f qs p -> owns p -> w_threads p <> [] -> Forall (fun s => s = SIdle) (w_threads p) -> w_queue p = q :: rest -> alone f q = UB u ->
  exists more u', wrun p more = Some (UB u').
Proof.
  intros Hq P O N Id Q A. pose proof (idle_empty p O Id) as Oc. destruct P as (F & Ht & Lt & _ & _ & Pm).
  assert (Iq : In q qs). { apply (Permutation_in q (Permutation_sym Pm)), in_or_app. right. apply in_or_app. right. rewrite Q. now left. }
  destruct p as [qu th tb fs an]. cbn [w_threads w_queue w_table w_fs w_answers] in *. subst qu fs. destruct th as [|s l]; [easy|]. inversion Id; subst.
  assert (Sq : sound q) by (rewrite Forall_forall in Hq; auto). rewrite alone_cut in A.
  eapply (then_ub _ 0 (mkPool rest (SRead q :: l) tb f an)); [reflexivity|]. destruct (read_head q) as [[r|h]|u1] eqn:R.
  - discriminate A.
  - cbn [bind] in A. eapply (then_ub _ 0 (mkPool rest (SCheck q h :: l) tb f an)); [unfold wstep; cbn [w_threads nth_error]; rewrite R; reflexivity|].
    destruct (head_told _ _ R) as (_ & _ & Hh & _ & Nu & _).
    assert (V : connection_validate (v_limits (q_env q)) tb (r_ip (hd_req h)) (hd_url h) = connection_validate (v_limits (q_env q)) empty_table (r_ip (hd_req h)) (hd_url h)).
    { rewrite !validate_eq by (auto; rewrite ?occupied_empty, ?Oc; try apply Sq; auto). now rewrite Oc, occupied_empty. }
    destruct (connection_validate (v_limits (q_env q)) empty_table (r_ip (hd_req h)) (hd_url h)) as [[|]|u1] eqn:E.
    + eapply (then_ub _ 0 (mkPool rest (SSearch q h :: l) tb f an)); [unfold wstep; cbn [w_threads nth_error w_table]; rewrite V; reflexivity|].
      destruct (add_empty _ (q_socket q) _ _ E) as (tt & AE). rewrite AE in A. destruct (free_index tb) as [i|] eqn:Fi; [|apply full_occupied in Fi; rewrite Oc, Lt in Fi; discriminate].
      eapply (then_ub _ 0 (mkPool rest (SClaim q h i :: l) tb f an)); [unfold wstep; cbn [w_threads nth_error w_table]; rewrite Fi; reflexivity|].
      destruct (fits HTTP_MAX_PATH (hd_url h)) as [pa|u1] eqn:F1; [|eapply (now_ub _ 0); unfold wstep; cbn [w_threads nth_error]; rewrite F1; reflexivity].
      cbn [bind] in A. destruct (fits HTTP_MAX_IP (r_ip (hd_req h))) as [ip|u1] eqn:F2; [|eapply (now_ub _ 0); unfold wstep; cbn [w_threads nth_error]; rewrite F1; cbn [bind]; rewrite F2; reflexivity].
      cbn [bind negb] in A. eapply (then_ub _ 0); [unfold wstep; cbn [w_threads nth_error]; rewrite F1; cbn [bind]; rewrite F2; reflexivity|].
      destruct (serve q f h) as [[[k r] f']|u1] eqn:Sv; [discriminate|]. eapply (now_ub _ 0). unfold wstep, set_nth. cbn [w_threads firstn app nth_error w_fs]. rewrite Sv. reflexivity.
    + exfalso. Local Transparent connection_add. unfold connection_add in A. rewrite E in A. cbn [bind negb] in A. destruct (many_ok _ Hh) as (r' & M & _). rewrite M in A. discriminate.
    + eapply (now_ub _ 0). unfold wstep. cbn [w_threads nth_error w_table]. rewrite V. reflexivity.
  - eapply (now_ub _ 0). unfold wstep. cbn [w_threads nth_error]. rewrite R. reflexivity.
Qed.

Local Transparent alone empty_table.
(** ** Runs into undefined behaviour *)
Lemma lists_reached f g n coming post : good_settings g -> Forall proper coming -> forall pre s kept ws a, reached f g n coming kept ws s -> p_coming s = pre ++ a :: post ->
  bad_lists f (cf_root (st_config g)) (inet_ntoa (ar_addr a)) -> exists sched u, prun g s sched = Some (UB u).
Proof.
  intros G P. induction pre as [|b pre IH]; intros s kept ws a R C B; pose proof (main_step f g n coming kept ws s G P R) as M; rewrite C in M; cbn [app] in M.
  - destruct M as [(u & E & _)|(s' & _ & _ & N & _)]; [|contradiction]. exists [Main], u. cbn [prun]. now rewrite E.
  - destruct M as [(u & E & _)|(s' & E & C' & _ & _ & _ & _ & _ & R')]; [exists [Main], u; cbn [prun]; now rewrite E|].
    assert (R2 : exists kept', reached f g n coming kept' ws s') by (destruct R'; eauto). destruct R2 as (kept' & R2).
    destruct (IH s' kept' ws a R2 C' B) as (sched & u & X). exists (Main :: sched), u. cbn [prun]. now rewrite E.
Qed.
Definition unharmed (f : fs) (q : incoming) : Prop := harmless (q_env q) f empty_table (q_peer q) (q_stream q).
Definition in_place (f : fs) (q : incoming) : Prop := keeps_socket (v_app (q_env q)) /\ sound_routes (q_env q) /\ exists junk, sound_setting (q_env q) f empty_table (q_peer q) junk.
Lemma request_reached f g n coming post : good_settings g -> Forall proper coming -> Forall (fun a => in_place f (enqueued g a)) coming -> (0 < n)%nat ->
  forall pre s kept ws a, reached f g n coming kept ws s -> w_queue (p_pool s) = [] -> Forall (fun s => s = SIdle) (w_threads (p_pool s)) -> p_coming s = pre ++ a :: post ->
  let_in_by f (cf_root (st_config g)) a -> ~ unharmed f (enqueued g a) -> exists sched u, prun g s sched = Some (UB u).
Proof.
  intros G P O N. induction pre as [|b pre IH]; intros s kept ws a R Q Id C A H; pose proof (main_step f g n coming kept ws s G P R) as M; rewrite C in M; cbn [app] in M.
  - destruct M as [(u & E & _)|(s' & E & _ & _ & K & _)]; [exists [Main], u; cbn [prun]; now rewrite E|]. destruct (K Q) as [_ R2]. destruct (R2 A) as [R3 Pe].
    pose proof (made_sound _ (enqueued_made g (kept ++ [a]) G (kept_proper _ _ _ _ _ _ _ P R3))) as Sq.
    assert (Oa : forall x, In x (kept ++ [a]) -> in_place f (enqueued g x)). { intros x I. rewrite Forall_forall in O. apply O. apply (kept_in _ _ _ _ _ _ _ R3). apply in_or_app. now left. }
    assert (Ks : Forall (fun q => keeps_socket (v_app (q_env q))) (map (enqueued g) (kept ++ [a]))).
    { apply Forall_forall. intros q I. apply in_map_iff in I as (x & <- & I). apply (Oa x I). }
    pose proof (pinv_run f _ ws Sq _ (pinv_start f (map (enqueued g) (kept ++ [a])) n)) as Pi. rewrite (proj1 R3) in Pi.
    destruct (start_more f (map (enqueued g) (kept ++ [a])) n) as (Ow & _ & Ln). pose proof (owns_run f _ ws Sq Ks _ _ (pinv_start f _ n) Ow (proj1 R3)) as Ow'.
    assert (U : undefined (alone f (enqueued g a))).
    { destruct (Oa a) as (_ & Sr & junk & Sj); [apply in_or_app; right; now left|]. destruct (C101_exactly _ _ _ (ar_socket a) _ (ar_stream a) _ Sj Sr) as (_ & X). exact (proj2 X H). }
    destruct U as (u & U). destruct (solo f _ (p_pool s') (enqueued g a) [] u Sq Pi Ow') as (more & u' & X).
    + rewrite <- length_zero_iff_nil, (run_length _ _ _ (proj1 R3)), Ln. lia.
    + rewrite Pe. exact Id.
    + rewrite Pe. unfold extend. cbn [w_queue]. now rewrite Q.
    + exact U.
    + exists (Main :: map Worker more), u'. cbn [prun]. now rewrite E, prun_workers, X.
  - destruct M as [(u & E & _)|(s' & E & C' & _ & _ & _ & _ & _ & R')]; [exists [Main], u; cbn [prun]; now rewrite E|].
    assert (R2 : exists kept', reached f g n coming kept' ws s') by (destruct R'; eauto). destruct R2 as (kept' & R2).
    destruct (drain f _ n (enqueued_made g kept' G (kept_proper _ _ _ _ _ _ _ P R2)) N (S (7 * length (map (enqueued g) kept'))) ws (p_pool s') ltac:(lia) (proj1 R2)) as (more & [(u & X)|(p' & X & Q' & Id')]).
    + exists (Main :: map Worker more), u. cbn [prun]. now rewrite E, prun_workers, X.
    + destruct (IH (with_pool s' p') kept' (ws ++ more) a (reached_more _ _ _ _ _ _ _ _ _ R2 X) Q' Id' C' A H) as (sched & u & Y).
      exists (Main :: map Worker more ++ sched), u. cbn [prun]. now rewrite E, prun_app, prun_workers, X.
Qed.
Lemma workers_some m : some_worker m <-> (0 < workers_started m)%nat.
Proof.
  unfold some_worker, workers_started. split.
  - intros (i & Hi & T). assert (I : In i (filter (m_thread m) (seq 0 POOL_SIZE))) by (apply filter_In; split; [apply in_seq; unfold POOL_SIZE; lia|exact T]).
    destruct (filter _ _); [destruct I|cbn; lia].
  - intros H. destruct (filter (m_thread m) (seq 0 POOL_SIZE)) as [|i l] eqn:E; [cbn in H; lia|]. exists i.
    assert (I : In i (filter (m_thread m) (seq 0 POOL_SIZE))) by (rewrite E; now left). apply filter_In in I as [I T]. apply in_seq in I. unfold POOL_SIZE in I. split; [lia|exact T].
Qed.
Lemma files_file m f p c : files_of m f p = Some (File c) -> f p = Some (File c).
Proof.
  unfold files_of, check_createdir. destruct (is_dir f TMP_DIR); [auto|]. destruct (f TMP_DIR); [auto|]. destruct (m_mkdir m); [|auto]. cbn [snd]. unfold upd. destruct (str_eqb p TMP_DIR); [discriminate|auto].
Qed.
Lemma ordinary_order f args c rules routes a : main_options f args = Ok (Launch c) -> load_limits f (cf_root c) = Ok rules ->
  forall f', (forall name content, f' name = Some (File content) -> len content <= 2 ^ 31 - 2048) ->
  ordinary a -> ordinary_routes routes -> in_place f' (enqueued (mkSettings c rules routes) a).
Proof.
  intros E El f' F ((V & Hm) & K & junk & J & Jn) (Lr & Nr). destruct (main_served f args c E) as (S1 & S2 & S3). split; [exact K|].
  split; [split; [exact Lr|split; [exact Nr|exact Hm]]|]. exists junk. unfold sound_setting. cbn [enqueued q_env v_limits v_stk v_static_root v_index v_favicon st_config q_peer st_rules].
  rewrite S1, S2, S3. pose proof (ntoa_len _ V). split; [lia|]. split; [exact (limits_no_nul _ _ _ El)|]. split; [rewrite occupied_empty; constructor|]. split; [exact J|]. split; [exact Jn|].
  split; [vm_compute; discriminate|]. split; [vm_compute; discriminate|]. split; [vm_compute; discriminate|exact F].
Qed.
Local Opaque accept_request.
Lemma alone_files f f' q : mp_md5_size (v_mp (q_env q)) = 36 -> (forall p, f (v_static_root (q_env q) ++ L "/" ++ p) = f' (v_static_root (q_env q) ++ L "/" ++ p)) -> alone f' q = with_fs f' (alone f q).
Proof. intros Hm H. unfold alone. apply accept_moved; [lia|exact H]. Qed.
Lemma www_slash p : L "/etc/wayuu/www" ++ L "/" ++ p = L "/etc/wayuu/www/" ++ p.
Proof. reflexivity. Qed.
Lemma unharmed_files m f args c rules routes a : main_options f args = Ok (Launch c) -> load_limits f (cf_root c) = Ok rules -> ordinary a -> ordinary_routes routes -> ordinary_files f ->
  (unharmed (files_of m f) (enqueued (mkSettings c rules routes) a) <-> unharmed f (enqueued (mkSettings c rules routes) a)).
Proof.
  intros E El O Or F. set (q := enqueued (mkSettings c rules routes) a).
  assert (I1 : in_place f q) by now apply (ordinary_order f args). assert (I2 : in_place (files_of m f) q).
  { apply (ordinary_order f args); auto. intros name content X. apply files_file in X. now apply F in X. }
  destruct I1 as (_ & Sr & j1 & S1). destruct I2 as (_ & _ & j2 & S2). unfold unharmed.
  rewrite <- (proj1 (C101_exactly _ _ _ (q_socket q) _ (q_stream q) _ S1 Sr)), <- (proj1 (C101_exactly _ _ _ (q_socket q) _ (q_stream q) _ S2 Sr)).
  assert (X : alone (files_of m f) q = with_fs (files_of m f) (alone f q)).
  { apply alone_files; [apply O|]. intros p. cbn [q enqueued q_env v_static_root st_config]. rewrite (proj1 (main_served f args c E)), www_slash. symmetry. apply files_www. }
  unfold alone in X. rewrite X. destruct (accept_request (q_env q) f empty_table (q_socket q) (q_peer q) (q_stream q)) as [res|u]; cbn [with_fs bind]; split; intros (r & Y); eauto; discriminate.
Qed.

(** ** The whole program *)
Lemma started_good f args c rules routes : main_options f args = Ok (Launch c) -> load_limits f (cf_root c) = Ok rules -> good_settings (mkSettings c rules routes).
Proof. intros E El. split; [apply (main_launch_ok _ _ _ E)|apply (limits_no_nul _ _ _ El)]. Qed.
Lemma answers m f args routes coming sched g s : Forall proper coming -> program_run m f args routes coming sched = Some (Ok (g, s)) ->
  running m f args (st_config g) /\ load_limits f (cf_root (st_config g)) = Ok (st_rules g) /\ st_routes g = routes
  /\ exists past kept taken, coming = past ++ p_coming s /\ dealt past kept (p_denied s) (p_lost s)
     /\ Forall (let_in_by f (cf_root (st_config g))) (kept ++ p_lost s) /\ Forall (fun a => ~ let_in_by f (cf_root (st_config g)) a) (p_denied s)
     /\ (len coming <= 1024 -> p_lost s = [])
     /\ len (w_queue (p_pool s)) <= 1024
     /\ map (enqueued g) kept = taken ++ w_queue (p_pool s) /\ Permutation taken (answered (p_pool s) ++ in_work (p_pool s))
     /\ (forall q k r, In (q, k, r) (w_answers (p_pool s)) -> (exists res, alone f q = Ok res /\ o_taken res = k /\ o_req res = r) \/ refused k r)
     /\ w_fs (p_pool s) (L "/tmp/wayuu") = Some Dir /\ (forall p, p <> L "/tmp/wayuu" -> w_fs (p_pool s) p = f p)
     /\ (some_worker m -> len sched <= 8 * len coming /\ ((forall w, pstep g s w = None) -> p_coming s = [] /\ w_queue (p_pool s) = [] /\ in_work (p_pool s) = [])).
Proof.
  intros P H. unfold program_run in H. pose proof (start_inv m f args routes coming) as S. destruct (program_start m f args routes coming) as [[[g0 s0]|]|u]; try discriminate.
  destruct S as (c & rules & Rn & El & -> & ->). destruct (prun _ _ sched) as [[s1|u]|] eqn:E; try discriminate. cbn [bind] in H. injection H as <- <-.
  set (g := mkSettings c rules routes) in *. cbn [st_config st_rules st_routes g]. split; [exact Rn|]. split; [exact El|]. split; [reflexivity|].
  pose proof (started_good f args c rules routes (proj1 Rn) El) as G. change (good_settings g) in G.
  pose proof (run_reached (files_of m f) g (workers_started m) coming sched G P _ [] [] (reached_start m f g coming)) as R. cbn [g st_config] in R. rewrite E in R.
  destruct R as (kept & ws & R & _ & Lo & Ls & Lq). cbn [first_state p_pool pool_start w_queue p_coming p_lost] in Lo, Ls, Lq. rewrite !len_nil in *.
  pose proof (kept_proper _ _ _ _ _ _ _ P R) as Pk. pose proof (reached_files _ _ _ _ _ _ _ G P R) as F. pose proof (enqueued_made g kept G Pk) as Mk.
  destruct R as (R & O & (past & Ep & Pm) & K & Kl & D). destruct (C95_order _ _ _ _ _ Mk R) as (taken & Tq & Tp). exists past, kept, taken. split; [exact Ep|]. split; [exact Pm|].
  assert (Al : forall l, Forall (let_in_by (files_of m f) (cf_root (st_config g))) l -> Forall (let_in_by f (cf_root (st_config g))) l).
  { intros l X. eapply Forall_impl; [|exact X]. intros a Y. unfold let_in_by in *. now apply files_allowed in Y. }
  split; [apply Forall_app; split; [exact (Al _ K)|exact (Al _ Kl)]|]. split; [eapply Forall_impl; [|exact D]; intros a Y X; apply Y; unfold let_in_by in *; now apply files_allowed|].
  split; [intros X; apply Lo; lia|]. split; [apply Lq; lia|]. split; [exact Tq|]. split; [exact Tp|]. split.
  { intros q k r I. destruct (C95_alone _ _ _ _ _ Mk R q k r I) as [(res & A & T & Q)|A]; [|now right]. left.
    assert (Iq : In q (map (enqueued g) kept)). { apply (Permutation_in _ (Permutation_sym (proj1 (C95_once _ _ _ _ _ Mk R)))). apply in_or_app. left. unfold answered. apply in_map_iff. exists (q, k, r). auto. }
    apply in_map_iff in Iq as (a & <- & Ia). rewrite Forall_forall in Pk. rewrite (alone_files f (files_of m f)) in A; [|apply (Pk a Ia)|].
    - destruct (alone f (enqueued g a)) as [res0|] eqn:E0; [|discriminate]. exists res0. cbn [with_fs bind] in A. injection A as <-. auto.
    - intros p. cbn [enqueued q_env v_static_root st_config g]. rewrite (proj1 (main_served f args c (proj1 Rn))), www_slash. symmetry. apply files_www. }
  rewrite F. split.
  { destruct Rn as (_ & _ & U & _). unfold files_of, check_createdir. destruct U as [U|[U Mm]].
    - unfold is_dir. change TMP_DIR with (L "/tmp/wayuu"). rewrite U. exact U.
    - unfold is_dir. change TMP_DIR with (L "/tmp/wayuu"). rewrite U, Mm. cbn [snd]. unfold upd. now rewrite str_eqb_refl. }
  split; [intros p Np; now apply files_other|]. intros W. apply workers_some in W. destruct (C95_ends _ _ _ _ _ Mk W R) as (Le & St). split.
  - assert (len kept <= len past). { apply dealt_perm, Permutation_length in Pm. rewrite app_length in Pm. unfold len. lia. }
    rewrite Ep, len_app in *. assert (len (map (enqueued g) kept) = len kept) by (unfold len; now rewrite map_length). pose proof (len_nonneg _ (p_coming s1)). pose proof (len_nonneg _ past). lia.
  - intros X. assert (Y : forall k, wstep (p_pool s1) k = None). { intros k. specialize (X (Worker k)). cbn [pstep] in X. destruct (wstep (p_pool s1) k); [discriminate|reflexivity]. }
    destruct (at_rest _ Y) as [Q Id]; [rewrite <- length_zero_iff_nil, (run_length _ _ _ R); destruct (start_more (files_of m f) (map (enqueued g) kept) (workers_started m)) as (_ & _ & ->); lia|].
    split; [|split; [exact Q|now apply idle_work]]. specialize (X Main). cbn [pstep] in X. unfold accept_next in X. destruct (p_coming s1); [reflexivity|discriminate].
Qed.
Lemma workers_most m : (workers_started m <= 200)%nat.
Proof.
  assert (X : forall h (l : list nat), (length (filter h l) <= length l)%nat). { intros h l. induction l as [|x l IH]; cbn; [lia|]. destruct (h x); cbn; lia. }
  unfold workers_started. specialize (X (m_thread m) (seq 0 POOL_SIZE)). rewrite seq_length in X. unfold POOL_SIZE in *. lia.
Qed.
Lemma refusals m f args routes coming sched g s : Forall proper coming -> Forall (fun a => keeps_socket (ar_app a)) coming -> program_run m f args routes coming sched = Some (Ok (g, s)) ->
  forall q r, In (q, TTooMany, r) (w_answers (p_pool s)) -> exists rule, in_force (st_rules g) rule /\ ci_prefix (l_path rule) (r_url r).
Proof.
  intros P Ks H q r I. unfold program_run in H. pose proof (start_inv m f args routes coming) as S. destruct (program_start m f args routes coming) as [[[g0 s0]|]|u]; try discriminate.
  destruct S as (c & rules & Rn & El & -> & ->). destruct (prun _ _ sched) as [[s1|u]|] eqn:E; try discriminate. cbn [bind] in H. injection H as <- <-.
  set (g := mkSettings c rules routes) in *. pose proof (started_good f args c rules routes (proj1 Rn) El) as G. change (good_settings g) in G.
  pose proof (run_reached (files_of m f) g (workers_started m) coming sched G P _ [] [] (reached_start m f g coming)) as R. cbn [g st_config] in R. rewrite E in R.
  destruct R as (kept & ws & R & _). pose proof (enqueued_made g kept G (kept_proper _ _ _ _ _ _ _ P R)) as Mk.
  assert (K : Forall (fun q => keeps_socket (v_app (q_env q))) (map (enqueued g) kept)).
  { apply Forall_forall. intros x Ix. apply in_map_iff in Ix as (a & <- & Ia). rewrite Forall_forall in Ks. apply Ks. apply (kept_in _ _ _ _ _ _ _ R). apply in_or_app. now left. }
  assert (W : (workers_started m <= 1024)%nat) by (pose proof (workers_most m); lia). destruct (C95_refused _ _ _ _ _ Mk K W (proj1 R) q r I) as (rule & F & X). exists rule. split; [|exact X].
  assert (Iq : In q (map (enqueued g) kept)).
  { apply (Permutation_in _ (Permutation_sym (proj1 (C95_once _ _ _ _ _ Mk (proj1 R))))). apply in_or_app. left. unfold answered. apply in_map_iff. exists (q, TTooMany, r). auto. }
  apply in_map_iff in Iq as (a & <- & _). exact F.
Qed.
Lemma undefined_when m f args routes coming : Forall ordinary coming -> ordinary_routes routes -> ordinary_files f ->
  ((exists sched u, program_run m f args routes coming sched = Some (UB u)) <->
   undefined (main_run m f args)
   \/ exists c rules a, running m f args c /\ load_limits f (cf_root c) = Ok rules /\ In a coming
      /\ (bad_lists f (cf_root c) (inet_ntoa (ar_addr a))
          \/ some_worker m /\ let_in_by f (cf_root c) a /\ ~ harmless (q_env (enqueued (mkSettings c rules routes) a)) f empty_table (inet_ntoa (ar_addr a)) (ar_stream a))).
Proof.
  intros O Or F. assert (P : Forall proper coming) by (eapply Forall_impl; [|exact O]; intros a X; apply X).
  unfold program_run. pose proof (start_inv m f args routes coming) as S. destruct (program_start m f args routes coming) as [[[g0 s0]|]|u0] eqn:E0.
  2:{ split; [intros (sched & u & X); discriminate|]. destruct S as [N1 N2]. intros [U|(c & rules & a & Rn & _)]; [contradiction|]. now apply N2 in Rn. }
  2:{ split; [now left|]. intros _. exists [], u0. reflexivity. }
  destruct S as (c & rules & Rn & El & -> & ->). set (g := mkSettings c rules routes) in *.
  pose proof (started_good f args c rules routes (proj1 Rn) El) as G. change (good_settings g) in G. pose proof (reached_start m f g coming) as R0. cbn [g st_config] in R0. fold g in R0.
  assert (Os : forall a, In a coming -> in_place (files_of m f) (enqueued g a)).
  { intros a I. rewrite Forall_forall in O. apply (ordinary_order f args); auto; [apply Rn|]. intros name content X. apply files_file in X. now apply F in X. }
  split.
  - intros (sched & u & H). right. pose proof (run_reached (files_of m f) g (workers_started m) coming sched G P _ [] [] R0) as R. destruct (prun _ _ sched) as [[s1|u1]|]; try discriminate. clear H.
    destruct R as [(a & I & B)|(kept & ws & In' & Al & R)].
    + exists c, rules, a. split; [exact Rn|]. split; [exact El|]. split; [exact I|]. left. now apply files_bad in B.
    + assert (Pk : Forall proper kept) by (rewrite Forall_forall in P |- *; auto). destruct (C95_undefined _ _ _ _ _ (enqueued_made g kept G Pk) R) as (q & Iq & A). apply in_map_iff in Iq as (a & <- & Ia).
      exists c, rules, a. split; [exact Rn|]. split; [exact El|]. split; [auto|]. right. rewrite Forall_forall in Al, O. split; [|split; [specialize (Al a Ia); unfold let_in_by in *; now apply files_allowed in Al|]].
      * apply workers_some. destruct (workers_started m) as [|n]; [|lia]. exfalso. destruct ws as [|k ws]; [discriminate R|]. unfold wrun in R. cbn [run_with] in R. unfold wstep in R.
        cbn [pool_start w_threads repeat] in R. destruct k; discriminate R.
      * intros Hh. apply (unharmed_files m f args c rules routes a (proj1 Rn) El (O a (In' a Ia)) Or F) in Hh. destruct (Os a (In' a Ia)) as (_ & Sr & junk & Sj).
        destruct (C101_exactly _ _ _ (ar_socket a) _ (ar_stream a) _ Sj Sr) as (_ & X). apply X; [|exact Hh]. exists u1. exact A.
  - intros [U|(c' & rules' & a & Rn' & El' & Ia & B)].
    { exfalso. apply run_bad in U as [U|(c' & E & _ & _ & _ & B)].
      - apply main_bad in U as (u & U). destruct Rn as (E & _). congruence.
      - assert (c' = c) as -> by (destruct Rn as (E' & _); congruence). apply rules_bad in B as (u & B). congruence. }
    assert (c' = c) as -> by (destruct Rn as (E' & _), Rn' as (E'' & _); congruence). assert (rules' = rules) as -> by congruence. apply in_split in Ia as (pre & post & Ec).
    assert (X : exists sched u, prun g (first_state m f (cf_root c) coming) sched = Some (UB u)).
    { destruct B as [B|(W & A & H)].
      - eapply (lists_reached (files_of m f) g _ coming post G P pre _ [] [] a R0 Ec). now apply files_bad.
      - eapply (request_reached (files_of m f) g (workers_started m) coming post G P) with (pre := pre) (a := a); [| |exact R0|reflexivity| |exact Ec| |].
        + apply Forall_forall. exact Os.
        + now apply workers_some.
        + cbn [first_state p_pool pool_start w_threads]. apply Forall_forall. intros x I. now apply repeat_spec in I.
        + unfold let_in_by in *. now apply files_allowed.
        + intros Y. apply H. rewrite Forall_forall in O. apply (unharmed_files m f args c rules routes a (proj1 Rn) El); auto. apply O. rewrite Ec, in_app_iff. cbn. auto. }
    destruct X as (sched & u & X). exists sched, u. now rewrite X.
Qed.

(** ** What the program cannot tell apart *)
Definition agree (f1 f2 : fs) : Prop := forall p, f1 (L "/etc/wayuu/www/" ++ p) = f2 (L "/etc/wayuu/www/" ++ p).
Definition served (q : incoming) : Prop := mp_md5_size (v_mp (q_env q)) = 36 /\ v_static_root (q_env q) = L "/etc/wayuu/www".
Local Transparent serve.
Local Opaque handle_static_routes handle_api_request header_loop get_path_and_query_string startswith str_caseeqb bad_request cstr get_line write_at.
Lemma serve_moved q f f' h : served q -> agree f f' -> serve q f' h = Effects_proofs.moved f' (serve q f h).
Proof.
  intros [Hm Hs] H. unfold serve. cbv zeta. rewrite moved_bind. apply bind_ext. intros b1 _. rewrite moved_bind. apply bind_ext. intros [[n b2] s2] _.
  rewrite moved_bind. apply bind_ext. intros hl _. rewrite moved_bind. apply bind_ext. intros [path query] _. rewrite moved_bind. apply bind_ext. intros [|] _; cbn [negb].
  - rewrite moved_bind. apply bind_ext. intros p _. rewrite (api_moved (q_env q) f f') by lia. rewrite moved_bind.
    destruct (handle_api_request (q_env q) f _ _ _ _) as [[[c r6] g]|]; [|reflexivity]. unfold Effects_proofs.moved. cbn [bind fst]. reflexivity.
  - destruct (str_caseeqb (hd_method h) (L "GET")).
    + rewrite (static_moved (q_env q) f f'); [|intros p; rewrite Hs, www_slash; apply H]. rewrite moved_bind. apply bind_ext. intros r6 _. reflexivity.
    + rewrite moved_bind. apply bind_ext. intros r6 _. reflexivity.
Qed.
Local Opaque serve.
Definition twin (f2 : fs) (p : Workers.pool) : Workers.pool := mkPool (w_queue p) (w_threads p) (w_table p) f2 (w_answers p).
Definition all_served (p : Workers.pool) : Prop := Forall served (w_queue p) /\ Forall (fun s => Forall served (working s)) (w_threads p).
Lemma set_served l k s : Forall (fun s => Forall served (working s)) l -> Forall served (working s) -> Forall (fun s => Forall served (working s)) (set_nth l k s).
Proof.
  intros H S. unfold set_nth. rewrite Forall_forall in H |- *. intros x I. apply in_app_or in I as [I|[<-|I]]; [|exact S|].
  - apply H. rewrite <- (firstn_skipn k l). apply in_or_app. now left.
  - apply H. rewrite <- (firstn_skipn (Datatypes.S k) l). apply in_or_app. now right.
Qed.
Lemma twin_step f1 f2 p k : agree f1 f2 -> w_fs p = f1 -> all_served p ->
  match wstep p k with
  | None => wstep (twin f2 p) k = None
  | Some (UB u) => wstep (twin f2 p) k = Some (UB u)
  | Some (Ok p') => wstep (twin f2 p) k = Some (Ok (twin f2 p')) /\ w_fs p' = f1 /\ all_served p'
  end.
Proof.
  intros A F [Sq St]. unfold wstep. cbn [twin w_threads w_queue w_table w_fs w_answers].
  destruct (nth_error (w_threads p) k) as [s|] eqn:E; [|reflexivity]. assert (Ss : Forall served (working s)) by (rewrite Forall_forall in St; apply St; eapply nth_error_In; exact E).
  destruct s as [|q|q h|q h|q h i|q h|q h|q k' r]; cbn [working] in Ss.
  - destruct (w_queue p) as [|q rest] eqn:Q; [reflexivity|]. inversion Sq; subst. split; [reflexivity|]. split; [reflexivity|]. split; [assumption|]. cbn [w_threads]. apply set_served; [exact St|]. cbn. auto.
  - destruct (read_head q) as [x|]; cbn [bind]; [|reflexivity]. split; [reflexivity|]. split; [exact F|]. split; [exact Sq|]. cbn [at_stage w_threads]. apply set_served; [exact St|]. destruct x; exact Ss.
  - destruct (connection_validate _ _ _ _) as [ok|]; cbn [bind]; [|reflexivity]. split; [reflexivity|]. split; [exact F|]. split; [exact Sq|]. cbn [at_stage w_threads]. apply set_served; [exact St|]. destruct ok; exact Ss.
  - split; [reflexivity|]. split; [exact F|]. split; [exact Sq|]. cbn [at_stage w_threads]. apply set_served; [exact St|]. destruct (free_index _); exact Ss.
  - destruct (fits HTTP_MAX_PATH _); cbn [bind]; [|reflexivity]. destruct (fits HTTP_MAX_IP _); cbn [bind]; [|reflexivity]. split; [reflexivity|]. split; [exact F|]. split; [exact Sq|]. cbn [w_threads]. apply set_served; [exact St|exact Ss].
  - destruct (too_many_connections _); cbn [bind]; [|reflexivity]. split; [reflexivity|]. split; [exact F|]. split; [exact Sq|]. cbn [at_stage w_threads]. apply set_served; [exact St|exact Ss].
  - assert (Sv : served q) by now inversion Ss. rewrite F, (serve_moved q f1 f2 h Sv A). destruct (serve q f1 h) as [[[k' r] f0]|] eqn:E1; cbn [Effects_proofs.moved bind]; [|reflexivity]. cbn [fst]. split; [reflexivity|].
    cbn [w_fs w_queue w_threads]. split; [symmetry; symmetry; eapply serve_no_files; [|exact E1]; destruct Sv; lia|]. split; [exact Sq|]. cbn [w_threads]. apply set_served; [exact St|exact Ss].
  - split; [reflexivity|]. split; [exact F|]. split; [exact Sq|]. cbn [w_threads]. apply set_served; [exact St|]. constructor.
Qed.
Lemma find_moved f1 f2 p ip : f1 p = f2 p -> find_in_file f2 p ip = find_in_file f1 p ip.
Proof. intros H. unfold find_in_file, is_file, read_file. rewrite H. reflexivity. Qed.
Lemma peer_moved f1 f2 root ls a : (forall name, In name [L "/etc/limits"; L "/etc/allow"; L "/etc/deny"] -> f1 (root ++ name) = f2 (root ++ name)) -> lists_ok root ls ->
  admitted_peer f2 ls a = admitted_peer f1 ls a /\ forall b ls', admitted_peer f1 ls a = Ok (b, ls') -> lists_ok root ls'.
Proof.
  intros H O. unfold admitted_peer. destruct (fits 16 (inet_ntoa a)) as [ip|]; cbn [bind]; [|split; [reflexivity|discriminate]]. unfold allowed_address.
  assert (I : exists x, ip_paths ls = x /\ forall ls', x = Ok ls' -> ls' = full_lists root).
  { eexists. split; [reflexivity|]. intros ls' E. destruct O as [-> | ->].
    - unfold ip_paths in E. cbn [ws_allow ws_root] in E. change (len [] =? 0) with true in E. cbv iota in E. apply bind_ok_inv in E as (x & E1 & E). apply fits_inv in E1 as [-> _].
      apply bind_ok_inv in E as (y & E2 & E). apply fits_inv in E2 as [-> _]. now injection E as <-.
    - rewrite ip_paths_later in E by (destruct root; discriminate). now injection E as <-. }
  destruct I as (x & -> & I). destruct x as [ls'|]; cbn [bind]; [|split; [reflexivity|discriminate]]. rewrite (I _ eq_refl). cbn [full_lists ws_allow ws_deny].
  rewrite !(find_moved f1 f2) by (apply H; cbn; auto). unfold is_file. rewrite <- (H (L "/etc/allow")) by (cbn; auto). split; [reflexivity|].
  intros b ls2 E. apply bind_ok_inv in E as (d & _ & E). right. destruct d; [now injection E as <- <-|]. destruct (negb _); [now injection E as <- <-|]. apply bind_ok_inv in E as (y & _ & E). now injection E as <- <-.
Qed.
Definition twin_program (f2 : fs) (s : program) : program := with_pool s (twin f2 (p_pool s)).
Lemma twin_run f1 f2 g sched : agree f1 f2 -> cf_static_root (st_config g) = L "/etc/wayuu/www" ->
  (forall name, In name [L "/etc/limits"; L "/etc/allow"; L "/etc/deny"] -> f1 (cf_root (st_config g) ++ name) = f2 (cf_root (st_config g) ++ name)) ->
  forall s, w_fs (p_pool s) = f1 -> all_served (p_pool s) -> lists_ok (cf_root (st_config g)) (p_lists s) -> Forall (fun a => mp_md5_size (ar_mp a) = 36) (p_coming s) ->
  match prun g s sched with
  | None => prun g (twin_program f2 s) sched = None
  | Some (UB u) => prun g (twin_program f2 s) sched = Some (UB u)
  | Some (Ok s') => prun g (twin_program f2 s) sched = Some (Ok (twin_program f2 s'))
  end.
Proof.
  intros A Hs H. induction sched as [|w l IH]; intros s F S O C; cbn [prun]; [reflexivity|]. destruct w as [|k]; cbn [pstep].
  - unfold accept_next. cbn [twin_program with_pool p_coming p_lists p_pool twin w_fs w_queue w_threads w_table w_answers p_denied p_lost]. destruct (p_coming s) as [|a rest] eqn:Ec; [reflexivity|].
    destruct (peer_moved f1 f2 _ (p_lists s) (ar_addr a) H O) as [M O']. rewrite M, F. destruct (admitted_peer f1 (p_lists s) (ar_addr a)) as [[b ls]|u]; cbn [bind]; [|reflexivity].
    specialize (O' _ _ eq_refl). inversion C as [|x y Ca Cr]; subst x y.
    destruct b; cbn [negb].
    + destruct (_ =? _).
      * apply (IH (mkProgram (p_pool s) ls rest (p_denied s) (p_lost s ++ [a]))); assumption.
      * apply (IH (mkProgram (mkPool (w_queue (p_pool s) ++ [enqueued g a]) (w_threads (p_pool s)) (w_table (p_pool s)) f1 (w_answers (p_pool s))) ls rest (p_denied s) (p_lost s))); try assumption; [reflexivity|].
        destruct S as [S1 S2]. split; [|exact S2]. cbn [w_queue p_pool]. apply Forall_app. split; [exact S1|]. constructor; [|constructor]. split; [exact Ca|exact Hs].
    + apply (IH (mkProgram (p_pool s) ls rest (p_denied s ++ [a]) (p_lost s))); assumption.
  - pose proof (twin_step f1 f2 (p_pool s) k A F S) as T. cbn [twin_program with_pool p_pool]. destruct (wstep (p_pool s) k) as [[p'|u]|]; cbn [bind].
    + destruct T as (-> & F' & S'). cbn [bind]. apply (IH (with_pool s p')); assumption.
    + now rewrite T.
    + now rewrite T.
Qed.
Lemma loop_same f1 f2 l : forall c, (forall r, In (OptR r) l -> is_dir f1 r = is_dir f2 r) -> main_loop f1 c l = main_loop f2 c l.
Proof.
  induction l as [|o l IH]; intros c H; [reflexivity|]. assert (H' : forall r, In (OptR r) l -> is_dir f1 r = is_dir f2 r) by (intros r I; apply H; now right).
  destruct o; cbn [main_loop]; try reflexivity; try (now apply IH).
  - destruct (fits _ _); [|reflexivity]. cbn [bind]. now apply IH.
  - destruct (fits _ _) as [b|] eqn:E; [|reflexivity]. cbn [bind]. apply fits_inv in E as [-> _]. rewrite (H a) by now left. destruct (is_dir f2 a); [now apply IH|reflexivity].
Qed.
Lemma loop_root f l : forall c c', main_loop f c l = Ok (Launch c') -> cf_root c' = cf_root c \/ In (OptR (cf_root c')) l.
Proof.
  induction l as [|o l IH]; intros c c' H; [inv H; auto|]. destruct o; cbn [main_loop] in H; try discriminate H; try (apply IH in H as [H|H]; cbn [cf_root] in *; [now left|right; now right]).
  - apply bind_ok_inv in H as (b & _ & H). apply IH in H as [H|H]; [now left|right; now right].
  - apply bind_ok_inv in H as (b & E & H). apply fits_inv in E as [-> _]. destruct (is_dir f a); [|discriminate]. apply IH in H as [H|H]; cbn [cf_root] in *; [right; left; now rewrite H|right; now right].
Qed.
Lemma options_same args f1 f2 : same_files args f1 f2 -> main_options f1 args = main_options f2 args.
Proof. intros (_ & _ & H). apply loop_same. intros r I. apply H. now right. Qed.
Lemma launch_roots f args c : main_options f args = Ok (Launch c) -> roots args (cf_root c).
Proof. intros H. apply loop_root in H as [H|H]; [left|right]; exact H. Qed.
Lemma limits_moved f1 f2 root : f1 (root ++ L "/etc/limits") = f2 (root ++ L "/etc/limits") -> load_limits f2 root = load_limits f1 root.
Proof. intros H. unfold load_limits. destruct (fits _ _) as [p|] eqn:E; [|reflexivity]. cbn [bind]. apply fits_inv in E as [-> _]. now rewrite H. Qed.
Lemma same_sym args f1 f2 : same_files args f1 f2 -> same_files args f2 f1.
Proof. intros (A & B & C). split; [auto|]. split; [auto|]. intros r R. destruct (C r R) as [D E]. split; [auto|]. intros n I. symmetry. auto. Qed.
Lemma running_same args f1 f2 m c : same_files args f1 f2 -> running m f1 args c -> running m f2 args c /\ load_limits f2 (cf_root c) = load_limits f1 (cf_root c).
Proof.
  intros S (E & Lf & U & T & Rest). pose proof (launch_roots _ _ _ E) as Ro. split.
  - split; [rewrite <- (options_same _ _ _ S); exact E|]. split; [exact Lf|]. split; [|exact (conj T Rest)]. destruct S as (_ & B & _). unfold upload_dir in *. now rewrite <- B.
  - destruct S as (_ & _ & C). apply limits_moved, C; [exact Ro|]. now left.
Qed.
Lemma start_ub args f1 f2 m routes coming u : same_files args f1 f2 -> program_start m f1 args routes coming = UB u -> program_start m f2 args routes coming = UB u.
Proof.
  intros S H. unfold program_start, main_run in *. rewrite <- (options_same _ _ _ S). destruct (main_options f1 args) as [r|u0] eqn:E; [|exact H]. cbn [bind] in *. destruct r as [c|code]; [|discriminate].
  destruct (main_launch_ok _ _ _ E) as [R V]. destruct (m_logfile m) eqn:Lf; [|discriminate]. destruct (main_log _ V) as (V1 & V2 & V3). rewrite V3 in *.
  destruct (ws_launch m c f1 _) as [st|u1] eqn:E1; [discriminate|]. cbn [bind] in H. injection H as <-.
  assert (X : undefined (ws_launch m c f1 (log_set_file (log_set_level log_init (cf_level c)) (L "/var/log/wayuu.log") true))) by (exists u1; exact E1).
  apply (launch_bad m c f1 _ V1 V2 R) in X as (U & T & B). apply rules_bad in B as (u2 & B). rewrite (Start_proofs.bad_limits m c f1 _ u2 U T R B) in E1. injection E1 as ->.
  assert (B2 : load_limits f2 (cf_root c) = UB u1). { rewrite <- B. apply limits_moved. destruct S as (_ & _ & C). apply C; [exact (launch_roots _ _ _ E)|now left]. }
  assert (U2 : upload_dir m f2). { destruct S as (_ & C & _). unfold upload_dir in *. now rewrite <- C. }
  rewrite (Start_proofs.bad_limits m c f2 _ u1 U2 T R B2). reflexivity.
Qed.
Lemma twin_start m f2 c0 coming f1 : first_state m f2 c0 coming = twin_program (files_of m f2) (first_state m f1 c0 coming).
Proof.
  unfold first_state, twin_program, with_pool, twin, pool_start. cbn [p_pool p_lists p_coming p_denied p_lost w_queue w_threads w_table w_fs w_answers]. reflexivity.
Qed.
Lemma first_facts m f root coming : w_fs (p_pool (first_state m f root coming)) = files_of m f /\ all_served (p_pool (first_state m f root coming))
  /\ lists_ok root (p_lists (first_state m f root coming)) /\ p_coming (first_state m f root coming) = coming.
Proof.
  split; [reflexivity|]. split; [|split; [left; reflexivity|reflexivity]]. split; [constructor|]. cbn [first_state p_pool pool_start w_threads]. apply Forall_forall. intros x I. apply repeat_spec in I as ->. constructor.
Qed.
Lemma twin_seen g s f2 : seen (Some (Ok (g, twin_program f2 s))) = seen (Some (Ok (g, s))).
Proof. reflexivity. Qed.
Local Opaque first_state twin_program files_of.
Lemma same_seen m args f1 f2 routes coming sched : same_files args f1 f2 -> Forall (fun a => mp_md5_size (ar_mp a) = 36) coming ->
  seen (program_run m f1 args routes coming sched) = seen (program_run m f2 args routes coming sched).
Proof.
  intros S C. unfold program_run. pose proof (start_inv m f1 args routes coming) as I1. destruct (program_start m f1 args routes coming) as [[[g0 s0]|]|u0] eqn:E0.
  - destruct I1 as (c & rules & Rn & El & -> & ->). destruct (running_same _ _ _ _ _ S Rn) as [Rn2 El2]. rewrite El in El2. rewrite (start_ok m f2 args routes coming c rules Rn2 El2).
    set (g := mkSettings c rules routes).
    assert (A : agree (files_of m f1) (files_of m f2)). { intros p. rewrite !files_www. apply (proj1 S). }
    assert (H : forall name, In name [L "/etc/limits"; L "/etc/allow"; L "/etc/deny"] -> files_of m f1 (cf_root c ++ name) = files_of m f2 (cf_root c ++ name)).
    { intros name I. rewrite !files_other; [apply S; [exact (launch_roots _ _ _ (proj1 Rn))|exact I]| |]; (destruct I as [<-|[<-|[<-|[]]]]; [exact (not_tmp (cf_root c) "s"%char (L "/etc/limit") eq_refl)|exact (not_tmp (cf_root c) "w"%char (L "/etc/allo") eq_refl)|exact (not_tmp (cf_root c) "y"%char (L "/etc/den") eq_refl)]). }
    destruct (first_facts m f1 (cf_root c) coming) as (T1 & T2 & T3 & T4).
    pose proof (twin_run (files_of m f1) (files_of m f2) g sched A (proj1 (main_served f1 args c (proj1 Rn))) H (first_state m f1 (cf_root c) coming) T1 T2 T3) as T.
    rewrite T4 in T. specialize (T C). rewrite (twin_start m f2 (cf_root c) coming f1).
    destruct (prun g (first_state m f1 (cf_root c) coming) sched) as [[s1|u]|]; rewrite T; [symmetry; apply twin_seen|reflexivity|reflexivity].
  - pose proof (start_inv m f2 args routes coming) as I2. destruct (program_start m f2 args routes coming) as [[[g0 s0]|]|u0] eqn:E2; [|reflexivity|].
    + destruct I2 as (c & rules & Rn & _). exfalso. destruct I1 as [_ N]. apply (N c). apply (running_same _ _ _ _ _ (same_sym _ _ _ S) Rn).
    + apply (start_ub _ _ _ _ _ _ _ (same_sym _ _ _ S)) in E2. congruence.
  - now rewrite (start_ub _ _ _ _ _ _ _ S E0).
Qed.
Lemma undefined_only m f args routes coming sched u : Forall proper coming -> program_run m f args routes coming sched = Some (UB u) ->
  undefined (main_run m f args)
  \/ exists c rules a, running m f args c /\ load_limits f (cf_root c) = Ok rules /\ In a coming
      /\ (bad_lists f (cf_root c) (inet_ntoa (ar_addr a)) \/ some_worker m /\ let_in_by f (cf_root c) a /\ undefined (alone f (enqueued (mkSettings c rules routes) a))).
Proof.
  intros P H. unfold program_run in H. pose proof (start_inv m f args routes coming) as S. destruct (program_start m f args routes coming) as [[[g0 s0]|]|u0] eqn:E0; [|discriminate|left; exact S].
  right. destruct S as (c & rules & Rn & El & -> & ->). set (g := mkSettings c rules routes) in *.
  pose proof (started_good f args c rules routes (proj1 Rn) El) as G. change (good_settings g) in G. pose proof (reached_start m f g coming) as R0. cbn [g st_config] in R0. fold g in R0.
  pose proof (run_reached (files_of m f) g (workers_started m) coming sched G P _ [] [] R0) as R. destruct (prun _ _ sched) as [[s1|u1]|]; try discriminate. clear H.
  destruct R as [(a & I & B)|(kept & ws & In' & Al & R)].
  - exists c, rules, a. split; [exact Rn|]. split; [exact El|]. destruct (first_facts m f (cf_root c) coming) as (_ & _ & _ & X). rewrite X in I. split; [exact I|]. left. now apply files_bad in B.
  - assert (Pk : Forall proper kept) by (rewrite Forall_forall in P |- *; auto). destruct (C95_undefined _ _ _ _ _ (enqueued_made g kept G Pk) R) as (q & Iq & A). apply in_map_iff in Iq as (a & <- & Ia).
    exists c, rules, a. split; [exact Rn|]. split; [exact El|]. split; [auto|]. right. rewrite Forall_forall in Al. split; [|split; [specialize (Al a Ia); unfold let_in_by in *; now apply files_allowed in Al|]].
    + apply workers_some. destruct (workers_started m) as [|n]; [|lia]. exfalso. destruct ws as [|k ws]; [discriminate R|]. unfold wrun in R. cbn [run_with] in R. unfold wstep in R.
      cbn [pool_start w_threads repeat] in R. destruct k; discriminate R.
    + rewrite (alone_files f (files_of m f)) in A; [|rewrite Forall_forall in Pk; apply (Pk a Ia)|].
      * fold g. destruct (alone f (enqueued g a)) as [res0|u2]; [discriminate|apply ub_undefined].
      * intros p. cbn [enqueued q_env v_static_root st_config g]. rewrite (proj1 (main_served f args c (proj1 Rn))), www_slash. symmetry. apply files_www.
Qed.

(** ** In the words of the specification *)
Lemma as_connection f args g : main_options f args = Ok (Launch (st_config g)) -> forall a, enqueued g a = connection (st_routes g) (st_rules g) a.
Proof. intros E a. destruct (main_served f args _ E) as (A & B & C). unfold enqueued, connection. now rewrite A, B, C. Qed.
Lemma as_connections f args g l : main_options f args = Ok (Launch (st_config g)) -> map (enqueued g) l = map (connection (st_routes g) (st_rules g)) l.
Proof. intros E. apply map_ext. exact (as_connection f args g E). Qed.

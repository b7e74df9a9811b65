(** Properties_Start.v - C85, C86: the start of the program and the addresses of its peers
    (/repo/ws.c, /repo/main.c). *)
From Verif Require Import Start Lemmas FileUtils_proofs LogMain_proofs Properties_File Properties_Main Start_proofs SpecJson SpecConf SpecMain SpecStart Spec.

(** C85.  The server reaches its accept loop exactly when nothing it needs is missing... *)
Theorem C85_starts : forall m c f s rules, vocal s -> lg_level s <= 4 -> len (cf_root c) <= 255 -> load_limits f (cf_root c) = Ok rules ->
  (can_start m c f <-> exists s' f' rules' conns fd n done, ws_launch m c f s = Ok (Accepting s' f' rules' conns fd n done)).
Proof.
  intros m c f s rules V V4 R E. split.
  - intros H. destruct (starts m c f s rules V R E H) as (s' & -> & _). eauto 10.
  - intros (s' & f' & rules' & conns & fd & n & done & A). destruct (start_or_missing m c f) as [H|(level & text & M)]; [exact H|].
    destruct (stops m c f s rules level text V V4 R E M) as (s2 & d2 & o & file & X & _). congruence.
Qed.
Print Assumptions C85_starts.
(** ... and then it listens on its own socket with an empty table and the rules of the file, the
    upload directory exists, everything else is as it was, and what it did was, in this order, to
    read certificate and rules, to bind the port's last 16 bits, to start the workers and to
    listen. *)
Theorem C85_accepting : forall m c f s rules, vocal s -> len (cf_root c) <= 255 -> load_limits f (cf_root c) = Ok rules -> can_start m c f ->
  exists s' f' n done, ws_launch m c f s = Ok (Accepting s' f' rules empty_table (m_socket m) n done)
    /\ vocal s' /\ f' (L "/tmp/wayuu") = Some Dir /\ (forall p, p <> L "/tmp/wayuu" -> f' p = f p)
    /\ done = (if cf_ssl c then [Dtls (cf_root c ++ L "/ssl/cert.pem") (cf_root c ++ L "/ssl/key.pem")] else [])
              ++ [Dlimits (cf_root c); Dsocket; Dbind (m_socket m) (m_inet m (cf_bind c)) (cf_port c mod 65536)]
              ++ map Dthread (seq 0 200) ++ [Dlisten (m_socket m)]
    /\ exists l, NoDup l /\ (forall i, In i l <-> (i < 200)%nat /\ m_thread m i = true) /\ n = length l.
Proof.
  intros m c f s rules V R E H. destruct (starts m c f s rules V R E H) as (s' & A & V').
  exists s'. eexists _, _, _. split; [exact A|]. split; [exact V'|].
  assert (D : fst (check_createdir (m_mkdir m) f TMP_DIR) = true) by (apply upload_eq; apply H).
  destruct (C73_check_createdir (m_mkdir m) f TMP_DIR) as (D1 & _ & D3 & _).
  split; [apply D1, D|]. split; [intros p N; apply D3; left; exact N|].
  split; [unfold before_threads; rewrite <- !app_assoc; reflexivity|]. exists (filter (m_thread m) (seq 0 POOL_SIZE)). split.
  - apply NoDup_filter, seq_NoDup.
  - split; [|reflexivity]. intros i. rewrite filter_In, in_seq. unfold POOL_SIZE. split; intros [X Y]; (split; [lia|exact Y]).
Qed.
Print Assumptions C85_accepting.
(** Otherwise the process ends, its last message naming the first thing that is missing; it has
    started workers only if what failed was to listen. *)
Theorem C85_ended : forall m c f s rules, vocal s -> lg_level s <= 4 -> len (cf_root c) <= 255 -> load_limits f (cf_root c) = Ok rules -> ~ can_start m c f ->
  exists level text s' done o file, missing m c f level text /\ ws_launch m c f s = Ok (Ended s' done) /\ lg_exited s' = true
    /\ lg_out s' = o ++ [(level, text, file)] /\ (forall n, In (Dthread n) done -> text = L "Error while listening to socket").
Proof.
  intros m c f s rules V V4 R E N. destruct (start_or_missing m c f) as [H|(level & text & M)]; [contradiction|].
  destruct (stops m c f s rules level text V V4 R E M) as (s' & d & o & file & X). exists level, text, s', d, o, file. auto.
Qed.
Print Assumptions C85_ended.
(** Rules that cannot be read safely are the one thing that makes a start undefined. *)
Theorem C85_undefined : forall m c f s, vocal s -> len (cf_root c) <= 255 -> upload_dir m f -> tls_ready m c ->
  (undefined (ws_launch m c f s) <-> undefined (load_limits f (cf_root c))).
Proof.
  intros m c f s V R U T. split.
  - intros (u & H). destruct (load_limits f (cf_root c)) as [rules|u'] eqn:E; [|eexists; reflexivity]. exfalso.
    rewrite launch_unfold in H. cbv zeta in H. rewrite (proj2 (upload_eq m f) U), (tls_ok _ _ _ _ T R) in H. unfold sockets in H. rewrite limits_same, E in H. cbn [bind] in H.
    destruct (m_socket m =? -1); [rewrite say_fatal in H by auto; discriminate|].
    match type of H with bound _ _ ?f' _ ?d1 _ = _ => destruct (bound_logs m c f' rules d1 s V) as (s3 & V3 & B) end. rewrite B in H. cbv zeta in H.
    destruct (m_bind m _ _ _); [|rewrite say_fatal in H by auto; discriminate].
    match type of H with pool _ _ ?f' _ ?d2 _ = _ => destruct (pool_ok m c f' rules d2 s3 V3) as [P Q] end.
    destruct (m_listen m (m_socket m)); [destruct (P eq_refl) as (? & X & _)|destruct (Q eq_refl) as (? & X & _)]; congruence.
  - intros (u & E). exists u. now apply bad_limits.
Qed.
Print Assumptions C85_undefined.
(** main hands ws_launch a root that fits and a log that ends the process on fatal messages. *)
Theorem C85_main : forall m f args c rules, main_options f args = Ok (Launch c) -> load_limits f (cf_root c) = Ok rules ->
  (m_logfile m = false -> main_run m f args = Ok (inr 1))
  /\ (m_logfile m = true -> can_start m c f -> exists s f' n done, main_run m f args = Ok (inl (Accepting s f' rules empty_table (m_socket m) n done)))
  /\ (m_logfile m = true -> ~ can_start m c f -> exists s done level text o file, main_run m f args = Ok (inl (Ended s done))
        /\ missing m c f level text /\ lg_out s = o ++ [(level, text, file)]).
Proof.
  intros m f args c rules M E. destruct (main_launch_ok _ _ _ M) as [R V]. unfold main_run. rewrite M. cbn [bind]. split; [|split]; intros ->.
  - reflexivity.
  - intros H. destruct (main_log _ V) as (V1 & V2 & V3). rewrite V3. destruct (C85_accepting m c f _ rules V1 R E H) as (s' & f' & n & d & -> & _). cbn [bind]. eauto 10.
  - intros N. destruct (main_log _ V) as (V1 & V2 & V3). rewrite V3. destruct (C85_ended m c f _ rules V1 V2 R E N) as (level & text & s' & d & o & file & X & -> & _ & O & _).
    cbn [bind]. eauto 12.
Qed.
Print Assumptions C85_main.
(** The options that end the program before it opens anything: its exit status is 0 after -h and -v,
    and 1 after an unknown option or a root that is no directory. *)
Theorem C85_exit : forall m f l rest, Forall well_formed l -> Forall (acceptable (fun d => is_dir f d = true)) l ->
  main_run m f (flat_map words l ++ L "-h" :: rest) = Ok (inr 0)
  /\ main_run m f (flat_map words l ++ L "-v" :: rest) = Ok (inr 0)
  /\ (forall c, ~ In c (L "bprhdfv-") -> main_run m f (flat_map words l ++ ["-"%char; c] :: rest) = Ok (inr 1))
  /\ (forall a, len a <= 255 -> is_dir f a = false -> main_run m f (flat_map words l ++ words (Root a false) ++ rest) = Ok (inr 1)).
Proof.
  intros m f l rest W H. destruct (C69_exits f l rest W H) as (A & B & C & D & _). unfold main_run. rewrite A, B. split; [reflexivity|]. split; [reflexivity|].
  split; [intros c N; now rewrite (C c N)|intros a N X; now rewrite (D a N X)].
Qed.
Print Assumptions C85_exit.
(** The results of pthread_create are ignored: a server that accepts connections need not have a
    single worker to serve them. *)
Theorem C85_has_workers_refuted : exists m c f s s' f' rules conns fd done, vocal s /\ ws_launch m c f s = Ok (Accepting s' f' rules conns fd 0 done).
Proof.
  exists (mkMachine true true (fun _ => true) (fun _ => true) 3 true (fun _ => 0) (fun _ _ _ => true) (fun _ => false) (fun _ => true) true).
  exists default_config, (fun _ => None), log_init. eexists _, _, _, _, _, _. split; [|vm_compute; reflexivity].
  unfold vocal. vm_compute. intuition congruence.
Qed.
Print Assumptions C85_has_workers_refuted.
(** It is the logger that ends the process: with its level set above FATAL the server accepts
    connections on whatever socket() gave, bound or not. *)
Theorem C85_muted : forall m c f s rules, 5 < lg_level s -> lg_exited s = false -> tls_ready m c -> len (cf_root c) <= 255 -> load_limits f (cf_root c) = Ok rules ->
  exists f' n done, ws_launch m c f s = Ok (Accepting s f' rules empty_table (m_socket m) n done).
Proof. intros m c f s rules H X T R E. destruct (muted m c f s rules H X T R E) as (done & ->). eauto. Qed.
Print Assumptions C85_muted.
Definition plain_machine (listens : bool) : machine :=
  mkMachine true true (fun _ => true) (fun _ => true) 3 true (fun _ => 16777343) (fun _ _ p => p =? 4464) (fun n => Nat.ltb n 150) (fun _ => listens) true.
Definition outcome_of (r : outcome (started + Z)) : option (Z * nat * list (Z * str)) :=
  match r with
  | Ok (inl (Accepting s _ _ _ fd n _)) => Some (fd, n, map (fun e => (fst (fst e), snd (fst e))) (lg_out s))
  | Ok (inl (Ended s _)) => Some (-1, 0%nat, map (fun e => (fst (fst e), snd (fst e))) (lg_out s))
  | _ => None
  end.
Example C85_case : let f : fs := fun _ => None in
  outcome_of (main_run (plain_machine true) f [L "-p"; L "70000"; L "-f"])
    = Some (3, 150%nat, [(2, L "WAYUU binding to address: 127.0.0.1"); (2, L "WAYUU starting on port 70000"); (2, L "WAYUU WS 1.5.0 running on port 70000")])
  /\ outcome_of (main_run (plain_machine false) f [L "-p"; L "70000"])
    = Some (-1, 0%nat, [(2, L "WAYUU binding to address: 127.0.0.1"); (2, L "WAYUU starting on port 70000"); (5, L "Error while listening to socket")])
  /\ outcome_of (main_run (plain_machine true) f [])
    = Some (-1, 0%nat, [(2, L "WAYUU binding to address: 127.0.0.1"); (2, L "WAYUU starting on port 4443"); (5, L "Unable to bind to port 4443")]).
Proof. vm_compute. repeat split; reflexivity. Qed.

(** C86.  The text of a peer's address consists of digits and dots, fits its 16 bytes, and
    determines the address. *)
Theorem C86_text : forall a, valid a -> 7 <= len (inet_ntoa a) <= 15 /\ Forall (fun c => digit c = true \/ c = "."%char) (inet_ntoa a)
  /\ forall b, valid b -> inet_ntoa b = inet_ntoa a -> b = a.
Proof. intros a V. split; [now apply ntoa_len|]. split; [now apply ntoa_chars|]. intros b W E. now apply ntoa_inj. Qed.
Print Assumptions C86_text.
(** In a list of addresses an entry [b] is found for every address that agrees with it in the
    two middle numbers, whose first number is written as the end of that of [b] and whose last
    one as the beginning of that of [b]... *)
Theorem C86_listed : forall f p bs a, valid a -> Forall valid bs -> f p = Some (File (flat_map (fun l => l ++ [LF]) (map inet_ntoa bs))) ->
  (listed f p (inet_ntoa a) <-> exists b, In b bs /\ hits b a).
Proof.
  intros f p bs a V W E.
  assert (NC : forall c b, valid b -> digit c = false -> c <> "."%char -> ~ In c (inet_ntoa b)).
  { intros c b Vb D N I. pose proof (ntoa_chars b Vb) as C. rewrite Forall_forall in C. apply C in I as [I|I]; congruence. }
  rewrite (C28_list_is_substring_test f p (map inet_ntoa bs)).
  - split.
    + intros (x & I & S). apply in_map_iff in I as (b & <- & I). exists b. split; [exact I|]. rewrite Forall_forall in W. apply substring_hits; auto.
    + intros (b & I & H). exists (inet_ntoa b). split; [now apply in_map|]. rewrite Forall_forall in W. apply substring_hits; auto.
  - exact E.
  - rewrite Forall_forall in *. intros x I. apply in_map_iff in I as (b & <- & I). unfold no_nul. rewrite Forall_forall. intros c Ic ->. revert Ic. apply NC; auto. discriminate.
  - intros X. pose proof (ntoa_len a V) as Y. rewrite X in Y. change (len []) with 0 in Y. lia.
  - apply NC; [exact V|reflexivity|discriminate].
Qed.
Print Assumptions C86_listed.
(** ... which decides who is served. *)
Theorem C86_served : forall f root ds als a d0, valid a -> Forall valid ds -> Forall valid als -> len root <= 277 -> small_lists root f ->
  f (root ++ L "/etc/deny") = Some (File (flat_map (fun l => l ++ [LF]) (map inet_ntoa ds))) ->
  f (root ++ L "/etc/allow") = Some (File (flat_map (fun l => l ++ [LF]) (map inet_ntoa als))) ->
  exists r g, admitted_peer f (mkIpconf root [] d0) a = Ok (r, g)
    /\ (r = true <-> (forall b, In b ds -> ~ hits b a) /\ exists b, In b als /\ hits b a).
Proof.
  intros f root ds als a d0 V D A R S Ed Ea. rewrite peer_eq by auto. destruct (C27_decision f root (inet_ntoa a) d0 R S) as (r & g & -> & H & _).
  exists r, g. split; [reflexivity|]. rewrite H. unfold allowed. rewrite (C86_listed f _ ds a V D Ed), (C86_listed f _ als a V A Ea). split.
  - intros [X [Y|Y]]; [elim (Y _ Ea)|]. split; [|exact Y]. intros b I K. apply X. eauto.
  - intros [X Y]. split; [|auto]. intros (b & I & K). exact (X b I K).
Qed.
Print Assumptions C86_served.
(** So an entry with one digit in its first and in its last number is exact, and every entry hits
    its own address; but one entry can admit nine addresses. *)
Theorem C86_exact : forall a b, valid a -> valid b -> a_1 b < 10 -> a_4 b < 10 -> (hits b a <-> a = b).
Proof.
  intros [a1 a2 a3 a4] [b1 b2 b3 b4] (A1 & A2 & A3 & A4) (B1 & B2 & B3 & B4). cbn. intros H1 H4. unfold hits, ends, begins. cbn. split.
  - intros (X1 & X2 & X3 & X4). assert (a1 = b1) by lia. assert (a4 = b4) by lia. congruence.
  - intros E. inv E. auto.
Qed.
Print Assumptions C86_exact.
Theorem C86_exact_refuted : exists b l, valid b /\ length l = 9%nat /\ NoDup l /\ Forall valid l /\ Forall (hits b) l.
Proof.
  exists (mkAddr 192 0 2 123).
  exists [mkAddr 192 0 2 123; mkAddr 192 0 2 12; mkAddr 192 0 2 1; mkAddr 92 0 2 123; mkAddr 92 0 2 12; mkAddr 92 0 2 1; mkAddr 2 0 2 123; mkAddr 2 0 2 12; mkAddr 2 0 2 1].
  split; [unfold valid, octet; cbn; lia|]. split; [reflexivity|]. split; [repeat (constructor; [cbn; intuition discriminate|]); constructor|].
  split; repeat (constructor; [unfold valid, octet, hits, ends, begins; cbn; lia|]); constructor.
Qed.
Print Assumptions C86_exact_refuted.
Example C86_case : inet_ntoa (mkAddr 10 0 255 7) = L "10.0.255.7"
  /\ hits (mkAddr 110 0 0 10) (mkAddr 10 0 0 1) /\ ~ hits (mkAddr 105 0 0 10) (mkAddr 10 0 0 1) /\ ~ hits (mkAddr 10 0 0 1) (mkAddr 10 0 0 10)
  /\ substring (inet_ntoa (mkAddr 5 0 0 1)) (inet_ntoa (mkAddr 105 0 0 10)).
Proof.
  split; [vm_compute; reflexivity|]. split; [unfold hits, ends, begins; cbn; lia|]. split; [unfold hits, ends, begins; cbn; lia|].
  split; [unfold hits, ends, begins; cbn; lia|]. exists (L "10"), (L "0"). vm_compute. reflexivity.
Qed.

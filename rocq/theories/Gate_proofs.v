(** Gate_proofs.v - lemmas about who is served. *)
From Coq Require Import Permutation.
From Verif Require Import Gate Lemmas StringUtils_proofs FileUtils_proofs WsConn_proofs Races_proofs Server_proofs Start_proofs SpecConf SpecConn SpecServer SpecStart SpecGate Spec.

(** ** Moves of the workers *)
Inductive moved (sv : server) : sact -> nat -> job -> job -> Prop :=
| mv_take : forall k s rest, s_waiting sv = s :: rest -> moved sv (Take k) k JIdle (JRead s)
| mv_bad : forall k s, moved sv (BadMethod k) k (JRead s) (JClose s None)
| mv_admit : forall k s ip path, moved sv (Admit k ip path) k (JRead s) (JServe (mkConn s path ip))
| mv_refuse : forall k s ip path, moved sv (Admit k ip path) k (JRead s) (JClose s None)
| mv_done : forall k c, moved sv (Done k) k (JServe c) (JClose (c_socket c) (Some c))
| mv_close : forall k s o, moved sv (CloseFd k) k (JClose s o) (JDel s o)
| mv_del : forall k s o, moved sv (DelEntry k) k (JDel s o) JIdle.
Definition arrives (a : sact) : bool := match a with Accept _ _ | AcceptFails => true | _ => false end.
Lemma up_needed rules cap m sv a o : sstep rules cap m sv a = Some o -> s_up sv = true.
Proof. unfold sstep. destruct (s_up sv); [reflexivity|discriminate]. Qed.
Lemma move_view rules cap m sv a sv' : sstep rules cap m sv a = Some (Ok sv') -> arrives a = false ->
  s_up sv' = true /\ (forall s, In s (s_open sv') -> In s (s_open sv))
  /\ exists k j j', moved sv a k j j' /\ nth_error (s_jobs sv) k = Some j /\ s_jobs sv' = set_nth (s_jobs sv) k j'.
Proof.
  intros E A. pose proof (up_needed _ _ _ _ _ _ E) as U. unfold sstep in E. rewrite U in E. cbn [negb] in E.
  destruct a as [s al| |k|k|k ip path|k|k|k]; try discriminate; destruct (nth_error (s_jobs sv) k) as [j|] eqn:J; try discriminate; destruct j; try discriminate.
  - destruct (s_waiting sv) as [|s rest] eqn:W; [discriminate|]. injection E as <-. split; [reflexivity|]. split; [auto|]. do 3 eexists. split; [econstructor; eauto|]. split; [eassumption|reflexivity].
  - injection E as <-. split; [exact U|]. split; [auto|]. do 3 eexists. split; [econstructor; eauto|]. split; [eassumption|reflexivity].
  - destruct (connection_add _ _ _ _ _) as [(ok, t)|]; [|discriminate]. cbn [bind] in E. injection E as <-. split; [reflexivity|]. split; [auto|].
    destruct ok; do 3 eexists; (split; [econstructor; eauto|]; split; [eassumption|reflexivity]).
  - injection E as <-. split; [exact U|]. split; [auto|]. do 3 eexists. split; [econstructor; eauto|]. split; [eassumption|reflexivity].
  - injection E as <-. split; [reflexivity|]. split; [intros x Hx; cbn [s_open] in Hx; now apply in_remove in Hx as [Hx _]|]. do 3 eexists. split; [econstructor; eauto|]. split; [eassumption|reflexivity].
  - injection E as <-. split; [reflexivity|]. split; [auto|]. do 3 eexists. split; [econstructor; eauto|]. split; [eassumption|reflexivity].
Qed.
Lemma accept_view rules cap m sv s sv' : sstep rules cap m sv (Accept s true) = Some (Ok sv') ->
  s_up sv' = true /\ s_open sv' = s :: s_open sv /\ s_jobs sv' = s_jobs sv /\ ~ In s (s_open sv).
Proof.
  intros E. pose proof (up_needed _ _ _ _ _ _ E) as U. unfold sstep in E. rewrite U in E. cbn [negb] in E.
  destruct ((_ <? _) && (0 <? s) && negb (is_open sv s)) eqn:C; [|discriminate]. apply andb_true_iff in C as [C C3].
  assert (N : ~ In s (s_open sv)).
  { intros I. unfold is_open in C3. apply negb_true_iff in C3. assert (existsb (Z.eqb s) (s_open sv) = true); [|congruence]. apply existsb_exists. exists s. split; [exact I|apply Z.eqb_refl]. }
  destruct (_ =? cap); injection E as <-; auto.
Qed.
Lemma nth_set (l : list job) k j j' i : nth_error l k = Some j -> nth_error (set_nth l k j') i = if Nat.eqb i k then Some j' else nth_error l i.
Proof.
  intros H. apply nth_error_split in H as (a & b & -> & <-). rewrite set_nth_eq. destruct (Nat.eqb_spec i (length a)) as [->|N].
  - rewrite nth_error_app2, Nat.sub_diag by lia. reflexivity.
  - destruct (Nat.lt_ge_cases i (length a)).
    + now rewrite !nth_error_app1 by lia.
    + rewrite !nth_error_app2 by lia. destruct (i - length a)%nat eqn:X; [lia|reflexivity].
Qed.
Lemma held_open sv k j s : fds_ok sv -> nth_error (s_jobs sv) k = Some j -> In s (held j) -> In s (s_open sv).
Proof.
  intros F J I. destruct (fds_perm sv F) as [_ P]. eapply Permutation_in; [apply Permutation_sym, P|]. apply in_or_app. right. apply in_or_app. right.
  apply in_flat_map. exists j. split; [eapply nth_error_In; eauto|exact I].
Qed.
Lemma waiting_in_open sv s rest : fds_ok sv -> s_waiting sv = s :: rest -> In s (s_open sv).
Proof. intros F W. destruct (fds_perm sv F) as [_ P]. eapply Permutation_in; [apply Permutation_sym, P|]. rewrite W. now left. Qed.

(** ** The last connection accepted with a descriptor *)
Definition about (x : gact) (s : Z) : Prop := exists a f, x = GAccept s a f.
Lemma last_here l s a f : last_accepted (l ++ [GAccept s a f]) s a f.
Proof. exists l, []. split; [reflexivity|]. intros ? ? []. Qed.
Lemma last_more l s a f x : last_accepted l s a f -> ~ about x s -> last_accepted (l ++ [x]) s a f.
Proof.
  intros (l1 & l2 & -> & N) A. exists l1, (l2 ++ [x]). split; [now rewrite <- app_assoc|]. intros a' f' I. apply in_app_iff in I as [I|[I|[]]]; [eapply N; eauto|]. apply A. subst. now exists a', f'.
Qed.
Lemma last_unique l s a f a' f' : last_accepted l s a f -> last_accepted l s a' f' -> a = a' /\ f = f'.
Proof.
  intros (l1 & l2 & E & N) (k1 & k2 & E' & N').
  assert (G : forall (l1 l2 k1 k2 : list gact) x y, l1 ++ x :: l2 = k1 ++ y :: k2 -> (x = y /\ l2 = k2) \/ In y l2 \/ In x k2).
  { clear. induction l1 as [|c l1 IH]; intros l2 [|d k1] k2 x y E; cbn in E.
    - injection E as -> ->. auto.
    - injection E as -> ->. right. left. apply in_or_app. right. now left.
    - injection E as -> <-. right. right. apply in_or_app. right. now left.
    - injection E as _ E. eauto. }
  rewrite E in E'. destruct (G _ _ _ _ _ _ E') as [[X _]|[X|X]]; [injection X; auto|now apply N in X|now apply N' in X].
Qed.

(** ** The invariant of every schedule *)
Definition lists_ok (root : str) (ls : ipconf) : Prop := ls = mkIpconf root [] [] \/ ls = mkIpconf root (root ++ L "/etc/allow") (root ++ L "/etc/deny").
Definition known (root : str) (l : list gact) (g : gate) : Prop :=
  fds_ok (g_sv g) /\ lists_ok root (g_lists g)
  /\ (forall s, In s (s_open (g_sv g)) -> exists a f, last_accepted l s a f /\ valid a /\ allowed f root (inet_ntoa a) /\ (g_peers g s = Some a \/ g_peers g s = None))
  /\ (forall k s, nth_error (s_jobs (g_sv g)) k = Some (JRead s) -> exists a f, last_accepted l s a f /\ valid a /\ g_ips g k = inet_ntoa a).
Lemma decision f root ls a : len root <= 277 -> small_lists root f -> valid a -> lists_ok root ls ->
  exists b, admitted_peer f ls a = Ok (b, mkIpconf root (root ++ L "/etc/allow") (root ++ L "/etc/deny")) /\ (b = true <-> allowed f root (inet_ntoa a)).
Proof.
  intros R [Sa Sd] V O. rewrite peer_eq by exact V. destruct O as [-> | ->].
  - apply (allowed_address_eq f (mkIpconf root [] []) _ (root ++ L "/etc/allow") (root ++ L "/etc/deny")); auto. now apply ip_paths_first.
  - apply (allowed_address_eq f (mkIpconf root (root ++ L "/etc/allow") (root ++ L "/etc/deny")) _ (root ++ L "/etc/allow") (root ++ L "/etc/deny")); auto. apply ip_paths_later. destruct root; discriminate.
Qed.
Lemma known_more root l g x : known root l g -> (forall s, ~ about x s) -> known root (l ++ [x]) g.
Proof.
  intros (F & O & P & J) A. split; [exact F|]. split; [exact O|]. split.
  - intros s I. destruct (P s I) as (a & f & X & Y). exists a, f. split; [now apply last_more|exact Y].
  - intros k s I. destruct (J k s I) as (a & f & X & Y). exists a, f. split; [now apply last_more|exact Y].
Qed.
Lemma known_move root l g rules cap m a sv' x : known root l g -> sstep rules cap m (g_sv g) a = Some (Ok sv') -> arrives a = false -> (forall k, a <> Take k) -> (forall s, ~ about x s) ->
  known root (l ++ [x]) (mkGate sv' (g_lists g) (g_peers g) (g_ips g)).
Proof.
  intros K E A T B. apply known_more; [|exact B]. destruct K as (F & O & P & J). destruct (move_view _ _ _ _ _ _ E A) as (_ & I & k & j & j' & M & Hj & Ej).
  split; [eapply fds_step; eauto|]. split; [exact O|]. split; [intros s Hs; apply P; now apply I|].
  intros i s. cbn [g_sv g_ips]. rewrite Ej, (nth_set _ _ _ _ _ Hj). destruct (Nat.eqb_spec i k) as [->|_]; [|apply J].
  intros X. injection X as X. rewrite X in M. inv M. now elim (T k).
Qed.
Lemma known_step rules cap m root l g x g' : len root <= 277 -> sane root x -> known root l g -> gstep rules cap m g x = Some (Ok g') -> known root (l ++ [x]) g'.
Proof.
  intros R S K E. destruct x as [s a f| |s|k|k path|k|k|k|k]; cbn [gstep] in E; cbv zeta in E; unfold only_server in E.
  - destruct (sstep rules cap m (g_sv g) (Accept s true)) as [[sv|]|] eqn:Es; try discriminate. destruct S as [V S]. destruct K as (F & O & P & J).
    destruct (decision f root _ a R S V O) as (b & D & Hb). rewrite D in E. cbn [bind] in E. destruct (accept_view _ _ _ _ _ _ Es) as (U & Eo & Ej & N).
    assert (Nk : forall k s', nth_error (s_jobs (g_sv g)) k = Some (JRead s') -> s' <> s).
    { intros k s' Hk ->. apply N. eapply held_open; eauto. now left. }
    assert (O' : lists_ok root (mkIpconf root (root ++ L "/etc/allow") (root ++ L "/etc/deny"))) by now right.
    assert (Far : forall s', s' <> s -> ~ about (GAccept s a f) s') by (intros s' Hs (a' & f' & X); congruence).
    destruct b; injection E as <-.
    + split; [eapply fds_step; eauto|]. split; [exact O'|]. split.
      * intros s' I. cbn [g_sv g_peers] in *. rewrite Eo in I. unfold set_peer. destruct (Z.eqb_spec s' s) as [->|Ne].
        -- exists a, f. split; [apply last_here|]. split; [exact V|]. split; [now apply Hb|now left].
        -- destruct I as [I|I]; [congruence|]. destruct (P s' I) as (a' & f' & X & Y). exists a', f'. split; [now apply last_more; auto|exact Y].
      * intros k s' I. cbn [g_sv g_ips] in *. rewrite Ej in I. destruct (J k s' I) as (a' & f' & X & Y). exists a', f'. split; [apply last_more; [exact X|apply Far; eapply Nk; eauto]|exact Y].
    + split; [exact F|]. split; [exact O'|]. split.
      * intros s' I. cbn [g_sv g_peers] in *. destruct (P s' I) as (a' & f' & X & Y). exists a', f'. split; [apply last_more; [exact X|apply Far; intros ->; auto]|exact Y].
      * intros k s' I. cbn [g_sv g_ips] in *. destruct (J k s' I) as (a' & f' & X & Y). exists a', f'. split; [apply last_more; [exact X|apply Far; eapply Nk; eauto]|exact Y].
  - destruct (s_up (g_sv g)) eqn:U; [|discriminate]. injection E as <-. apply known_more; [|intros s (a & f & X); discriminate]. exact K.
  - destruct (s_up (g_sv g) && is_open (g_sv g) s); [|discriminate]. injection E as <-. apply known_more; [|intros s' (a & f & X); discriminate].
    destruct K as (F & O & P & J). split; [exact F|]. split; [exact O|]. split; [|exact J].
    intros s' I. destruct (P s' I) as (a & f & X & V & Al & Y). exists a, f. repeat (split; [assumption|]). cbn [g_peers]. unfold set_peer. destruct (s' =? s); auto.
  - destruct (sstep rules cap m (g_sv g) (Take k)) as [[sv|]|] eqn:Es; try discriminate. destruct (s_waiting (g_sv g)) as [|s rest] eqn:W; [discriminate|].
    destruct (peer_text (g_peers g s)) as [ip|] eqn:Pt; [|discriminate]. cbn [bind] in E. injection E as <-.
    apply known_more; [|intros s' (a & f & X); discriminate]. destruct K as (F & O & P & J). destruct (move_view _ _ _ _ _ _ Es eq_refl) as (_ & I & k' & j & j' & M & Hj & Ej). inv M.
    assert (s = s0 /\ rest = rest0) as [<- <-] by (split; congruence).
    split; [eapply fds_step; eauto|]. split; [exact O|]. split; [intros s' Hs; apply P; now apply I|].
    intros i s'. cbn [g_sv g_ips]. rewrite Ej, (nth_set _ _ _ _ _ Hj). unfold keep_ip. destruct (Nat.eqb_spec i k') as [->|_]; [|apply J].
    intros X. injection X as <-. destruct (P s (waiting_in_open _ _ _ F W)) as (a & f & X & V & _ & Y). exists a, f. split; [exact X|]. split; [exact V|].
    destruct Y as [Y|Y]; rewrite Y in Pt; [|discriminate]. unfold peer_text, fits in Pt. destruct (_ <=? 24); [|discriminate]. now injection Pt as <-.
  - destruct (sstep _ _ _ _ _) as [[sv|]|] eqn:Es; try discriminate. injection E as <-. eapply known_move; eauto; [discriminate|intros s (a & f & X); discriminate].
  - destruct (sstep _ _ _ _ _) as [[sv|]|] eqn:Es; try discriminate. injection E as <-. eapply known_move; eauto; [discriminate|intros s (a & f & X); discriminate].
  - destruct (sstep _ _ _ _ _) as [[sv|]|] eqn:Es; try discriminate. injection E as <-. eapply known_move; eauto; [discriminate|intros s (a & f & X); discriminate].
  - destruct (sstep _ _ _ _ _) as [[sv|]|] eqn:Es; try discriminate. injection E as <-. eapply known_move; eauto; [discriminate|intros s (a & f & X); discriminate].
  - destruct (sstep _ _ _ _ _) as [[sv|]|] eqn:Es; try discriminate. injection E as <-. eapply known_move; eauto; [discriminate|intros s (a & f & X); discriminate].
Qed.
Lemma known_start n root : known root [] (gate_start n root).
Proof.
  split; [apply fds_start|]. split; [now left|]. split; [intros s []|]. intros k s. unfold gate_start, server_start. cbn [g_sv s_jobs]. intros H. apply nth_error_In, repeat_spec in H. discriminate.
Qed.
Lemma known_passes rules cap m root g l g' : len root <= 277 -> passes rules cap m g l g' -> forall l0, Forall (sane root) l -> known root l0 g -> known root (l0 ++ l) g'.
Proof.
  intros R P. induction P as [g|g x g1 l g2 E P IH]; intros l0 S K; [now rewrite app_nil_r|]. inv S.
  replace (l0 ++ x :: l) with ((l0 ++ [x]) ++ l) by (now rewrite <- app_assoc). apply IH; auto. eapply known_step; eauto.
Qed.
Lemma known_reach rules cap m n root l g : len root <= 277 -> Forall (sane root) l -> passes rules cap m (gate_start n root) l g -> known root l g.
Proof. intros R S P. exact (known_passes _ _ _ _ _ _ _ R P [] S (known_start n root)). Qed.

(** ** The addresses in the table *)
Definition named (l : list gact) (g : gate) : Prop := forall j c, In j (s_jobs (g_sv g)) -> In c (admitted j) ->
  In (c_socket c) (held j ++ leaving j) /\ exists a f, last_accepted l (c_socket c) a f /\ valid a /\ c_ip c = inet_ntoa a.
Lemma named_more l g x : named l g -> (forall s, ~ about x s) -> named (l ++ [x]) g.
Proof. intros N A j c Hj Hc. destruct (N j c Hj Hc) as (X & a & f & Y & Z). split; [exact X|]. exists a, f. split; [now apply last_more|exact Z]. Qed.
Lemma in_set (l : list job) k j j' i : nth_error l k = Some j -> In i (set_nth l k j') -> i = j' \/ In i l.
Proof. intros H I. destruct (job_split _ _ _ H) as (a & b & -> & E). rewrite E in I. rewrite in_app_iff in *. cbn [In] in *. intuition. Qed.
Lemma named_move root l g rules cap m a sv' x ips : known root l g -> named l g -> sstep rules cap m (g_sv g) a = Some (Ok sv') -> arrives a = false ->
  (forall k ip path, a = Admit k ip path -> ip = g_ips g k) -> (forall s, ~ about x s) ->
  named (l ++ [x]) (mkGate sv' (g_lists g) (g_peers g) ips).
Proof.
  intros (F & O & P & J) N E A T B. apply named_more; [|exact B]. destruct (move_view _ _ _ _ _ _ E A) as (_ & I & k & j & j' & M & Hj & Ej).
  intros i c Hi Hc. cbn [g_sv] in Hi. rewrite Ej in Hi. destruct (in_set _ _ _ _ _ Hj Hi) as [->|Hi']; [|now apply N].
  pose proof (nth_error_In _ _ Hj) as Hj'. inv M; cbn [admitted] in Hc.
  - destruct Hc.
  - destruct Hc.
  - destruct Hc as [<-|[]]. split; [now left|]. cbn [c_socket c_ip]. rewrite (T _ _ _ eq_refl). now apply J.
  - destruct Hc.
  - destruct Hc as [<-|[]]. destruct (N _ c0 Hj' (or_introl eq_refl)) as [X Y]. split; [now left|exact Y].
  - destruct o as [c0|]; [|destruct Hc]. destruct Hc as [<-|[]]. destruct (N _ c0 Hj' (or_introl eq_refl)) as [X Y]. split; [exact X|exact Y].
  - destruct Hc.
Qed.
Lemma named_step rules cap m root l g x g' : len root <= 277 -> sane root x -> known root l g -> named l g -> gstep rules cap m g x = Some (Ok g') ->
  match x with GAccept s _ _ => ~ In s (flat_map leaving (s_jobs (g_sv g))) | _ => True end -> named (l ++ [x]) g'.
Proof.
  intros R S K N E Q. destruct x as [s a f| |s|k|k path|k|k|k|k]; cbn [gstep] in E; cbv zeta in E; unfold only_server in E;
    try (destruct (sstep _ _ _ _ _) as [[sv|]|] eqn:Es; try discriminate; injection E as <-; eapply named_move; eauto; [intros; congruence|intros s (a & f & X); discriminate]).
  - destruct (sstep rules cap m (g_sv g) (Accept s true)) as [[sv|]|] eqn:Es; try discriminate. destruct S as [V S]. destruct K as (F & O & P & J).
    destruct (decision f root _ a R S V O) as (b & D & Hb). rewrite D in E. cbn [bind] in E. destruct (accept_view _ _ _ _ _ _ Es) as (U & Eo & Ej & No).
    assert (G : s_jobs (g_sv g') = s_jobs (g_sv g)) by (destruct b; injection E as <-; [exact Ej|reflexivity]).
    intros j c Hj Hc. rewrite G in Hj. destruct (N j c Hj Hc) as (X & a' & f' & Y & Z). split; [exact X|]. exists a', f'. split; [|exact Z]. apply last_more; [exact Y|].
    intros (a'' & f'' & W). injection W as W _ _. rewrite <- W in X. apply in_app_iff in X as [X|X].
    + apply No. apply In_nth_error in Hj as [k Hk]. eapply held_open; eauto.
    + apply Q. apply in_flat_map. eauto.
  - destruct (s_up (g_sv g)) eqn:U; [|discriminate]. injection E as <-. apply named_more; [|intros s (a & f & X); discriminate]. exact N.
  - destruct (s_up (g_sv g) && is_open (g_sv g) s); [|discriminate]. injection E as <-. apply named_more; [|intros s' (a & f & X); discriminate]. exact N.
  - destruct (sstep rules cap m (g_sv g) (Take k)) as [[sv|]|] eqn:Es; try discriminate. destruct (s_waiting (g_sv g)) as [|s rest] eqn:W; [discriminate|].
    destruct (peer_text (g_peers g s)) as [ip|] eqn:Pt; [|discriminate]. cbn [bind] in E. injection E as <-.
    eapply named_move; eauto; [intros; congruence|intros s' (a & f & X); discriminate].
Qed.

(** ** Schedules of the gate are schedules of the server *)
Definition alive (sv : server) : server := mkServer (s_open sv) (s_waiting sv) (s_lost sv) (s_jobs sv) (s_table sv) true.
Lemma alive_up sv : s_up sv = true -> alive sv = sv.
Proof. destruct sv. cbn. intros ->. reflexivity. Qed.
Lemma ntoa_no_nul a : valid a -> no_nul (inet_ntoa a).
Proof. intros V. eapply Forall_impl; [|apply (ntoa_chars a V)]. intros c [D| ->] X; [subst; discriminate|discriminate]. Qed.
Lemma orderly_snoc rules cap m a l b x c : orderly rules cap m a l b -> sstep rules cap m b x = Some (Ok c) ->
  match x with
    | Accept s _ => ~ In s (flat_map leaving (s_jobs b))
    | Admit _ ip path => no_nul path /\ no_nul ip /\ len path <= 511 /\ len ip <= 15
    | _ => True
    end -> orderly rules cap m a (l ++ [x]) c.
Proof. intros O E Q. induction O; cbn [app]; econstructor; eauto. constructor. Qed.
Definition tracked rules cap m n (g : gate) : Prop := exists l', orderly rules cap m (server_start n) l' (alive (g_sv g)).
Lemma tracked_step rules cap m n root l g x g' : len root <= 277 -> sane root x -> known root l g -> tracked rules cap m n g -> gstep rules cap m g x = Some (Ok g') ->
  match x with
    | GAccept s _ _ => ~ In s (flat_map leaving (s_jobs (g_sv g)))
    | GAdmit _ path => no_nul path /\ len path <= 511
    | _ => True
    end -> tracked rules cap m n g'.
Proof.
  intros R S K [l' T] E Q.
  assert (G : forall a sv, sstep rules cap m (g_sv g) a = Some (Ok sv) -> s_up sv = true ->
    match a with
    | Accept s _ => ~ In s (flat_map leaving (s_jobs (g_sv g)))
    | Admit _ ip path => no_nul path /\ no_nul ip /\ len path <= 511 /\ len ip <= 15
    | _ => True
    end -> exists l', orderly rules cap m (server_start n) l' (alive sv)).
  { intros a sv Es U C. rewrite (alive_up sv U). rewrite (alive_up _ (up_needed _ _ _ _ _ _ Es)) in T. eexists. eapply orderly_snoc; eauto. }
  destruct x as [s a f| |s|k|k path|k|k|k|k]; cbn [gstep] in E; cbv zeta in E; unfold only_server in E;
    try (destruct (sstep _ _ _ _ _) as [[sv|]|] eqn:Es; try discriminate; injection E as <-; eapply G; [exact Es|eapply move_view; eauto; reflexivity|exact I]).
  - destruct (sstep rules cap m (g_sv g) (Accept s true)) as [[sv|]|] eqn:Es; try discriminate. destruct S as [V S]. destruct K as (F & O & P & J).
    destruct (decision f root _ a R S V O) as (b & D & Hb). rewrite D in E. cbn [bind] in E. destruct (accept_view _ _ _ _ _ _ Es) as (U & Eo & Ej & No).
    destruct b; injection E as <-; [|exists l'; exact T]. eapply G; [exact Es|exact U|exact Q].
  - destruct (s_up (g_sv g)) eqn:U; [|discriminate]. injection E as <-. exists l'. exact T.
  - destruct (s_up (g_sv g) && is_open (g_sv g) s); [|discriminate]. injection E as <-. exists l'. exact T.
  - destruct (sstep rules cap m (g_sv g) (Take k)) as [[sv|]|] eqn:Es; try discriminate. destruct (s_waiting (g_sv g)) as [|s rest] eqn:W; [discriminate|].
    destruct (peer_text (g_peers g s)) as [ip|] eqn:Pt; [|discriminate]. cbn [bind] in E. injection E as <-.
    eapply G; [exact Es|eapply move_view; eauto; reflexivity|exact I].
  - destruct (sstep _ _ _ _ _) as [[sv|]|] eqn:Es; try discriminate. injection E as <-. destruct Q as [Q1 Q2].
    destruct (move_view _ _ _ _ _ _ Es eq_refl) as (U & _ & k' & j & j' & M & Hj & _).
    eapply G; [exact Es|exact U|]. destruct K as (F & O & P & J).
    assert (exists s, nth_error (s_jobs (g_sv g)) k = Some (JRead s)) as [s Hk] by (inv M; eauto).
    destruct (J k s Hk) as (a & f & _ & V & ->). pose proof (ntoa_len a V). repeat split; auto; [now apply ntoa_no_nul|lia].
Qed.
Lemma neat_all rules cap m n root g l g' : len root <= 277 -> neat rules cap m g l g' -> forall l0, Forall (sane root) l -> known root l0 g -> named l0 g -> tracked rules cap m n g ->
  known root (l0 ++ l) g' /\ named (l0 ++ l) g' /\ tracked rules cap m n g'.
Proof.
  intros R P. induction P as [g|g x g1 l g2 E Q P IH]; intros l0 S K N T; [now rewrite app_nil_r|]. inv S.
  replace (l0 ++ x :: l) with ((l0 ++ [x]) ++ l) by (now rewrite <- app_assoc). apply IH; auto.
  - eapply known_step; eauto.
  - eapply named_step; eauto. destruct x; auto.
  - eapply tracked_step; eauto.
Qed.
Lemma neat_reach rules cap m n root l g : len root <= 277 -> Forall (sane root) l -> neat rules cap m (gate_start n root) l g ->
  known root l g /\ named l g /\ tracked rules cap m n g.
Proof.
  intros R S P. apply (neat_all _ _ _ n _ _ _ _ R P []); auto.
  - apply known_start.
  - intros j c Hj. cbn in Hj. apply repeat_spec in Hj. subst. intros [].
  - exists []. apply o_none.
Qed.
Lemma neat_passes rules cap m g l g' : neat rules cap m g l g' -> passes rules cap m g l g'.
Proof. intros P. induction P; econstructor; eauto. Qed.
Lemma counts_same A (P Q : A -> Prop) l k : (forall x, In x l -> (P x <-> Q x)) -> counts P l k -> counts Q l k.
Proof.
  intros H C. induction C as [|x l n Px C IH|x l n Px C IH].
  - constructor.
  - apply counts_yes; [apply H; [now left|exact Px]|]. apply IH. intros y Hy. apply H. now right.
  - apply counts_no; [rewrite <- (H x); [exact Px|now left]|]. apply IH. intros y Hy. apply H. now right.
Qed.

(** ** Resets *)
Definition resets (l : list gact) (g : gate) : Prop := forall s, In s (s_open (g_sv g)) -> (g_peers g s = None <-> reset_since l s).
Lemma reset_here l s : reset_since (l ++ [GReset s]) s.
Proof. exists l, []. split; [reflexivity|]. intros ? ? []. Qed.
Lemma reset_more l s x : x <> GReset s -> ~ about x s -> (reset_since (l ++ [x]) s <-> reset_since l s).
Proof.
  intros Nx A. split; intros (l1 & l2 & E & N).
  - destruct (rev l2) as [|y r] eqn:X.
    + assert (l2 = []) as -> by (rewrite <- (rev_involutive l2), X; reflexivity). apply app_inj_tail in E as [_ E]. congruence.
    + assert (Y : l2 = rev r ++ [y]) by (rewrite <- (rev_involutive l2), X; reflexivity). subst l2.
      replace (l1 ++ GReset s :: rev r ++ [y]) with ((l1 ++ GReset s :: rev r) ++ [y]) in E by (now rewrite <- app_assoc). apply app_inj_tail in E as [-> _].
      exists l1, (rev r). split; [reflexivity|]. intros a f I. apply (N a f). apply in_or_app. now left.
  - subst l. exists l1, (l2 ++ [x]). split; [now rewrite <- app_assoc|]. intros a f I. apply in_app_iff in I as [I|[I|[]]]; [eapply N; eauto|]. apply A. subst. now exists a, f.
Qed.
Lemma reset_not l s a f : ~ reset_since (l ++ [GAccept s a f]) s.
Proof.
  intros (l1 & l2 & E & N). destruct (rev l2) as [|y r] eqn:X.
  - assert (l2 = []) as -> by (rewrite <- (rev_involutive l2), X; reflexivity). apply app_inj_tail in E as [_ E]. discriminate.
  - assert (Y : l2 = rev r ++ [y]) by (rewrite <- (rev_involutive l2), X; reflexivity). subst l2.
    replace (l1 ++ GReset s :: rev r ++ [y]) with ((l1 ++ GReset s :: rev r) ++ [y]) in E by (now rewrite <- app_assoc). apply app_inj_tail in E as [_ <-].
    apply (N a f). apply in_or_app. right. now left.
Qed.
Lemma resets_same l g x sv' ls ips : resets l g -> (forall s, In s (s_open sv') -> In s (s_open (g_sv g)) /\ ~ about x s) -> (forall s, x <> GReset s) -> resets (l ++ [x]) (mkGate sv' ls (g_peers g) ips).
Proof. intros H I N s Hs. destruct (I s Hs) as [I1 I2]. rewrite reset_more by auto. cbn [g_peers]. now apply H. Qed.
Lemma resets_step rules cap m l g x g' : resets l g -> gstep rules cap m g x = Some (Ok g') -> resets (l ++ [x]) g'.
Proof.
  intros H E. destruct x as [s a f| |s|k|k path|k|k|k|k]; cbn [gstep] in E; cbv zeta in E; unfold only_server in E;
    try (destruct (sstep _ _ _ _ _) as [[sv|]|] eqn:Es; try discriminate; injection E as <-; apply resets_same; [exact H| |discriminate];
         intros s Hs; split; [eapply move_view; eauto; reflexivity|intros (a & f & X); discriminate]).
  - destruct (sstep rules cap m (g_sv g) (Accept s true)) as [[sv|]|] eqn:Es; try discriminate. destruct (accept_view _ _ _ _ _ _ Es) as (U & Eo & Ej & No).
    destruct (admitted_peer f (g_lists g) a) as [(b, ls)|]; [|discriminate]. cbn [bind] in E. destruct b; injection E as <-.
    + intros s' Hs. cbn [g_sv g_peers] in *. unfold set_peer. destruct (Z.eqb_spec s' s) as [->|Ne].
      * split; [discriminate|]. intros X. now apply reset_not in X.
      * rewrite reset_more; [|discriminate|intros (a' & f' & X); congruence]. apply H. rewrite Eo in Hs. destruct Hs; congruence.
    + apply resets_same; [exact H| |discriminate]. intros s' Hs. split; [exact Hs|]. intros (a' & f' & X). congruence.
  - destruct (s_up (g_sv g)) eqn:U; [|discriminate]. injection E as <-. apply resets_same; [exact H| |discriminate]. intros s Hs. split; [exact Hs|intros (a & f & X); discriminate].
  - destruct (s_up (g_sv g) && is_open (g_sv g) s); [|discriminate]. injection E as <-. intros s' Hs. cbn [g_sv g_peers] in *. unfold set_peer. destruct (Z.eqb_spec s' s) as [->|Ne].
    + split; [intros _; apply reset_here|auto].
    + rewrite reset_more; [now apply H|congruence|intros (a' & f' & X); congruence].
  - destruct (sstep rules cap m (g_sv g) (Take k)) as [[sv|]|] eqn:Es; try discriminate. destruct (s_waiting (g_sv g)) as [|s rest] eqn:W; [discriminate|].
    destruct (peer_text (g_peers g s)) as [ip|] eqn:Pt; [|discriminate]. cbn [bind] in E. injection E as <-.
    apply resets_same; [exact H| |discriminate]. intros s' Hs. split; [eapply move_view; eauto; reflexivity|intros (a & f & X); discriminate].
Qed.
Lemma resets_reach rules cap m n root l g : passes rules cap m (gate_start n root) l g -> resets l g.
Proof.
  intros P. assert (G : forall g l g', passes rules cap m g l g' -> forall l0, resets l0 g -> resets (l0 ++ l) g').
  { clear. intros g l g' P. induction P as [g|g x g1 l g2 E P IH]; intros l0 H; [now rewrite app_nil_r|].
    replace (l0 ++ x :: l) with ((l0 ++ [x]) ++ l) by (now rewrite <- app_assoc). apply IH. eapply resets_step; eauto. }
  apply (G _ _ _ P []). intros s [].
Qed.

(** ** The rules of the limits file *)
Lemma rule_path l r : rule_line l r -> no_nul l -> l_path r <> [] /\ no_nul (l_path r).
Proof.
  intros (_ & p & a & b & more & T & _ & E & _) N. rewrite E. pose proof (tokens_no_nul _ _ _ T N) as F. inv F. split; [|assumption]. now inv T.
Qed.
Lemma rules_paths vs rules n : rules_of n vs rules -> Forall no_nul vs -> Forall (fun r => l_path r <> [] /\ no_nul (l_path r)) rules.
Proof. intros R. induction R; intros N; try constructor; inv N; auto. eapply rule_path; eauto. Qed.
Lemma all_in_force rules r : Forall (fun r => l_path r <> [] /\ no_nul (l_path r)) rules -> In r rules -> in_force rules r.
Proof. intros F. induction F as [|x l [H _] F IH]; [intros []|]. intros [->|I]; [now apply if_here|apply if_later; auto]. Qed.
Lemma visible_no_nul ls vs : Forall2 visible ls vs -> Forall no_nul vs.
Proof. intros F. induction F as [|x y l l' (r & _ & N) F IH]; constructor; auto. apply Forall_forall. intros c I ->. auto. Qed.

Lemma gate_limits cap m n root f content ls vs rules l g r : len root <= 276 -> f (root ++ L "/etc/limits") = Some (File content) ->
  text_lines content ls -> Forall2 visible ls vs -> rules_of 64 vs rules -> Forall (sane root) l ->
  neat rules cap m (gate_start n root) l g -> In r rules ->
  load_limits f root = Ok rules
  /\ (forall k, counts (on (l_path r)) (flat_map admitted (s_jobs (g_sv g))) k -> k <= Z.max 0 (l_max r + 1))
  /\ (forall a k, valid a -> counts (fun c => on (l_path r) c /\ comes_from l a c) (flat_map admitted (s_jobs (g_sv g))) k -> k <= Z.max 0 (l_max_ip r + 1)).
Proof.
  intros R Hf T V Ro S N I. pose proof (rules_paths _ _ _ Ro (visible_no_nul _ _ V)) as F.
  destruct (neat_reach rules cap m n root l g ltac:(lia) S N) as (K & Nm & (l' & O)).
  assert (Nn : Forall (fun r => no_nul (l_path r)) rules) by (eapply Forall_impl; [|exact F]; now intros ? []).
  destruct (Server_bounds _ _ _ _ _ _ _ Nn O (all_in_force _ _ F I)) as [B1 B2]. cbn [alive s_jobs] in B1, B2.
  split; [eapply load_limits_eq; eauto|]. split; [exact B1|]. intros a k Va C. apply (B2 (inet_ntoa a)). eapply counts_same; [|exact C].
  intros c Ic. apply in_flat_map in Ic as (j & Hj & Hc). destruct (Nm j c Hj Hc) as (_ & a' & f' & L' & V' & E). unfold on_from. rewrite E. split; intros [X Y].
  - split; [exact X|]. destruct Y as (f'' & L''). now destruct (last_unique _ _ _ _ _ _ L' L'') as [-> _].
  - split; [exact X|]. exists f'. apply ntoa_inj in Y; auto. now subst.
Qed.

(** ** What is defined *)
Lemma peer_text_ok a : valid a -> peer_text (Some a) = Ok (inet_ntoa a).
Proof. intros V. pose proof (ntoa_len a V). unfold peer_text, fits. now replace (_ <=? 24) with true by lia. Qed.
Lemma gate_undefined rules cap m n root l g x u : len root <= 277 -> Forall (fun r => no_nul (l_path r)) rules -> Forall (sane root) (l ++ [x]) -> neat rules cap m (gate_start n root) l g ->
  match x with GAdmit _ path => no_nul path /\ len path <= 511 | _ => True end ->
  (gstep rules cap m g x = Some (UB u) <->
   u = UninitRead /\ exists k s rest, x = GTake k /\ s_up (g_sv g) = true /\ nth_error (s_jobs (g_sv g)) k = Some JIdle /\ s_waiting (g_sv g) = s :: rest /\ reset_since l s).
Proof.
  intros R Nr S N Q. apply Forall_app in S as [S Sx]. inv Sx. rename H1 into Sx. clear H2.
  destruct (neat_reach rules cap m n root l g R S N) as ((F & O & P & J) & Nm & (l' & Or)).
  pose proof (resets_reach _ _ _ _ _ _ _ (neat_passes _ _ _ _ _ _ N)) as Re.
  split.
  - intros E. assert (U : s_up (g_sv g) = true).
    { destruct x; cbn [gstep] in E; unfold only_server in E; try (destruct (sstep _ _ _ _ _) as [[sv|]|] eqn:Es; try discriminate; eapply up_needed; eauto); destruct (s_up (g_sv g)); [reflexivity|discriminate|reflexivity|discriminate]. }
    destruct x as [s a f| |s|k|k path|k|k|k|k]; cbn [gstep] in E; cbv zeta in E; unfold only_server in E.
    + destruct (sstep rules cap m (g_sv g) (Accept s true)) as [[sv|]|] eqn:Es; try discriminate. destruct Sx as [V Sx]. destruct (decision f root _ a R Sx V O) as (b & D & Hb). rewrite D in E. discriminate.
    + rewrite U in E. discriminate.
    + destruct (s_up (g_sv g) && is_open (g_sv g) s); discriminate.
    + destruct (sstep rules cap m (g_sv g) (Take k)) as [[sv|]|] eqn:Es; try discriminate. destruct (s_waiting (g_sv g)) as [|s rest] eqn:W; [discriminate|].
      destruct (P s (waiting_in_open _ _ _ F W)) as (a & f & _ & V & _ & [Y|Y]); rewrite Y in E.
      * rewrite peer_text_ok in E by exact V. discriminate.
      * cbn in E. injection E as <-. split; [reflexivity|]. exists k, s, rest. split; [reflexivity|]. split; [exact U|].
        destruct (move_view _ _ _ _ _ _ Es eq_refl) as (_ & _ & k' & j & j' & M & Hj & _). inv M. split; [exact Hj|]. split; [reflexivity|]. apply (Re s (waiting_in_open _ _ _ F W)). exact Y.
    + exfalso. destruct (sstep _ _ _ _ _) as [[sv|u']|] eqn:Es; try discriminate. destruct Q as [Q1 Q2].
      assert (exists s, nth_error (s_jobs (g_sv g)) k = Some (JRead s)) as [s Hk].
      { unfold sstep in Es. rewrite U in Es. cbn [negb] in Es. destruct (nth_error (s_jobs (g_sv g)) k) as [[]|]; try discriminate. eauto. }
      destruct (J k s Hk) as (a & f & _ & V & Ei). rewrite Ei in Es. rewrite (alive_up _ U) in Or. pose proof (ntoa_len a V).
      revert Es. apply orderly_defined; auto; [|lia]. exact (serial_reach _ _ _ _ _ _ Nr (fds_start n) (serial_start rules n) Or).
    + destruct (sstep _ _ _ _ _) as [[sv|u']|] eqn:Es; try discriminate. exfalso. unfold sstep in Es. rewrite U in Es. cbn [negb] in Es. destruct (nth_error (s_jobs (g_sv g)) k) as [[]|]; discriminate.
    + destruct (sstep _ _ _ _ _) as [[sv|u']|] eqn:Es; try discriminate. exfalso. unfold sstep in Es. rewrite U in Es. cbn [negb] in Es. destruct (nth_error (s_jobs (g_sv g)) k) as [[]|]; discriminate.
    + destruct (sstep _ _ _ _ _) as [[sv|u']|] eqn:Es; try discriminate. exfalso. unfold sstep in Es. rewrite U in Es. cbn [negb] in Es. destruct (nth_error (s_jobs (g_sv g)) k) as [[]|]; discriminate.
    + destruct (sstep _ _ _ _ _) as [[sv|u']|] eqn:Es; try discriminate. exfalso. unfold sstep in Es. rewrite U in Es. cbn [negb] in Es. destruct (nth_error (s_jobs (g_sv g)) k) as [[]|]; discriminate.
  - intros (-> & k & s & rest & -> & U & J0 & W & X). cbn [gstep]. cbv zeta. unfold sstep. rewrite U. cbn [negb]. rewrite J0, W.
    apply (Re s (waiting_in_open _ _ _ F W)) in X. rewrite X. reflexivity.
Qed.
(** ** A client that can end the process *)
Lemma gate_client rules cap m n root l g a f k : len root <= 277 -> passes rules cap m (gate_start n root) l g -> Forall (sane root) l -> valid a -> small_lists root f -> allowed f root (inet_ntoa a) ->
  s_up (g_sv g) = true -> len (s_open (g_sv g)) < m -> 0 < cap -> s_waiting (g_sv g) = [] -> nth_error (s_jobs (g_sv g)) k = Some JIdle ->
  exists s g1 g2, gstep rules cap m g (GAccept s a f) = Some (Ok g1) /\ gstep rules cap m g1 (GReset s) = Some (Ok g2) /\ gstep rules cap m g2 (GTake k) = Some (UB UninitRead).
Proof.
  intros R P S V Sm Al U Lo C W J. destruct (known_reach _ _ _ _ _ _ _ R S P) as (F & O & _). destruct (free_fd (g_sv g)) as (s & Ps & Hs).
  destruct (decision f root _ a R Sm V O) as (b & D & Hb). assert (b = true) as -> by now apply Hb.
  set (sv := mkServer (s :: s_open (g_sv g)) [s] (s_lost (g_sv g)) (s_jobs (g_sv g)) (s_table (g_sv g)) true).
  assert (E : sstep rules cap m (g_sv g) (Accept s true) = Some (Ok sv)).
  { unfold sstep. rewrite U. cbn [negb]. replace (_ <? m) with true by lia. replace (0 <? s) with true by lia. rewrite Hs. cbn [negb andb]. rewrite W. change (len []) with 0. now replace (0 =? cap) with false by lia. }
  exists s. do 2 eexists. split; [|split].
  - cbn [gstep]. cbv zeta. rewrite E, D. cbn [bind]. reflexivity.
  - cbn [gstep g_sv]. cbv zeta. cbn [s_up sv]. unfold is_open. cbn [s_open sv existsb]. rewrite Z.eqb_refl. cbn [orb andb]. reflexivity.
  - cbn [gstep g_sv g_peers]. cbv zeta. unfold sstep. cbn [s_up sv negb s_jobs s_waiting]. rewrite J. unfold set_peer. rewrite Z.eqb_refl. reflexivity.
Qed.
Lemma gate_decided rules cap m n root l g s a f : len root <= 277 -> Forall (sane root) l -> valid a -> small_lists root f ->
  passes rules cap m (gate_start n root) l g ->
  s_up (g_sv g) = true -> len (s_open (g_sv g)) < m -> 0 < s -> ~ In s (s_open (g_sv g)) ->
  exists g', gstep rules cap m g (GAccept s a f) = Some (Ok g')
    /\ (allowed f root (inet_ntoa a) -> s_open (g_sv g') = s :: s_open (g_sv g) /\ s_jobs (g_sv g') = s_jobs (g_sv g)
         /\ s_waiting (g_sv g') = (if len (s_waiting (g_sv g)) =? cap then s_waiting (g_sv g) else s_waiting (g_sv g) ++ [s]))
    /\ (~ allowed f root (inet_ntoa a) -> g_sv g' = g_sv g /\ g_peers g' = g_peers g /\ g_ips g' = g_ips g).
Proof.
  intros R S V Sm P U Lo Ps Ns. destruct (known_reach _ _ _ _ _ _ _ R S P) as (F & O & _). destruct (decision f root _ a R Sm V O) as (b & D & Hb).
  assert (Ho : is_open (g_sv g) s = false).
  { unfold is_open. destruct (existsb _ _) eqn:X; [|reflexivity]. apply existsb_exists in X as (y & Iy & Ey). apply Z.eqb_eq in Ey. subst. now elim Ns. }
  cbn [gstep]. cbv zeta. unfold sstep. rewrite U. cbn [negb]. replace (_ <? m) with true by lia. replace (0 <? s) with true by lia. rewrite Ho. cbn [negb andb]. rewrite D. cbn [bind].
  eexists. split; [reflexivity|]. destruct b.
  - split; [|intros X; elim X; now apply Hb]. intros _. cbn [g_sv]. destruct (_ =? cap); auto.
  - split; [intros X; apply Hb in X; discriminate|auto].
Qed.
Lemma gate_fails rules cap m g : s_up (g_sv g) = true ->
  exists g', gstep rules cap m g GFails = Some (Ok g') /\ s_up (g_sv g') = false /\ forall x, gstep rules cap m g' x = None.
Proof. intros U. cbn [gstep]. rewrite U. eexists. split; [reflexivity|]. split; [reflexivity|]. intros [s a f| |s|k|k path|k|k|k|k]; reflexivity. Qed.
Lemma gate_stale : exists root l g s a f f', passes [] 8 8 (gate_start 1 root) l g /\ Forall (sane root) l
  /\ last_accepted l s a f /\ flat_map held (s_jobs (g_sv g)) = [s] /\ small_lists root f' /\ ~ allowed f' root (inet_ntoa a)
  /\ last l GFails = GAccept 6 a f' /\ s_open (g_sv g) = [s].
Proof.
  set (f := fun _ : str => @None node).
  set (f' := fun p => if str_eqb p (L "/r/etc/deny") then Some (File (L "1.1.1.1")) else None).
  set (a := mkAddr 1 1 1 1).
  assert (V : valid a) by (repeat split; cbn; lia).
  assert (S : small_lists (L "/r") f) by (split; intros c X; discriminate).
  assert (S' : small_lists (L "/r") f').
  { split; intros c X; unfold f' in X; [|injection X as <-; cbn; lia]. vm_compute in X. discriminate. }
  assert (N : ~ allowed f' (L "/r") (inet_ntoa a)).
  { intros [X _]. apply X. exists (L "1.1.1.1"), (L "1.1.1.1"). split; [reflexivity|]. split; [exists []; split; [reflexivity|cbn; intuition discriminate]|]. exists [], []. reflexivity. }
  exists (L "/r"), [GAccept 5 a f; GTake 0; GAccept 6 a f']. do 1 eexists. exists 5, a, f, f'. split.
  { eapply p_step; [vm_compute; reflexivity|]. eapply p_step; [vm_compute; reflexivity|]. eapply p_step; [vm_compute; reflexivity|]. apply p_none. }
  split; [apply Forall_cons; [now split|]; apply Forall_cons; [exact I|]; apply Forall_cons; [now split|constructor]|]. split.
  { exists [], [GTake 0; GAccept 6 a f']. split; [reflexivity|]. intros a' f'' [X|[X|[]]]; congruence. }
  split; [reflexivity|]. auto.
Qed.

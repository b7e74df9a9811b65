(** Properties_Mutex.v - C105, access to live_connections by several threads without a lock (Workers.v),
    and with one (Mutex.v). *)
From Verif Require Import Mutex Lemmas SpecJson SpecHttp SpecConn SpecReq SpecDispatch SpecLog SpecEffects SpecWorkers SpecMutex
  Workers_proofs Mutex_proofs Properties_Dispatch Properties_Workers Spec.
From Coq Require Import Permutation.

Lemma reached f qs n sched p : Forall as_built qs -> wrun (pool_start f qs n) sched = Some (Ok p) -> pinv f qs p.
Proof. intros H R. pose proof (pinv_run f qs sched (built_sound _ H) _ (pinv_start f qs n)) as P. now rewrite R in P. Qed.

(** A step's result does not depend on a slot that [reads] does not list, and the step leaves every
    slot that [writes] does not list as it was. *)
Theorem C105_reads : forall f qs n sched p k s i c, Forall as_built qs -> wrun (pool_start f qs n) sched = Some (Ok p) ->
  nth_error (w_threads p) k = Some s -> (i < length (w_table p))%nat -> ~ reads (w_table p) s i -> ~ writes (w_table p) s i ->
  match wstep p k with
  | Some (Ok p') => wstep (with_slot p i c) k = Some (Ok (with_slot p' i c))
  | r => wstep (with_slot p i c) k = r
  end.
Proof.
  intros f qs n sched p k s i c H R N Hi Nr Nw. rewrite (reads_all f qs p k s i c (built_sound _ H) (reached _ _ _ _ _ H R) N Hi Nr Nw).
  now destruct (wstep p k) as [[p'|u]|].
Qed.
Print Assumptions C105_reads.
Theorem C105_writes : forall f qs n sched p k p' i, Forall as_built qs -> wrun (pool_start f qs n) sched = Some (Ok p) ->
  wstep p k = Some (Ok p') -> nth_error (w_table p') i <> nth_error (w_table p) i ->
  exists s, nth_error (w_threads p) k = Some s /\ writes (w_table p) s i.
Proof. intros f qs n sched p k p' i H R. exact (writes_all f qs p k p' i (built_sound _ H) (reached _ _ _ _ _ H R)). Qed.
Print Assumptions C105_writes.
(** And the slots they list are written, and read: those of a search for some other content make a
    difference. *)
Theorem C105_written : forall f qs n sched p k p' s i, Forall as_built qs -> wrun (pool_start f qs n) sched = Some (Ok p) ->
  nth_error (w_threads p) k = Some s -> writes (w_table p) s i -> wstep p k = Some (Ok p') ->
  nth_error (w_table p') i = Some match s with SClaim q h _ => mkConn (q_socket q) (hd_url h) (r_ip (hd_req h)) | _ => mkConn 0 [] [] end.
Proof. intros f qs n sched p k p' s i H R. exact (writes_real f qs p k p' s i (built_sound _ H) (reached _ _ _ _ _ H R)). Qed.
Print Assumptions C105_written.
Theorem C105_read : forall p k s i, nth_error (w_threads p) k = Some s -> match s with SCheck _ _ => False | _ => True end -> reads (w_table p) s i ->
  exists c, match wstep p k with
            | Some (Ok p') => wstep (with_slot p i c) k <> Some (Ok (with_slot p' i c))
            | r => wstep (with_slot p i c) k <> r
            end.
Proof.
  intros p k s i N C R. destruct (reads_real p k s i N C R) as (c & X). exists c. now destruct (wstep p k) as [[p'|u]|].
Qed.
Print Assumptions C105_read.
(** Two threads are enough for a race on live_connections, and any two requests: if the first is
    answered other than with 400 or 429, and the second is answered at all, then some schedule gets
    the two threads into conflict. *)
Theorem C105_any_two : forall f q1 q2 rest n, (2 <= n)%nat -> served f q1 -> ~ undefined (alone f q2) ->
  exists sched p, wrun (pool_start f (q1 :: q2 :: rest) n) sched = Some (Ok p) /\ racing p.
Proof. exact any_two. Qed.
Print Assumptions C105_any_two.
(** One thread has no one to race. *)
Theorem C105_one_thread : forall f qs n sched p, (n <= 1)%nat -> wrun (pool_start f qs n) sched = Some (Ok p) -> ~ racing p.
Proof.
  intros f qs n sched p N R (j & k & s & s' & D & Nj & Nk & _). pose proof (run_length _ _ _ R) as X. destruct (start_more f qs n) as (_ & _ & Ln). rewrite Ln in X.
  assert ((j < length (w_threads p))%nat) by (apply nth_error_Some; congruence). assert ((k < length (w_threads p))%nat) by (apply nth_error_Some; congruence). lia.
Qed.
Print Assumptions C105_one_thread.
(** With a mutex over connection_add and connection_del no schedule has a race. *)
Theorem C105_lock_no_race : forall f qs n sched x, lrun (locked_start f qs n) sched = Some (Ok x) -> ~ racing_locked x.
Proof. intros f qs n sched x _. apply no_race. Qed.
Print Assumptions C105_lock_no_race.
(** What happens with the mutex could happen without it: C95 holds of it. *)
Theorem C105_lock_same : forall f qs n sched, match lrun (locked_start f qs n) sched with
  | Some (Ok x) => exists sched', wrun (pool_start f qs n) sched' = Some (Ok (l_pool x))
  | Some (UB u) => exists sched', wrun (pool_start f qs n) sched' = Some (UB u)
  | None => True
  end.
Proof. intros f qs n sched. exact (lock_sim sched (locked_start f qs n)). Qed.
Print Assumptions C105_lock_same.
(** With it the connections in service never exceed a limit by more than the one, in total or per
    address, and each has its entry in the table. *)
Theorem C105_lock_limits : forall f rules qs n sched x r, one_server rules qs -> lrun (locked_start f qs n) sched = Some (Ok x) -> in_force rules r ->
  (forall m, counts (on (l_path r)) (in_service (l_pool x)) m -> m <= Z.max 0 (l_max r + 1))
  /\ (forall ip m, counts (on_from (l_path r) ip) (in_service (l_pool x)) m -> m <= Z.max 0 (l_max_ip r + 1)).
Proof.
  intros f rules qs n sched x r H R F. eapply lock_bounds; [exact H| |exact F]. eapply linv_run; [exact H|apply linv_start|exact R].
Qed.
Print Assumptions C105_lock_limits.
Theorem C105_lock_kept : forall f rules qs n sched x c, one_server rules qs -> lrun (locked_start f qs n) sched = Some (Ok x) ->
  In c (in_service (l_pool x)) -> In c (w_table (l_pool x)) /\ c_socket c <> 0.
Proof.
  intros f rules qs n sched x c H R. eapply lock_kept. eapply linv_run; [exact H|apply linv_start|exact R].
Qed.
Print Assumptions C105_lock_kept.
(** The mutex costs at most four steps a connection, and no schedule gets stuck on it. *)
Theorem C105_lock_ends : forall f qs n sched x, Forall as_built qs -> (0 < n)%nat -> lrun (locked_start f qs n) sched = Some (Ok x) ->
  len sched <= 11 * len qs /\ ((forall k, lstep x k = None) -> l_owner x = None /\ Permutation qs (answered (l_pool x))).
Proof.
  intros f qs n sched x H N R. split.
  - apply lleft_run in R as B. rewrite lleft_start in B. pose proof (lleft_nonneg x). lia.
  - intros S. assert (T : owner_there x) by (eapply there_run; [|exact R]; intros k X; discriminate X). destruct (lock_rest x T S) as [O W]. split; [exact O|].
    pose proof (C105_lock_same f qs n sched) as X. rewrite R in X. destruct X as (sc & E). exact (proj2 (C95_ends f qs n sc _ H N E) W).
Qed.
Print Assumptions C105_lock_ends.
(** Without it neither holds: two connections in service where the limit lets one in, *)
Lemma two_served : match wrun (pool_start demo_fs [get_a 4; get_a 5] 2) [0; 0; 0; 1; 1; 1; 0; 0; 1; 1]%nat with
  | Some (Ok p) => in_service p = [mkConn 4 (L "/a.txt") (L "1.2.3.4"); mkConn 5 (L "/a.txt") (L "1.2.3.4")]
  | _ => False
  end.
Proof. vm_compute. reflexivity. Qed.
Lemma server_a : one_server [mkLimit (L "/a") 0 0 0] [get_a 4; get_a 5].
Proof.
  split; [|split].
  - assert (K : forall s, 0 < s -> mp_md5_size (v_mp (q_env (get_a s))) = 36 /\ keeps_socket (v_app (q_env (get_a s))) /\ v_limits (q_env (get_a s)) = [mkLimit (L "/a") 0 0 0] /\ 0 < q_socket (get_a s) /\ no_nul (q_peer (get_a s))).
    { intros s S0. split; [reflexivity|]. split; [split; reflexivity|]. split; [reflexivity|]. split; [exact S0|]. cbn. repeat constructor; discriminate. }
    constructor; [apply K; lia|]. constructor; [apply K; lia|constructor].
  - repeat constructor; discriminate.
  - cbn. repeat constructor; cbn; intuition discriminate.
Qed.
Theorem C105_limits_refuted : exists f rules qs n sched p r m, one_server rules qs /\ wrun (pool_start f qs n) sched = Some (Ok p) /\ in_force rules r
  /\ counts (on (l_path r)) (in_service p) m /\ ~ m <= Z.max 0 (l_max r + 1).
Proof.
  pose proof two_served as T. destruct (wrun _ _) as [[p|]|] eqn:E; try contradiction.
  exists demo_fs, [mkLimit (L "/a") 0 0 0], [get_a 4; get_a 5], 2%nat, [0; 0; 0; 1; 1; 1; 0; 0; 1; 1]%nat, p, (mkLimit (L "/a") 0 0 0), 2.
  split; [exact server_a|]. split; [exact E|]. split; [constructor; discriminate|]. rewrite T. split; [|cbn; lia].
  apply (counts_yes _ _ _ 1); [|apply (counts_yes _ _ _ 0); [|constructor]]; exists (L "/a"), (L ".txt"); (split; [reflexivity|repeat constructor]).
Qed.
Print Assumptions C105_limits_refuted.
(** or in service without an entry. *)
Lemma one_entry : match wrun (pool_start demo_fs [get_a 4; get_a 5] 2) [0; 0; 0; 0; 1; 1; 1; 1; 0; 1]%nat with
  | Some (Ok p) => in_service p = [mkConn 4 (L "/a.txt") (L "1.2.3.4"); mkConn 5 (L "/a.txt") (L "1.2.3.4")] /\ map c_socket (occupied (w_table p)) = [5]
  | _ => False
  end.
Proof. vm_compute. split; reflexivity. Qed.
Theorem C105_kept_refuted : exists f rules qs n sched p c, one_server rules qs /\ wrun (pool_start f qs n) sched = Some (Ok p)
  /\ In c (in_service p) /\ ~ In c (w_table p).
Proof.
  pose proof one_entry as T. destruct (wrun _ _) as [[p|]|] eqn:E; try contradiction. destruct T as [T1 T2].
  exists demo_fs, [mkLimit (L "/a") 0 0 0], [get_a 4; get_a 5], 2%nat, [0; 0; 0; 0; 1; 1; 1; 1; 0; 1]%nat, p, (mkConn 4 (L "/a.txt") (L "1.2.3.4")).
  split; [exact server_a|]. split; [exact E|]. split; [rewrite T1; now left|]. intros I.
  assert (J : In 4 (map c_socket (occupied (w_table p)))). { apply in_map_iff. exists (mkConn 4 (L "/a.txt") (L "1.2.3.4")). split; [reflexivity|]. unfold occupied. apply filter_In. auto. }
  rewrite T2 in J. destruct J as [J|[]]. discriminate.
Qed.
Print Assumptions C105_kept_refuted.
Example C105_case :
  match lrun (locked_start demo_fs [get_a 4; get_a 5] 2) [0; 1; 0; 1; 0; 0; 0; 0; 0; 1; 1; 1; 1]%nat with
  | Some (Ok x) => in_service (l_pool x) = [mkConn 4 (L "/a.txt") (L "1.2.3.4")] /\ l_owner x = None
                   /\ match w_threads (l_pool x) with [SServe _ _; SClosed q TTooMany _] => q_socket q = 5 | _ => False end
  | _ => False
  end
  /\ lrun (locked_start demo_fs [get_a 4; get_a 5] 2) [0; 1; 0; 1; 0; 1]%nat = None.
Proof. vm_compute. repeat split; reflexivity. Qed.

(** Properties_Queue.v - C63 to C65: the work queue between the accept loop and the workers
    (/repo/ws.c).  A schedule is any list of actions of the acceptor and of [n] workers. *)
From Verif Require Import Base Queue Lemmas Queue_proofs SpecQueue.

(** C63.  The sockets accepted from allowed addresses are, in order, those whose handling began,
    the one taken last, those in the queue, and the one in the acceptor's hand, interleaved only
    with those that were dropped. *)
Theorem C63_once_in_order : forall cap n sched s, 0 < cap -> run (init cap n) sched = Some (Ok s) ->
  exists queued m, holds (s_queue s) queued
    /\ merge m (started (init cap n) sched ++ in_transit s ++ queued) (g_dropped s)
    /\ arrivals sched = m ++ in_hand s.
Proof.
  intros cap n sched s H R. pose proof (inv_run cap n sched [] [] (init cap n) (inv_init cap n H)) as I. rewrite R in I.
  destruct I as (l & Q & _ & _ & _ & Ht & Hst & (m & Hm & Ha) & _). exists l, m.
  destruct Q as (_ & _ & _ & _ & Hh). split; [exact Hh|]. split; [|exact Ha].
  rewrite app_assoc. change (started (init cap n) sched ++ in_transit s) with ([] ++ started (init cap n) sched ++ transits (s_workers s)).
  cbn [app] in *. rewrite <- Hst, Ht. exact Hm.
Qed.
Print Assumptions C63_once_in_order.
(** No schedule makes the queue access memory it should not. *)
Theorem C63_in_bounds : forall cap n sched u, 0 < cap -> run (init cap n) sched <> Some (UB u).
Proof.
  intros cap n sched u H R. pose proof (inv_run cap n sched [] [] (init cap n) (inv_init cap n H)) as I. rewrite R in I. exact I.
Qed.
Print Assumptions C63_in_bounds.
(** At most one socket is between queue and handler, and the mutex protects it. *)
Theorem C63_mutual_exclusion : forall cap n sched s, 0 < cap -> run (init cap n) sched = Some (Ok s) ->
  (forall j k v w, nth_error (s_workers s) j = Some (WTaken v) \/ nth_error (s_workers s) j = Some WLocked ->
     nth_error (s_workers s) k = Some (WTaken w) \/ nth_error (s_workers s) k = Some WLocked -> j = k)
  /\ (forall j v w, nth_error (s_workers s) j = Some (WTaken v) \/ nth_error (s_workers s) j = Some WLocked ->
     s_acc s <> ALocked w /\ s_acc s <> AUnlock).
Proof.
  intros cap n sched s H R. pose proof (inv_run cap n sched [] [] (init cap n) (inv_init cap n H)) as I. rewrite R in I.
  destruct I as (l & _ & _ & _ & [M1 M2] & _).
  assert (G : forall j v, nth_error (s_workers s) j = Some (WTaken v) \/ nth_error (s_workers s) j = Some WLocked -> s_mutex s = Some (ByWorker j)).
  { intros j v [X|X]; apply (M2 _ _ X); reflexivity. }
  split.
  - intros j k v w Hj Hk. apply G in Hj, Hk. congruence.
  - intros j v w Hj. apply G in Hj. split; intros X; rewrite X in M1; destruct M1 as [M1 _]; specialize (M1 eq_refl); congruence.
Qed.
Print Assumptions C63_mutual_exclusion.
Example C63_case :
  match run (init 2 2) [DoLockW 1; DoCheck 1; DoAccept 7 true; DoLockA; DoPush; DoUnlockA; DoSignal 1; DoAccept 8 true; DoLockW 0; DoCheck 0;
                        DoUnlockW 0; DoLockA; DoPush; DoUnlockA; DoSignal 0; DoRelock 1; DoCheck 1; DoAccept 9 true] with
  | Some (Ok s) => s_workers s = [WRunning 7; WTaken 8] /\ q_size (s_queue s) = 0 /\ s_acc s = AWantLock 9
  | _ => False
  end
  /\ started (init 2 2) [DoLockW 1; DoCheck 1; DoAccept 7 true; DoLockA; DoPush; DoUnlockA; DoSignal 1; DoAccept 8 true; DoLockW 0; DoCheck 0; DoUnlockW 0] = [7].
Proof. vm_compute. auto. Qed.

(** C64.  While a worker waits, each queued socket has a worker on its way to the queue or a
    signal about to be sent. *)
Theorem C64_no_lost_wakeup : forall cap n sched s, 0 < cap -> run (init cap n) sched = Some (Ok s) ->
  In WBlocked (s_workers s) -> q_size (s_queue s) <= awake s + about_to_signal s.
Proof.
  intros cap n sched s H R I. pose proof (inv_run cap n sched [] [] (init cap n) (inv_init cap n H)) as J. rewrite R in J.
  destruct J as (l & Q & _ & _ & _ & _ & _ & _ & _ & Hw). destruct Q as (_ & _ & _ & _ & (Hs & _)). rewrite Hs. exact (Hw I).
Qed.
Print Assumptions C64_no_lost_wakeup.
(** Whenever a socket is queued and some worker is not handling another one, the threads' own
    actions - without new connections, finished handlers or spurious wake-ups - can start a handler. *)
Theorem C64_progress : forall cap n sched s w, 0 < cap -> run (init cap n) sched = Some (Ok s) ->
  0 < q_size (s_queue s) -> In w (s_workers s) -> (forall v, w <> WRunning v) ->
  exists more s', Forall (fun a => match a with DoAccept _ _ | DoFinish _ | DoSpurious _ => False | _ => True end) more
    /\ run s more = Some (Ok s') /\ started s more <> [].
Proof.
  intros cap n sched s w H R Hz Hi Hw. pose proof (inv_run cap n sched [] [] (init cap n) (inv_init cap n H)) as J. rewrite R in J.
  refine (progress_ok _ _ _ _ _ J (owner_run _ _ _ (owner_init cap n) R) Hz _). eauto.
Qed.
Print Assumptions C64_progress.
Example C64_case :
  match run (init 2 2) [DoLockW 1; DoCheck 1; DoLockW 0; DoCheck 0; DoAccept 7 true; DoLockA; DoPush; DoUnlockA] with
  | Some (Ok s) => s_workers s = [WBlocked; WBlocked] /\ q_size (s_queue s) = 1 /\ awake s = 0 /\ about_to_signal s = 1
      /\ started s [DoSignal 1; DoRelock 1; DoCheck 1; DoUnlockW 1] = [7]
  | _ => False
  end.
Proof. vm_compute. auto. Qed.

(** C65.  [g_denied] are the sockets the accept loop closes, [g_dropped] those it forgets. *)
Theorem C65_dropped_exactly_when_full : forall cap n sched s v, 0 < cap -> run (init cap n) sched = Some (Ok s) ->
  s_acc s = ALocked v ->
  exists s' queued, step s DoPush = Some (Ok s') /\ holds (s_queue s) queued /\ g_denied s' = g_denied s
    /\ (len queued = cap -> holds (s_queue s') queued /\ g_dropped s' = g_dropped s ++ [v])
    /\ (len queued <> cap -> holds (s_queue s') (queued ++ [v]) /\ g_dropped s' = g_dropped s).
Proof.
  intros cap n sched s v H R A. pose proof (inv_run cap n sched [] [] (init cap n) (inv_init cap n H)) as J. rewrite R in J.
  destruct J as (l & Q & Hc & _). cbn [step]. rewrite A. destruct (push_ok _ _ v Q) as [P1 P2].
  assert (Hh : holds (s_queue s) l) by (destruct Q as (_ & _ & _ & _ & X); exact X).
  destruct (Z.eq_dec (len l) (q_capacity (s_queue s))) as [F|F].
  - rewrite (P1 F). cbn [bind]. eexists _, l. split; [reflexivity|]. cbn. split; [auto|]. split; [auto|]. split; [auto|]. intros X. congruence.
  - destruct P2 as (q' & E & Q' & _); [destruct Hh as (_ & X & _); lia|]. rewrite E. cbn [bind]. eexists _, l. split; [reflexivity|]. cbn.
    split; [auto|]. split; [auto|]. split; [intros X; congruence|]. intros _. destruct Q' as (_ & _ & _ & _ & X). auto.
Qed.
Print Assumptions C65_dropped_exactly_when_full.
Theorem C65_only_push_drops : forall s a s', step s a = Some (Ok s') -> a <> DoPush -> g_dropped s' = g_dropped s.
Proof.
  intros s a s' E N. destruct a as [v [] | | | | k | k | k | k | k | k | k]; cbn [step] in E; try congruence;
    repeat match type of E with
    | context [match ?x with _ => _ end] => destruct x eqn:?; try discriminate
    end;
    repeat match type of E with
    | Some (bind ?x _) = _ => destruct x as [[? ?]|] eqn:?; cbn [bind] in E; try discriminate
    end; inversion E; subst s'; reflexivity.
Qed.
Print Assumptions C65_only_push_drops.
(** The accept loop closes exactly the sockets of denied addresses; these reach no worker, since
    C63 accounts for every socket that does. *)
Theorem C65_denied_closed : forall cap n sched s, 0 < cap -> run (init cap n) sched = Some (Ok s) -> g_denied s = rejected sched.
Proof.
  intros cap n sched s H R. pose proof (inv_run cap n sched [] [] (init cap n) (inv_init cap n H)) as J. rewrite R in J.
  destruct J as (l & _ & _ & _ & _ & _ & _ & _ & Hd & _). exact Hd.
Qed.
Print Assumptions C65_denied_closed.
Example C65_case :
  match run (init 1 0) [DoAccept 5 true; DoLockA; DoPush; DoUnlockA; DoSignal 0; DoAccept 6 false; DoAccept 7 true; DoLockA; DoPush] with
  | Some (Ok s) => g_dropped s = [7] /\ g_denied s = [6] /\ q_elements (s_queue s) = [Some 5]
  | _ => False
  end.
Proof. vm_compute. auto. Qed.

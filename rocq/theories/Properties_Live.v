(** Properties_Live.v - C94, on the work queue model of Queue.v. *)
From Verif Require Import Base Queue Lemmas Queue_proofs SpecQueue SpecLive Live_proofs.

(** The threads take at most eleven steps per admitted connection, one per denied one, two per
    worker and three per spurious wake-up: without new connections they come to rest. *)
Theorem C94_bounded : forall cap n sched s, 0 < cap -> run (init cap n) sched = Some (Ok s) ->
  len sched <= 2 * Z.of_nat n + 11 * len (arrivals sched) + len (rejected sched) + 3 * spurious sched.
Proof.
  intros cap n sched s H R. pose proof (pot_run cap n sched [] [] _ _ (inv_init cap n H) R) as P. rewrite pot_init, given_eq in P.
  pose proof (inv_run cap n sched [] [] (init cap n) (inv_init cap n H)) as J. rewrite R in J. apply pot_nonneg in J. lia.
Qed.
Print Assumptions C94_bounded.
(** The threads come to rest only when every admitted connection was handled or dropped, the mutex
    is free and every worker waits for the next connection. *)
Theorem C94_settles : forall cap n sched s, 0 < cap -> (0 < n)%nat -> run (init cap n) sched = Some (Ok s) ->
  (forall a, own a -> step s a = None) ->
  settled s /\ merge (arrivals sched) (started (init cap n) sched) (g_dropped s).
Proof.
  intros cap n sched s H N R St. pose proof (inv_run cap n sched [] [] (init cap n) (inv_init cap n H)) as J. rewrite R in J.
  assert (S : settled s) by exact (stuck_settled cap n _ _ s J (owner_run _ _ _ (owner_init cap n) R) N St). split; [exact S|].
  exact (settled_merge cap n _ _ _ J S).
Qed.
Print Assumptions C94_settles.
(** From every state the server can be in, it gets there by steps of its own. *)
Theorem C94_can_settle : forall cap n sched s, 0 < cap -> (0 < n)%nat -> run (init cap n) sched = Some (Ok s) ->
  exists more s', Forall own more /\ run s more = Some (Ok s') /\ settled s'.
Proof.
  intros cap n sched s H N R. pose proof (inv_run cap n sched [] [] (init cap n) (inv_init cap n H)) as J. rewrite R in J.
  exact (settles cap n (Z.to_nat (pot s)) _ _ s J (owner_run _ _ _ (owner_init cap n) R) N ltac:(lia)).
Qed.
Print Assumptions C94_can_settle.
(** A step of one thread is never undone by the others' waiting: at rest nothing moves but by a new
    connection or a spurious wake-up. *)
Theorem C94_rest : forall s a, settled s -> own a -> step s a = None.
Proof. exact settled_rest. Qed.
Print Assumptions C94_rest.
(** "A queued connection is eventually handled" fails when handlers do not return, and nothing makes
    them (no timeout is set on client sockets): as many silent clients as there are workers bring
    the server to a state after which no connection is ever handled, whatever else happens. *)
Theorem C94_silent_clients : forall cap n clients, 0 < cap -> length clients = n ->
  exists sched s, run (init cap n) sched = Some (Ok s) /\ arrivals sched = clients /\ rejected sched = []
    /\ g_dropped s = [] /\ q_size (s_queue s) = 0
    /\ forall more s', Forall own_but_finish more -> run s more = Some (Ok s') -> started s more = [].
Proof. exact silent. Qed.
Print Assumptions C94_silent_clients.
Example C94_case :
  let wait := [DoLockW 0; DoCheck 0] in
  let serve := [DoAccept 7 true; DoLockA; DoPush; DoUnlockA; DoSignal 0; DoRelock 0; DoCheck 0; DoUnlockW 0; DoFinish 0; DoLockW 0; DoCheck 0] in
  match run (init 2 1) (wait ++ serve) with
  | Some (Ok s) => len (wait ++ serve) = 2 * 1 + 11 * 1 /\ settled s /\ started (init 2 1) (wait ++ serve) = [7]
  | _ => False
  end.
Proof. vm_compute. repeat split; repeat constructor. Qed.

(** Properties_Server.v - C76, C77: descriptors, from accept() to close() (/repo/ws.c). *)
From Verif Require Import Server Lemmas WsConn_proofs Server_proofs SpecConn SpecServer Spec.

(** C76.  While accept() does not return a descriptor that a worker has closed but not yet removed
    from the table, the workers together do what a history of connections opened and closed one
    after another does: the table holds the admitted connections, and the limits bound them. *)
Theorem C76_serialisable : forall rules cap max_fds n l sv, Forall (fun r => no_nul (l_path r)) rules ->
  orderly rules cap max_fds (server_start n) l sv ->
  exists evs answers open, history rules evs answers open
    /\ Permutation (flat_map admitted (s_jobs sv)) open /\ Permutation (occupied (s_table sv)) open
    /\ NoDup (map c_socket open).
Proof.
  intros rules cap m n l sv Hr R. destruct (serial_reach _ _ _ _ _ _ Hr (fds_start n) (serial_start rules n) R) as ((evs & ans & open & H & P & T) & _).
  exists evs, ans, open. destruct T as (_ & PT & _ & ND & _). auto using Permutation_sym.
Qed.
Print Assumptions C76_serialisable.
Theorem C76_bounds : forall rules cap max_fds n l sv r, Forall (fun r => no_nul (l_path r)) rules ->
  orderly rules cap max_fds (server_start n) l sv -> in_force rules r ->
  (forall k, counts (on (l_path r)) (flat_map admitted (s_jobs sv)) k -> k <= Z.max 0 (l_max r + 1))
  /\ (forall ip k, counts (on_from (l_path r) ip) (flat_map admitted (s_jobs sv)) k -> k <= Z.max 0 (l_max_ip r + 1)).
Proof. exact Server_bounds. Qed.
Print Assumptions C76_bounds.
Theorem C76_defined : forall rules cap max_fds n l sv k ip path u, Forall (fun r => no_nul (l_path r)) rules ->
  orderly rules cap max_fds (server_start n) l sv -> no_nul path -> len path <= 511 -> len ip <= 15 ->
  sstep rules cap max_fds sv (Admit k ip path) <> Some (UB u).
Proof.
  intros rules cap m n l sv k ip path u Hr R Np Lp Li. apply orderly_defined; auto.
  - eapply fds_reach; [apply fds_start|]. eapply orderly_reaches, R.
  - eapply serial_reach; eauto using fds_start, serial_start.
Qed.
Print Assumptions C76_defined.
(** connection_close closes the descriptor first.  A new connection that gets it in between is
    admitted, and then its entry is the one removed.  So with one worker more than [n], whatever the
    limits, [n] connections of the same address and path can be served at a time, with an empty table. *)
Theorem C76_limits_refuted : forall rules cap max_fds ip path n, Forall (fun r => no_nul (l_path r)) rules ->
  Forall (fun r => 0 <= l_max r /\ 0 <= l_max_ip r) rules ->
  no_nul path -> len path <= 511 -> len ip <= 15 -> 0 < cap -> Z.of_nat n <= max_fds ->
  exists l sv, reaches rules cap max_fds (server_start (S n)) l sv /\ occupied (s_table sv) = []
    /\ len (flat_map serving (s_jobs sv)) = Z.of_nat n
    /\ Forall (fun c => c_path c = path /\ c_ip c = ip) (flat_map serving (s_jobs sv)).
Proof. exact Server_escape. Qed.
Print Assumptions C76_limits_refuted.
Fixpoint play (rules : list limit) (cap m : Z) (sv : server) (l : list sact) : option server :=
  match l with
  | [] => Some sv
  | a :: l => match sstep rules cap m sv a with Some (Ok sv) => play rules cap m sv l | _ => None end
  end.
Example C76_case : let rules := [mkLimit (L "/api") 0 9 0] in let ip := L "10.0.0.1" in
  let go l := option_map (fun sv => (s_jobs sv, occupied (s_table sv))) (play rules 1024 1000 (server_start 3) l) in
  (* orderly: the second connection to /api is refused *)
  go [Accept 5 true; Accept 6 true; Take 0; Take 1; Admit 1 ip (L "/api/b"); Admit 0 ip (L "/API/a")]
    = Some ([JClose 5 None; JServe (mkConn 6 (L "/api/b") ip); JIdle], [mkConn 6 (L "/api/b") ip])
  (* the descriptor of a bad request is used again before it is removed: both are served *)
  /\ go [Accept 5 true; Take 0; BadMethod 0; CloseFd 0; Accept 5 true; Take 1; Admit 1 ip (L "/api/a"); DelEntry 0;
          Accept 6 true; Take 2; Admit 2 ip (L "/api/b")]
    = Some ([JIdle; JServe (mkConn 5 (L "/api/a") ip); JServe (mkConn 6 (L "/api/b") ip)], [mkConn 6 (L "/api/b") ip]).
Proof. vm_compute. split; reflexivity. Qed.

(** C77.  In every schedule each open descriptor is in exactly one place: the queue, a worker, or
    the dropped ones. *)
Theorem C77_one_place : forall rules cap max_fds n l sv, reaches rules cap max_fds (server_start n) l sv ->
  NoDup (s_open sv) /\ Permutation (s_open sv) (s_waiting sv ++ s_lost sv ++ flat_map held (s_jobs sv))
  /\ len (flat_map held (s_jobs sv)) <= Z.of_nat n.
Proof.
  intros rules cap m n l sv R. destruct (fds_perm sv (fds_reach _ _ _ _ _ _ (fds_start n) R)) as [N P]. split; [exact N|]. split; [exact P|].
  destruct (lost_reach _ _ _ _ _ _ R) as [_ J]. cbn [server_start s_jobs] in J. rewrite repeat_length in J. pose proof (held_le (s_jobs sv)). unfold len at 2 in H. lia.
Qed.
Print Assumptions C77_one_place.
(** A connection dropped because the queue was full stays open for ever. *)
Theorem C77_dropped_stays_open : forall rules cap max_fds n l sv l' sv' s, reaches rules cap max_fds (server_start n) l sv ->
  reaches rules cap max_fds sv l' sv' -> In s (s_lost sv) -> In s (s_open sv').
Proof.
  intros rules cap m n l sv l' sv' s R R' I. apply lost_open.
  - eapply fds_reach; [|exact R']. eapply fds_reach; [apply fds_start|exact R].
  - destruct (lost_reach _ _ _ _ _ _ R') as ((new & ->) & _). apply in_or_app. now right.
Qed.
Print Assumptions C77_dropped_stays_open.
(** The process exits exactly when accept() finds no descriptor; that needs so many dropped ones,
    or so few descriptors. *)
Theorem C77_exit : forall rules cap max_fds n l sv, 0 <= cap -> 0 <= max_fds -> reaches rules cap max_fds (server_start n) l sv -> s_up sv = true ->
  (sstep rules cap max_fds sv AcceptFails <> None <-> len (s_open sv) = max_fds)
  /\ (len (s_open sv) = max_fds -> max_fds <= cap + Z.of_nat n + len (s_lost sv))
  /\ (max_fds <= cap -> s_lost sv = []).
Proof.
  intros rules cap m n l sv Hc Hm R U. pose proof (fds_reach _ _ _ _ _ _ (fds_start n) R) as F.
  assert (B0 : bounded cap m (server_start n)) by (repeat split; cbn; try lia; auto).
  destruct (bounded_reach _ _ _ _ _ _ (fds_start n) B0 R) as (B1 & B2 & B3). split; [|split; [|exact B3]].
  - unfold sstep. rewrite U. cbn [negb]. destruct (_ <? _) eqn:E; [split; [congruence|lia]|]. split; [lia|discriminate].
  - intros H. pose proof (waiting_open sv F). destruct (C77_one_place _ _ _ _ _ _ R) as (_ & _ & Hh). lia.
Qed.
Print Assumptions C77_exit.
(** Whatever the workers do, enough connections end the process, and nothing happens after that. *)
Theorem C77_flood : forall rules cap max_fds n l sv, 0 <= cap -> 0 <= max_fds -> reaches rules cap max_fds (server_start n) l sv -> s_up sv = true ->
  exists fds sv', len fds = max_fds - len (s_open sv)
    /\ reaches rules cap max_fds sv (map (fun s => Accept s true) fds ++ [AcceptFails]) sv' /\ s_up sv' = false
    /\ forall a, sstep rules cap max_fds sv' a = None.
Proof.
  intros rules cap m n l sv Hc Hm R U.
  assert (B0 : bounded cap m (server_start n)) by (repeat split; cbn; try lia; auto).
  destruct (bounded_reach _ _ _ _ _ _ (fds_start n) B0 R) as (B1 & B2 & B3).
  destruct (flood rules cap m (Z.to_nat (m - len (s_open sv))) sv U) as (fds & sv' & Lf & R' & D); [lia|].
  exists fds, sv'. split; [unfold len at 1; lia|]. split; [exact R'|]. split; [exact D|]. intros a. unfold sstep. now rewrite D.
Qed.
Print Assumptions C77_flood.
Example C77_case :
  (* one worker, a queue of one, four descriptors: two connections are dropped *)
  match play [] 1 4 (server_start 1) [Accept 5 true; Take 0; Accept 6 true; Accept 7 true; Accept 8 true; AcceptFails] with
  | Some sv => (s_open sv, s_waiting sv, s_lost sv, s_jobs sv, s_up sv) = ([8; 7; 6; 5], [6], [8; 7], [JRead 5], false)
  | None => False
  end
  (* with a queue as long as the descriptors none is dropped *)
  /\ match play [] 4 4 (server_start 1) [Accept 5 true; Take 0; Accept 6 true; Accept 7 true; Accept 8 true; AcceptFails] with
     | Some sv => (s_open sv, s_waiting sv, s_lost sv, s_up sv) = ([8; 7; 6; 5], [6; 7; 8], [], false)
     | None => False
     end.
Proof. vm_compute. split; reflexivity. Qed.

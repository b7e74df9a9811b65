(** Properties_Gate.v - C96: who is served, from the lists and the limits file to the workers
    (/repo/ws.c). *)
From Verif Require Import Gate Gate_proofs FileUtils_proofs Start_proofs SpecConf SpecConn SpecServer SpecStart SpecGate Spec.

(** C96.  Every open descriptor, so every one waiting, dropped or with a worker, belongs to a client
    that the lists of the moment it was accepted let in. *)
Theorem C96_only_allowed : forall rules cap max_fds n root l g s, len root <= 277 -> Forall (sane root) l ->
  passes rules cap max_fds (gate_start n root) l g -> In s (s_open (g_sv g)) ->
  exists a f, last_accepted l s a f /\ allowed f root (inet_ntoa a).
Proof.
  intros rules cap m n root l g s R S P I. destruct (known_reach _ _ _ _ _ _ _ R S P) as (_ & _ & H & _). destruct (H s I) as (a & f & X & _ & Y & _). eauto.
Qed.
Print Assumptions C96_only_allowed.
(** A client let in has its descriptor opened; one refused leaves everything as it was. *)
Theorem C96_decided : forall rules cap max_fds n root l g s a f, len root <= 277 -> Forall (sane root) l -> valid a -> small_lists root f ->
  passes rules cap max_fds (gate_start n root) l g ->
  s_up (g_sv g) = true -> len (s_open (g_sv g)) < max_fds -> 0 < s -> ~ In s (s_open (g_sv g)) ->
  exists g', gstep rules cap max_fds g (GAccept s a f) = Some (Ok g')
    /\ (allowed f root (inet_ntoa a) -> s_open (g_sv g') = s :: s_open (g_sv g) /\ s_jobs (g_sv g') = s_jobs (g_sv g)
         /\ s_waiting (g_sv g') = (if len (s_waiting (g_sv g)) =? cap then s_waiting (g_sv g) else s_waiting (g_sv g) ++ [s]))
    /\ (~ allowed f root (inet_ntoa a) -> g_sv g' = g_sv g /\ g_peers g' = g_peers g /\ g_ips g' = g_ips g).
Proof. exact gate_decided. Qed.
Print Assumptions C96_decided.
(** The limits of the file read at the start bind the clients themselves: in schedules where no
    descriptor is given out before its entry is removed, no more than the maximum plus one of those
    admitted to a rule's path - and of those that come from one address, whichever it is. *)
Theorem C96_limits : forall cap max_fds n root f content ls vs rules l g r, len root <= 276 -> f (root ++ L "/etc/limits") = Some (File content) ->
  text_lines content ls -> Forall2 visible ls vs -> rules_of 64 vs rules -> Forall (sane root) l ->
  neat rules cap max_fds (gate_start n root) l g -> In r rules ->
  load_limits f root = Ok rules
  /\ (forall k, counts (on (l_path r)) (flat_map admitted (s_jobs (g_sv g))) k -> k <= Z.max 0 (l_max r + 1))
  /\ (forall a k, valid a -> counts (fun c => on (l_path r) c /\ comes_from l a c) (flat_map admitted (s_jobs (g_sv g))) k -> k <= Z.max 0 (l_max_ip r + 1)).
Proof. exact gate_limits. Qed.
Print Assumptions C96_limits.
(** In those schedules exactly one thing is undefined: a worker takes a connection its client has
    reset, for then it reads an address nobody has written. *)
Theorem C96_undefined : forall rules cap max_fds n root l g x u, len root <= 277 -> Forall (fun r => no_nul (l_path r)) rules ->
  Forall (sane root) (l ++ [x]) -> neat rules cap max_fds (gate_start n root) l g ->
  match x with GAdmit _ path => no_nul path /\ len path <= 511 | _ => True end ->
  (gstep rules cap max_fds g x = Some (UB u) <->
   u = UninitRead /\ exists k s rest, x = GTake k /\ s_up (g_sv g) = true /\ nth_error (s_jobs (g_sv g)) k = Some JIdle /\ s_waiting (g_sv g) = s :: rest /\ reset_since l s).
Proof. exact gate_undefined. Qed.
Print Assumptions C96_undefined.
(** Every client that is let in can bring this about, in every state with a worker waiting. *)
Theorem C96_defined_refuted : forall rules cap max_fds n root l g a f k, len root <= 277 -> passes rules cap max_fds (gate_start n root) l g -> Forall (sane root) l ->
  valid a -> small_lists root f -> allowed f root (inet_ntoa a) ->
  s_up (g_sv g) = true -> len (s_open (g_sv g)) < max_fds -> 0 < cap -> s_waiting (g_sv g) = [] -> nth_error (s_jobs (g_sv g)) k = Some JIdle ->
  exists s g1 g2, gstep rules cap max_fds g (GAccept s a f) = Some (Ok g1) /\ gstep rules cap max_fds g1 (GReset s) = Some (Ok g2)
    /\ gstep rules cap max_fds g2 (GTake k) = Some (UB UninitRead).
Proof. exact gate_client. Qed.
Print Assumptions C96_defined_refuted.
(** accept() returning -1, for whatever reason and with whatever connections open, ends the server. *)
Theorem C96_accept_error : forall rules cap max_fds g, s_up (g_sv g) = true ->
  exists g', gstep rules cap max_fds g GFails = Some (Ok g') /\ s_up (g_sv g') = false /\ forall x, gstep rules cap max_fds g' x = None.
Proof. exact gate_fails. Qed.
Print Assumptions C96_accept_error.
(** "Whoever is being served is let in by the lists": the lists are not read again. *)
Theorem C96_now_allowed_refuted : exists root l g s a f f', passes [] 8 8 (gate_start 1 root) l g /\ Forall (sane root) l
  /\ last_accepted l s a f /\ flat_map held (s_jobs (g_sv g)) = [s] /\ small_lists root f' /\ ~ allowed f' root (inet_ntoa a)
  /\ last l GFails = GAccept 6 a f' /\ s_open (g_sv g) = [s].
Proof. exact gate_stale. Qed.
Print Assumptions C96_now_allowed_refuted.
Fixpoint gplay (rules : list limit) (cap m : Z) (g : gate) (l : list gact) : option gate :=
  match l with
  | [] => Some g
  | a :: l => match gstep rules cap m g a with Some (Ok g) => gplay rules cap m g l | _ => None end
  end.
Example C96_case : let f := fun p => if str_eqb p (L "/r/etc/deny") then Some (File (L "10.0.0.2" ++ [LF])) else None in
  match gplay [mkLimit (L "/api") 9 0 0] 1024 1000 (gate_start 3 (L "/r"))
    [GAccept 5 (mkAddr 10 0 0 1) f; GAccept 6 (mkAddr 10 0 0 2) f; GAccept 6 (mkAddr 10 0 0 3) f; GAccept 7 (mkAddr 10 0 0 1) f; GTake 0; GTake 1; GTake 2; GReset 5;
     GAdmit 0 (L "/api/a"); GAdmit 1 (L "/api/b"); GAdmit 2 (L "/API/c")] with
  | Some g => s_jobs (g_sv g) = [JServe (mkConn 5 (L "/api/a") (L "10.0.0.1")); JServe (mkConn 6 (L "/api/b") (L "10.0.0.3")); JClose 7 None]
  | None => False
  end
  /\ match gplay [] 1024 1000 (gate_start 3 (L "/r")) [GAccept 5 (mkAddr 10 0 0 1) f; GAccept 6 (mkAddr 10 0 0 3) f; GReset 6; GTake 2] with
     | Some g => gstep [] 1024 1000 g (GTake 1) = Some (UB UninitRead)
     | None => False
     end.
Proof. vm_compute. split; reflexivity. Qed.

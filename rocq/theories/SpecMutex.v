(** SpecMutex.v - what the properties of concurrent access to live_connections mean.  From the model
    the state types are used. *)
From Verif Require Import Base WsRequest Workers Mutex SpecConn SpecDispatch SpecWorkers Spec.

(** The slots a thread reads with its next step: get_live_stats goes through all of them if a rule is
    for the URL; the search for a free slot ends at the first one, the search for a socket at the first
    slot with it. *)
Definition reads (t : list conn) (s : stage) (i : nat) : Prop :=
  (i < length t)%nat /\
  match s with
  | SCheck q h => exists r, in_force (v_limits (q_env q)) r /\ ci_prefix (l_path r) (hd_url h)
  | SSearch _ _ => Forall (fun c => c_socket c <> 0) (firstn i t)
  | SClosed _ _ r => Forall (fun c => c_socket c <> r_socket r) (firstn i t)
  | _ => False
  end.
(** The slot it writes. *)
Definition writes (t : list conn) (s : stage) (i : nat) : Prop :=
  match s with
  | SClaim _ _ j => i = j
  | SClosed _ _ r => Forall (fun c => c_socket c <> r_socket r) (firstn i t) /\ exists c, nth_error t i = Some c /\ c_socket c = r_socket r
  | _ => False
  end.
(** Two threads are about to access the same slot, and one of them is about to write it. *)
Definition conflict (t : list conn) (s s' : stage) : Prop := exists i, writes t s i /\ (reads t s' i \/ writes t s' i).
Definition racing (p : pool) : Prop :=
  exists j k s s', j <> k /\ nth_error (w_threads p) j = Some s /\ nth_error (w_threads p) k = Some s' /\ conflict (w_table p) s s'.
(** With the mutex a thread that has yet to take it is not about to access anything. *)
Definition about_to (x : locked) (k : nat) (s : stage) : Prop :=
  nth_error (w_threads (l_pool x)) k = Some s /\ lstep x k <> None
  /\ forall x', lstep x k = Some (Ok x') -> l_pool x' <> l_pool x.
Definition racing_locked (x : locked) : Prop :=
  exists j k s s', j <> k /\ about_to x j s /\ about_to x k s' /\ conflict (w_table (l_pool x)) s s'.

(** The pool with another slot [i]. *)
Definition put (t : list conn) (i : nat) (c : conn) : list conn := firstn i t ++ c :: skipn (S i) t.
Definition with_slot (p : pool) (i : nat) (c : conn) : pool :=
  mkPool (w_queue p) (w_threads p) (put (w_table p) i c) (w_fs p) (w_answers p).

(** A request that is answered, and not with 400 for its method nor with 429, if nothing else is going on. *)
Definition served (f : fs) (q : incoming) : Prop :=
  exists res, alone f q = Ok res /\ o_taken res <> TBadMethod /\ o_taken res <> TTooMany.

(** The connections in service. *)
Definition in_service (p : pool) : list conn :=
  flat_map (fun s => match s with SServe q h => [mkConn (q_socket q) (hd_url h) (r_ip (hd_req h))] | _ => [] end) (w_threads p).

(** The connections of one server with these limits, no two of which share a descriptor; the
    application leaves the descriptor alone. *)
Definition one_server (rules : list limit) (qs : list incoming) : Prop :=
  Forall (fun q => mp_md5_size (v_mp (q_env q)) = 36 /\ keeps_socket (v_app (q_env q)) /\ v_limits (q_env q) = rules /\ 0 < q_socket q /\ no_nul (q_peer q)) qs
  /\ Forall (fun r => no_nul (l_path r)) rules /\ NoDup (map q_socket qs).

(** Gate.v - who is served: the accept loop of ws_launch with the address lists
    (/repo/ws.c:773-809, allowed_address 70-88) in front of the workers of Server.v, and
    the address accept_request finds for its connection (ws.c:472-478).

    Simplifications: those of Server.v; a reset by the client is noticed by getpeername() from
    some moment on, which is a step of its own; the rest of accept_request is as in Server.v.  The
    lists may be edited at any time: each accepted connection comes with the file system its
    decision reads. *)
From Verif Require Export Server Start.

Record gate := mkGate {
  g_sv : server;
  g_lists : ipconf;                (* WS_ROOT and the paths of the lists, ws.c:43,49,50 *)
  g_peers : Z -> option address;   (* what getpeername() tells of an open descriptor; None: it fails *)
  g_ips : nat -> str }.            (* req->IP of each worker *)

Inductive gact :=
| GAccept (s : Z) (a : address) (f : fs)   (* 776-804 *)
| GFails                                   (* 777-778: accept() returns -1, for whatever reason *)
| GReset (s : Z)                           (* the client resets its connection *)
| GTake (k : nat)                          (* 702, then 472-478 *)
| GAdmit (k : nat) (path : str)            (* 543-549 *)
| GBadMethod (k : nat) | GDone (k : nat) | GCloseFd (k : nat) | GDelEntry (k : nat).

Definition set_peer (p : Z -> option address) (s : Z) (o : option address) : Z -> option address :=
  fun x => if x =? s then o else p x.
Definition keep_ip (p : nat -> str) (k : nat) (ip : str) : nat -> str := fun x => if Nat.eqb x k then ip else p x.

(** ws.c:474-478: [addr] is not initialised, and getpeername()'s result is not looked at. *)
Definition peer_text (o : option address) : outcome str :=
  match o with None => UB UninitRead | Some a => fits 24 (inet_ntoa a) end.

Definition only_server (g : gate) (r : option (outcome server)) : option (outcome gate) :=
  match r with
  | Some o => Some (sv <- o;; Ok (mkGate sv (g_lists g) (g_peers g) (g_ips g)))
  | None => None
  end.

(** One step; None: not enabled. *)
Definition gstep (rules : list limit) (cap max_fds : Z) (g : gate) (x : gact) : option (outcome gate) :=
  let step := sstep rules cap max_fds (g_sv g) in
  match x with
  | GAccept s a f =>
    match step (Accept s true) with
    | Some (Ok sv) =>
      Some ('(ok, ls) <- admitted_peer f (g_lists g) a;;
            Ok (if ok : bool then mkGate sv ls (set_peer (g_peers g) s (Some a)) (g_ips g)
                else mkGate (g_sv g) ls (g_peers g) (g_ips g)))                  (* 785: closed *)
    | _ => None
    end
  | GFails =>
    if s_up (g_sv g) then
      Some (Ok (mkGate (mkServer (s_open (g_sv g)) (s_waiting (g_sv g)) (s_lost (g_sv g)) (s_jobs (g_sv g)) (s_table (g_sv g)) false)
                       (g_lists g) (g_peers g) (g_ips g)))
    else None
  | GReset s =>
    if s_up (g_sv g) && is_open (g_sv g) s then Some (Ok (mkGate (g_sv g) (g_lists g) (set_peer (g_peers g) s None) (g_ips g))) else None
  | GTake k =>
    match step (Take k), s_waiting (g_sv g) with
    | Some (Ok sv), s :: _ => Some (ip <- peer_text (g_peers g s);; Ok (mkGate sv (g_lists g) (g_peers g) (keep_ip (g_ips g) k ip)))
    | _, _ => None
    end
  | GAdmit k path => only_server g (step (Admit k (g_ips g k) path))
  | GBadMethod k => only_server g (step (BadMethod k))
  | GDone k => only_server g (step (Done k))
  | GCloseFd k => only_server g (step (CloseFd k))
  | GDelEntry k => only_server g (step (DelEntry k))
  end.

(** ws.c:740-770 with the server's root directory. *)
Definition gate_start (n : nat) (root : str) : gate := mkGate (server_start n) (mkIpconf root [] []) (fun _ => None) (fun _ => []).

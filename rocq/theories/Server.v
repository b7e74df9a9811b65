(** Server.v - the life of socket descriptors: the accept loop of ws_launch
    (/repo/ws.c:773-809), the worker threads (697-704) and what accept_request (463-656)
    and connection_close (411-421) do with descriptors and the live-connection table.

    Simplifications: the queue operations and connection_add are single steps (their
    internals are modelled in Queue.v and Races.v); a worker's request is summarised by the
    address and URL it presents, or by having a bad method.  The process may hold
    [max_fds] client descriptors at a time; accept() returns any positive descriptor that
    is not open, and fails when there is none left (EMFILE). *)
From Verif Require Export WsConn Races.

(** What a worker is doing.  The [option conn] of the last two is ghost state: the entry the
    worker added to the table, if it did. *)
Inductive job :=
| JIdle                               (* 702: waiting in ws_queue_get *)
| JRead (s : Z)                       (* 466-540: reading the request line *)
| JServe (c : conn)                   (* 552-651: admitted *)
| JClose (s : Z) (o : option conn)    (* 412: in connection_close, before close() *)
| JDel (s : Z) (o : option conn).     (* 420: closed, before connection_del() *)

Record server := mkServer {
  s_open : list Z;        (* open client descriptors *)
  s_waiting : list Z;     (* the work queue *)
  s_lost : list Z;        (* ghost: descriptors of dropped connections, ws.c:802-803 *)
  s_jobs : list job; s_table : table; s_up : bool }.

Inductive sact :=
| Accept (s : Z) (allowed : bool)     (* 776-804 *)
| AcceptFails                         (* 777-778: log_fatal exits the process *)
| Take (k : nat)                      (* 702 *)
| BadMethod (k : nat)                 (* 516-522 *)
| Admit (k : nat) (ip path : str)     (* 543-549 *)
| Done (k : nat)                      (* 653 *)
| CloseFd (k : nat)                   (* 419 *)
| DelEntry (k : nat).                 (* 420 *)

Definition with_job (sv : server) (k : nat) (j : job) : server :=
  mkServer (s_open sv) (s_waiting sv) (s_lost sv) (set_nth (s_jobs sv) k j) (s_table sv) (s_up sv).
Definition is_open (sv : server) (s : Z) : bool := existsb (Z.eqb s) (s_open sv).

(** One step; None: not enabled. *)
Definition sstep (rules : list limit) (cap max_fds : Z) (sv : server) (a : sact) : option (outcome server) :=
  if negb (s_up sv) then None else
  match a with
  | Accept s allowed =>
    if (len (s_open sv) <? max_fds) && (0 <? s) && negb (is_open sv s) then
      Some (Ok (
        if negb allowed then sv                                             (* 785: closed at once *)
        else if len (s_waiting sv) =? cap then
          mkServer (s :: s_open sv) (s_waiting sv) (s :: s_lost sv) (s_jobs sv) (s_table sv) true
        else mkServer (s :: s_open sv) (s_waiting sv ++ [s]) (s_lost sv) (s_jobs sv) (s_table sv) true))
    else None
  | AcceptFails =>
    if len (s_open sv) <? max_fds then None
    else Some (Ok (mkServer (s_open sv) (s_waiting sv) (s_lost sv) (s_jobs sv) (s_table sv) false))
  | Take k =>
    match nth_error (s_jobs sv) k, s_waiting sv with
    | Some JIdle, s :: rest =>
      Some (Ok (mkServer (s_open sv) rest (s_lost sv) (set_nth (s_jobs sv) k (JRead s)) (s_table sv) true))
    | _, _ => None
    end
  | BadMethod k =>
    match nth_error (s_jobs sv) k with
    | Some (JRead s) => Some (Ok (with_job sv k (JClose s None)))
    | _ => None
    end
  | Admit k ip path =>
    match nth_error (s_jobs sv) k with
    | Some (JRead s) =>
      Some ('(ok, t) <- connection_add rules (s_table sv) s ip path;;
            Ok (mkServer (s_open sv) (s_waiting sv) (s_lost sv)
                  (set_nth (s_jobs sv) k (if ok : bool then JServe (mkConn s path ip) else JClose s None)) t true))
    | _ => None
    end
  | Done k =>
    match nth_error (s_jobs sv) k with
    | Some (JServe c) => Some (Ok (with_job sv k (JClose (c_socket c) (Some c))))
    | _ => None
    end
  | CloseFd k =>
    match nth_error (s_jobs sv) k with
    | Some (JClose s o) =>
      Some (Ok (mkServer (remove Z.eq_dec s (s_open sv)) (s_waiting sv) (s_lost sv)
                  (set_nth (s_jobs sv) k (JDel s o)) (s_table sv) true))
    | _ => None
    end
  | DelEntry k =>
    match nth_error (s_jobs sv) k with
    | Some (JDel s o) =>
      Some (Ok (mkServer (s_open sv) (s_waiting sv) (s_lost sv)
                  (set_nth (s_jobs sv) k JIdle) (connection_del (s_table sv) s) true))
    | _ => None
    end
  end.

(** 740-746 and 763: no connections, [n] workers. *)
Definition server_start (n : nat) : server := mkServer [] [] [] (repeat JIdle n) empty_table true.

(** Queue.v - model of the work queue between the accept loop and the worker threads:
    ws_create_queue, ws_queue_get, ws_connection_handler and the accept loop of
    ws_launch in /repo/ws.c.

    The mutex and the condition variable are explicit.  A schedule is a list of actions;
    an action that is not enabled leaves no successor state ([None]).  One action is one
    of: a lock, an unlock, one critical-section body (no other thread can interfere while
    the mutex is held), a wait, a wake-up, a signal. *)
From Verif Require Export Base.

(** ** The ring buffer - ws_queue, ws.h:69-76 *)
Record queue := mkQueue {
  q_capacity : Z; q_size : Z; q_front : Z; q_rear : Z; q_elements : list (option Z) }.

(** ws_create_queue - /repo/ws.c:658-669 *)
Definition ws_create_queue (n : Z) : queue := mkQueue n 0 0 (-1) (repeat None (Z.to_nat n)).

(** Array accesses of the ring: elements[i] (None = never written). *)
Definition elem_get (l : list (option Z)) (i : Z) : outcome Z :=
  if (0 <=? i) && (i <? len l) then
    match nth_error l (Z.to_nat i) with
    | Some (Some v) => Ok v
    | Some None => UB UninitRead
    | None => UB OobRead
    end
  else UB OobRead.
Definition elem_set (l : list (option Z)) (i v : Z) : outcome (list (option Z)) :=
  if (0 <=? i) && (i <? len l) then
    Ok (firstn (Z.to_nat i) l ++ [Some v] ++ skipn (S (Z.to_nat i)) l)
  else UB OobWrite.

(** Body of the accept loop under the lock - /repo/ws.c:793-804.
    The boolean tells whether the socket was stored. *)
Definition push (q : queue) (v : Z) : outcome (bool * queue) :=
  if negb (q_size q =? q_capacity q) then
    let rear1 := q_rear q + 1 in
    let rear := if rear1 =? q_capacity q then 0 else rear1 in
    e <- elem_set (q_elements q) rear v;;
    Ok (true, mkQueue (q_capacity q) (q_size q + 1) (q_front q) rear e)
  else Ok (false, q).

(** Body of ws_queue_get under the lock, size being non-zero - /repo/ws.c:682-689 *)
Definition pop (q : queue) : outcome (Z * queue) :=
  v <- elem_get (q_elements q) (q_front q);;
  if negb (q_size q =? 0) then
    let front1 := q_front q + 1 in
    let front := if front1 =? q_capacity q then 0 else front1 in
    Ok (v, mkQueue (q_capacity q) (q_size q - 1) front (q_rear q) (q_elements q))
  else Ok (v, q).

(** ** Threads *)

(** The accept loop - /repo/ws.c:773-808 *)
Inductive apc :=
| AAccept                 (* 776: in accept() *)
| AWantLock (s : Z)       (* 792: allowed, about to lock *)
| ALocked (s : Z)         (* 793: holds the mutex *)
| AUnlock                 (* 805: about to unlock *)
| ASignal.                (* 806: about to signal *)

(** A worker - ws_queue_get and ws_connection_handler, /repo/ws.c:671-704 *)
Inductive wpc :=
| WWantLock               (* 674 *)
| WLocked                 (* 676: holds the mutex, about to test the size *)
| WBlocked                (* 678: inside pthread_cond_wait, not yet woken *)
| WWoken                  (* 678: woken, about to re-acquire the mutex *)
| WTaken (s : Z)          (* 691: holds the mutex and a socket, about to unlock *)
| WRunning (s : Z).       (* 702: handling the socket *)

Inductive owner := ByAcceptor | ByWorker (k : nat).

(** Ghost fields: the sockets stored in the queue, taken from it, and accepted but
    neither stored nor closed, in order; and those closed by the accept loop. *)
Record sys := mkSys {
  s_queue : queue; s_mutex : option owner; s_acc : apc; s_workers : list wpc;
  g_pushed : list Z; g_taken : list Z; g_dropped : list Z; g_denied : list Z }.

Inductive action :=
| DoAccept (s : Z) (allowed : bool)   (* a connection arrives; allowed_address's answer *)
| DoLockA | DoPush | DoUnlockA
| DoSignal (k : nat)                  (* wakes worker k if it is blocked; else nobody is blocked *)
| DoLockW (k : nat) | DoCheck (k : nat) | DoUnlockW (k : nat)
| DoSpurious (k : nat)                (* POSIX allows wake-ups without a signal *)
| DoRelock (k : nat)                  (* pthread_cond_wait returns, holding the mutex *)
| DoFinish (k : nat).                 (* the socket handler returns *)

Definition set_w (l : list wpc) (k : nat) (w : wpc) : list wpc :=
  firstn k l ++ [w] ++ skipn (S k) l.

Definition no_blocked (l : list wpc) : bool :=
  forallb (fun w => match w with WBlocked => false | _ => true end) l.

Definition with_worker (s : sys) (m : option owner) (k : nat) (w : wpc) : sys :=
  mkSys (s_queue s) m (s_acc s) (set_w (s_workers s) k w)
        (g_pushed s) (g_taken s) (g_dropped s) (g_denied s).
Definition with_acc (s : sys) (m : option owner) (a : apc) : sys :=
  mkSys (s_queue s) m a (s_workers s) (g_pushed s) (g_taken s) (g_dropped s) (g_denied s).

(** One step.  [None]: the action is not enabled.  [Some (UB _)]: undefined behaviour. *)
Definition step (s : sys) (a : action) : option (outcome sys) :=
  match a with
  | DoAccept v allowed =>
    match s_acc s with
    | AAccept =>
      if allowed : bool then Some (Ok (with_acc s (s_mutex s) (AWantLock v)))
      else Some (Ok (mkSys (s_queue s) (s_mutex s) AAccept (s_workers s)         (* 783-787 *)
                       (g_pushed s) (g_taken s) (g_dropped s) (g_denied s ++ [v])))
    | _ => None
    end
  | DoLockA =>
    match s_acc s, s_mutex s with
    | AWantLock v, None => Some (Ok (with_acc s (Some ByAcceptor) (ALocked v)))
    | _, _ => None
    end
  | DoPush =>
    match s_acc s with
    | ALocked v =>
      Some ('(stored, q) <- push (s_queue s) v;;
            Ok (mkSys q (s_mutex s) AUnlock (s_workers s)
                  (if stored : bool then g_pushed s ++ [v] else g_pushed s)
                  (g_taken s)
                  (if stored : bool then g_dropped s else g_dropped s ++ [v])
                  (g_denied s)))
    | _ => None
    end
  | DoUnlockA =>
    match s_acc s with AUnlock => Some (Ok (with_acc s None ASignal)) | _ => None end
  | DoSignal k =>
    match s_acc s with
    | ASignal =>
      match nth_error (s_workers s) k with
      | Some WBlocked =>
        Some (Ok (mkSys (s_queue s) (s_mutex s) AAccept (set_w (s_workers s) k WWoken)
                   (g_pushed s) (g_taken s) (g_dropped s) (g_denied s)))
      | _ => if no_blocked (s_workers s) then Some (Ok (with_acc s (s_mutex s) AAccept)) else None
      end
    | _ => None
    end
  | DoLockW k =>
    match nth_error (s_workers s) k, s_mutex s with
    | Some WWantLock, None => Some (Ok (with_worker s (Some (ByWorker k)) k WLocked))
    | _, _ => None
    end
  | DoCheck k =>
    match nth_error (s_workers s) k with
    | Some WLocked =>
      if q_size (s_queue s) =? 0 then                                            (* 676-678 *)
        Some (Ok (with_worker s None k WBlocked))
      else
        Some ('(v, q) <- pop (s_queue s);;
              Ok (mkSys q (s_mutex s) (s_acc s) (set_w (s_workers s) k (WTaken v))
                    (g_pushed s) (g_taken s ++ [v]) (g_dropped s) (g_denied s)))
    | _ => None
    end
  | DoUnlockW k =>
    match nth_error (s_workers s) k with
    | Some (WTaken v) => Some (Ok (with_worker s None k (WRunning v)))
    | _ => None
    end
  | DoSpurious k =>
    match nth_error (s_workers s) k with
    | Some WBlocked => Some (Ok (with_worker s (s_mutex s) k WWoken))
    | _ => None
    end
  | DoRelock k =>
    match nth_error (s_workers s) k, s_mutex s with
    | Some WWoken, None => Some (Ok (with_worker s (Some (ByWorker k)) k WLocked))
    | _, _ => None
    end
  | DoFinish k =>
    match nth_error (s_workers s) k with
    | Some (WRunning _) => Some (Ok (with_worker s (s_mutex s) k WWantLock))
    | _ => None
    end
  end.

(** The state after ws_launch has started [n] workers on a queue of capacity [cap]
    - /repo/ws.c:734-737,763-764 (the code: 200 workers, capacity 1024). *)
Definition init (cap : Z) (n : nat) : sys :=
  mkSys (ws_create_queue cap) None AAccept (repeat WWantLock n) [] [] [] [].

(** A schedule: [run s sched] is None if some action was not enabled. *)
Fixpoint run (s : sys) (sched : list action) : option (outcome sys) :=
  match sched with
  | [] => Some (Ok s)
  | a :: t =>
    match step s a with
    | None => None
    | Some (UB u) => Some (UB u)
    | Some (Ok s') => run s' t
    end
  end.

(** Mutex.v - the threads of Workers.v with a mutex over connection_add and connection_del
    (/repo/ws.c:424-456).  This is not the code: it states what would repair it. *)
From Verif Require Export Workers.

(** The stages whose next step looks at live_connections or changes it: ws.c:441, 444, 446 and 420. *)
Definition guarded (s : stage) : bool :=
  match s with
  | SCheck _ _ | SSearch _ _ | SClaim _ _ _ | SClosed _ _ _ => true
  | _ => false
  end.

(** [l_owner]: the thread that holds the mutex. *)
Record locked := mkLocked { l_pool : pool; l_owner : option nat }.

(** One step: taking the mutex before a guarded stage, giving it back after one, or a step of
    Workers.v; None: the thread waits. *)
Definition lstep (x : locked) (k : nat) : option (outcome locked) :=
  let go := match wstep (l_pool x) k with
            | None => None
            | Some o => Some (p <- o;; Ok (mkLocked p (l_owner x)))
            end in
  match nth_error (w_threads (l_pool x)) k with
  | None => None
  | Some s =>
    match l_owner x with
    | None => if guarded s then Some (Ok (mkLocked (l_pool x) (Some k))) else go
    | Some j => if Nat.eqb j k then if guarded s then go else Some (Ok (mkLocked (l_pool x) None))
                else if guarded s then None else go
    end
  end.
Fixpoint lrun (x : locked) (sched : list nat) : option (outcome locked) :=
  match sched with
  | [] => Some (Ok x)
  | k :: t => match lstep x k with
              | None => None
              | Some (UB u) => Some (UB u)
              | Some (Ok x') => lrun x' t
              end
  end.
Definition locked_start (f : fs) (qs : list incoming) (n : nat) : locked := mkLocked (pool_start f qs n) None.

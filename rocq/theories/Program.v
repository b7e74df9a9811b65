(** Program.v - the whole program: main (/repo/main.c:45-109), the accept loop of ws_launch
    (/repo/ws.c:773-809) and the worker threads (697-704), from the command line to the answers.

    Simplifications: those of Start.v and Workers.v; a connection is not reset before its request has
    been read (Gate.v), accept() succeeds (Server.v has its failures), the address lists are read in
    one instant and not edited (Gate.v has them edited), and with TLS the stream is the plaintext. *)
From Verif Require Export Start Workers.

(** A connection to come: its address, the descriptor accept() gives it, its bytes, and what its
    thread finds (the application, MD5 and thread number, the stack). *)
Record arrival := mkArrival {
  ar_addr : address; ar_socket : Z; ar_stream : str; ar_app : callbacks; ar_mp : mpenv; ar_stk : buf }.

(** The globals main and ws_launch leave: ws.c:41,43-47. *)
Record settings := mkSettings { st_config : config; st_rules : list limit; st_routes : router }.

(** The connection as a worker finds it in the queue. *)
Definition enqueued (g : settings) (a : arrival) : incoming :=
  mkIn (mkEnv (ar_app a) (st_routes g) (st_rules g) (cf_static_root (st_config g)) (cf_index (st_config g)) (cf_favicon (st_config g)) (ar_mp a) (ar_stk a))
    (ar_socket a) (inet_ntoa (ar_addr a)) (ar_stream a).

(** [p_denied], [p_lost]: ghosts, the connections closed by line 785 and left open by line 803. *)
Record program := mkProgram {
  p_pool : pool; p_lists : ipconf; p_coming : list arrival; p_denied : list arrival; p_lost : list arrival }.

(** ws.c:776-806: the next connection. *)
Definition accept_next (g : settings) (s : program) : option (outcome program) :=
  match p_coming s with
  | [] => None
  | a :: rest =>
    Some ('(ok, ls) <- admitted_peer (w_fs (p_pool s)) (p_lists s) (ar_addr a);;
          let w := p_pool s in
          Ok (if negb ok then mkProgram w ls rest (p_denied s ++ [a]) (p_lost s)
              else if len (w_queue w) =? WS_MAX_CONNECTIONS then mkProgram w ls rest (p_denied s) (p_lost s ++ [a])
              else mkProgram (mkPool (w_queue w ++ [enqueued g a]) (w_threads w) (w_table w) (w_fs w) (w_answers w)) ls rest (p_denied s) (p_lost s)))
  end.

(** The main thread, or worker [k]. *)
Inductive who := Main | Worker (k : nat).
Definition pstep (g : settings) (s : program) (w : who) : option (outcome program) :=
  match w with
  | Main => accept_next g s
  | Worker k =>
    match wstep (p_pool s) k with
    | None => None
    | Some o => Some (p <- o;; Ok (mkProgram p (p_lists s) (p_coming s) (p_denied s) (p_lost s)))
    end
  end.
Fixpoint prun (g : settings) (s : program) (sched : list who) : option (outcome program) :=
  match sched with
  | [] => Some (Ok s)
  | w :: t => match pstep g s w with
              | None => None
              | Some (UB u) => Some (UB u)
              | Some (Ok s') => prun g s' t
              end
  end.

(** What the program is when main has come to line 773: ended, or accepting.  The routes are the ones
    the application has registered. *)
Definition program_start (m : machine) (f : fs) (args : list str) (routes : router) (coming : list arrival) : outcome (option (settings * program)) :=
  r <- main_options f args;;
  st <- main_run m f args;;
  Ok match r, st with
     | Launch c, inl (Accepting _ f' rules conns _ n _) =>
       Some (mkSettings c rules routes, mkProgram (mkPool [] (repeat SIdle n) conns f' []) (mkIpconf (cf_root c) [] []) coming [] [])
     | _, _ => None
     end.

(** The program with a schedule; None: it has ended or the schedule cannot go on. *)
Definition program_run (m : machine) (f : fs) (args : list str) (routes : router) (coming : list arrival) (sched : list who) : option (outcome (settings * program)) :=
  match program_start m f args routes coming with
  | UB u => Some (UB u)
  | Ok None => None
  | Ok (Some (g, s)) =>
    match prun g s sched with
    | None => None
    | Some o => Some (s' <- o;; Ok (g, s'))
    end
  end.

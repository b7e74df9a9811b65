(** ScarceStart.v - the program when memory for its own tables is short: ws_launch, load_limits,
    ws_create_queue and the accept loop of /repo/ws.c and find_in_file of /repo/file_utils.c once more,
    with an answer for each block they ask for.

    Simplifications: those of Program.v; the blocks of a request are given (Scarce.v has those), so are
    the ones of stdio, OpenSSL, pthreads and of the application's routes. *)
From Verif Require Export Program.

(** The blocks.  Those of the accept loop are told apart by how many connections are still to come. *)
Inductive block :=
| BLive                             (* ws.c:731, live_connections *)
| BLimits                           (* ws.c:836, limits *)
| BQueue                            (* ws.c:662, the queue *)
| BElements                         (* ws.c:663, its elements *)
| BPeer (left : nat)                (* ws.c:780, the text of the address *)
| BDeny (left : nat)                (* file_utils.c:35 called from ws.c:78 *)
| BDenyText (left : nat)            (* file_utils.c:92 called from there *)
| BAllow (left : nat)               (* file_utils.c:35 called from ws.c:85 *)
| BAllowText (left : nat).          (* file_utils.c:92 called from there *)
(** Which blocks are given. *)
Definition supply := block -> bool.
(** The first access to a block. *)
Definition held (ok : supply) (b : block) : outcome unit := if ok b then Ok tt else UB NullDeref.

(** ** Start *)
(** load_limits without its block: the first line with a path is stored to NULL (line 860). *)
Fixpoint no_limits_loop (fuel : nat) (content : str) : outcome (list limit) :=
  match getline content with
  | None => Ok []
  | Some (line, rest) =>
    match fuel with
    | O => UB OutOfFuel
    | S f =>
      match line with
      | c :: _ => if ceq c "/" then UB NullDeref else no_limits_loop f rest
      | [] => no_limits_loop f rest
      end
    end
  end.
(** load_limits - ws.c:833-893. *)
Definition load_limits_s (ok : supply) (f : fs) (root : str) : outcome (list limit) :=
  if ok BLimits then load_limits f root else
  path <- fits (ROOT_PATH_MAX + 32) (root ++ L "/etc/limits");;
  match f path with
  | Some (File content) => no_limits_loop (length content) content
  | _ => Ok []
  end.
(** ws_launch up to line 772: as in Start.v, but for the limits and the queue (ws.c:658-669: the queue is
    written to, its elements are not). *)
Definition ws_launch_s (ok : supply) (m : machine) (c : config) (f : fs) (s : logstate) : outcome started :=
  let '(made, f') := check_createdir (m_mkdir m) f TMP_DIR in                           (* 716 *)
  let rest (s : logstate) :=
    tls_setup m c s (fun d0 =>                                                          (* 720-725 *)
    rules <- load_limits_s ok f' (cf_root c);;                                          (* 731-732 *)
    _ <- held ok BQueue;;                                                                (* 734 *)
    let d1 := d0 ++ [Dlimits (cf_root c)] in
    let bound (s : logstate) :=
      let addr := m_inet m (cf_bind c) in
      s1 <- logger s LOG_INFO (L "WAYUU binding to address: " ++ cf_bind c);;           (* 751 *)
      s2 <- logger s1 LOG_INFO (L "WAYUU starting on port " ++ dec (cf_port c));;       (* 752 *)
      s3 <- (if m_reuse m then Ok s2 else logger s2 LOG_ERROR (L "setsockopt(SO_REUSEADDR) failed"));;
      let d2 := d1 ++ [Dsocket; Dbind (m_socket m) addr (bound_port c)] in
      let pool (s : logstate) :=
        let d3 := d2 ++ map Dthread (seq 0 POOL_SIZE) ++ [Dlisten (m_socket m)] in      (* 763-766 *)
        let go (s : logstate) :=
          s4 <- logger s LOG_INFO (L "WAYUU WS " ++ L "1.5.0" ++ L " running on port " ++ dec (cf_port c));;
          Ok (Accepting s4 f' rules empty_table (m_socket m) (workers_started m) d3) in
        if m_listen m (m_socket m) then go s else fatal s d3 (L "Error while listening to socket") go in
      if m_bind m (m_socket m) addr (bound_port c) then pool s3                         (* 758 *)
      else fatal s3 d2 (L "Unable to bind to port " ++ dec (cf_port c)) pool in
    if m_socket m =? -1 then fatal s (d1 ++ [Dsocket]) (L "Unable to obtain socket handle") bound else bound s) in
  if made then rest s else fatal s [] (L "Cannot create path " ++ TMP_DIR) rest.
(** main - main.c:45-109. *)
Definition main_run_s (ok : supply) (m : machine) (f : fs) (args : list str) : outcome (started + Z) :=
  r <- main_options f args;;
  match r with
  | Exit code => Ok (inr code)
  | Launch c =>
    let s := log_set_file (log_set_level log_init (cf_level c)) (L "/var/log/wayuu.log") (m_logfile m) in
    if lg_exited s then Ok (inr 1)
    else st <- ws_launch_s ok m c f s;; Ok (inl st)
  end.

(** ** The accept loop *)
(** find_in_file - file_utils.c:25-43: the first block is written to and searched.  read_file (lines 74-105)
    copies into it from a second one, of the size of the file; that the second is NULL is not seen if there is
    nothing to copy (line 101). *)
Definition find_in_file_s (ok : supply) (b b' : block) (f : fs) (path needle : str) : outcome bool :=
  if is_file f path then
    _ <- held ok b;;
    _ <- (match f path with Some (File (_ :: _)) => held ok b' | _ => Ok tt end);;
    find_in_file f path needle
  else Ok false.
(** allowed_address - ws.c:70-88. *)
Definition allowed_address_s (ok : supply) (left : nat) (f : fs) (g : ipconf) (ip : str) : outcome (bool * ipconf) :=
  g' <- ip_paths g;;
  d <- find_in_file_s ok (BDeny left) (BDenyText left) f (ws_deny g') ip;;
  if d : bool then Ok (false, g')
  else if negb (is_file f (ws_allow g')) then Ok (true, g')
  else a <- find_in_file_s ok (BAllow left) (BAllowText left) f (ws_allow g') ip;; Ok (a, g').
(** ws.c:776-806.  The queue's elements are first written to at line 799. *)
Definition accept_next_s (ok : supply) (g : settings) (s : program) : option (outcome program) :=
  match p_coming s with
  | [] => None
  | a :: rest =>
    Some (_ <- held ok (BPeer (length rest));;
          ip <- fits 16 (inet_ntoa (ar_addr a));;
          '(in_, ls) <- allowed_address_s ok (length rest) (w_fs (p_pool s)) (p_lists s) ip;;
          let w := p_pool s in
          if negb in_ then Ok (mkProgram w ls rest (p_denied s ++ [a]) (p_lost s))
          else if len (w_queue w) =? WS_MAX_CONNECTIONS then Ok (mkProgram w ls rest (p_denied s) (p_lost s ++ [a]))
          else
            _ <- held ok BElements;;
            Ok (mkProgram (mkPool (w_queue w ++ [enqueued g a]) (w_threads w) (w_table w) (w_fs w) (w_answers w)) ls rest (p_denied s) (p_lost s)))
  end.

(** ** The workers *)
(** connection_validate (ws.c:386-410) without live_connections: it is read for the first rule that is
    for this path (371). *)
Fixpoint validate_unlisted (rules : list limit) (path : str) : outcome unit :=
  match rules with
  | [] => Ok tt
  | r :: rs =>
    match l_path r with
    | [] => Ok tt
    | _ :: _ => p <- startswith (cs path) (l_path r);; if p : bool then UB NullDeref else validate_unlisted rs path
    end
  end.
(** What the next step of a thread does with limits and live_connections: lines 389 and 371, 446, 447 and
    428. *)
Definition table_use (ok : supply) (s : stage) : outcome unit :=
  match s with
  | SCheck q h => _ <- held ok BLimits;; if ok BLive then Ok tt else validate_unlisted (v_limits (q_env q)) (hd_url h)
  | SSearch _ _ | SClaim _ _ _ | SClosed _ _ _ => held ok BLive
  | SIdle | SRead _ | SRefused _ _ | SServe _ _ => Ok tt
  end.
Definition thread_use (ok : supply) (p : pool) (k : nat) : outcome unit :=
  match nth_error (w_threads p) k with None => Ok tt | Some s => table_use ok s end.

(** ** The program - as in Program.v *)
Definition pstep_s (ok : supply) (g : settings) (s : program) (w : who) : option (outcome program) :=
  match w with
  | Main => accept_next_s ok g s
  | Worker k =>
    match wstep (p_pool s) k with
    | None => None
    | Some o => Some (_ <- thread_use ok (p_pool s) k;; p <- o;; Ok (mkProgram p (p_lists s) (p_coming s) (p_denied s) (p_lost s)))
    end
  end.
Fixpoint prun_s (ok : supply) (g : settings) (s : program) (sched : list who) : option (outcome program) :=
  match sched with
  | [] => Some (Ok s)
  | w :: t => match pstep_s ok g s w with
              | None => None
              | Some (UB u) => Some (UB u)
              | Some (Ok s') => prun_s ok g s' t
              end
  end.
Definition program_start_s (ok : supply) (m : machine) (f : fs) (args : list str) (routes : router) (coming : list arrival) : outcome (option (settings * program)) :=
  r <- main_options f args;;
  st <- main_run_s ok m f args;;
  Ok match r, st with
     | Launch c, inl (Accepting _ f' rules conns _ n _) =>
       Some (mkSettings c rules routes, mkProgram (mkPool [] (repeat SIdle n) conns f' []) (mkIpconf (cf_root c) [] []) coming [] [])
     | _, _ => None
     end.
Definition program_scarce (ok : supply) (m : machine) (f : fs) (args : list str) (routes : router) (coming : list arrival) (sched : list who) : option (outcome (settings * program)) :=
  match program_start_s ok m f args routes coming with
  | UB u => Some (UB u)
  | Ok None => None
  | Ok (Some (g, s)) =>
    match prun_s ok g s sched with
    | None => None
    | Some o => Some (s' <- o;; Ok (g, s'))
    end
  end.

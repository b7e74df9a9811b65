(** Workers.v - the worker threads of ws_connection_handler (/repo/ws.c:697-704) handling requests
    at the same time: accept_request (463-656) cut at its uses of the live-connection table.

    The threads share the work queue, the table and the file system.  One step is what a thread
    does up to its next use of the table.  Simplifications: ws_queue_get is one step (Queue.v has
    its parts); the three uses of the table in connection_add are one instant each, as in Races.v;
    the splitting of the URL is not interrupted (Races.v and C66 show what happens if it is); the
    files a request touches are read and written in one instant. *)
From Verif Require Export WsRequest Races.

(** A connection, and what its thread finds: the application at that time, its thread number, the
    contents of its stack. *)
Record incoming := mkIn { q_env : wsenv; q_socket : Z; q_peer : str; q_stream : str }.

(** What is known when connection_add is called: request, method, URL, line buffer, rest of the
    stream. *)
Record reqhead := mkHead { hd_req : api_request; hd_method : str; hd_url : str; hd_buf : buf; hd_rest : str }.

(** Lines 466-540.  On the left: the request answered with 400. *)
Definition read_head (q : incoming) : outcome (api_request + reqhead) :=
  r0 <- new_request (q_socket q) (q_peer q);;
  '(_, b, s1) <- get_line (q_stream q) (calloc 1024) 1024;;
  '(rl, method, j) <- parse_request_line b;;
  let r1 := set_method (set_request_line r0 rl) method in
  ok_method <- startswithany (cs method) ALLOWED_HTTP_METHODS;;
  if negb ok_method then r2 <- bad_request r1;; Ok (inl r2)                 (* 516-522 *)
  else url <- parse_url b j;; Ok (inr (mkHead (set_url r1 url) method url b s1)).

(** Lines 552-651, without the table. *)
Definition serve (q : incoming) (f : fs) (h : reqhead) : outcome (route_taken * api_request * fs) :=
  b1 <- write_at (hd_buf h) 0 [Some "A"%char; Some NUL];;
  '(n, b2, s2) <- get_line (hd_rest h) b1 1024;;
  hl <- header_loop (length (hd_rest h)) n (mkH b2 s2 [] None [] (-1) (r_ip (hd_req h)) (calloc MAX_SESSION));;
  let r3 := set_session (set_ip (set_content_type (set_headers (hd_req h) (hs_headers hl))
              (hs_content_type hl)) (hs_ip hl)) (hs_session hl) in
  '(path, query) <- get_path_and_query_string (hd_url h);;
  let r4 := set_query r3 query in
  api <- startswith (cs (hd_url h)) API_MOUNT;;
  if negb api then
    let r5 := set_path r4 path in
    if str_caseeqb (hd_method h) (L "GET") then
      r6 <- handle_static_routes (q_env q) f r5;; Ok (TStatic, r6, f)
    else
      r6 <- bad_request r5;; Ok (TNotGet, r6, f)
  else
    p <- cstr (from (cs path) (len API_MOUNT));;
    '(calls, r6, f') <- handle_api_request (q_env q) f (hs_stream hl) (set_path r4 p) (hs_length hl) (hs_boundary hl);;
    Ok (TApi calls, r6, f').

Inductive stage :=
| SIdle                                                           (* 702: in ws_queue_get *)
| SRead (q : incoming)                                            (* 466 *)
| SCheck (q : incoming) (h : reqhead)                                (* 441: before connection_validate *)
| SSearch (q : incoming) (h : reqhead)                               (* 444: looking for a free slot *)
| SClaim (q : incoming) (h : reqhead) (i : nat)                      (* 446: about to fill slot i *)
| SRefused (q : incoming) (h : reqhead)                              (* 545 *)
| SServe (q : incoming) (h : reqhead)                                (* 552 *)
| SClosed (q : incoming) (k : route_taken) (r : api_request).     (* 420: about to delete the entry *)

(** [w_answers]: ghost, what was done with each connection. *)
Record pool := mkPool {
  w_queue : list incoming; w_threads : list stage; w_table : table; w_fs : fs;
  w_answers : list (incoming * route_taken * api_request) }.

Definition at_stage (p : pool) (k : nat) (s : stage) : pool :=
  mkPool (w_queue p) (set_nth (w_threads p) k s) (w_table p) (w_fs p) (w_answers p).

(** One step of thread [k]; None: it waits. *)
Definition wstep (p : pool) (k : nat) : option (outcome pool) :=
  match nth_error (w_threads p) k with
  | None => None
  | Some SIdle =>
    match w_queue p with
    | [] => None
    | q :: rest => Some (Ok (mkPool rest (set_nth (w_threads p) k (SRead q)) (w_table p) (w_fs p) (w_answers p)))
    end
  | Some (SRead q) =>
    Some (x <- read_head q;;
          Ok (at_stage p k match x with inl r => SClosed q TBadMethod r | inr h => SCheck q h end))
  | Some (SCheck q h) =>
    Some (ok <- connection_validate (v_limits (q_env q)) (w_table p) (r_ip (hd_req h)) (hd_url h);;
          Ok (at_stage p k (if ok : bool then SSearch q h else SRefused q h)))
  | Some (SSearch q h) =>
    Some (Ok (at_stage p k match free_index (w_table p) with Some i => SClaim q h i | None => SRefused q h end))
  | Some (SClaim q h i) =>
    Some (path <- fits HTTP_MAX_PATH (hd_url h);;
          ip <- fits HTTP_MAX_IP (r_ip (hd_req h));;
          Ok (mkPool (w_queue p) (set_nth (w_threads p) k (SServe q h))
                (set_nth (w_table p) i (mkConn (q_socket q) path ip)) (w_fs p) (w_answers p)))
  | Some (SRefused q h) =>
    Some (r <- too_many_connections (hd_req h);; Ok (at_stage p k (SClosed q TTooMany r)))
  | Some (SServe q h) =>
    Some ('(k', r, f) <- serve q (w_fs p) h;;
          Ok (mkPool (w_queue p) (set_nth (w_threads p) k (SClosed q k' r)) (w_table p) f (w_answers p)))
  | Some (SClosed q k' r) =>
    Some (Ok (mkPool (w_queue p) (set_nth (w_threads p) k SIdle)
                (connection_del (w_table p) (r_socket r)) (w_fs p) (w_answers p ++ [(q, k', r)])))
  end.

(** A schedule of thread numbers. *)
Section Run.
Variable one : pool -> nat -> option (outcome pool).
Fixpoint run_with (p : pool) (sched : list nat) : option (outcome pool) :=
  match sched with
  | [] => Some (Ok p)
  | k :: t => match one p k with
              | None => None
              | Some (UB u) => Some (UB u)
              | Some (Ok p') => run_with p' t
              end
  end.
End Run.
Definition wrun := run_with wstep.

(** [n] threads (the code: 200), an empty table and connections that arrive in this order. *)
Definition pool_start (f : fs) (qs : list incoming) (n : nat) : pool := mkPool qs (repeat SIdle n) empty_table f [].

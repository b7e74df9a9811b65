(** Splits.v - the worker threads of Workers.v with the splitting of the URL cut into its calls of
    strtok (/repo/string_utils.c:171-191, called from get_path_and_query_string,
    /repo/http_utils.c:450-470, for every URL: /repo/ws.c:626).

    strtok remembers a pointer into the string it was last used on, one pointer for all threads.
    [split] calls it on a copy of the URL (strdup, line 173) and frees the copy at the end (188).
    One step is one call of strtok with the storing of its token; reading the header lines before
    and everything after the splitting happen with the first call and in one last step. *)
From Verif Require Export Workers.

(** What a thread at line 552 (SServe) has done of the rest. *)
Inductive progress :=
| PBefore                                                         (* nothing *)
| PWithin (hl : hstate) (b : nat) (toks : list str)               (* string_utils.c:183, its copy is block [b] *)
| PSplit (hl : hstate) (toks : list str).                         (* http_utils.c:456 *)

(** [s_save]: the static pointer of strtok (the block, and what the text there is); [s_freed]: the
    blocks given back; [s_next]: the number of the next block. *)
Record spool := mkS {
  s_pool : pool; s_done : list progress; s_save : option (nat * str); s_freed : list nat; s_next : nat }.

(** ws.c:552-624 *)
Definition take_headers (h : reqhead) : outcome hstate :=
  b1 <- write_at (hd_buf h) 0 [Some "A"%char; Some NUL];;
  '(n, b2, s2) <- get_line (hd_rest h) b1 1024;;
  header_loop (length (hd_rest h)) n (mkH b2 s2 [] None [] (-1) (r_ip (hd_req h)) (calloc MAX_SESSION)).

(** ws.c:627-651 *)
Definition respond (q : incoming) (f : fs) (h : reqhead) (hl : hstate) (path query : str) : outcome (route_taken * api_request * fs) :=
  let r3 := set_session (set_ip (set_content_type (set_headers (hd_req h) (hs_headers hl))
              (hs_content_type hl)) (hs_ip hl)) (hs_session hl) in
  let r4 := set_query r3 query in
  api <- startswith (cs (hd_url h)) API_MOUNT;;
  if negb api then
    let r5 := set_path r4 path in
    if str_caseeqb (hd_method h) (L "GET") then
      r6 <- handle_static_routes (q_env q) f r5;; Ok (TStatic, r6, f)
    else
      r6 <- bad_request r5;; Ok (TNotGet, r6, f)
  else
    p <- cstr (from (cs path) (len API_MOUNT));;
    '(calls, r6, f') <- handle_api_request (q_env q) f (hs_stream hl) (set_path r4 p) (hs_length hl) (hs_boundary hl);;
    Ok (TApi calls, r6, f').

(** http_utils.c:456-468, from the tokens stored (string_utils.c:180-181). *)
Definition path_and_query (toks : list str) : outcome (str * str) :=
  match toks with
  | [] => UB UninitRead
  | p :: t =>
    path <- (e <- split_entry p;; cstr e);;
    match t with
    | [] => Ok (path, [])
    | q :: _ => query <- (e <- split_entry q;; cstr e);; Ok (path, query)
    end
  end.

Definition progress_of (p : spool) (k : nat) : progress := nth k (s_done p) PBefore.
Definition is_freed (b : nat) (l : list nat) : bool := existsb (Nat.eqb b) l.

(** What strtok found in block [o] for thread [k], whose copy is block [b]. *)
Definition after_token (p : spool) (k : nat) (hl : hstate) (b : nat) (toks : list str) (o : nat) (text : str) : outcome spool :=
  match strtok (L "?") text with
  | None => Ok (mkS (s_pool p) (set_nth (s_done p) k (PSplit hl toks)) (Some (o, [])) (b :: s_freed p) (s_next p))
  | Some (tok, rest) =>
    if MAX_SPLIT_STR <=? len toks then UB ArrayIndex
    else Ok (mkS (s_pool p) (set_nth (s_done p) k (PWithin hl b (toks ++ [tok]))) (Some (o, rest)) (s_freed p) (s_next p))
  end.

(** One step of thread [k]; None: it waits. *)
Definition sstep (p : spool) (k : nat) : option (outcome spool) :=
  match nth_error (w_threads (s_pool p)) k with
  | Some (SServe q h) =>
    match progress_of p k with
    | PBefore =>
      Some (hl <- take_headers h;;
            after_token (mkS (s_pool p) (s_done p) (s_save p) (s_freed p) (S (s_next p))) k hl (s_next p) [] (s_next p) (hd_url h))
    | PWithin hl b toks =>
      Some match s_save p with
           | None => UB NullDeref
           | Some (o, text) => if is_freed o (s_freed p) then UB UseAfterFree else after_token p k hl b toks o text
           end
    | PSplit hl toks =>
      Some ('(path, query) <- path_and_query toks;;
            '(k', r, f) <- respond q (w_fs (s_pool p)) h hl path query;;
            let w := s_pool p in
            Ok (mkS (mkPool (w_queue w) (set_nth (w_threads w) k (SClosed q k' r)) (w_table w) f (w_answers w))
                  (set_nth (s_done p) k PBefore) (s_save p) (s_freed p) (s_next p)))
    end
  | _ =>
    match wstep (s_pool p) k with
    | None => None
    | Some o => Some (w <- o;; Ok (mkS w (s_done p) (s_save p) (s_freed p) (s_next p)))
    end
  end.

(** The same server with a lock held over the splitting: a thread waits before its first call of
    strtok while another one is between its calls.  (Not the code: what would repair it.) *)
Definition within (x : progress) : bool := match x with PWithin _ _ _ => true | _ => false end.
Definition must_wait (p : spool) (k : nat) : bool :=
  match nth_error (w_threads (s_pool p)) k, progress_of p k with
  | Some (SServe _ _), PBefore => existsb within (s_done p)
  | _, _ => false
  end.
Definition lstep (p : spool) (k : nat) : option (outcome spool) := if must_wait p k then None else sstep p k.

Section Run.
Variable one : spool -> nat -> option (outcome spool).
Fixpoint srun_with (p : spool) (sched : list nat) : option (outcome spool) :=
  match sched with
  | [] => Some (Ok p)
  | k :: t => match one p k with
              | None => None
              | Some (UB u) => Some (UB u)
              | Some (Ok p') => srun_with p' t
              end
  end.
End Run.
Definition srun := srun_with sstep.
Definition lrun := srun_with lstep.

Definition spool_start (f : fs) (qs : list incoming) (n : nat) : spool := mkS (pool_start f qs n) (repeat PBefore n) None [] 0.

(** Sends.v - what becomes of the bytes the program sends: send() and SSL_write() in http_print
    (/repo/http_utils.c:251-261), whose results are ignored, and SIGPIPE (/repo/main.c:56). *)
From Verif Require Export HttpUtils.

(** What one call of send() or SSL_write() does: that many bytes, from the front, reach the peer
    (all of them, or fewer: a short send, a failed one, a failed SSL_write some of whose records
    had gone out); or the connection is found broken and the signal SIGPIPE is raised. *)
Inductive wrote := Wrote (n : nat) | Broken.
(** The network decides by what it was given before and by what it is given. *)
Notation net := (list str -> str -> wrote) (only parsing).

(** The peer's side: what the program has asked to be sent, what arrived, and whether the
    process was killed by SIGPIPE. *)
Record link := mkLink { k_asked : list str; k_arrived : str; k_killed : bool }.

(** main.c:56: SIGPIPE is ignored from before the options are read. *)
Definition main_ignores_sigpipe : bool := true.

(** One call of http_print, [ignored] telling whether SIGPIPE is ignored. *)
Definition do_send (ignored : bool) (n : net) (k : link) (data : str) : link :=
  if k_killed k then k
  else match n (k_asked k) data with
       | Wrote m => mkLink (k_asked k ++ [data]) (k_arrived k ++ firstn m data) false
       | Broken => mkLink (k_asked k ++ [data]) (k_arrived k) (negb ignored)
       end.

(** All calls for a connection. *)
Definition transmit (ignored : bool) (n : net) (sends : list str) : link :=
  fold_left (do_send ignored n) sends (mkLink [] [] false).
(** What the peer of a request gets from the program as started by main. *)
Definition arrived (n : net) (r : api_request) : str := k_arrived (transmit main_ignores_sigpipe n (r_sends r)).

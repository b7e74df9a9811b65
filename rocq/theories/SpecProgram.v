(** SpecProgram.v - what the properties of the whole program mean.  From the model the state types, the
    options [getopt] finds (C69) and [main_options] (C69, C103) are used. *)
From Verif Require Import Base LogMain Start WsRequest Program SpecStart SpecConf SpecDispatch SpecEffects SpecDefinedApi SpecRouter Spec.

(** The command line asks for [c], and nothing a start needs is missing. *)
Definition running (m : machine) (f : fs) (args : list str) (c : config) : Prop :=
  main_options f args = Ok (Launch c) /\ m_logfile m = true /\ can_start m c f.
Definition some_worker (m : machine) : Prop := exists i, (i < 200)%nat /\ m_thread m i = true.

(** A connection from an IPv4 address, handled by the program as it is built. *)
Definition proper (a : arrival) : Prop := valid (ar_addr a) /\ mp_md5_size (ar_mp a) = 36.
Definition let_in_by (f : fs) (root : str) (a : arrival) : Prop := SpecConf.allowed f root (inet_ntoa (ar_addr a)).

(** The connections of the first list, one after the other, put at the end of one of the others. *)
Inductive dealt : list arrival -> list arrival -> list arrival -> list arrival -> Prop :=
| dealt_none : dealt [] [] [] []
| dealt_one past k d l a : dealt past k d l -> dealt (past ++ [a]) (k ++ [a]) d l
| dealt_two past k d l a : dealt past k d l -> dealt (past ++ [a]) k (d ++ [a]) l
| dealt_three past k d l a : dealt past k d l -> dealt (past ++ [a]) k d (l ++ [a]).

(** What a worker is to find: the places are those the program is built with, whatever its options. *)
Definition connection (routes : router) (rules : list limit) (a : arrival) : incoming :=
  mkIn (mkEnv (ar_app a) routes rules (L "/etc/wayuu/www") (L "/index.html") (L "/favicon.ico") (ar_mp a) (ar_stk a))
    (ar_socket a) (inet_ntoa (ar_addr a)) (ar_stream a).

(** The application leaves the socket alone, and the stack holds text (C98). *)
Definition ordinary (a : arrival) : Prop :=
  proper a /\ keeps_socket (ar_app a) /\ exists junk, cstr (ar_stk a) = Ok junk /\ junk <> [].
Definition ordinary_routes (routes : router) : Prop := live routes /\ Forall (fun rt => no_nul (rt_param rt)) routes.
Definition ordinary_files (f : fs) : Prop := forall name content, f name = Some (File content) -> len content <= 2 ^ 31 - 2048.

(** The files the program may look at, given its command line. *)
Definition roots (args : list str) (root : str) : Prop := root = L "/etc/wayuu" \/ In (OptR root) (getopt args).
Definition same_files (args : list str) (f1 f2 : fs) : Prop :=
  (forall p, f1 (L "/etc/wayuu/www/" ++ p) = f2 (L "/etc/wayuu/www/" ++ p))
  /\ f1 (L "/tmp/wayuu") = f2 (L "/tmp/wayuu")
  /\ forall root, roots args root -> is_dir f1 root = is_dir f2 root
     /\ forall name, In name [L "/etc/limits"; L "/etc/allow"; L "/etc/deny"] -> f1 (root ++ name) = f2 (root ++ name).

(** Everything about a run but the files. *)
Definition seen (x : option (outcome (settings * program))) :=
  option_map (fun o => '(g, s) <- o;; Ok (g, w_queue (p_pool s), w_threads (p_pool s), w_table (p_pool s), w_answers (p_pool s),
                                          p_lists s, p_coming s, p_denied s, p_lost s)) x.

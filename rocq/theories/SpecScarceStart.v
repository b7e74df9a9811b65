(** SpecScarceStart.v - which blocks the program itself cannot do without. *)
From Verif Require Import Base LogMain Start WsRequest Program ScarceStart SpecStart SpecConf SpecDispatch SpecDefined SpecProgram Spec.
(** From the model only the type [block], the state types and [main_options] (C69, C103) are used here. *)

Definition has_file (f : fs) (p : str) : Prop := exists content, f p = Some (File content).

(** To look something up in a file: a block to search, and one to read with unless the file is empty. *)
Definition search_wants (f : fs) (p : str) (b1 b2 b : block) : Prop :=
  (has_file f p /\ b = b1) \/ ((exists c r, f p = Some (File (c :: r))) /\ b = b2).

(** The command line asks for [c], and the start gets as far as its tables. *)
Definition gets_to_tables (m : machine) (f : fs) (args : list str) (c : config) : Prop :=
  main_options f args = Ok (Launch c) /\ m_logfile m = true /\ upload_dir m f /\ tls_ready m c.
(** The limits file has a line that begins with a slash. *)
Definition some_path (f : fs) (root : str) : Prop :=
  exists content r, f (root ++ L "/etc/limits") = Some (File content)
    /\ (content = "/"%char :: r \/ exists a, content = a ++ LF :: "/"%char :: r).
Definition start_wants (f : fs) (root : str) (b : block) : Prop := b = BQueue \/ (b = BLimits /\ some_path f root).

(** A connection from [ip], with [n] still to come: the text of its address, the files it is looked up in,
    and the queue if it is let in. *)
Definition peer_wants (f : fs) (root ip : str) (n : nat) (b : block) : Prop :=
  b = BPeer n
  \/ search_wants f (root ++ L "/etc/deny") (BDeny n) (BDenyText n) b
  \/ (~ listed f (root ++ L "/etc/deny") ip /\ search_wants f (root ++ L "/etc/allow") (BAllow n) (BAllowText n) b)
  \/ (SpecConf.allowed f root ip /\ b = BElements).

(** A request given to a worker: the table of connections; and the limits, if its method is one of the
    four. *)
Definition request_wants (stream : str) (b : block) : Prop :=
  b = BLive \/ (b = BLimits /\ exists seen m u s1, first_line stream seen m (Some u) s1 /\ 2 <= len seen /\ SpecDispatch.allowed m).

Inductive program_wants (m : machine) (f : fs) (args : list str) (coming : list arrival) : block -> Prop :=
| pw_start c b : gets_to_tables m f args c -> start_wants f (cf_root c) b -> program_wants m f args coming b
| pw_peer c before a after b : running m f args c -> coming = before ++ a :: after ->
    peer_wants f (cf_root c) (inet_ntoa (ar_addr a)) (length after) b -> program_wants m f args coming b
| pw_request c a b : running m f args c -> some_worker m -> In a coming -> let_in_by f (cf_root c) a ->
    request_wants (ar_stream a) b -> program_wants m f args coming b.

(** The next step of a worker: which of the tables it looks at.  The rules for the path are looked for first,
    up to an empty one; only if there is one is the table of connections read, and when a place is looked for,
    taken or given back. *)
Definition rule_for (rules : list limit) (path : str) : Prop :=
  exists before r after, rules = before ++ r :: after /\ Forall (fun x => l_path x <> []) (before ++ [r]) /\ ci_prefix (l_path r) path.
Definition step_wants (s : stage) (b : block) : Prop :=
  match s with
  | SCheck q h => b = BLimits \/ (b = BLive /\ rule_for (v_limits (q_env q)) (hd_url h))
  | SSearch _ _ | SClaim _ _ _ | SClosed _ _ _ => b = BLive
  | _ => False
  end.
Definition plain_step (s : stage) : Prop :=
  match s with SCheck q h => no_nul (hd_url h) /\ Forall (fun r => no_nul (l_path r)) (v_limits (q_env q)) | _ => True end.

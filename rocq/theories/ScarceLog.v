(** ScarceLog.v - the start of the program when memory for the time stamps of its messages is short:
    __logger of /repo/log.c, and ws_launch, create_context and configure_context of /repo/ws.c once more,
    with an answer for each block format_timestamp asks for (log.c:43).

    Simplifications: those of Start.v; the other blocks of the start are given (ScarceStart.v has those). *)
From Verif Require Export Start.

(** Which stamps get their block: by the line of /repo/ws.c that logs. *)
Definition stamps := Z -> bool.
(** __logger - log.c:63-92: the stamp is made (75) if the level is enabled (65), and written to by strftime
    (46). *)
Definition logger_l (ok : stamps) (line : Z) (s : logstate) (level : Z) (text : str) : outcome logstate :=
  if level <? lg_level s then Ok s
  else if ok line then logger s level text else UB NullDeref.

(** log_fatal, and log_error followed by wayuu_failed - as in Start.v. *)
Definition fatal_l (ok : stamps) (line : Z) (s : logstate) (done : list deed) (text : str) (k : logstate -> outcome started) : outcome started :=
  s' <- logger_l ok line s LOG_FATAL text;; if lg_exited s' then Ok (Ended s' done) else k s'.
Definition failed_l (ok : stamps) (line : Z) (s : logstate) (done : list deed) (text : str) : outcome started :=
  s' <- logger_l ok line s LOG_ERROR text;; Ok (Ended (mkLog (lg_level s') (lg_file s') (lg_out s') true) done).
(** create_context and configure_context - ws.c:127-163. *)
Definition tls_setup_l (ok : stamps) (m : machine) (c : config) (s : logstate) (k : list deed -> outcome started) : outcome started :=
  if cf_ssl c then
    if negb (m_context m) then failed_l ok 137 s [] (L "Unable to create SSL context")
    else
      cert <- fits (ROOT_PATH_MAX + 32) (cf_root c ++ L "/ssl/cert.pem");;
      key <- fits (ROOT_PATH_MAX + 32) (cf_root c ++ L "/ssl/key.pem");;
      if negb (m_cert m cert) then failed_l ok 154 s [] (L "Failed to use certificate in " ++ cert)
      else if negb (m_key m key) then failed_l ok 160 s [] (L "Failed to open private_key in " ++ key)
      else k [Dtls cert key]
  else k [].
(** ws_launch up to line 772. *)
Definition ws_launch_l (ok : stamps) (m : machine) (c : config) (f : fs) (s : logstate) : outcome started :=
  let '(made, f') := check_createdir (m_mkdir m) f TMP_DIR in                           (* 716 *)
  let rest (s : logstate) :=
    tls_setup_l ok m c s (fun d0 =>                                                     (* 720-725 *)
    rules <- load_limits f' (cf_root c);;                                               (* 731-732 *)
    let d1 := d0 ++ [Dlimits (cf_root c)] in
    let bound (s : logstate) :=
      let addr := m_inet m (cf_bind c) in
      s1 <- logger_l ok 751 s LOG_INFO (L "WAYUU binding to address: " ++ cf_bind c);;
      s2 <- logger_l ok 752 s1 LOG_INFO (L "WAYUU starting on port " ++ dec (cf_port c));;
      s3 <- (if m_reuse m then Ok s2 else logger_l ok 757 s2 LOG_ERROR (L "setsockopt(SO_REUSEADDR) failed"));;
      let d2 := d1 ++ [Dsocket; Dbind (m_socket m) addr (bound_port c)] in
      let pool (s : logstate) :=
        let d3 := d2 ++ map Dthread (seq 0 POOL_SIZE) ++ [Dlisten (m_socket m)] in      (* 763-766 *)
        let go (s : logstate) :=
          s4 <- logger_l ok 771 s LOG_INFO (L "WAYUU WS " ++ L "1.5.0" ++ L " running on port " ++ dec (cf_port c));;
          Ok (Accepting s4 f' rules empty_table (m_socket m) (workers_started m) d3) in
        if m_listen m (m_socket m) then go s else fatal_l ok 767 s d3 (L "Error while listening to socket") go in
      if m_bind m (m_socket m) addr (bound_port c) then pool s3                         (* 758 *)
      else fatal_l ok 760 s3 d2 (L "Unable to bind to port " ++ dec (cf_port c)) pool in
    if m_socket m =? -1 then fatal_l ok 744 s (d1 ++ [Dsocket]) (L "Unable to obtain socket handle") bound else bound s) in
  if made then rest s else fatal_l ok 718 s [] (L "Cannot create path " ++ TMP_DIR) rest.
(** main - main.c:45-109; the messages of -r (lines 88, 91) are left out as in Start.v. *)
Definition main_run_l (ok : stamps) (m : machine) (f : fs) (args : list str) : outcome (started + Z) :=
  r <- main_options f args;;
  match r with
  | Exit code => Ok (inr code)
  | Launch c =>
    let s := log_set_file (log_set_level log_init (cf_level c)) (L "/var/log/wayuu.log") (m_logfile m) in
    if lg_exited s then Ok (inr 1)
    else st <- ws_launch_l ok m c f s;; Ok (inl st)
  end.

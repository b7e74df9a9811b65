(** Start.v - model of the start of the program: ws_launch up to the accept loop, the TLS set-up
    and wayuu_failed of /repo/ws.c, and the end of main in /repo/main.c; and the text of a peer's
    address. *)
From Verif Require Export LogMain WsConn.

(** What the machine answers to the program's requests. *)
Record machine := mkMachine {
  m_mkdir : bool;                  (* mkdir of the upload directory succeeds *)
  m_context : bool;                (* SSL_CTX_new *)
  m_cert : str -> bool;            (* SSL_CTX_use_certificate_chain_file on this file *)
  m_key : str -> bool;             (* SSL_CTX_use_PrivateKey_file on this file *)
  m_socket : Z;                    (* socket(): a descriptor or -1 *)
  m_reuse : bool;                  (* setsockopt *)
  m_inet : str -> Z;               (* inet_addr *)
  m_bind : Z -> Z -> Z -> bool;    (* bind of descriptor, address, port *)
  m_thread : nat -> bool;          (* pthread_create, the n-th call *)
  m_listen : Z -> bool;            (* listen *)
  m_logfile : bool }.              (* fopen of the log file *)

(** What it has been asked to do, in order. *)
Inductive deed :=
| Dtls (cert key : str) | Dlimits (root : str) | Dsocket | Dbind (fd addr port : Z) | Dthread (n : nat) | Dlisten (fd : Z).

(** The process has ended; or it accepts connections on [fd] with that many workers. *)
Inductive started :=
| Ended (log : logstate) (done : list deed)
| Accepting (log : logstate) (files : fs) (rules : list limit) (conns : table) (fd : Z) (workers : nat) (done : list deed).

(** log_fatal: log.c:63-92 exits, unless the level is set above FATAL. *)
Definition fatal (s : logstate) (done : list deed) (text : str) (k : logstate -> outcome started) : outcome started :=
  s' <- logger s LOG_FATAL text;; if lg_exited s' then Ok (Ended s' done) else k s'.
(** log_error followed by wayuu_failed - ws.c:64-68, which exits whatever the level. *)
Definition failed (s : logstate) (done : list deed) (text : str) : outcome started :=
  s' <- logger s LOG_ERROR text;; Ok (Ended (mkLog (lg_level s') (lg_file s') (lg_out s') true) done).

Definition TMP_DIR : str := L "/tmp/wayuu".                 (* ws.h:31 *)
Definition POOL_SIZE : nat := 200.                          (* ws.h:34 *)

(** create_context and configure_context - ws.c:127-163.  Without TLS nothing is done
    (ws.c:720-725).  The certificate's path goes to an array of ROOT_PATH_MAX + 32 bytes. *)
Definition tls_setup (m : machine) (c : config) (s : logstate) (k : list deed -> outcome started) : outcome started :=
  if cf_ssl c then
    if negb (m_context m) then failed s [] (L "Unable to create SSL context")
    else
      cert <- fits (ROOT_PATH_MAX + 32) (cf_root c ++ L "/ssl/cert.pem");;
      key <- fits (ROOT_PATH_MAX + 32) (cf_root c ++ L "/ssl/key.pem");;
      if negb (m_cert m cert) then failed s [] (L "Failed to use certificate in " ++ cert)
      else if negb (m_key m key) then failed s [] (L "Failed to open private_key in " ++ key)
      else k [Dtls cert key]
  else k [].

(** ws.c:763-764: the results of pthread_create are ignored. *)
Definition workers_started (m : machine) : nat := length (filter (m_thread m) (seq 0 POOL_SIZE)).

(** ws_launch up to line 772.  Simplifications: the debugging output of load_limits is left out;
    calloc and the other allocations succeed. *)
Definition ws_launch (m : machine) (c : config) (f : fs) (s : logstate) : outcome started :=
  let '(made, f') := check_createdir (m_mkdir m) f TMP_DIR in                           (* 716 *)
  let rest (s : logstate) :=
    tls_setup m c s (fun d0 =>                                                          (* 720-725 *)
    rules <- load_limits f' (cf_root c);;                                               (* 731-732 *)
    let d1 := d0 ++ [Dlimits (cf_root c)] in
    let bound (s : logstate) :=
      let addr := m_inet m (cf_bind c) in
      s1 <- logger s LOG_INFO (L "WAYUU binding to address: " ++ cf_bind c);;           (* 751 *)
      s2 <- logger s1 LOG_INFO (L "WAYUU starting on port " ++ dec (cf_port c));;       (* 752 *)
      s3 <- (if m_reuse m then Ok s2 else logger s2 LOG_ERROR (L "setsockopt(SO_REUSEADDR) failed"));;
      let d2 := d1 ++ [Dsocket; Dbind (m_socket m) addr (bound_port c)] in
      let pool (s : logstate) :=
        let d3 := d2 ++ map Dthread (seq 0 POOL_SIZE) ++ [Dlisten (m_socket m)] in      (* 763-766 *)
        let go (s : logstate) :=
          s4 <- logger s LOG_INFO (L "WAYUU WS " ++ L "1.5.0" ++ L " running on port " ++ dec (cf_port c));;
          Ok (Accepting s4 f' rules empty_table (m_socket m) (workers_started m) d3) in
        if m_listen m (m_socket m) then go s else fatal s d3 (L "Error while listening to socket") go in
      if m_bind m (m_socket m) addr (bound_port c) then pool s3                         (* 758 *)
      else fatal s3 d2 (L "Unable to bind to port " ++ dec (cf_port c)) pool in
    if m_socket m =? -1 then fatal s (d1 ++ [Dsocket]) (L "Unable to obtain socket handle") bound else bound s) in
  if made then rest s else fatal s [] (L "Cannot create path " ++ TMP_DIR) rest.

(** main - main.c:45-109: the options, the log file (WAYUU_LOGFILE, ws.h:65), then ws_launch.
    Simplification: what -r logs before the log file is opened (line 88) is left out. *)
Definition main_run (m : machine) (f : fs) (args : list str) : outcome (started + Z) :=
  r <- main_options f args;;
  match r with
  | Exit code => Ok (inr code)
  | Launch c =>
    let s := log_set_file (log_set_level log_init (cf_level c)) (L "/var/log/wayuu.log") (m_logfile m) in
    if lg_exited s then Ok (inr 1)
    else st <- ws_launch m c f s;; Ok (inl st)
  end.

(** ** The text of an IPv4 address - inet_ntoa(3), ws.c:781; four numbers from 0 to 255 *)
Record address := mkAddr { a_1 : Z; a_2 : Z; a_3 : Z; a_4 : Z }.
Definition inet_ntoa (a : address) : str := dec_nat (a_1 a) ++ L "." ++ dec_nat (a_2 a) ++ L "." ++ dec_nat (a_3 a) ++ L "." ++ dec_nat (a_4 a).
(** ws.c:780-781: the copy goes to 16 bytes; then allowed_address (783). *)
Definition admitted_peer (f : fs) (g : ipconf) (a : address) : outcome (bool * ipconf) :=
  ip <- fits 16 (inet_ntoa a);; allowed_address f g ip.

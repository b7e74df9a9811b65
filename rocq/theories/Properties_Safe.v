(** Properties_Safe.v - C103: exactly which configuration files, limits files, address lists and command
    lines have an undefined effect (/repo/conf_parser.c:parse, /repo/ws.c:load_limits, allowed_address,
    ws_launch, /repo/main.c). *)
From Verif Require Import ConfParser Start Safe_proofs SpecConf SpecConn SpecStart SpecSafe Spec.

(** C103.  A configuration file read with any flags, whatever its bytes. *)
Theorem C103_parse : forall f path flags, undefined (parse f path flags) <-> bad_parse f path flags.
Proof. exact parse_bad. Qed.
Print Assumptions C103_parse.

(** The limits file. *)
Theorem C103_limits : forall f root, undefined (load_limits f root) <-> bad_rules f root.
Proof. exact rules_bad. Qed.
Print Assumptions C103_limits.

(** The lists of addresses, for the first peer and for later ones. *)
Theorem C103_lists : forall f root ip,
  (forall d0, undefined (allowed_address f (mkIpconf root [] d0) ip) <-> bad_lists f root ip)
  /\ (len root <= 277 ->
      (undefined (allowed_address f (mkIpconf root (root ++ L "/etc/allow") (root ++ L "/etc/deny")) ip) <-> bad_lists f root ip)).
Proof. intros f root ip. split; [intros d0; apply lists_bad|apply lists_later]. Qed.
Print Assumptions C103_lists.

(** The options. *)
Theorem C103_options : forall f args, undefined (main_options f args) <-> bad_options f args.
Proof. exact main_bad. Qed.
Print Assumptions C103_options.

(** The whole start, whatever the system calls answer: an option that does not fit; or the log file, the
    upload directory and the TLS files are there and a path of the limits file does not fit. *)
Theorem C103_start : forall m f args, undefined (main_run m f args) <->
  bad_options f args
  \/ exists c, main_options f args = Ok (Launch c) /\ m_logfile m = true /\ upload_dir m f /\ tls_ready m c /\ bad_rules f (cf_root c).
Proof. exact run_bad. Qed.
Print Assumptions C103_start.

(** Concrete: in a limits file of 64 rules and one more line, the long path is harmless as the 65th and
    undefined as the 64th rule; a limits file of which a rejected line has a long path is undefined. *)
Definition rule_text : str := L "/a,1,2" ++ [LF].
Definition long_text : str := "/"%char :: repeat "p"%char 511 ++ L ",1,2" ++ [LF].
Definition with_file (p text : str) : fs := fun q => if str_eqb q p then Some (File text) else if str_eqb q (L "/srv") then Some Dir else None.
Definition limits_file (text : str) : fs := with_file (L "/srv/etc/limits") text.
Example C103_case :
  undefined (load_limits (limits_file (concat (repeat rule_text 63) ++ long_text)) (L "/srv"))
  /\ (exists rs, load_limits (limits_file (concat (repeat rule_text 64) ++ long_text)) (L "/srv") = Ok rs /\ len rs = 64)
  /\ ~ bad_rules (limits_file (concat (repeat rule_text 64) ++ long_text)) (L "/srv")
  /\ undefined (parse (with_file (L "c") (L "a=1" ++ [LF] ++ L " == " ++ [LF] ++ L "b=2")) (L "c") [])
  /\ ~ undefined (parse (with_file (L "c") (L "a=1" ++ [LF] ++ L "b" ++ [LF] ++ L "==")) (L "c") [])
  /\ ~ bad_parse (with_file (L "c") (L "a=1" ++ [LF] ++ L "b" ++ [LF] ++ L "==")) (L "c") []
  /\ undefined (main_options (with_file [] []) [L "-r"; L "/srv"; L "-b"; repeat "1"%char 24])
  /\ main_options (with_file [] []) [L "-r"; L "/none"; L "-b"; repeat "1"%char 24] = Ok (Exit 1)
  /\ bad_options (with_file [] []) [L "-d"; L "-r"; L "/srv"; L "-b"; repeat "1"%char 24]
  /\ ~ bad_options (with_file [] []) [L "-r"; L "/none"; L "-b"; repeat "1"%char 24].
Proof.
  split; [eexists; vm_compute; reflexivity|]. split; [eexists; split; [vm_compute; reflexivity|vm_compute; reflexivity]|].
  split.
  { rewrite <- C103_limits. intros (u & H). vm_compute in H. discriminate H. }
  split; [eexists; vm_compute; reflexivity|].
  assert (P : ~ undefined (parse (with_file (L "c") (L "a=1" ++ [LF] ++ L "b" ++ [LF] ++ L "==")) (L "c") [])).
  { intros (u & H). vm_compute in H. discriminate H. }
  split; [exact P|]. split; [now rewrite <- C103_parse|].
  split; [eexists; vm_compute; reflexivity|]. split; [vm_compute; reflexivity|].
  split; rewrite <- C103_options; [eexists; vm_compute; reflexivity|]. intros (u & H). vm_compute in H. discriminate H.
Qed.

(** LogMain.v - model of /repo/log.c and of option processing in /repo/main.c. *)
From Verif Require Export CLib FileUtils.

(** ** /repo/log.c *)

(** Levels - log.h:32-39 *)
Definition LOG_TRACE : Z := 0.
Definition LOG_DEBUG : Z := 1.
Definition LOG_INFO : Z := 2.
Definition LOG_WARN : Z := 3.
Definition LOG_ERROR : Z := 4.
Definition LOG_FATAL : Z := 5.

(** LOG_FILE - log.c:37: NULL, stderr, an opened file, or a closed stream still pointed to. *)
Inductive logfile := LogNull | LogStderr | LogOpen (path : str) | LogClosed.

(** The static state, the messages written so far (level, text, destination) and
    whether the process has exited. *)
Record logstate := mkLog {
  lg_level : Z; lg_file : logfile; lg_out : list (Z * str * logfile); lg_exited : bool }.

Definition log_init : logstate := mkLog LOG_INFO LogNull [] false.

(** __logger - log.c:63-92.  [text] is the formatted message. *)
Definition logger (s : logstate) (level : Z) (text : str) : outcome logstate :=
  if level <? lg_level s then Ok s
  else
    let file := match lg_file s with LogNull => LogStderr | f => f end in         (* 70-73 *)
    if (level <? 0) || (5 <? level) then UB OobRead                               (* 79: level_names[level] *)
    else match file with
         | LogClosed => UB UseAfterFree
         | _ => Ok (mkLog (lg_level s) file (lg_out s ++ [(level, text, file)])
                      (if level =? LOG_FATAL then true else lg_exited s))          (* 88-91 *)
         end.

(** log_level_is_enabled - log.c:94-97 *)
Definition log_level_is_enabled (s : logstate) (level : Z) : bool := lg_level s <=? level.

(** log_set_level - log.c:99-102 *)
Definition log_set_level (s : logstate) (level : Z) : logstate :=
  mkLog level (lg_file s) (lg_out s) (lg_exited s).

(** log_set_file - log.c:104-112; [opens]: whether fopen succeeds. *)
Definition log_set_file (s : logstate) (path : str) (opens : bool) : logstate :=
  if opens then mkLog (lg_level s) (LogOpen path) (lg_out s) (lg_exited s)
  else mkLog (lg_level s) LogNull (lg_out s) true.

(** log_close_file - log.c:114-117 *)
Definition log_close_file (s : logstate) : outcome logstate :=
  match lg_file s with
  | LogNull => UB NullDeref
  | LogClosed => UB UseAfterFree
  | _ => Ok (mkLog (lg_level s) LogClosed (lg_out s) (lg_exited s))
  end.

(** ** /repo/main.c *)

(** What getopt reports for ":b:p:r:hdfv" (main.c:61). *)
Inductive opt := OptD | OptF | OptH | OptV | OptB (a : str) | OptP (a : str) | OptR (a : str)
               | OptMissing (c : ascii) | OptUnknown (c : ascii).

(** getopt(3), glibc (permuting), for one argument's option letters.  [next] is the
    following argument.  Returns the options and whether the following argument was used. *)
Fixpoint opt_letters (s : str) (next : option str) : list opt * bool :=
  match s with
  | [] => ([], false)
  | c :: t =>
    let with_arg (mk : str -> opt) :=
      match t with
      | _ :: _ => ([mk t], false)
      | [] => match next with Some a => ([mk a], true) | None => ([OptMissing c], false) end
      end in
    let flag (o : opt) := let '(l, u) := opt_letters t next in (o :: l, u) in
    if ceq c "b" then with_arg OptB
    else if ceq c "p" then with_arg OptP
    else if ceq c "r" then with_arg OptR
    else if ceq c "d" then flag OptD
    else if ceq c "f" then flag OptF
    else if ceq c "h" then flag OptH
    else if ceq c "v" then flag OptV
    else flag (OptUnknown c)
  end.

Fixpoint getopt (args : list str) : list opt :=
  match args with
  | [] => []
  | a :: t =>
    match a with
    | c :: s =>
      if ceq c "-" then
        match s with
        | [] => getopt t                                   (* "-" is not an option *)
        | _ :: _ =>
          if str_eqb s (L "-") then []                     (* "--" ends the options *)
          else
            match t with
            | [] => fst (opt_letters s None)
            | n :: t' =>
              let '(l, used) := opt_letters s (Some n) in
              l ++ (if used : bool then getopt t' else getopt t)
            end
        end
      else getopt t
    | [] => getopt t
    end
  end.

(** The configuration set up by main - main.c:48-54; globals ws.c:43-47, http_utils.c:40. *)
Record config := mkConfig {
  cf_port : Z; cf_bind : str; cf_root : str; cf_static_root : str;
  cf_index : str; cf_favicon : str; cf_ssl : bool; cf_level : Z }.

Definition default_config : config :=
  mkConfig 4443 (L "127.0.0.1") (L "/etc/wayuu") (L "/etc/wayuu" ++ L "/" ++ L "www")
    (L "/index.html") (L "/favicon.ico") true LOG_INFO.

Inductive main_result := Launch (c : config) | Exit (code : Z).

(** Lines 61-105.  WAYUU_WS_ROOT has 256 bytes (ws.c:43), bind_addr 24 (main.c:53). *)
Fixpoint main_loop (f : fs) (c : config) (l : list opt) : outcome main_result :=
  match l with
  | [] => Ok (Launch c)
  | o :: t =>
    match o with
    | OptD => main_loop f (mkConfig (cf_port c) (cf_bind c) (cf_root c) (cf_static_root c)
                             (cf_index c) (cf_favicon c) (cf_ssl c) LOG_DEBUG) t
    | OptF => main_loop f (mkConfig (cf_port c) (cf_bind c) (cf_root c) (cf_static_root c)
                             (cf_index c) (cf_favicon c) false (cf_level c)) t
    | OptH => Ok (Exit 0)
    | OptV => Ok (Exit 0)
    | OptB a => b <- fits 24 a;;
                main_loop f (mkConfig (cf_port c) b (cf_root c) (cf_static_root c)
                             (cf_index c) (cf_favicon c) (cf_ssl c) (cf_level c)) t
    | OptP a => main_loop f (mkConfig (atoi a) (cf_bind c) (cf_root c) (cf_static_root c)
                             (cf_index c) (cf_favicon c) (cf_ssl c) (cf_level c)) t
    | OptR a => r <- fits ROOT_PATH_MAX a;;
                if is_dir f r then
                  main_loop f (mkConfig (cf_port c) (cf_bind c) r (cf_static_root c)
                             (cf_index c) (cf_favicon c) (cf_ssl c) (cf_level c)) t
                else Ok (Exit 1)
    | OptMissing _ => main_loop f c t
    | OptUnknown _ => Ok (Exit 1)
    end
  end.

(** The command line, up to the call of ws_launch.  [args] are argv[1..argc). *)
Definition main_options (f : fs) (args : list str) : outcome main_result :=
  main_loop f default_config (getopt args).

(** The TCP port bound by ws_launch: htons takes a uint16_t - ws.c:749. *)
Definition bound_port (c : config) : Z := cf_port c mod 2 ^ 16.

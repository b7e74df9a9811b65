(** FileUtils.v - model of /repo/file_utils.c and of the IP filter
    allowed_address of /repo/ws.c. *)
From Verif Require Export StringUtils.

(** The file system as the program sees it: what a path name denotes now.
    Not modelled: permissions, links, devices, fopen failing on a regular file,
    changes by other processes between two calls. *)
Inductive node := File (content : str) | Dir.
Definition fs := str -> option node.

Definition upd (f : fs) (p : str) (n : option node) : fs :=
  fun q => if str_eqb q p then n else f q.

(** ** is_dir, is_file - /repo/file_utils.c:54-71 *)
Definition is_dir (f : fs) (p : str) : bool :=
  match f p with Some Dir => true | _ => false end.
Definition is_file (f : fs) (p : str) : bool :=
  match f p with Some (File _) => true | _ => false end.

(** ** check_createdir - /repo/file_utils.c:45-52.
    [mkdir_ok]: whether the system allows creating a directory there; mkdir always
    fails on an existing name. *)
Definition check_createdir (mkdir_ok : bool) (f : fs) (p : str) : bool * fs :=
  if is_dir f p then (true, f)
  else match f p with
       | Some _ => (false, f)
       | None => if mkdir_ok then (true, upd f p (Some Dir)) else (false, f)
       end.

(** ** read_file - /repo/file_utils.c:73-105.  maxlen is a uint64_t (non-negative). *)
Definition read_file (f : fs) (out : buf) (path : str) (maxlen : Z) : outcome buf :=
  o0 <- wr out 0 NUL;;                                             (* 78 *)
  match f path with
  | Some (File content) =>
    let length := len content in                                   (* 89-90 *)
    let length' := if 0 <? maxlen then
                     (if maxlen - 1 <? length then maxlen - 1 else length)
                   else length in                                  (* 98-100 *)
    o1 <- memcpy o0 0 (map Some content) 0 length';;               (* 101 *)
    wr o1 length' NUL                                              (* 102 *)
  | _ => Ok o0                                                     (* 80-84 *)
  end.

(** ** write_file - /repo/file_utils.c:107-126.  [ptr + off] is the data pointer.
    The arguments of log_debug (line 109) are evaluated whatever the log level:
    strlen(ptr) is computed.  fopen fails on a directory. *)
Definition write_file (f : fs) (filename : str) (ptr : buf) (off size : Z) : outcome fs :=
  _ <- strlen (from ptr off);;
  if is_dir f filename then Ok f                                   (* 115-119 *)
  else
    l <- slice ptr off size;;
    data <- defined_bytes l;;
    Ok (upd f filename (Some (File data))).

(** ** find_in_file - /repo/file_utils.c:25-43 *)
Definition find_in_file (f : fs) (path needle : str) : outcome bool :=
  if is_file f path then
    h <- read_file f (calloc 8192) path 0;;
    s <- cstr h;;
    Ok (match strstr s needle with Some _ => true | None => false end)
  else Ok false.

(** ** allowed_address - /repo/ws.c:70-88 *)

(** /repo/ws.h:45 *)
Definition ROOT_PATH_MAX : Z := 256.

(** The three globals of ws.c:43,49,50 as contents. *)
Record ipconf := mkIpconf { ws_root : str; ws_allow : str; ws_deny : str }.

(** Lines 72-76: the file names are computed once. *)
Definition ip_paths (g : ipconf) : outcome ipconf :=
  if len (ws_allow g) =? 0 then
    a <- fits (ROOT_PATH_MAX + 32) (ws_root g ++ L "/etc/allow");;
    d <- fits (ROOT_PATH_MAX + 32) (ws_root g ++ L "/etc/deny");;
    Ok (mkIpconf (ws_root g) a d)
  else Ok g.

Definition allowed_address (f : fs) (g : ipconf) (ip : str) : outcome (bool * ipconf) :=
  g' <- ip_paths g;;
  d <- find_in_file f (ws_deny g') ip;;
  if d : bool then Ok (false, g')
  else if negb (is_file f (ws_allow g')) then Ok (true, g')
  else a <- find_in_file f (ws_allow g') ip;; Ok (a, g').

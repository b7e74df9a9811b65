(** FailFiles.v - model of /repo/file_utils.c, of allowed_address (/repo/ws.c), of direct_file
    (/repo/http_utils.c), of write_conf and parse (/repo/conf_parser.c) and of load_limits
    (/repo/ws.c) when files do not open or are only partly read or written. *)
From Verif Require Import Base FileUtils ConfParser HttpUtils WsConn.

(** What reading a regular file comes to: fopen fails ([None]), or fread delivers the first [n]
    bytes ([Some n]; all of them if there are no more than [n]).  fseek and ftell on an open
    file are taken to succeed. *)
Definition reading := option nat.

(** The block from calloc(length, 1) after fread: /repo/file_utils.c:91-95, /repo/http_utils.c:186-191. *)
Definition fetched (n : nat) (content : str) : str := firstn n content ++ repeat NUL (length content - n).

(** ** read_file - /repo/file_utils.c:73-105 *)
Definition read_file_e (o : reading) (f : fs) (out : buf) (path : str) (maxlen : Z) : outcome buf :=
  o0 <- wr out 0 NUL;;                                             (* 78 *)
  match f path with
  | Some (File content) =>
    match o with
    | None => Ok o0                                                (* 87 *)
    | Some n =>
      let length := len content in                                 (* 89-90 *)
      let length' := if 0 <? maxlen then
                       (if maxlen - 1 <? length then maxlen - 1 else length)
                     else length in                                (* 98-100 *)
      o1 <- memcpy o0 0 (map Some (fetched n content)) 0 length';; (* 101 *)
      wr o1 length' NUL                                            (* 102 *)
    end
  | _ => Ok o0                                                     (* 80-84 *)
  end.

(** ** find_in_file - /repo/file_utils.c:25-43 *)
Definition find_in_file_e (o : reading) (f : fs) (path needle : str) : outcome bool :=
  if is_file f path then
    h <- read_file_e o f (calloc 8192) path 0;;
    s <- cstr h;;
    Ok (match strstr s needle with Some _ => true | None => false end)
  else Ok false.

(** ** allowed_address - /repo/ws.c:70-88; [od], [oa]: how the two lists are read. *)
Definition allowed_address_e (od oa : reading) (f : fs) (g : ipconf) (ip : str) : outcome (bool * ipconf) :=
  g' <- ip_paths g;;
  d <- find_in_file_e od f (ws_deny g') ip;;
  if d : bool then Ok (false, g')
  else if negb (is_file f (ws_allow g')) then Ok (true, g')
  else a <- find_in_file_e oa f (ws_allow g') ip;; Ok (a, g').

(** ** return_file - /repo/http_utils.c:174-199 *)
Definition return_file_e (o : reading) (f : fs) (r : api_request) (path : str) : outcome (Z * api_request) :=
  match f path, o with
  | Some (File content), Some n =>
    if int_max <? len content then UB BadSize
    else Ok (len content, http_print r (fetched n content))
  | _, _ => Ok (0, r)
  end.
(** ** direct_file - /repo/http_utils.c:203-215 *)
Definition direct_file_e (o : reading) (f : fs) (r : api_request) (filename : str) : outcome (Z * api_request) :=
  if negb (is_file f filename) then Ok (-1, r)
  else
    '(l1, r1) <- return_headers r filename;;
    '(l2, r2) <- return_file_e o f r1 filename;;
    l <- int_add l1 l2;;                                                (* 211 *)
    let r3 := set_response_length r2 l in
    r4 <- log_access r3 200;;
    Ok (0, r4).

(** What writing a file comes to: whether remove succeeds, whether fopen does (it never does on
    a directory), and how many of the bytes handed to stdio reach the file. *)
Record writing := mkWriting { w_removes : bool; w_opens : bool; w_taken : nat }.

(** ** write_file - /repo/file_utils.c:107-126.  Returned: the files and the error messages.
    fwrite answers the number of bytes it took, a size_t. *)
Definition write_file_e (w : writing) (f : fs) (filename : str) (ptr : buf) (off size : Z) : outcome (fs * list str) :=
  _ <- strlen (from ptr off);;                                          (* 109 *)
  let f1 := if is_file f filename && w_removes w then upd f filename None else f in  (* 110-113 *)
  if is_dir f filename || negb (w_opens w) then                         (* 115-119 *)
    Ok (f1, [L "There was an error opening file: " ++ filename])
  else
    l <- slice ptr off size;;
    data <- defined_bytes l;;
    let put := firstn (w_taken w) data in
    Ok (upd f filename (Some (File put)),
        if len put <? 0 then [L "There was an error writing file: " ++ filename] else []).  (* 121-124 *)

(** ** write_conf - /repo/conf_parser.c:250-270.  The results of fprintf and fclose are not looked at. *)
Definition write_conf_e (w : writing) (f : fs) (s : serializable) : outcome (Z * fs) :=
  if is_dir f (ser_path s) || negb (w_opens w) then
    _ <- fits 120 (L "Unable to open file " ++ ser_path s ++ L " for writing");; Ok (-1, f)
  else
    t <- conf_lines (ser_items s);;
    Ok (0, upd f (ser_path s) (Some (File (firstn (w_taken w) t)))).

(** ** parse - /repo/conf_parser.c:119-155.  fopen fails ([None]), or fgets delivers the first [k]
    lines ([Some k]) and NULL after that: a read error drops the line it occurs in (glibc). *)
Fixpoint parse_loop_e (k : nat) (path : str) (flags : list (str * bool)) (content : str) : outcome (Z * list conf_item) :=
  match k with
  | O => Ok (0, [])                                                     (* 131: ferror is not asked *)
  | S k' =>
    match fgets MAX_LINE_LEN content with
    | None => Ok (0, [])
    | Some (line, rest) =>
      r <- conf_parse_first_pass (upto_nul line);;
      match r with
      | None =>
        _ <- fits 120 (L "Entity in invalid format, path: " ++ path ++ [LF]);;   (* 135-136 *)
        Ok (-1, [])
      | Some item =>
        match get_key_flag (key item) flags with
        | None => parse_loop_e k' path flags rest
        | Some m =>
          item' <- (if m : bool then conf_parse_multi item else Ok item);;
          '(st, l) <- parse_loop_e k' path flags rest;;
          Ok (st, item' :: l)
        end
      end
    end
  end.
Definition parse_e (o : reading) (f : fs) (path : str) (flags : list (str * bool)) : outcome (Z * list conf_item) :=
  match o, f path with
  | Some k, Some (File content) => parse_loop_e k path flags content
  | Some _, Some Dir => Ok (0, [])
  | _, _ => _ <- fits 120 (L "Unable to open path: " ++ path);; Ok (-1, [])         (* 122-128 *)
  end.

(** ** load_limits - /repo/ws.c:833-893.  fopen fails ([None]), or getline comes to an end after [n]
    bytes ([Some n]): unlike fgets it hands over the part of a line it has got (glibc). *)
Definition load_limits_e (o : reading) (f : fs) (root : str) : outcome (list limit) :=
  path <- fits (ROOT_PATH_MAX + 32) (root ++ L "/etc/limits");;          (* 835 *)
  match f path, o with
  | Some (File content), Some n => let got := firstn n content in limits_loop (length got) 0 free_limit got
  | _, _ => Ok []                                                       (* 846 *)
  end.

(** Trace.v - what the request handler writes to the application log: the calls of log_trace,
    log_debug, log_warn and log_error in /repo/ws.c, router.c, http_utils.c and file_utils.c.
    Each function is the one of the same name without [_t], except that it also returns the
    messages, in order, whatever their level; which of them are written is for log.c to decide
    ([write_all]).  What the application's own callbacks log is not included. *)
From Verif Require Export WsRequest LogMain.

(** A message: its level and its text. *)
Notation note := (Z * list ascii)%type (only parsing).

(** The logger of log.c given messages one after another. *)
Fixpoint write_all (s : logstate) (ms : list note) : outcome logstate :=
  match ms with
  | [] => Ok s
  | m :: t => s' <- logger s (fst m) (snd m);; write_all s' t
  end.

(** ** The live-connection table *)

(** connection_validate - /repo/ws.c:386-410 *)
Fixpoint connection_validate_t (rules : list limit) (t : table) (ip path : str) : outcome (bool * list note) :=
  match rules with
  | [] => Ok (true, [])
  | r :: rs =>
    match l_path r with
    | [] => Ok (true, [])
    | _ :: _ =>
      p <- startswith (cs path) (l_path r);;
      if p : bool then
        '(total, by_ip) <- get_live_stats t (l_path r) ip 0 0;;
        if l_max r <? total then
          Ok (false, [(LOG_DEBUG, L "IP:" ++ ip ++ L " denied, max_connections exceeded for " ++ l_path r)])        (* 398 *)
        else if l_max_ip r <? by_ip then
          Ok (false, [(LOG_DEBUG, L "IP:" ++ ip ++ L " denied, max_connections_per_ip exceeded for " ++ l_path r)]) (* 403 *)
        else connection_validate_t rs t ip path
      else connection_validate_t rs t ip path
    end
  end.

(** connection_add - /repo/ws.c:439-456 *)
Definition connection_add_t (rules : list limit) (t : table) (socket : Z) (ip path : str)
  : outcome (bool * table * list note) :=
  '(v, ms) <- connection_validate_t rules t ip path;;
  if v : bool then
    '(r, t') <- claim_slot t socket ip path;;
    Ok (r, t', if r : bool then ms else ms ++ [(LOG_DEBUG, L "WS_MAX_CONNECTIONS reached")])              (* 454 *)
  else Ok (false, t, ms).

(** ** Static files *)

(** direct_file - /repo/http_utils.c:203-215 *)
Definition direct_file_t (f : fs) (r : api_request) (filename : str) : outcome (Z * api_request * list note) :=
  '(st, r') <- direct_file f r filename;;
  Ok (st, r', if is_file f filename then [] else [(LOG_WARN, L "File not found: " ++ filename)]).         (* 207 *)

(** handle_static_routes - /repo/ws.c:313-350 *)
Definition handle_static_routes_t (v : wsenv) (f : fs) (r : api_request) : outcome (api_request * list note) :=
  let m1 := (LOG_DEBUG, L "Handle static route: " ++ r_path r) in                                         (* 315 *)
  pathlen <- strlen (v_stk v);;
  p <- (if str_eqb (r_path r) (L "/") || str_eqb (r_path r) (L "/index.html")
        then Ok (v_index v)
        else if str_eqb (r_path r) (L "/favicon.ico") then Ok (v_favicon v)
        else
          c <- rd (v_stk v) (pathlen - 1);;
          if ceq c "/" then fits 1024 (r_path r ++ L "index.html") else Ok (r_path r));;
  let r1 := set_path r p in
  file <- fits 1024 (v_static_root v ++ L "/" ++ p);;
  let m2 := (LOG_DEBUG, L "IP:" ++ r_ip r1 ++ L " GET: " ++ p ++ L ", PATH: " ++ file) in                 (* 343 *)
  '(st, r2, ms) <- direct_file_t f r1 file;;
  if st <? 0 then
    file' <- fits 1024 (v_static_root v ++ L "/" ++ v_index v);;
    '(_, r3, ms') <- direct_file_t f r2 file';;
    Ok (r3, m1 :: m2 :: ms ++ ms')
  else Ok (r2, m1 :: m2 :: ms).

(** ** Multipart forms *)

(** write_file - /repo/file_utils.c:107-126.  The long and size_t arguments of line 109 are
    printed with %d: their low 32 bits as an int.  fwrite's result is unsigned, so line 123 is
    never reached. *)
Definition write_file_t (f : fs) (filename : str) (ptr : buf) (off size : Z) : outcome (fs * list note) :=
  n <- strlen (from ptr off);;
  f' <- write_file f filename ptr off size;;
  Ok (f', (LOG_DEBUG, L "write_file(filename=" ++ filename ++ L ", strlen(ptr)=" ++ dec (to_int n) ++ L ", size=" ++ dec (to_int size) ++ L ")")
          :: (if is_dir f filename then [(LOG_ERROR, L "There was an error opening file: " ++ filename)] else [])).

(** save_tmp_file - /repo/ws.c:216-242 *)
Definition save_tmp_file_t (e : mpenv) (f : fs) (tmpfields : buf) (field : str)
  (start_file : Z) (tmpdata : buf) (data_start actuallength : Z) : outcome (buf * fs * list note) :=
  let m1 := (LOG_DEBUG, L "save_tmp_file, start_file: " ++ dec (to_int start_file) ++ L ", data_start: " ++ dec (to_int data_start)
                        ++ L ", actuallength: " ++ dec (to_int actuallength)) in                          (* 218 *)
  o1 <- strncpy (malloc MAX_ORIG_FILENAME) (from tmpdata start_file) MAX_ORIG_FILENAME;;
  o2 <- wr o1 (MAX_ORIG_FILENAME - 1) NUL;;
  o3 <- chop_string o2;;
  orig <- cstr o3;;
  let m2 := (LOG_DEBUG, L "Original filename " ++ orig ++ [LF]) in                                        (* 224 *)
  let f1 := if is_dir f FILE_DOWNLOAD_TMP_DIR then f
            else snd (check_createdir (mp_mkdir e) f FILE_DOWNLOAD_TMP_DIR) in
  let ms := if is_dir f FILE_DOWNLOAD_TMP_DIR then []
            else [(LOG_DEBUG, L "Creating FILE_DOWNLOAD_TMP_DIR: " ++ FILE_DOWNLOAD_TMP_DIR)] in           (* 231 *)
  m <- md5sum (mp_md5 e) (malloc (mp_md5_size e)) tmpdata data_start (actuallength - data_start - 2);;
  s <- cstr m;;
  tmpfile <- fits 256 (dec_nat (mp_tid e) ++ L "-" ++ s);;
  tmpfilepath <- fits (len FILE_DOWNLOAD_TMP_DIR + 264) (FILE_DOWNLOAD_TMP_DIR ++ L "/" ++ tmpfile);;
  '(f2, ms') <- write_file_t f1 tmpfilepath tmpdata data_start (actuallength - data_start - 2);;
  t <- strcat tmpfields (field ++ L "=" ++ orig ++ L "&tmpfile=" ++ tmpfile);;
  Ok (t, f2, m1 :: m2 :: ms ++ ms').

(** part_parse - /repo/ws.c:165-210 *)
Definition part_parse_t (e : mpenv) (ip : str) (f : fs) (tmpfields tmpdata : buf) (length : Z)
  : outcome (buf * fs * list note) :=
  n <- strlen tmpdata;;
  start <- text_find_after tmpdata FORM_DATA_NAME 0 n;;
  if start <? 1 then Ok (tmpfields, f, [(LOG_WARN, L "IP:" ++ ip ++ L " Multipart error: Form-data not found ")]) (* 172 *)
  else
  m <- strlen (from tmpdata start);;
  if m <=? 0 then Ok (tmpfields, f, []) else
  let bytes := length - start in
  f0 <- memcpy (calloc (length + 1)) 0 tmpdata start bytes;;
  f1 <- wr f0 bytes NUL;;
  f2 <- chop_string f1;;
  field <- cstr f2;;
  data_start <- text_find_after tmpdata (CRLF ++ CRLF) 0 length;;
  tl <- strlen tmpfields;;
  tf <- (if 0 <? tl then strcat tmpfields (L "&") else Ok tmpfields);;
  start_file <- text_find_after tmpdata FILENAME 0 n;;
  if 0 <? data_start then
    if 0 <? start_file then save_tmp_file_t e f tf field start_file tmpdata data_start length
    else
      v <- memcpy (calloc (length + 1)) 0 tmpdata data_start (length - data_start - 2);;
      value <- cstr v;;
      t <- strcat tf (field ++ L "=" ++ value);;
      Ok (t, f, [])
  else Ok (tf, f, []).

(** multipart_parse - /repo/ws.c:244-277 *)
Fixpoint multipart_loop_t (fuel : nat) (e : mpenv) (ip : str) (f : fs) (form tmppart tmpfields : buf)
  (boundary : str) (content_length ptr : Z) : outcome (buf * fs * list note) :=
  if ptr <? content_length then
    part_start <- text_find_after form boundary ptr content_length;;
    if part_start <? 0 then Ok (tmpfields, f, []) else
    part_end <- text_find_after form boundary part_start content_length;;
    if part_end <? 0 then Ok (tmpfields, f, []) else
    let tmppart_len := to_int (part_end - part_start - len boundary) in
    tp <- memcpy tmppart 0 form part_start tmppart_len;;
    '(tf, f', ms) <- part_parse_t e ip f tmpfields tp tmppart_len;;
    tp' <- trim tp;;
    match fuel with
    | O => UB OutOfFuel
    | S k => '(tf', f'', ms') <- multipart_loop_t k e ip f' form tp' tf boundary content_length (part_start + 1);;
             Ok (tf', f'', ms ++ ms')
    end
  else Ok (tmpfields, f, []).

Definition multipart_parse_t (e : mpenv) (ip : str) (f : fs) (form : buf) (boundary : str) (content_length : Z)
  : outcome (buf * fs * list note) :=
  '(tmpfields, f', ms) <- multipart_loop_t (Z.to_nat content_length) e ip f form
      (calloc (content_length + 1)) (calloc (content_length + 1)) boundary content_length 0;;
  s <- cstr tmpfields;;
  form' <- strcpy form 0 s;;
  Ok (form', f', ms).

(** ** Routing *)

(** router_handle_request - /repo/router.c:113-173; router_extract_param - 81-90 (message of line
    83); reject_routing_request - 175-179 (177). *)
Fixpoint route_loop_t (t : router) (matcher : str) (r : api_request)
  : outcome (api_request * option nat * option nat * list note) :=
  match t with
  | [] => Ok (r, None, None, [])
  | rt :: t' =>
    if negb (rt_live rt) then UB UseAfterFree else
    let eq := str_eqb (rt_prefix rt) matcher in
    match rt_type rt with
    | MATCHER_TYPE_CONSTANT =>
      if eq then Ok (r, rt_handler rt, rt_filter rt, []) else route_loop_t t' matcher r
    | MATCHER_TYPE_PARAM =>
      match strstr matcher (rt_prefix rt), eq with
      | Some _, false =>
        let ms := [(LOG_DEBUG, L "router_extract_param(path=" ++ matcher ++ L ",prefix=" ++ rt_prefix rt ++ L ",param=" ++ rt_param rt ++ L ")")] in
        qs <- router_extract_param matcher (rt_prefix rt) (rt_param rt);;
        n <- strlen (r_form r);;
        form <- (if n =? 0 then Ok (cs qs) else strcat (r_form r) (L "&" ++ qs));;
        Ok (set_form r form, rt_handler rt, rt_filter rt, ms)
      | _, _ => route_loop_t t' matcher r
      end
    end
  end.

Definition router_handle_request_t (a : callbacks) (t : router) (r : api_request)
  : outcome (list call * api_request * list note) :=
  let m1 := (LOG_DEBUG, L "Router handle request " ++ r_method r ++ L ":" ++ r_path r) in                 (* 115 *)
  matcher <- fits 255 (r_method r ++ L ":" ++ r_path r);;
  '(r1, handler, filter, ms) <- route_loop_t t matcher r;;
  match handler with
  | None =>
    let m2 := (LOG_DEBUG, L "Unable to find matching route for method " ++ r_method r1 ++ L " and path " ++ r_path r1) in (* 159 *)
    let m3 := (LOG_DEBUG, L "IP:" ++ r_ip r1 ++ L " Ignored API URL: " ++ r_url r1) in                    (* 177 *)
    r2 <- reject_routing_request r1;; Ok ([], r2, m1 :: ms ++ [m2; m3])
  | Some h =>
    match filter with
    | None => Ok ([CallHandler h], on_handler a h r1, m1 :: ms)
    | Some f =>
      let '(r2, pass) := on_filter a f r1 in
      if pass : bool then Ok ([CallFilter f; CallHandler h], on_handler a h r2, m1 :: ms)
      else Ok ([CallFilter f], r2, m1 :: ms)
    end
  end.

(** handle_api_request - /repo/ws.c:279-311 *)
Definition handle_api_request_t (v : wsenv) (f : fs) (s : str) (r : api_request)
  (content_length : Z) (boundary : str) : outcome (list call * api_request * fs * list note) :=
  session <- cstr (r_session r);;
  let m1 := (LOG_DEBUG, L "IP:" ++ r_ip r ++ L ", URL:" ++ r_url r ++ L ", METHOD:" ++ r_method r ++ L ", PATH:" ++ r_path r
                        ++ L ", SESSION:" ++ session ++ L " ") in                                         (* 285 *)
  let m2 := match r_query r with
            | [] => []
            | q => [(LOG_DEBUG, L "IP: " ++ r_ip r ++ L " PARAMETERS: " ++ q)]                            (* 287 *)
            end in
  '(r1, f1, ms) <-
    (if 0 <? content_length then
       let body := fst (read_body (Z.to_nat content_length) s NUL) in
       let form := map Some body ++ [Some NUL] in
       if 2 <=? len boundary then
         '(form', f', ms) <- multipart_parse_t (v_mp v) (r_ip r) f form boundary content_length;;
         Ok (set_form r form', f', ms)
       else Ok (set_form r form, f, [])
     else Ok (r, f, []));;
  '(calls, r2, ms') <- router_handle_request_t (v_app v) (v_routes v) r1;;
  Ok (calls, r2, f1, m1 :: m2 ++ ms ++ ms').

(** ** accept_request - /repo/ws.c:463-656 *)

(** Lines 563-575. *)
Definition store_header_t (b : buf) (hs : list header) : outcome (list header * list note) :=
  if len hs <? HTTP_MAX_HEADERS then
    nv <- split_once b (L ":");;
    match nv with
    | e0 :: e1 :: _ =>
      s0 <- cstr e0;;
      s1 <- cstr e1;;
      let m := (LOG_TRACE, L "Found header: " ++ s0 ++ L ", " ++ s1) in                                   (* 568 *)
      name <- strncpy (calloc HTTP_MAX_HEADER_NAME) e0 HTTP_MAX_HEADER_NAME;;
      e1' <- trim e1;;
      value <- strncpy (calloc HTTP_MAX_HEADER_VALUE) e1' HTTP_MAX_HEADER_VALUE;;
      Ok (hs ++ [mkHeader name value], [m])
    | _ => Ok (hs, [])
    end
  else Ok (hs, []).

(** One header line, and the loop of lines 560-620. *)
Definition header_line_t (h : hstate) : outcome (hstate * list note) :=
  let b := hs_buf h in
  '(hs, ms) <- store_header_t b (hs_headers h);;
  ct <- take_content_type b (hs_content_type h);;
  bd <- take_boundary b (hs_boundary h);;
  cl <- take_length b (hs_length h);;
  '(ip, b1) <- take_ip b (hs_ip h);;
  s1 <- take_session b1 (hs_session h);;
  s2 <- take_cookie b1 s1;;
  Ok (mkH b1 (hs_stream h) hs ct bd cl ip s2, ms).

Fixpoint header_loop_t (fuel : nat) (n : Z) (h : hstate) : outcome (hstate * list note) :=
  if 0 <? n then
    e1 <- strcmp_eq (cs [LF]) (hs_buf h);;
    if e1 : bool then Ok (h, []) else
    e2 <- strcmp_eq (cs CRLF) (hs_buf h);;
    if e2 : bool then Ok (h, []) else
    '(h1, ms) <- header_line_t h;;
    '(n', b', s') <- get_line (hs_stream h1) (hs_buf h1) 1024;;
    match fuel with
    | O => UB OutOfFuel
    | S k => '(h2, ms') <- header_loop_t k n' (mkH b' s' (hs_headers h1) (hs_content_type h1) (hs_boundary h1)
                                 (hs_length h1) (hs_ip h1) (hs_session h1));;
             Ok (h2, ms ++ ms')
    end
  else Ok (h, []).

Definition accept_request_t (v : wsenv) (f : fs) (t : table) (socket : Z) (peer stream : str)
  : outcome (result * list note) :=
  r0 <- new_request socket peer;;
  '(_, b, s1) <- get_line stream (calloc 1024) 1024;;
  line <- cstr b;;
  let m0 := (LOG_TRACE, L "IP: " ++ r_ip r0 ++ L ", Request: " ++ line) in                                (* 496 *)
  '(rl, method, j) <- parse_request_line b;;
  let r1 := set_method (set_request_line r0 rl) method in
  ok_method <- startswithany (cs method) ALLOWED_HTTP_METHODS;;
  if negb ok_method then
    r2 <- bad_request r1;; Ok (finish TBadMethod r2 t f, [m0])
  else
  url <- parse_url b j;;
  let r2 := set_url r1 url in
  '(admitted, t1, ms1) <- connection_add_t (v_limits v) t socket (r_ip r2) url;;
  if negb admitted then
    r3 <- too_many_connections r2;; Ok (finish TTooMany r3 t1 f, m0 :: ms1)
  else
  b1 <- write_at b 0 [Some "A"%char; Some NUL];;
  '(n, b2, s2) <- get_line s1 b1 1024;;
  '(h, ms2) <- header_loop_t (length s1) n
         (mkH b2 s2 [] None [] (-1) (r_ip r2) (calloc MAX_SESSION));;
  let r3 := set_session (set_ip (set_content_type (set_headers r2 (hs_headers h))
              (hs_content_type h)) (hs_ip h)) (hs_session h) in
  '(path, query) <- get_path_and_query_string url;;
  let r4 := set_query r3 query in
  api <- startswith (cs url) API_MOUNT;;
  if negb api then
    let r5 := set_path r4 path in
    if str_caseeqb method (L "GET") then
      '(r6, ms3) <- handle_static_routes_t v f r5;; Ok (finish TStatic r6 t1 f, m0 :: ms1 ++ ms2 ++ ms3)
    else
      r6 <- bad_request r5;; Ok (finish TNotGet r6 t1 f, m0 :: ms1 ++ ms2)
  else
    p <- cstr (from (cs path) (len API_MOUNT));;
    let r5 := set_path r4 p in
    '(calls, r6, f', ms3) <- handle_api_request_t v f (hs_stream h) r5 (hs_length h) (hs_boundary h);;
    Ok (finish (TApi calls) r6 t1 f', m0 :: ms1 ++ ms2 ++ ms3).

(** ** http_log_headers - /repo/http_utils.c:508-518, for the application to call.  Returns the
    state of the logger. *)
Fixpoint log_header_lines (s : logstate) (hs : list header) : outcome logstate :=
  match hs with
  | [] => Ok s
  | h :: t =>
    name <- cstr (h_name h);;
    value <- cstr (h_value h);;
    s' <- logger s LOG_DEBUG (L "HEADER: " ++ name ++ L ", VALUE: " ++ value);;
    log_header_lines s' t
  end.
Definition http_log_headers (s : logstate) (r : api_request) : outcome logstate :=
  if log_level_is_enabled s LOG_DEBUG then
    s' <- logger s LOG_DEBUG (L "Found " ++ dec (len (r_headers r)) ++ L " headers");;
    log_header_lines s' (r_headers r)
  else Ok s.

(** WsRequest.v - model of request reading and dispatch in /repo/ws.c. *)
From Verif Require Export Router ConfParser WsConn WsMultipart.

(** The peer's input is the list of bytes still to come; after it every read reports end
    of input (so does a failed TLS handshake, with no bytes at all).  Reads that block
    forever are not modelled. *)

(** ** get_line - /repo/ws.c:90-114 (http_read_char - http_utils.c:45-57).
    Returns the count, the buffer and the rest of the stream. *)
Fixpoint get_line_loop (s : str) (b : buf) (i size : Z) : outcome (Z * buf * str) :=
  if i <? size - 1 then
    match s with
    | [] => Ok (i, b, [])
    | c :: t =>
      b' <- wr b i c;;
      if ceq c LF then Ok (i + 1, b', t) else get_line_loop t b' (i + 1) size
    end
  else Ok (i, b, s).

Definition get_line (s : str) (b : buf) (size : Z) : outcome (Z * buf * str) :=
  '(i, b', s') <- get_line_loop s b 0 size;;
  b'' <- wr b' i NUL;;
  Ok (i, b'', s').

(** ** Globals and environment of the request handler *)
Record wsenv := mkEnv {
  v_app : callbacks;              (* application callbacks *)
  v_routes : router;          (* routing table *)
  v_limits : list limit;      (* limit rules *)
  v_static_root : str;        (* WAYUU_STATIC_ROOT, ws.c:47 *)
  v_index : str;              (* WWW_INDEX, ws.c:45 *)
  v_favicon : str;            (* FAVICON_URL, ws.c:44 *)
  v_mp : mpenv;
  v_stk : buf }.              (* what the stack holds where char path[1024] of ws.c:316 is *)

(** ** handle_static_routes - /repo/ws.c:313-350 *)
Definition handle_static_routes (v : wsenv) (f : fs) (r : api_request) : outcome api_request :=
  pathlen <- strlen (v_stk v);;                                             (* 317 *)
  p <- (if str_eqb (r_path r) (L "/") || str_eqb (r_path r) (L "/index.html")
        then Ok (v_index v)
        else if str_eqb (r_path r) (L "/favicon.ico") then Ok (v_favicon v)
        else
          c <- rd (v_stk v) (pathlen - 1);;                                 (* 333 *)
          if ceq c "/" then fits 1024 (r_path r ++ L "index.html") else Ok (r_path r));;
  let r1 := set_path r p in
  file <- fits 1024 (v_static_root v ++ L "/" ++ p);;                       (* 341 *)
  '(st, r2) <- direct_file f r1 file;;
  if st <? 0 then
    file' <- fits 1024 (v_static_root v ++ L "/" ++ v_index v);;            (* 347 *)
    '(_, r3) <- direct_file f r2 file';;
    Ok r3
  else Ok r2.

(** ** handle_api_request - /repo/ws.c:279-311 *)

(** Lines 295-300: [k] bytes to read; at end of input the previous byte is stored
    again. *)
Fixpoint read_body (k : nat) (s : str) (c : ascii) : str * str :=
  match k with
  | O => ([], s)
  | S k' =>
    match s with
    | [] => let '(l, r) := read_body k' [] c in (c :: l, r)
    | x :: t => let '(l, r) := read_body k' t x in (x :: l, r)
    end
  end.

(** Returns the calls made to the application, the request and the file system. *)
Definition handle_api_request (v : wsenv) (f : fs) (s : str) (r : api_request)
  (content_length : Z) (boundary : str) : outcome (list call * api_request * fs) :=
  '(r1, f1) <-
    (if 0 <? content_length then
       let body := fst (read_body (Z.to_nat content_length) s NUL) in
       let form := map Some body ++ [Some NUL] in                           (* 292-300 *)
       if 2 <=? len boundary then
         '(form', f') <- multipart_parse (v_mp v) f form boundary content_length;;
         Ok (set_form r form', f')
       else Ok (set_form r form, f)
     else Ok (r, f));;
  '(calls, r2) <- router_handle_request (v_app v) (v_routes v) r1;;
  Ok (calls, r2, f1).

(** ** accept_request - /repo/ws.c:463-656 *)

(** /repo/ws.c:53,56 *)
Definition COOKIE_HEADERS : list cptr := [Some (L "X-Session:"); Some (L "Authorization:"); Some []].
Definition ALLOWED_HTTP_METHODS : list cptr :=
  [Some (L "GET"); Some (L "POST"); Some (L "PUT"); Some (L "DELETE"); None].
(** /repo/ws.h:61,67 *)
Definition API_MOUNT : str := L "/api".
Definition MAX_SESSION : Z := 64.

(** Lines 503-510: copy up to a blank, at most [k] bytes.  Returns the bytes and j. *)
Fixpoint word_scan (k : nat) (b : buf) (j : Z) : outcome (str * Z) :=
  c <- rd b j;;
  if isspace c then Ok ([], j)
  else match k with
       | O => Ok ([], j)
       | S k' => '(l, j') <- word_scan k' b (j + 1);; Ok (c :: l, j')
       end.

(** Lines 525-529: skip blanks; buf[j] is read before j is compared with the size. *)
Fixpoint skip_space (fuel : nat) (b : buf) (j : Z) : outcome Z :=
  c <- rd b j;;
  if isspace c && (j <? 1024) then
    match fuel with O => UB OutOfFuel | S k => skip_space k b (j + 1) end
  else Ok j.

(** Lines 531-536, with the additional test on j. *)
Fixpoint url_scan (k : nat) (b : buf) (j : Z) : outcome str :=
  c <- rd b j;;
  if isspace c then Ok []
  else match k with
       | O => Ok []
       | S k' => if j <? 1024 then l <- url_scan k' b (j + 1);; Ok (c :: l) else Ok []
       end.

(** What the header loop of lines 560-620 works on. *)
Record hstate := mkH {
  hs_buf : buf; hs_stream : str; hs_headers : list header; hs_content_type : cptr;
  hs_boundary : str; hs_length : Z; hs_ip : str; hs_session : buf }.

(** Lines 563-575: the header table. *)
Definition store_header (b : buf) (hs : list header) : outcome (list header) :=
  if len hs <? HTTP_MAX_HEADERS then
    nv <- split_once b (L ":");;
    match nv with
    | e0 :: e1 :: _ =>
      name <- strncpy (calloc HTTP_MAX_HEADER_NAME) e0 HTTP_MAX_HEADER_NAME;;
      e1' <- trim e1;;
      value <- strncpy (calloc HTTP_MAX_HEADER_VALUE) e1' HTTP_MAX_HEADER_VALUE;;
      Ok (hs ++ [mkHeader name value])
    | _ => Ok hs
    end
  else Ok hs.

(** Lines 576-579. *)
Definition take_content_type (b : buf) (old : cptr) : outcome cptr :=
  m <- startswith b (L "Content-Type:");;
  if m : bool then s <- rtrim (from b 14) ";";; Ok (Some s) else Ok old.

(** Lines 581-589. *)
Definition take_boundary (b : buf) (old : str) : outcome str :=
  m <- startswith b (L "Content-Type: multipart/form-data");;
  if m : bool then
    s <- cstr b;;
    match strcasestr s (L "boundary=") with
    | Some n => d <- fits 100 (L "--" ++ skipn (n + 9) s);; trim_str d
    | None => Ok old
    end
  else Ok old.

(** Lines 592-595. *)
Definition take_length (b : buf) (old : Z) : outcome Z :=
  m <- startswith b (L "Content-Length:");;
  if m : bool then s <- cstr (from b 16);; Ok (atoi s) else Ok old.

(** Lines 598-604: also trims the line buffer. *)
Definition take_ip (b : buf) (old : str) : outcome (str * buf) :=
  m <- startswith b (L "X-Real-IP:");;
  if m : bool then
    b' <- trim b;;
    ip <- strncpy (calloc 26) (from b' 11) 24;;
    s <- cstr ip;;
    Ok (s, b')
  else Ok (old, b).

(** Lines 607-611. *)
Definition take_session (b : buf) (session : buf) : outcome buf :=
  m <- startswithany b COOKIE_HEADERS;;
  if m : bool then s <- strncpy session (from b 10) MAX_SESSION;; trim s else Ok session.

(** Lines 613-617. *)
Definition take_cookie (b : buf) (session : buf) : outcome buf :=
  m <- startswith b (L "Cookie:");;
  if m : bool then
    c <- rd session 0;;
    if ceq c NUL then
      s <- cstr (from b 18);;
      if len s <? MAX_SESSION then strcpy session 0 s else Ok session
    else Ok session
  else Ok session.

(** One header line. *)
Definition header_line (h : hstate) : outcome hstate :=
  let b := hs_buf h in
  hs <- store_header b (hs_headers h);;
  ct <- take_content_type b (hs_content_type h);;
  bd <- take_boundary b (hs_boundary h);;
  cl <- take_length b (hs_length h);;
  '(ip, b1) <- take_ip b (hs_ip h);;
  s1 <- take_session b1 (hs_session h);;
  s2 <- take_cookie b1 s1;;
  Ok (mkH b1 (hs_stream h) hs ct bd cl ip s2).

(** Lines 560-620, entered with the result [n] of get_line. *)
Fixpoint header_loop (fuel : nat) (n : Z) (h : hstate) : outcome hstate :=
  if 0 <? n then
    e1 <- strcmp_eq (cs [LF]) (hs_buf h);;
    if e1 : bool then Ok h else
    e2 <- strcmp_eq (cs CRLF) (hs_buf h);;
    if e2 : bool then Ok h else
    h1 <- header_line h;;
    '(n', b', s') <- get_line (hs_stream h1) (hs_buf h1) 1024;;
    match fuel with
    | O => UB OutOfFuel
    | S k => header_loop k n' (mkH b' s' (hs_headers h1) (hs_content_type h1) (hs_boundary h1)
                                 (hs_length h1) (hs_ip h1) (hs_session h1))
    end
  else Ok h.

(** Which way the request was answered. *)
Inductive route_taken :=
| TBadMethod                     (* 516-522 *)
| TTooMany                       (* 543-549 *)
| TStatic                        (* 638 *)
| TNotGet                        (* 642 *)
| TApi (calls : list call).      (* 651 *)

(** The state of the server after the request. *)
Record result := mkResult {
  o_taken : route_taken; o_req : api_request; o_table : table; o_closed : list Z; o_fs : fs }.

(** connection_close - ws.c:412-421 *)
Definition connection_close (t : table) (closed : list Z) (socket : Z) : table * list Z :=
  (connection_del t socket, closed ++ [socket]).

Definition finish (k : route_taken) (r : api_request) (t : table) (f : fs) : result :=
  let '(t', closed) := connection_close t [] (r_socket r) in mkResult k r t' closed f.

(** api_request_new - ws.c:352-365, and lines 471-478: [peer] is inet_ntoa's text.
    The literals "" are modelled as one-byte objects. *)
Definition new_request (socket : Z) (peer : str) : outcome api_request :=
  ip <- fits 24 peer;;
  Ok (mkReq socket [] None (cs []) [] [] [] [] ip [] (cs []) [] 0 [] []).

(** Lines 498-513 and 525-540: request line, method and URL.  Returns (request_line, method, j). *)
Definition parse_request_line (b : buf) : outcome (str * str * Z) :=
  line <- cstr b;;
  rl <- wr (cs line) (len line - 2) NUL;;                                   (* 498-500 *)
  rls <- cstr rl;;
  '(m, j) <- word_scan 254 b 0;;                                            (* 503-510 *)
  mb <- write_at (malloc 255) 0 (map Some m ++ [Some NUL]);;                (* 511 *)
  method <- cstr mb;;
  Ok (rls, method, j).

Definition parse_url (b : buf) (j : Z) : outcome str :=
  j' <- skip_space 1024 b j;;
  u <- url_scan 254 b j';;
  ub <- write_at (malloc 255) 0 (map Some u ++ [Some NUL]);;                (* 538 *)
  cstr ub.

Definition accept_request (v : wsenv) (f : fs) (t : table) (socket : Z) (peer stream : str)
  : outcome result :=
  r0 <- new_request socket peer;;
  '(_, b, s1) <- get_line stream (calloc 1024) 1024;;                       (* 466, 495 *)
  '(rl, method, j) <- parse_request_line b;;
  let r1 := set_method (set_request_line r0 rl) method in
  ok_method <- startswithany (cs method) ALLOWED_HTTP_METHODS;;
  if negb ok_method then
    r2 <- bad_request r1;; Ok (finish TBadMethod r2 t f)
  else
  url <- parse_url b j;;
  let r2 := set_url r1 url in
  '(admitted, t1) <- connection_add (v_limits v) t socket (r_ip r2) url;;
  if negb admitted then
    r3 <- too_many_connections r2;; Ok (finish TTooMany r3 t1 f)
  else
  b1 <- write_at b 0 [Some "A"%char; Some NUL];;                            (* 555-556 *)
  '(n, b2, s2) <- get_line s1 b1 1024;;
  h <- header_loop (length s1) n
         (mkH b2 s2 [] None [] (-1) (r_ip r2) (calloc MAX_SESSION));;
  let r3 := set_session (set_ip (set_content_type (set_headers r2 (hs_headers h))
              (hs_content_type h)) (hs_ip h)) (hs_session h) in
  '(path, query) <- get_path_and_query_string url;;
  let r4 := set_query r3 query in
  api <- startswith (cs url) API_MOUNT;;
  if negb api then
    let r5 := set_path r4 path in
    if str_caseeqb method (L "GET") then
      r6 <- handle_static_routes v f r5;; Ok (finish TStatic r6 t1 f)
    else
      r6 <- bad_request r5;; Ok (finish TNotGet r6 t1 f)
  else
    p <- cstr (from (cs path) (len API_MOUNT));;                            (* 649 *)
    let r5 := set_path r4 p in
    '(calls, r6, f') <- handle_api_request v f (hs_stream h) r5 (hs_length h) (hs_boundary h);;
    Ok (finish (TApi calls) r6 t1 f').

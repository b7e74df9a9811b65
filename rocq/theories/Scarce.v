(** Scarce.v - accept_request of /repo/ws.c when the C library may refuse any single block the
    request asks for.  Everywhere else in the model (but for Memory.v) allocations succeed.
    Simplifications: a field of the request whose block was refused keeps its text here, but every
    access to it is undefined; a refused block that is used in every continuation is undefined where
    it is asked for; strtok(NULL, ..) without a text before it is undefined.  A form that is NULL is
    an empty block here: any access to it is undefined.  The blocks of the diagnostic log (log.c:43),
    of stdio and of OpenSSL are not modelled, and its debug level is off; the connection is plain. *)
From Verif Require Export WsRequest Memory.

(** The places a block is asked for; [n] counts the header lines of the request. *)
Inductive place :=
| PRequest                          (* ws.c:354, calloc *)
| PPeer                             (* ws.c:474, calloc *)
| PLine                             (* ws.c:498, strdup *)
| PUrl                              (* ws.c:540, strdup *)
| PSession                          (* ws.c:558, calloc *)
| PList (n : nat)                   (* string_utils.c:196, malloc *)
| PName (n : nat)                   (* string_utils.c:197, malloc *)
| PFirst (n : nat)                  (* string_utils.c:67 called from 198, strdup *)
| PSecond (n : nat)                 (* string_utils.c:88 or 91 called from 201, strdup *)
| PValue (n : nat)                  (* string_utils.c:205, malloc *)
| PType (n : nat)                   (* string_utils.c:67 called from ws.c:578, strdup *)
| PRealIp (n : nat)                 (* ws.c:601, calloc *)
| PParts                            (* http_utils.c:453, malloc *)
| PCopy                             (* string_utils.c:173, strdup *)
| PPieces                           (* string_utils.c:175, malloc *)
| PPiece (i : Z)                    (* string_utils.c:180, malloc *)
| PPath                             (* http_utils.c:457, strdup *)
| PQuery                            (* http_utils.c:461, strdup *)
| PQueryText                        (* ws.c:629, strdup *)
| PPathText                         (* ws.c:634, strdup *)
| PNewPath                          (* ws.c:324, 330 or 338, strdup *)
| PMime                             (* http_utils.c:114, malloc *)
| PFile                             (* http_utils.c:187, calloc *)
| PStamp                            (* log.c:56, malloc *)
| PReferer                          (* http_utils.c:526 called from wayuu_log.c:43, strdup *)
| PAgent                            (* http_utils.c:526 called from wayuu_log.c:44, strdup *)
| PApiPath                          (* ws.c:649, strdup *)
| PBody (s : site)                  (* ws.c:178, 201, 247, 248 and 295, see Memory.v *)
| PParamText                        (* router.c:84, strdup *)
| PParam                            (* router.c:86, calloc *)
| PForm                             (* router.c:140, strdup *)
| PAppend.                          (* router.c:145, in asprintf *)

(** Which blocks are given. *)
Definition allocator := place -> bool.
(** The first access to a block. *)
Definition need (ok : allocator) (p : place) : outcome unit := if ok p then Ok tt else UB NullDeref.

(** ** The access log *)
(** http_get_header - /repo/http_utils.c:520-530; the copy is measured at wayuu_log.c:53, 55. *)
Fixpoint get_header_s (ok : allocator) (p : place) (hs : list header) (name : str) : outcome str :=
  match hs with
  | [] => Ok []
  | h :: t =>
    e <- strcmp_eq (h_name h) (cs name);;
    if e : bool then v <- cstr (h_value h);; _ <- need ok p;; Ok v
    else get_header_s ok p t name
  end.
(** log_access - /repo/wayuu_log.c:38-57; strftime (log.c:59) writes the stamp. *)
Definition log_access_s (ok : allocator) (r : api_request) (status : Z) : outcome api_request :=
  _ <- need ok PStamp;;
  referer <- get_header_s ok PReferer (r_headers r) (L "Referer");;
  ua <- get_header_s ok PAgent (r_headers r) (L "User-Agent");;
  Ok (add_log r (mkEntry (r_ip r) (r_request_line r) status (r_response_length r) referer ua)).

(** send_http_status without a message - /repo/http_utils.c:414-444, for bad_request and
    too_many_connections. *)
Definition send_status_s (ok : allocator) (r : api_request) (status : Z) : outcome api_request :=
  let i := find_http_status_index status in
  if i =? -1 then Ok r
  else
    b <- fits 1024 (http_start i ++ WAYUU_HTTP_SERVER_STRING ++ HTTP_CONTENT_LENGTH_ZERO);;
    let r1 := http_print r b in
    let r2 := set_response_length r1 (r_response_length r1 + len b) in
    let r3 := http_print r2 CRLF in
    let r4 := set_response_length r3 (r_response_length r3 + len CRLF) in
    log_access_s ok r4 status.

(** ** Static files *)
(** return_headers - /repo/http_utils.c:87-110. *)
Definition return_headers_s (ok : allocator) (r : api_request) (filename : str) : outcome (Z * api_request) :=
  a <- fits 1024 (HTTP_OK_START ++ WAYUU_HTTP_SERVER_STRING);;
  let len1 := len a in
  let r1 := http_print r a in
  _ <- need ok PMime;;                                                      (* 94 *)
  b <- fits 1024 (a ++ get_content_type filename);;
  let len2 := len1 + len b in
  let r2 := http_print r1 b in
  _ <- need ok PSession;;                                                   (* 100 *)
  sess <- cstr (r_session r2);;
  '(len3, r3) <-
    (if 0 <? len sess then
       c <- fits 1024 (L "X-Session: " ++ sess ++ CRLF ++ L "Set-Cookie:WSSESSION=" ++ sess ++ CRLF);;
       Ok (len2 + len c, http_print r2 c)
     else Ok (len2, r2));;
  Ok (len3 + len CRLF, http_print r3 CRLF).

(** return_file - /repo/http_utils.c:174-199.  Without the block nothing is read (189), and send
    (195) is given a NULL pointer: it fails and sends nothing, and its result is not looked at. *)
Definition return_file_s (ok : allocator) (f : fs) (r : api_request) (path : str) : outcome (Z * api_request) :=
  match f path with
  | Some (File content) =>
    if int_max <? len content then UB BadSize
    else Ok (len content, if ok PFile then http_print r content else r)
  | _ => Ok (0, r)
  end.

(** direct_file - /repo/http_utils.c:203-215.  At most one file is sent per request. *)
Definition direct_file_s (ok : allocator) (f : fs) (r : api_request) (filename : str) : outcome (Z * api_request) :=
  if negb (is_file f filename) then Ok (-1, r)
  else
    '(l1, r1) <- return_headers_s ok r filename;;
    '(l2, r2) <- return_file_s ok f r1 filename;;
    l <- int_add l1 l2;;
    let r3 := set_response_length r2 l in
    r4 <- log_access_s ok r3 200;;
    Ok (0, r4).

(** handle_static_routes - /repo/ws.c:313-350. *)
Definition handle_static_routes_s (ok : allocator) (v : wsenv) (f : fs) (r : api_request) : outcome api_request :=
  pathlen <- strlen (v_stk v);;
  _ <- need ok PPathText;;                                                  (* 321 *)
  p <- (if str_eqb (r_path r) (L "/") || str_eqb (r_path r) (L "/index.html")
        then _ <- need ok PNewPath;; Ok (v_index v)
        else if str_eqb (r_path r) (L "/favicon.ico") then _ <- need ok PNewPath;; Ok (v_favicon v)
        else
          c <- rd (v_stk v) (pathlen - 1);;
          if ceq c "/" then s <- fits 1024 (r_path r ++ L "index.html");; _ <- need ok PNewPath;; Ok s
          else Ok (r_path r));;
  let r1 := set_path r p in
  file <- fits 1024 (v_static_root v ++ L "/" ++ p);;
  '(st, r2) <- direct_file_s ok f r1 file;;
  if st <? 0 then
    file' <- fits 1024 (v_static_root v ++ L "/" ++ v_index v);;
    '(_, r3) <- direct_file_s ok f r2 file';;
    Ok r3
  else Ok r2.

(** ** Header lines *)
(** split_once - /repo/string_utils.c:193-217. *)
Definition split_once_s (ok : allocator) (n : nat) (src : buf) : outcome (list buf) :=
  _ <- need ok (PList n);;
  first <- rtrim src ":";;
  _ <- need ok (PFirst n);;
  first' <- (b <- trim (cs first);; cstr b);;
  _ <- need ok (PName n);;
  e0 <- split_entry first';;
  second <- ltrim src ":";;
  _ <- need ok (PSecond n);;
  whole <- cstr src;;
  if len second <? len whole then
    second' <- (b <- trim (cs second);; cstr b);;
    _ <- need ok (PValue n);;
    e1 <- split_entry second';;
    Ok [e0; e1]
  else Ok [e0].

(** /repo/ws.c:563-575. *)
Definition store_header_s (ok : allocator) (n : nat) (b : buf) (hs : list header) : outcome (list header) :=
  if len hs <? HTTP_MAX_HEADERS then
    nv <- split_once_s ok n b;;
    match nv with
    | e0 :: e1 :: _ =>
      name <- strncpy (calloc HTTP_MAX_HEADER_NAME) e0 HTTP_MAX_HEADER_NAME;;
      e1' <- trim e1;;
      value <- strncpy (calloc HTTP_MAX_HEADER_VALUE) e1' HTTP_MAX_HEADER_VALUE;;
      Ok (hs ++ [mkHeader name value])
    | _ => Ok hs
    end
  else Ok hs.

(** /repo/ws.c:576-579. *)
Definition take_content_type_s (ok : allocator) (n : nat) (b : buf) (old : cptr) : outcome cptr :=
  m <- startswith b (L "Content-Type:");;
  if m : bool then s <- rtrim (from b 14) ";";; _ <- need ok (PType n);; Ok (Some s) else Ok old.

(** /repo/ws.c:598-604. *)
Definition take_ip_s (ok : allocator) (n : nat) (b : buf) (old : str) : outcome (str * buf) :=
  m <- startswith b (L "X-Real-IP:");;
  if m : bool then
    b' <- trim b;;
    _ <- need ok (PRealIp n);;
    ip <- strncpy (calloc 26) (from b' 11) 24;;
    s <- cstr ip;;
    Ok (s, b')
  else Ok (old, b).

(** /repo/ws.c:607-611. *)
Definition take_session_s (ok : allocator) (b : buf) (session : buf) : outcome buf :=
  m <- startswithany b COOKIE_HEADERS;;
  if m : bool then _ <- need ok PSession;; s <- strncpy session (from b 10) MAX_SESSION;; trim s else Ok session.

(** /repo/ws.c:613-617. *)
Definition take_cookie_s (ok : allocator) (b : buf) (session : buf) : outcome buf :=
  m <- startswith b (L "Cookie:");;
  if m : bool then
    _ <- need ok PSession;;
    c <- rd session 0;;
    if ceq c NUL then
      s <- cstr (from b 18);;
      if len s <? MAX_SESSION then strcpy session 0 s else Ok session
    else Ok session
  else Ok session.

Definition header_line_s (ok : allocator) (n : nat) (h : hstate) : outcome hstate :=
  let b := hs_buf h in
  hs <- store_header_s ok n b (hs_headers h);;
  ct <- take_content_type_s ok n b (hs_content_type h);;
  bd <- take_boundary b (hs_boundary h);;
  cl <- take_length b (hs_length h);;
  '(ip, b1) <- take_ip_s ok n b (hs_ip h);;
  s1 <- take_session_s ok b1 (hs_session h);;
  s2 <- take_cookie_s ok b1 s1;;
  Ok (mkH b1 (hs_stream h) hs ct bd cl ip s2).

(** /repo/ws.c:560-620; [n] lines have been taken. *)
Fixpoint header_loop_s (ok : allocator) (fuel : nat) (n : nat) (numchars : Z) (h : hstate) : outcome hstate :=
  if 0 <? numchars then
    e1 <- strcmp_eq (cs [LF]) (hs_buf h);;
    if e1 : bool then Ok h else
    e2 <- strcmp_eq (cs CRLF) (hs_buf h);;
    if e2 : bool then Ok h else
    h1 <- header_line_s ok n h;;
    '(n', b', s') <- get_line (hs_stream h1) (hs_buf h1) 1024;;
    match fuel with
    | O => UB OutOfFuel
    | S k => header_loop_s ok k (S n) n' (mkH b' s' (hs_headers h1) (hs_content_type h1) (hs_boundary h1)
                                            (hs_length h1) (hs_ip h1) (hs_session h1))
    end
  else Ok h.

(** ** The URL *)
(** split - /repo/string_utils.c:171-191. *)
Fixpoint split_loop_s (ok : allocator) (fuel : nat) (n : Z) (delim : str) (rest : str) : outcome (list buf) :=
  match strtok delim rest with
  | None => Ok []
  | Some (tok, rest') =>
    match fuel with
    | O => UB OutOfFuel
    | S f =>
      if MAX_SPLIT_STR <=? n then UB ArrayIndex else
      _ <- need ok (PPiece n);;
      e <- split_entry tok;;
      l <- split_loop_s ok f (n + 1) delim rest';;
      Ok (e :: l)
    end
  end.

(** get_path_and_query_string - /repo/http_utils.c:450-470.  The two copies are read at ws.c:629 and
    at 634 or 649. *)
Definition get_path_and_query_s (ok : allocator) (url : str) : outcome (str * str) :=
  _ <- need ok PParts;;
  _ <- need ok PCopy;;
  _ <- need ok PPieces;;
  l <- split_loop_s ok (length url) 0 (L "?") url;;
  match l with
  | [] => UB UninitRead
  | p :: t =>
    path <- cstr p;;
    _ <- need ok PPath;;
    match t with
    | [] => Ok (path, [])
    | q :: _ => query <- cstr q;; _ <- need ok PQuery;; Ok (path, query)
    end
  end.

(** connection_add - /repo/ws.c:438-456.  A NULL path is compared with the path of the first rule
    (391) or copied to the first free slot (448). *)
Definition connection_add_s (ok : allocator) (rules : list limit) (t : table) (socket : Z) (ip path : str)
  : outcome (bool * table) :=
  if ok PUrl then connection_add rules t socket ip path
  else if match rules with r :: _ => match l_path r with [] => false | _ => true end | [] => false end
  then UB NullDeref
  else if existsb (fun c => c_socket c =? 0) t then UB NullDeref
  else Ok (false, t).

(** ** The API *)
(** The loop of router_handle_request - /repo/router.c:125-154.  asprintf (145) without memory leaves
    its pointer unset. *)
Fixpoint route_loop_s (ok : allocator) (t : router) (matcher : str) (r : api_request)
  : outcome (api_request * option nat * option nat) :=
  match t with
  | [] => Ok (r, None, None)
  | rt :: t' =>
    if negb (rt_live rt) then UB UseAfterFree else
    let eq := str_eqb (rt_prefix rt) matcher in
    match rt_type rt with
    | MATCHER_TYPE_CONSTANT =>
      if eq then Ok (r, rt_handler rt, rt_filter rt) else route_loop_s ok t' matcher r
    | MATCHER_TYPE_PARAM =>
      match strstr matcher (rt_prefix rt), eq with
      | Some _, false =>
        _ <- need ok PParamText;;
        _ <- need ok PParam;;
        qs <- router_extract_param matcher (rt_prefix rt) (rt_param rt);;
        n <- strlen (r_form r);;
        form <- (if n =? 0 then Ok (if ok PForm then cs qs else [])
                 else _ <- need ok PAppend;; strcat (r_form r) (L "&" ++ qs));;
        Ok (set_form r form, rt_handler rt, rt_filter rt)
      | _, _ => route_loop_s ok t' matcher r
      end
    end
  end.
(** router_handle_request - /repo/router.c:113-173. *)
Definition router_handle_request_s (ok : allocator) (a : callbacks) (t : router) (r : api_request)
  : outcome (list call * api_request) :=
  matcher <- fits 255 (r_method r ++ L ":" ++ r_path r);;
  '(r1, handler, filter) <- route_loop_s ok t matcher r;;
  match handler with
  | None => r2 <- send_status_s ok r1 400;; Ok ([], r2)
  | Some h =>
    match filter with
    | None => Ok ([CallHandler h], on_handler a h r1)
    | Some f =>
      let '(r2, pass) := on_filter a f r1 in
      if pass : bool then Ok ([CallFilter f; CallHandler h], on_handler a h r2)
      else Ok ([CallFilter f], r2)
    end
  end.
(** handle_api_request - /repo/ws.c:279-311. *)
Definition handle_api_request_s (ok : allocator) (v : wsenv) (f : fs) (s : str) (r : api_request)
  (content_length : Z) (boundary : str) : outcome (list call * api_request * fs) :=
  '(r1, f1) <-
    (if 0 <? content_length then
       _ <- need ok (PBody Form);;                                          (* 295 *)
       let body := fst (read_body (Z.to_nat content_length) s NUL) in
       let form := map Some body ++ [Some NUL] in
       if 2 <=? len boundary then
         '(form', f') <- multipart_parse_a (fun x _ => ok (PBody x)) (v_mp v) f form boundary content_length;;
         Ok (set_form r form', f')
       else Ok (set_form r form, f)
     else Ok (r, f));;
  '(calls, r2) <- router_handle_request_s ok (v_app v) (v_routes v) r1;;
  Ok (calls, r2, f1).

(** ** accept_request - /repo/ws.c:463-656.  The query text (629) is not used by the library, the path
    text (634) not by bad_request. *)
Definition accept_scarce (ok : allocator) (v : wsenv) (f : fs) (t : table) (socket : Z) (peer stream : str)
  : outcome result :=
  _ <- need ok PRequest;;
  _ <- need ok PPeer;;
  r0 <- new_request socket peer;;
  '(_, b, s1) <- get_line stream (calloc 1024) 1024;;
  _ <- need ok PLine;;
  '(rl, method, j) <- parse_request_line b;;
  let r1 := set_method (set_request_line r0 rl) method in
  ok_method <- startswithany (cs method) ALLOWED_HTTP_METHODS;;
  if negb ok_method then
    r2 <- send_status_s ok r1 400;; Ok (finish TBadMethod r2 t f)
  else
  url <- parse_url b j;;
  let r2 := set_url r1 url in
  '(admitted, t1) <- connection_add_s ok (v_limits v) t socket (r_ip r2) url;;
  if negb admitted then
    r3 <- send_status_s ok r2 429;; Ok (finish TTooMany r3 t1 f)
  else
  b1 <- write_at b 0 [Some "A"%char; Some NUL];;
  '(n, b2, s2) <- get_line s1 b1 1024;;
  h <- header_loop_s ok (length s1) 0 n
         (mkH b2 s2 [] None [] (-1) (r_ip r2) (calloc MAX_SESSION));;
  let r3 := set_session (set_ip (set_content_type (set_headers r2 (hs_headers h))
              (hs_content_type h)) (hs_ip h)) (hs_session h) in
  '(path, query) <- get_path_and_query_s ok url;;
  let r4 := set_query r3 query in
  api <- startswith (cs url) API_MOUNT;;
  if negb api then
    let r5 := set_path r4 path in
    if str_caseeqb method (L "GET") then
      r6 <- handle_static_routes_s ok v f r5;; Ok (finish TStatic r6 t1 f)
    else
      r6 <- send_status_s ok r5 400;; Ok (finish TNotGet r6 t1 f)
  else
    p <- cstr (from (cs path) (len API_MOUNT));;
    _ <- need ok PApiPath;;                                                 (* 649 *)
    let r5 := set_path r4 p in
    '(calls, r6, f') <- handle_api_request_s ok v f (hs_stream h) r5 (hs_length h) (hs_boundary h);;
    Ok (finish (TApi calls) r6 t1 f').

(** ReqHeap.v - which heap blocks the handling of one connection allocates and frees
    (/repo/ws.c, http_utils.c, router.c, string_utils.c, wayuu_log.c).

    The values are those of WsRequest.v; here the same functions are followed once more with
    the heap of ConfHeap.v.  A block is its identity and, where a later test looks at it, the C
    string in it.  Left out are blocks that are allocated and freed by the same call on every path
    through it: the time stamp of __logger (log.c:75-87), the blocks of multipart_parse
    (ws.c:247-276), part_parse and md5sum, and what OpenSSL and stdio allocate. *)
From Verif Require Export WsRequest ConfHeap.

(** ** string_utils.c *)
(** str_list_t - /repo/string_utils.h: the struct's own block and its strings. *)
Record hlist := mkHL { l_self : ptr; l_strings : list ptr }.

(** Lines 178-186: one block for each token. *)
Fixpoint halloc_all (h : heap) (l : list buf) : heap * list ptr :=
  match l with
  | [] => (h, [])
  | _ :: t => let '(h1, p) := halloc h [] in let '(h2, ps) := halloc_all h1 t in (h2, p :: ps)
  end.
(** split - /repo/string_utils.c:171-191; free(token) at line 189 frees NULL. *)
Definition split_h (h : heap) (s delim : str) : outcome (heap * hlist * list buf) :=
  toks <- split s delim;;
  let '(h1, copy) := halloc h s in                                          (* 173 *)
  let '(h2, self) := halloc h1 [] in                                        (* 175 *)
  let '(h3, strings) := halloc_all h2 toks in
  h4 <- hfree h3 PNull;;                                                    (* 189 *)
  h5 <- hfree h4 copy;;                                                     (* 190 *)
  Ok (h5, mkHL self strings, toks).
(** split_once - /repo/string_utils.c:193-217 *)
Definition split_once_h (h : heap) (b : buf) : outcome (heap * hlist * list buf) :=
  nv <- split_once b (L ":");;
  let '(h1, self) := halloc h [] in                                         (* 196 *)
  let '(h2, s0) := halloc h1 [] in                                          (* 197 *)
  let '(h3, first) := halloc h2 [] in                                       (* 198 *)
  let '(h4, second) := halloc h3 [] in                                      (* 201 *)
  let '(h5, more) := halloc_all h4 (tl nv) in                               (* 205 *)
  h6 <- hfree h5 first;;                                                    (* 214-215 *)
  h7 <- hfree h6 second;;
  Ok (h7, mkHL self (s0 :: more), nv).
(** free_str_list_t - /repo/string_utils.c:219-226 *)
Definition free_str_list_h (h : heap) (l : hlist) : outcome heap :=
  h1 <- hfree_all h (l_strings l);; hfree h1 (l_self l).

(** ** http_utils.c and wayuu_log.c *)
(** http_get_header - /repo/http_utils.c:520-530: a copy, or the literal "". *)
Fixpoint get_header_h (h : heap) (hs : list header) (name : str) : outcome (heap * ptr) :=
  match hs with
  | [] => Ok (h, PLit [])
  | x :: t =>
    e <- strcmp_eq (h_name x) (cs name);;
    if e : bool then v <- cstr (h_value x);; Ok (halloc h v) else get_header_h h t name
  end.
(** log_access - /repo/wayuu_log.c:38-57 *)
Definition log_access_h (h : heap) (r : api_request) (status : Z) : outcome (heap * api_request) :=
  let '(h1, ts) := halloc h [] in                                           (* 41, log.c:56 *)
  '(h2, referer) <- get_header_h h1 (r_headers r) (L "Referer");;
  '(h3, ua) <- get_header_h h2 (r_headers r) (L "User-Agent");;
  r' <- log_access r status;;
  h4 <- hfree h3 ts;;                                                       (* 52 *)
  h5 <- free_unless_empty h4 referer;;                                      (* 53-54 *)
  h6 <- free_unless_empty h5 ua;;                                           (* 55-56 *)
  Ok (h6, r').
(** send_http_status - /repo/http_utils.c:414-444 *)
Definition send_http_status_h (h : heap) (r : api_request) (status : Z) (message : str) : outcome (heap * api_request) :=
  r' <- send_http_status r status message;;
  if find_http_status_index status =? -1 then Ok (h, r')
  else '(h1, _) <- log_access_h h r status;; Ok (h1, r').
Definition bad_request_h (h : heap) (r : api_request) := send_http_status_h h r 400 [].
Definition too_many_h (h : heap) (r : api_request) := send_http_status_h h r 429 [].
(** return_headers_with_mime - /repo/http_utils.c:307-319: the content type is not freed. *)
Definition headers_with_mime_h (h : heap) (r : api_request) (status : Z) (mime : str) : outcome (heap * (Z * api_request)) :=
  x <- return_headers_with_mime r status mime;;
  if find_http_status_index status =? -1 then Ok (h, x)
  else let '(h1, _) := halloc h [] in Ok (h1, x).
(** direct_file - /repo/http_utils.c:203-215, with return_headers (87-110) and return_file (174-199) *)
Definition direct_file_h (h : heap) (f : fs) (r : api_request) (name : str) : outcome (heap * (Z * api_request)) :=
  x <- direct_file f r name;;
  if negb (is_file f name) then Ok (h, x)
  else
    let '(h1, ct) := halloc h [] in                                         (* 94 *)
    h2 <- hfree h1 ct;;                                                     (* 96 *)
    h4 <- match f name with
          | Some (File _) => let '(h3, src) := halloc h2 [] in hfree h3 src (* 187, 196 *)
          | _ => Ok h2
          end;;
    '(h5, _) <- log_access_h h4 r 200;;
    Ok (h5, x).
(** get_path_and_query_string - /repo/http_utils.c:450-470 *)
Record hpq := mkPq { pq_self : ptr; pq_path : ptr; pq_query : ptr }.
Definition path_and_query_h (h : heap) (url : str) : outcome (heap * hpq * (str * str)) :=
  '(path, query) <- get_path_and_query_string url;;
  let '(h1, self) := halloc h [] in                                         (* 453 *)
  '(h2, l, toks) <- split_h h1 url (L "?");;
  let '(h3, p) := halloc h2 path in                                         (* 457 *)
  let '(h4, q) := if 1 <? len toks then halloc h3 query else (h3, PLit []) in (* 459-466 *)
  h5 <- free_str_list_h h4 l;;
  Ok (h5, mkPq self p q, (path, query)).
(** free_path_and_query_t - /repo/http_utils.c:472-480 *)
Definition free_pq_h (h : heap) (p : hpq) : outcome heap :=
  h1 <- hfree h (pq_path p);;
  h2 <- free_unless_empty h1 (pq_query p);;
  hfree h2 (pq_self p).

(** ** router.c *)
(** router_extract_param - /repo/router.c:81-90 *)
Definition extract_param_h (h : heap) (path prefix param : str) : outcome (heap * ptr * str) :=
  s <- router_extract_param path prefix param;;
  let '(h1, tmp) := halloc h [] in
  let '(h2, qs) := halloc h1 s in
  h3 <- hfree h2 tmp;; Ok (h3, qs, s).
(** The loop of router_handle_request - /repo/router.c:125-154 *)
Fixpoint route_loop_h (h : heap) (t : router) (matcher : str) (r : api_request)
  : outcome (heap * (api_request * option nat * option nat)) :=
  match t with
  | [] => Ok (h, (r, None, None))
  | rt :: t' =>
    if negb (rt_live rt) then UB UseAfterFree else
    let eq := str_eqb (rt_prefix rt) matcher in
    match rt_type rt with
    | MATCHER_TYPE_CONSTANT =>
      if eq then Ok (h, (r, rt_handler rt, rt_filter rt)) else route_loop_h h t' matcher r
    | MATCHER_TYPE_PARAM =>
      match strstr matcher (rt_prefix rt), eq with
      | Some _, false =>
        '(h1, qs, s) <- extract_param_h h matcher (rt_prefix rt) (rt_param rt);;
        n <- strlen (r_form r);;
        '(h2, form) <- (if n =? 0 then let '(h2, _) := halloc h1 [] in Ok (h2, cs s)       (* 140 *)
                        else
                          let '(h2, param) := halloc h1 [] in                               (* 145 *)
                          form <- strcat (r_form r) (L "&" ++ s);;
                          h3 <- hfree h2 param;; Ok (h3, form));;
        h4 <- hfree h2 qs;;                                                                 (* 149 *)
        Ok (h4, (set_form r form, rt_handler rt, rt_filter rt))
      | _, _ => route_loop_h h t' matcher r
      end
    end
  end.
(** router_handle_request - /repo/router.c:113-173.  [u calls] is what the application's
    callbacks do to the heap. *)
Definition router_h (u : list call -> heap -> outcome heap) (h : heap) (a : callbacks) (t : router) (r : api_request)
  : outcome (heap * (list call * api_request)) :=
  matcher <- fits 255 (r_method r ++ L ":" ++ r_path r);;
  '(h1, (r1, handler, filter)) <- route_loop_h h t matcher r;;
  match handler with
  | None => '(h2, r2) <- bad_request_h h1 r1;; Ok (h2, ([], r2))
  | Some k =>
    match filter with
    | None => h2 <- u [CallHandler k] h1;; Ok (h2, ([CallHandler k], on_handler a k r1))
    | Some f =>
      let '(r2, pass) := on_filter a f r1 in
      if pass : bool then h2 <- u [CallFilter f; CallHandler k] h1;; Ok (h2, ([CallFilter f; CallHandler k], on_handler a k r2))
      else h2 <- u [CallFilter f] h1;; Ok (h2, ([CallFilter f], r2))
    end
  end.

(** ** ws.c *)
(** handle_api_request - /repo/ws.c:279-311 *)
Definition handle_api_h (u : list call -> heap -> outcome heap) (h : heap) (v : wsenv) (f : fs) (s : str) (r : api_request)
  (content_length : Z) (boundary : str) : outcome (heap * (list call * api_request * fs)) :=
  '(h1, (r1, f1)) <-
    (if 0 <? content_length then
       let body := fst (read_body (Z.to_nat content_length) s NUL) in
       let form := map Some body ++ [Some NUL] in
       let '(h1, _) := halloc h [] in                                       (* 295 *)
       if 2 <=? len boundary then
         '(form', f') <- multipart_parse (v_mp v) f form boundary content_length;;
         Ok (h1, (set_form r form', f'))
       else Ok (h1, (set_form r form, f))
     else Ok (h, (r, f)));;
  '(h2, (calls, r2)) <- router_h u h1 (v_app v) (v_routes v) r1;;
  Ok (h2, (calls, r2, f1)).

(** Replacing req->path - /repo/ws.c:323-338 *)
Definition new_path (h : heap) (path : ptr) (p : str) : outcome (heap * str) :=
  h1 <- hfree h path;; let '(h2, _) := halloc h1 p in Ok (h2, p).
(** handle_static_routes - /repo/ws.c:313-350; [path] is req->path. *)
Definition static_h (h : heap) (v : wsenv) (f : fs) (r : api_request) (path : ptr) : outcome (heap * api_request) :=
  pathlen <- strlen (v_stk v);;
  '(h1, p) <- (if str_eqb (r_path r) (L "/") || str_eqb (r_path r) (L "/index.html")
        then new_path h path (v_index v)
        else if str_eqb (r_path r) (L "/favicon.ico") then new_path h path (v_favicon v)
        else
          c <- rd (v_stk v) (pathlen - 1);;
          if ceq c "/" then s <- fits 1024 (r_path r ++ L "index.html");; new_path h path s else Ok (h, r_path r));;
  let r1 := set_path r p in
  file <- fits 1024 (v_static_root v ++ L "/" ++ p);;
  '(h2, (st, r2)) <- direct_file_h h1 f r1 file;;
  if st <? 0 then
    file' <- fits 1024 (v_static_root v ++ L "/" ++ v_index v);;
    '(h3, (_, r3)) <- direct_file_h h2 f r2 file';;
    Ok (h3, r3)
  else Ok (h2, r2).

(** The blocks of one header line - /repo/ws.c:563-604; [ip] is req->IP, whose new value is
    returned. *)
Definition header_line_h (h : heap) (x : hstate) (ip : ptr) : outcome (heap * hstate * ptr) :=
  let b := hs_buf x in
  h1 <- (if len (hs_headers x) <? HTTP_MAX_HEADERS
         then '(h0, l, _) <- split_once_h h b;; free_str_list_h h0 l else Ok h);;
  m <- startswith b (L "Content-Type:");;
  let h2 := if m : bool then fst (halloc h1 []) else h1 in                  (* 578 *)
  m' <- startswith b (L "X-Real-IP:");;
  '(h3, ip') <- (if m' : bool then h3 <- hfree h2 ip;; Ok (halloc h3 []) else Ok (h2, ip));;
  x' <- header_line x;;
  Ok (h3, x', ip').
(** Lines 560-620. *)
Fixpoint header_loop_h (h : heap) (fuel : nat) (n : Z) (x : hstate) (ip : ptr) : outcome (heap * hstate * ptr) :=
  if 0 <? n then
    e1 <- strcmp_eq (cs [LF]) (hs_buf x);;
    if e1 : bool then Ok (h, x, ip) else
    e2 <- strcmp_eq (cs CRLF) (hs_buf x);;
    if e2 : bool then Ok (h, x, ip) else
    '(h1, x1, ip1) <- header_line_h h x ip;;
    '(n', b', s') <- get_line (hs_stream x1) (hs_buf x1) 1024;;
    match fuel with
    | O => UB OutOfFuel
    | S k => header_loop_h h1 k n' (mkH b' s' (hs_headers x1) (hs_content_type x1) (hs_boundary x1)
                                 (hs_length x1) (hs_ip x1) (hs_session x1)) ip1
    end
  else Ok (h, x, ip).

(** accept_request - /repo/ws.c:463-656 *)
Definition accept_request_h (u : list call -> heap -> outcome heap) (h : heap) (v : wsenv) (f : fs) (t : table) (socket : Z) (peer stream : str)
  : outcome (heap * result) :=
  r0 <- new_request socket peer;;
  let '(h1, req) := halloc h [] in                                          (* 354 *)
  let '(h2, ip) := halloc h1 [] in                                          (* 474 *)
  '(_, b, s1) <- get_line stream (calloc 1024) 1024;;
  '(rl, method, j) <- parse_request_line b;;
  let '(h3, _) := halloc h2 [] in                                           (* 498 *)
  let r1 := set_method (set_request_line r0 rl) method in
  ok_method <- startswithany (cs method) ALLOWED_HTTP_METHODS;;
  if negb ok_method then
    '(h4, r2) <- bad_request_h h3 r1;;
    h5 <- hfree h4 req;; Ok (h5, finish TBadMethod r2 t f)                  (* 520 *)
  else
  url <- parse_url b j;;
  let '(h4, _) := halloc h3 [] in                                           (* 540 *)
  let r2 := set_url r1 url in
  '(admitted, t1) <- connection_add (v_limits v) t socket (r_ip r2) url;;
  if negb admitted then
    '(h5, r3) <- too_many_h h4 r2;;
    h6 <- hfree h5 req;; Ok (h6, finish TTooMany r3 t1 f)                   (* 547 *)
  else
  b1 <- write_at b 0 [Some "A"%char; Some NUL];;
  '(n, b2, s2) <- get_line s1 b1 1024;;
  let '(h5, _) := halloc h4 [] in                                           (* 558 *)
  '(h6, x, ip') <- header_loop_h h5 (length s1) n
         (mkH b2 s2 [] None [] (-1) (r_ip r2) (calloc MAX_SESSION)) ip;;
  let r3 := set_session (set_ip (set_content_type (set_headers r2 (hs_headers x))
              (hs_content_type x)) (hs_ip x)) (hs_session x) in
  '(h7, pq, (path, query)) <- path_and_query_h h6 url;;
  let '(h8, _) := halloc h7 [] in                                           (* 629 *)
  let r4 := set_query r3 query in
  api <- startswith (cs url) API_MOUNT;;
  '(h9, res) <-
    (if negb api then
      let r5 := set_path r4 path in
      let '(h9, p) := halloc h8 path in                                     (* 634 *)
      if str_caseeqb method (L "GET") then
        '(ha, r6) <- static_h h9 v f r5 p;; Ok (ha, finish TStatic r6 t1 f)
      else
        '(ha, r6) <- bad_request_h h9 r5;; Ok (ha, finish TNotGet r6 t1 f)
    else
      p <- cstr (from (cs path) (len API_MOUNT));;
      let '(h9, _) := halloc h8 path in                                     (* 649 *)
      let r5 := set_path r4 p in
      '(ha, (calls, r6, f')) <- handle_api_h u h9 v f (hs_stream x) r5 (hs_length x) (hs_boundary x);;
      Ok (ha, finish (TApi calls) r6 t1 f'));;
  ha <- free_pq_h h9 pq;;                                                   (* 653 *)
  hb <- hfree ha req;;                                                      (* 655 *)
  Ok (hb, res).

(** One connection of the accept loop - /repo/ws.c:776-809: the text of the address is not freed;
    the request is handled unless the address is denied or the queue full. *)
Definition accepted_h (u : list call -> heap -> outcome heap) (h : heap) (served : option (wsenv * fs * table * Z)) (peer stream : str) : outcome heap :=
  ip <- fits 16 peer;;
  let '(h1, _) := halloc h ip in                                            (* 780 *)
  match served with
  | None => Ok h1
  | Some (v, f, t, socket) => '(h2, _) <- accept_request_h u h1 v f t socket peer stream;; Ok h2
  end.

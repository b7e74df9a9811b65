(** Reads.v - model of reading a request when single reads fail: get_line, the header loop and
    the body loop of /repo/ws.c with the results of http_read_char (/repo/http_utils.c:45-57)
    as they come.  WsRequest.v is the case in which reads fail only at the end. *)
From Verif Require Export WsRequest.

(** One read: a byte, or a result of at most 0 (ws.c:108 and 298 treat all of these alike, and
    the byte variable keeps its value).  A failed TLS handshake (ws.c:486-489) makes the reads
    fail from the first one.  After the list every read fails. *)
Inductive got := Got (c : ascii) | Failed.

(** get_line - /repo/ws.c:90-114 *)
Fixpoint get_line_loop_r (g : list got) (b : buf) (i size : Z) : outcome (Z * buf * list got) :=
  if i <? size - 1 then
    match g with
    | [] => Ok (i, b, [])
    | Failed :: t => Ok (i, b, t)                                           (* 108 *)
    | Got c :: t =>
      b' <- wr b i c;;
      if ceq c LF then Ok (i + 1, b', t) else get_line_loop_r t b' (i + 1) size
    end
  else Ok (i, b, g).
Definition get_line_r (g : list got) (b : buf) (size : Z) : outcome (Z * buf * list got) :=
  '(i, b', g') <- get_line_loop_r g b 0 size;;
  b'' <- wr b' i NUL;;
  Ok (i, b'', g').

(** Lines 560-620; [hs_stream] is not used. *)
Fixpoint header_loop_r (fuel : nat) (n : Z) (h : hstate) (g : list got) : outcome (hstate * list got) :=
  if 0 <? n then
    e1 <- strcmp_eq (cs [LF]) (hs_buf h);;
    if e1 : bool then Ok (h, g) else
    e2 <- strcmp_eq (cs CRLF) (hs_buf h);;
    if e2 : bool then Ok (h, g) else
    h1 <- header_line h;;
    '(n', b', g') <- get_line_r g (hs_buf h1) 1024;;
    match fuel with
    | O => UB OutOfFuel
    | S k => header_loop_r k n' (mkH b' [] (hs_headers h1) (hs_content_type h1) (hs_boundary h1)
                                   (hs_length h1) (hs_ip h1) (hs_session h1)) g'
    end
  else Ok (h, g).

(** The body - /repo/ws.c:291-300: a failed read stores the previous byte again. *)
Fixpoint read_body_r (k : nat) (g : list got) (c : ascii) : str :=
  match k with
  | O => []
  | S k' =>
    match g with
    | [] => c :: read_body_r k' [] c
    | Failed :: t => c :: read_body_r k' t c
    | Got x :: t => x :: read_body_r k' t x
    end
  end.

(** handle_api_request - /repo/ws.c:279-311 *)
Definition handle_api_request_r (v : wsenv) (f : fs) (g : list got) (r : api_request)
  (content_length : Z) (boundary : str) : outcome (list call * api_request * fs) :=
  '(r1, f1) <-
    (if 0 <? content_length then
       let form := map Some (read_body_r (Z.to_nat content_length) g NUL) ++ [Some NUL] in
       if 2 <=? len boundary then
         '(form', f') <- multipart_parse (v_mp v) f form boundary content_length;;
         Ok (set_form r form', f')
       else Ok (set_form r form, f)
     else Ok (r, f));;
  '(calls, r2) <- router_handle_request (v_app v) (v_routes v) r1;;
  Ok (calls, r2, f1).

(** accept_request - /repo/ws.c:463-656 *)
Definition accept_reads (v : wsenv) (f : fs) (t : table) (socket : Z) (peer : str) (g : list got)
  : outcome result :=
  r0 <- new_request socket peer;;
  '(_, b, g1) <- get_line_r g (calloc 1024) 1024;;
  '(rl, method, j) <- parse_request_line b;;
  let r1 := set_method (set_request_line r0 rl) method in
  ok_method <- startswithany (cs method) ALLOWED_HTTP_METHODS;;
  if negb ok_method then
    r2 <- bad_request r1;; Ok (finish TBadMethod r2 t f)
  else
  url <- parse_url b j;;
  let r2 := set_url r1 url in
  '(admitted, t1) <- connection_add (v_limits v) t socket (r_ip r2) url;;
  if negb admitted then
    r3 <- too_many_connections r2;; Ok (finish TTooMany r3 t1 f)
  else
  b1 <- write_at b 0 [Some "A"%char; Some NUL];;
  '(n, b2, g2) <- get_line_r g1 b1 1024;;
  '(h, g3) <- header_loop_r (length g1) n
         (mkH b2 [] [] None [] (-1) (r_ip r2) (calloc MAX_SESSION)) g2;;
  let r3 := set_session (set_ip (set_content_type (set_headers r2 (hs_headers h))
              (hs_content_type h)) (hs_ip h)) (hs_session h) in
  '(path, query) <- get_path_and_query_string url;;
  let r4 := set_query r3 query in
  api <- startswith (cs url) API_MOUNT;;
  if negb api then
    let r5 := set_path r4 path in
    if str_caseeqb method (L "GET") then
      r6 <- handle_static_routes v f r5;; Ok (finish TStatic r6 t1 f)
    else
      r6 <- bad_request r5;; Ok (finish TNotGet r6 t1 f)
  else
    p <- cstr (from (cs path) (len API_MOUNT));;
    let r5 := set_path r4 p in
    '(calls, r6, f') <- handle_api_request_r v f g3 r5 (hs_length h) (hs_boundary h);;
    Ok (finish (TApi calls) r6 t1 f').

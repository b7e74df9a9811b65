(** Memory.v - the blocks whose size a client chooses, when the C library may refuse them:
    handle_api_request, multipart_parse and part_parse of /repo/ws.c with malloc and calloc
    returning NULL.  Everywhere else in the model allocations succeed. *)
From Verif Require Export WsRequest.

(** Where such a block is asked for.  [at] is the offset of the part in the body: the loop of
    ws.c:254-271 asks at most once for each of the last two per offset, so an answer for every
    site is an answer for every single allocation of a request. *)
Inductive site :=
| Form                                (* 295 *)
| Part                                (* 247 *)
| Fields                              (* 248 *)
| Field (at_ : Z)                     (* 178 *)
| Value (at_ : Z).                    (* 201 *)
(** Whether a block of that size is given. *)
Definition memory := site -> Z -> bool.

(** malloc or calloc, and a first access to the block. *)
Definition ask (ok : memory) (s : site) (n : Z) : outcome unit := if ok s n then Ok tt else UB NullDeref.

(** part_parse - /repo/ws.c:165-210.  [field] and [value] are used by memcpy (181, 202) at once. *)
Definition part_parse_a (ok : memory) (at_ : Z) (e : mpenv) (f : fs) (tmpfields tmpdata : buf) (length : Z)
  : outcome (buf * fs) :=
  n <- strlen tmpdata;;
  start <- text_find_after tmpdata FORM_DATA_NAME 0 n;;                     (* 169 *)
  if start <? 1 then Ok (tmpfields, f) else
  m <- strlen (from tmpdata start);;                                        (* 176 *)
  if m <=? 0 then Ok (tmpfields, f) else
  let bytes := length - start in
  _ <- ask ok (Field at_) (length + 1);;                                    (* 178 *)
  f0 <- memcpy (calloc (length + 1)) 0 tmpdata start bytes;;                (* 181 *)
  f1 <- wr f0 bytes NUL;;                                                   (* 182 *)
  f2 <- chop_string f1;;                                                    (* 183 *)
  field <- cstr f2;;
  data_start <- text_find_after tmpdata (CRLF ++ CRLF) 0 length;;           (* 184 *)
  tl <- strlen tmpfields;;
  tf <- (if 0 <? tl then strcat tmpfields (L "&") else Ok tmpfields);;      (* 186-187 *)
  start_file <- text_find_after tmpdata FILENAME 0 n;;                      (* 189 *)
  if 0 <? data_start then
    if 0 <? start_file then save_tmp_file e f tf field start_file tmpdata data_start length
    else
      _ <- ask ok (Value at_) (length + 1);;                                (* 201 *)
      v <- memcpy (calloc (length + 1)) 0 tmpdata data_start (length - data_start - 2);; (* 202 *)
      value <- cstr v;;
      t <- strcat tf (field ++ L "=" ++ value);;                            (* 203 *)
      Ok (t, f)
  else Ok (tf, f).

(** /repo/ws.c:254-271.  [tmppart] may be NULL: memcpy (265) is the first to use it. *)
Fixpoint multipart_loop_a (ok : memory) (fuel : nat) (e : mpenv) (f : fs) (form : buf) (tmppart : option buf)
  (tmpfields : buf) (boundary : str) (content_length ptr : Z) : outcome (buf * fs) :=
  if ptr <? content_length then
    part_start <- text_find_after form boundary ptr content_length;;
    if part_start <? 0 then Ok (tmpfields, f) else
    part_end <- text_find_after form boundary part_start content_length;;
    if part_end <? 0 then Ok (tmpfields, f) else
    let tmppart_len := to_int (part_end - part_start - len boundary) in     (* 264 *)
    tp <- match tmppart with
          | Some b => memcpy b 0 form part_start tmppart_len                (* 265 *)
          | None => UB NullDeref
          end;;
    '(tf, f') <- part_parse_a ok part_start e f tmpfields tp tmppart_len;;  (* 267 *)
    tp' <- trim tp;;                                                        (* 269 *)
    match fuel with
    | O => UB OutOfFuel
    | S k => multipart_loop_a ok k e f' form (Some tp') tf boundary content_length (part_start + 1)
    end
  else Ok (tmpfields, f).

(** multipart_parse - /repo/ws.c:244-277.  Simplification: without tmpfields the result is
    undefined at once; the real code may go through the loop first, but strcpy (273) reads it on
    every path. *)
Definition multipart_parse_a (ok : memory) (e : mpenv) (f : fs) (form : buf) (boundary : str) (content_length : Z)
  : outcome (buf * fs) :=
  let tmppart := if ok Part (content_length + 1) then Some (calloc (content_length + 1)) else None in (* 247 *)
  _ <- ask ok Fields (content_length + 1);;                                 (* 248 *)
  '(tmpfields, f') <- multipart_loop_a ok (Z.to_nat content_length) e f form
      tmppart (calloc (content_length + 1)) boundary content_length 0;;
  s <- cstr tmpfields;;
  form' <- strcpy form 0 s;;                                                (* 273 *)
  Ok (form', f').

(** handle_api_request - /repo/ws.c:279-311.  The form is written from its first byte (299) even if
    no byte can be read. *)
Definition handle_api_request_a (ok : memory) (v : wsenv) (f : fs) (s : str) (r : api_request)
  (content_length : Z) (boundary : str) : outcome (list call * api_request * fs) :=
  '(r1, f1) <-
    (if 0 <? content_length then
       _ <- ask ok Form (content_length + 1);;                              (* 295 *)
       let body := fst (read_body (Z.to_nat content_length) s NUL) in
       let form := map Some body ++ [Some NUL] in
       if 2 <=? len boundary then
         '(form', f') <- multipart_parse_a ok (v_mp v) f form boundary content_length;;
         Ok (set_form r form', f')
       else Ok (set_form r form, f)
     else Ok (r, f));;
  '(calls, r2) <- router_handle_request (v_app v) (v_routes v) r1;;
  Ok (calls, r2, f1).

(** accept_request - /repo/ws.c:463-656 - with any memory. *)
Definition accept_memory (ok : memory) (v : wsenv) (f : fs) (t : table) (socket : Z) (peer : str) (stream : str)
  : outcome result :=
  r0 <- new_request socket peer;;
  '(_, b, s1) <- get_line stream (calloc 1024) 1024;;
  '(rl, method, j) <- parse_request_line b;;
  let r1 := set_method (set_request_line r0 rl) method in
  ok_method <- startswithany (cs method) ALLOWED_HTTP_METHODS;;
  if negb ok_method then
    r2 <- bad_request r1;; Ok (finish TBadMethod r2 t f)
  else
  url <- parse_url b j;;
  let r2 := set_url r1 url in
  '(admitted, t1) <- connection_add (v_limits v) t socket (r_ip r2) url;;
  if negb admitted then
    r3 <- too_many_connections r2;; Ok (finish TTooMany r3 t1 f)
  else
  b1 <- write_at b 0 [Some "A"%char; Some NUL];;
  '(n, b2, s2) <- get_line s1 b1 1024;;
  h <- header_loop (length s1) n (mkH b2 s2 [] None [] (-1) (r_ip r2) (calloc MAX_SESSION));;
  let r3 := set_session (set_ip (set_content_type (set_headers r2 (hs_headers h))
              (hs_content_type h)) (hs_ip h)) (hs_session h) in
  '(path, query) <- get_path_and_query_string url;;
  let r4 := set_query r3 query in
  api <- startswith (cs url) API_MOUNT;;
  if negb api then
    let r5 := set_path r4 path in
    if str_caseeqb method (L "GET") then
      r6 <- handle_static_routes v f r5;; Ok (finish TStatic r6 t1 f)
    else
      r6 <- bad_request r5;; Ok (finish TNotGet r6 t1 f)
  else
    p <- cstr (from (cs path) (len API_MOUNT));;
    let r5 := set_path r4 p in
    '(calls, r6, f') <- handle_api_request_a ok v f (hs_stream h) r5 (hs_length h) (hs_boundary h);;
    Ok (finish (TApi calls) r6 t1 f').

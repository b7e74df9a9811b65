(** HttpUtils.v - model of /repo/http_utils.c, http_utils.h and of log_access in
    /repo/wayuu_log.c. *)
From Verif Require Export StringUtils JsonUtils FileUtils.

(** /repo/http_utils.h:34-45,47 *)
Definition HTTP_VERSION : str := L "HTTP/1.1".
Definition WAYUU_HTTP_SERVER_STRING : str := L "Server: WAYUU/1.5.0" ++ CRLF.
Definition HTTP_OK_START : str := HTTP_VERSION ++ L " 200 OK" ++ CRLF.
Definition HTTP_CREATED_START : str := HTTP_VERSION ++ L " 201 CREATED" ++ CRLF.
Definition HTTP_BAD_REQUEST_START : str := HTTP_VERSION ++ L " 400 Bad Request" ++ CRLF.
Definition HTTP_FORBIDDEN_START : str := HTTP_VERSION ++ L " 403 Forbidden" ++ CRLF.
Definition HTTP_UNAUTHORIZED_START : str := HTTP_VERSION ++ L " 401 UNAUTHORIZED" ++ CRLF.
Definition HTTP_NOT_FOUND_START : str := HTTP_VERSION ++ L " 404 NOT FOUND" ++ CRLF.
Definition HTTP_TOO_MANY_CONNECTIONS : str := HTTP_VERSION ++ L " 429 Too many connections" ++ CRLF.
Definition HTTP_INTERNAL_ERROR_START : str := HTTP_VERSION ++ L " 500 Internal Server Error" ++ CRLF.
Definition HTTP_CONTENT_LENGTH_ZERO : str := L "Content-Length: 0" ++ CRLF.

(** /repo/http_utils.h:49-60 *)
Definition CONTENT_TYPE_JSON : str := L "Content-Type: application/json" ++ CRLF.
Definition CONTENT_TYPE_TEXT_HTML : str := L "Content-Type: text/html" ++ CRLF.
Definition CONTENT_TYPE_IMAGE_PNG : str := L "Content-Type: image/png" ++ CRLF.
Definition CONTENT_TYPE_IMAGE_JPEG : str := L "Content-Type: image/jpeg" ++ CRLF.
Definition CONTENT_TYPE_ZIP : str := L "Content-Type: application/zip" ++ CRLF.
Definition CONTENT_TYPE_CSS : str := L "Content-Type: text/css" ++ CRLF.
Definition CONTENT_TYPE_SVG : str := L "Content-Type: image/svg+xml" ++ CRLF.
Definition CONTENT_TYPE_ICON : str := L "Content-Type: image/vnd.microsoft.icon" ++ CRLF.
Definition CONTENT_TYPE_TEXT_PLAIN : str := L "Content-Type: text/plain" ++ CRLF.
Definition CONTENT_TYPE_TEXT_CSV : str := L "Content-Type: text/csv" ++ CRLF.
Definition CONTENT_TYPE_YAML : str := L "Content-Type: text/yaml" ++ CRLF.
Definition CONTENT_TYPE_OCTET_STREAM : str := L "Content-Type: application/octet-stream" ++ CRLF.

(** /repo/http_utils.h:62 *)
Definition HTTP_ACCESS_CONTROL : str :=
  L "Access-Control-Allow-Origin: *" ++ CRLF
  ++ L "Access-Control-Allow-Methods: GET, POST, DELETE, PUT" ++ CRLF
  ++ L "Access-Control-Allow-Headers: Content-Type" ++ CRLF.

(** /repo/http_utils.h:64-72 *)
Definition HTTP_MAX_ERROR_CODE_LEN : Z := 64.
Definition HTTP_MAX_ERROR_MSG_LEN : Z := 1024.
Definition HTTP_MAX_HEADER_NAME : Z := 64.
Definition HTTP_MAX_HEADER_VALUE : Z := 256.
Definition HTTP_MAX_HEADERS : Z := 20.
Definition HTTP_MAX_PATH : Z := 512.
Definition HTTP_MAX_IP : Z := 16.

(** header_t - http_utils.h:101-105; the two fixed-size arrays, possibly unterminated. *)
Record header := mkHeader { h_name : buf; h_value : buf }.

(** What one access-log line reports - wayuu_log.c:49. *)
Record log_entry := mkEntry {
  e_ip : str; e_line : str; e_status : Z; e_length : Z; e_referer : str; e_agent : str }.

(** api_request - http_utils.h:110-128.  [r_headers] is headers[0..n_headers).
    Pointers to strings nobody writes through are contents; form and session are
    objects because they are written through.  Ghost fields: [r_sends], what has been
    given to send() or SSL_write() so far, one element per call (http_print ignores their
    results; what becomes of the bytes is in Sends.v), and [r_log], the access-log entries.
    The ssl pointer and request_start are not modelled. *)
Record api_request := mkReq {
  r_socket : Z;
  r_headers : list header;
  r_content_type : cptr;
  r_form : buf;
  r_method : str;
  r_url : str;
  r_path : str;
  r_query : str;
  r_ip : str;
  r_username : str;
  r_session : buf;
  r_request_line : str;
  r_response_length : Z;
  r_sends : list str;
  r_log : list log_entry }.

(** All bytes given to the socket, in order. *)
Definition r_sent (r : api_request) : str := concat (r_sends r).

Definition set_headers (r : api_request) (h : list header) : api_request :=
  mkReq (r_socket r) h (r_content_type r) (r_form r) (r_method r) (r_url r) (r_path r)
    (r_query r) (r_ip r) (r_username r) (r_session r) (r_request_line r)
    (r_response_length r) (r_sends r) (r_log r).
Definition set_content_type (r : api_request) (ct : cptr) : api_request :=
  mkReq (r_socket r) (r_headers r) ct (r_form r) (r_method r) (r_url r) (r_path r)
    (r_query r) (r_ip r) (r_username r) (r_session r) (r_request_line r)
    (r_response_length r) (r_sends r) (r_log r).
Definition set_form (r : api_request) (f : buf) : api_request :=
  mkReq (r_socket r) (r_headers r) (r_content_type r) f (r_method r) (r_url r) (r_path r)
    (r_query r) (r_ip r) (r_username r) (r_session r) (r_request_line r)
    (r_response_length r) (r_sends r) (r_log r).
Definition set_method (r : api_request) (m : str) : api_request :=
  mkReq (r_socket r) (r_headers r) (r_content_type r) (r_form r) m (r_url r) (r_path r)
    (r_query r) (r_ip r) (r_username r) (r_session r) (r_request_line r)
    (r_response_length r) (r_sends r) (r_log r).
Definition set_url (r : api_request) (u : str) : api_request :=
  mkReq (r_socket r) (r_headers r) (r_content_type r) (r_form r) (r_method r) u (r_path r)
    (r_query r) (r_ip r) (r_username r) (r_session r) (r_request_line r)
    (r_response_length r) (r_sends r) (r_log r).
Definition set_path (r : api_request) (p : str) : api_request :=
  mkReq (r_socket r) (r_headers r) (r_content_type r) (r_form r) (r_method r) (r_url r) p
    (r_query r) (r_ip r) (r_username r) (r_session r) (r_request_line r)
    (r_response_length r) (r_sends r) (r_log r).
Definition set_query (r : api_request) (q : str) : api_request :=
  mkReq (r_socket r) (r_headers r) (r_content_type r) (r_form r) (r_method r) (r_url r)
    (r_path r) q (r_ip r) (r_username r) (r_session r) (r_request_line r)
    (r_response_length r) (r_sends r) (r_log r).
Definition set_ip (r : api_request) (i : str) : api_request :=
  mkReq (r_socket r) (r_headers r) (r_content_type r) (r_form r) (r_method r) (r_url r)
    (r_path r) (r_query r) i (r_username r) (r_session r) (r_request_line r)
    (r_response_length r) (r_sends r) (r_log r).
Definition set_session (r : api_request) (s : buf) : api_request :=
  mkReq (r_socket r) (r_headers r) (r_content_type r) (r_form r) (r_method r) (r_url r)
    (r_path r) (r_query r) (r_ip r) (r_username r) s (r_request_line r)
    (r_response_length r) (r_sends r) (r_log r).
Definition set_request_line (r : api_request) (l : str) : api_request :=
  mkReq (r_socket r) (r_headers r) (r_content_type r) (r_form r) (r_method r) (r_url r)
    (r_path r) (r_query r) (r_ip r) (r_username r) (r_session r) l
    (r_response_length r) (r_sends r) (r_log r).
(** response_length is a uint32_t. *)
Definition set_response_length (r : api_request) (n : Z) : api_request :=
  mkReq (r_socket r) (r_headers r) (r_content_type r) (r_form r) (r_method r) (r_url r)
    (r_path r) (r_query r) (r_ip r) (r_username r) (r_session r) (r_request_line r)
    (to_u32 n) (r_sends r) (r_log r).

(** ** http_print, http_print_str - /repo/http_utils.c:251-269 *)
Definition http_print (r : api_request) (data : str) : api_request :=
  mkReq (r_socket r) (r_headers r) (r_content_type r) (r_form r) (r_method r) (r_url r)
    (r_path r) (r_query r) (r_ip r) (r_username r) (r_session r) (r_request_line r)
    (r_response_length r) (r_sends r ++ [data]) (r_log r).

(** ** http_get_header - /repo/http_utils.c:520-530 *)
Fixpoint get_header_loop (hs : list header) (name : str) : outcome str :=
  match hs with
  | [] => Ok []
  | h :: t =>
    e <- strcmp_eq (h_name h) (cs name);;
    if e : bool then cstr (h_value h) else get_header_loop t name
  end.
Definition http_get_header (r : api_request) (name : str) : outcome str :=
  get_header_loop (r_headers r) name.

(** ** log_access - /repo/wayuu_log.c:38-57 *)
Definition add_log (r : api_request) (e : log_entry) : api_request :=
  mkReq (r_socket r) (r_headers r) (r_content_type r) (r_form r) (r_method r) (r_url r)
    (r_path r) (r_query r) (r_ip r) (r_username r) (r_session r) (r_request_line r)
    (r_response_length r) (r_sends r) (r_log r ++ [e]).

Definition log_access (r : api_request) (status : Z) : outcome api_request :=
  referer <- http_get_header r (L "Referer");;
  ua <- http_get_header r (L "User-Agent");;
  Ok (add_log r (mkEntry (r_ip r) (r_request_line r) status (r_response_length r) referer ua)).

(** Line 49: the text written, given the two time stamps as text. *)
Definition access_line (ts rt : str) (e : log_entry) : str :=
  e_ip e ++ L " - - [" ++ ts ++ L "] " ++ [DQ] ++ e_line e ++ [DQ] ++ L " "
  ++ dec (e_status e) ++ L " " ++ dec_nat (e_length e) ++ L " "
  ++ [DQ] ++ e_referer e ++ [DQ] ++ L " " ++ [DQ] ++ e_agent e ++ [DQ] ++ L " " ++ rt ++ [LF].

(** ** Status table - /repo/http_utils.c:59-85 *)
Definition HTTP_ERROR_STARTS : list str :=
  [HTTP_OK_START; HTTP_CREATED_START; HTTP_BAD_REQUEST_START; HTTP_UNAUTHORIZED_START;
   HTTP_FORBIDDEN_START; HTTP_NOT_FOUND_START; HTTP_TOO_MANY_CONNECTIONS;
   HTTP_INTERNAL_ERROR_START].
Definition HTTP_ERROR_STATUS : list Z := [200; 201; 400; 401; 403; 404; 429; 500].

Fixpoint status_index_loop (status : Z) (l : list Z) (i : Z) : Z :=
  match l with
  | [] => -1
  | x :: t => if status =? x then i else status_index_loop status t (i + 1)
  end.
Definition find_http_status_index (status : Z) : Z :=
  status_index_loop status HTTP_ERROR_STATUS 0.
Definition http_start (i : Z) : str := nth (Z.to_nat i) HTTP_ERROR_STARTS [].

(** ** get_content_type - /repo/http_utils.c:112-144.
    The test of line 134 is strcmp(ext, ".csv"), true when they differ. *)
Definition get_content_type (filename : str) : str :=
  match strrchr filename "." with
  | None => CONTENT_TYPE_TEXT_HTML
  | Some O => CONTENT_TYPE_TEXT_HTML
  | Some n =>
    let ext := skipn n filename in
    if str_eqb ext (L ".html") || str_eqb ext (L ".js") then CONTENT_TYPE_TEXT_HTML
    else if str_eqb ext (L ".png") then CONTENT_TYPE_IMAGE_PNG
    else if str_eqb ext (L ".jpg") || str_eqb ext (L ".jpeg") then CONTENT_TYPE_IMAGE_JPEG
    else if str_eqb ext (L ".zip") then CONTENT_TYPE_ZIP
    else if str_eqb ext (L ".css") then CONTENT_TYPE_CSS
    else if str_eqb ext (L ".svg") then CONTENT_TYPE_SVG
    else if str_eqb ext (L ".ico") then CONTENT_TYPE_ICON
    else if str_eqb ext (L ".txt") then CONTENT_TYPE_TEXT_PLAIN
    else if negb (str_eqb ext (L ".csv")) then CONTENT_TYPE_TEXT_CSV
    else if str_eqb ext (L ".yaml") then CONTENT_TYPE_YAML
    else CONTENT_TYPE_OCTET_STREAM
  end.

(** ** get_content_type_for_mime - /repo/http_utils.c:146-172 (same inverted test, line 162) *)
Definition get_content_type_for_mime (mime : str) : str :=
  if str_eqb mime (L "text/html") then CONTENT_TYPE_TEXT_HTML
  else if str_eqb mime (L "image/png") then CONTENT_TYPE_IMAGE_PNG
  else if str_eqb mime (L "image/jpeg") then CONTENT_TYPE_IMAGE_JPEG
  else if str_eqb mime (L "application/zip") then CONTENT_TYPE_ZIP
  else if str_eqb mime (L "text/css") then CONTENT_TYPE_CSS
  else if str_eqb mime (L "text/plain") then CONTENT_TYPE_TEXT_PLAIN
  else if negb (str_eqb mime (L "text/csv")) then CONTENT_TYPE_TEXT_CSV
  else if str_eqb mime (L "text/yaml") then CONTENT_TYPE_YAML
  else CONTENT_TYPE_OCTET_STREAM.

(** ** return_headers - /repo/http_utils.c:87-110; buf[1024] holds only the string last
    built in it. *)
Definition return_headers (r : api_request) (filename : str) : outcome (Z * api_request) :=
  a <- fits 1024 (HTTP_OK_START ++ WAYUU_HTTP_SERVER_STRING);;           (* 91 *)
  let len1 := len a in
  let r1 := http_print r a in                                           (* 93 *)
  b <- fits 1024 (a ++ get_content_type filename);;                     (* 94-95 *)
  let len2 := len1 + len b in
  let r2 := http_print r1 b in                                          (* 98 *)
  sess <- cstr (r_session r2);;                                         (* 100 *)
  '(len3, r3) <-
    (if 0 <? len sess then
       c <- fits 1024 (L "X-Session: " ++ sess ++ CRLF ++ L "Set-Cookie:WSSESSION=" ++ sess ++ CRLF);;
       Ok (len2 + len c, http_print r2 c)
     else Ok (len2, r2));;
  Ok (len3 + len CRLF, http_print r3 CRLF).                             (* 106-109 *)

(** ** return_file - /repo/http_utils.c:174-199.  http_print takes an int length.
    Its only caller has checked that the path is a regular file. *)
Definition return_file (f : fs) (r : api_request) (path : str) : outcome (Z * api_request) :=
  match f path with
  | Some (File content) =>
    if int_max <? len content then UB BadSize
    else Ok (len content, http_print r content)
  | _ => Ok (0, r)
  end.

(** ** direct_file - /repo/http_utils.c:203-215 *)
Definition direct_file (f : fs) (r : api_request) (filename : str) : outcome (Z * api_request) :=
  if negb (is_file f filename) then Ok (-1, r)
  else
    '(l1, r1) <- return_headers r filename;;
    '(l2, r2) <- return_file f r1 filename;;
    l <- int_add l1 l2;;                                                (* 211 *)
    let r3 := set_response_length r2 l in
    r4 <- log_access r3 200;;
    Ok (0, r4).

(** ** send_stream - /repo/http_utils.c:220-234; the stream is a file's remaining bytes. *)
Fixpoint stream_loop (fuel : nat) (content : str) (n : Z) (r : api_request)
  : outcome (Z * api_request) :=
  match fgets (1024 - 1) content with
  | None => Ok (n, r)
  | Some (line, rest) =>
    match fuel with
    | O => UB OutOfFuel
    | S f =>
      let s := upto_nul line in                                         (* 226: strlen(buf) *)
      n' <- int_add n (len s);;                                         (* 227 *)
      stream_loop f rest n' (http_print r s)
    end
  end.
Definition send_stream (r : api_request) (content : str) : outcome (Z * api_request) :=
  '(n, r1) <- stream_loop (length content) content 0 r;;
  Ok (to_int (n + len CRLF), http_print r1 CRLF).                       (* 232: through size_t *)

(** ** send_empty_line - /repo/http_utils.c:236-241 *)
Definition send_empty_line (r : api_request) : api_request := http_print r CRLF.

(** ** return_json_headers - /repo/http_utils.c:292-305 *)
Definition return_json_headers (r : api_request) (status : Z) : outcome (Z * api_request) :=
  let i := find_http_status_index status in
  if i =? -1 then Ok (0, r)
  else
    b <- fits 1024 (http_start i ++ WAYUU_HTTP_SERVER_STRING ++ HTTP_ACCESS_CONTROL ++ CONTENT_TYPE_JSON);;
    Ok (len b, http_print r b).

(** ** return_headers_with_mime - /repo/http_utils.c:307-319 *)
Definition return_headers_with_mime (r : api_request) (status : Z) (mime : str)
  : outcome (Z * api_request) :=
  let i := find_http_status_index status in
  if i =? -1 then Ok (0, r)
  else
    b <- fits 1024 (http_start i ++ WAYUU_HTTP_SERVER_STRING ++ HTTP_ACCESS_CONTROL
                    ++ get_content_type_for_mime mime);;
    Ok (len b, http_print r b).

(** ** return_json_stream - /repo/http_utils.c:321-330 *)
Definition return_json_stream (r : api_request) (status : Z) (content : str) : outcome api_request :=
  '(n, r1) <- return_json_headers r status;;
  let r2 := http_print r1 CRLF in
  '(m, r3) <- send_stream r2 content;;
  k <- int_add n m;;                                                    (* 327 *)
  l <- int_add k 2;;                                                    (* 328 *)
  log_access (set_response_length r3 l) status.

(** ** return_json_with_status - /repo/http_utils.c:332-347 *)
Definition return_json_with_status (r : api_request) (status : Z) (data : str) : outcome api_request :=
  '(n, r1) <- return_json_headers r status;;
  b <- fits 1024 (L "Content-Length: " ++ dec_nat (len data + 2) ++ CRLF ++ CRLF);;
  let r2 := http_print r1 b in
  let r3 := http_print r2 data in
  let n' := n + (len b + len data + 2) in
  let r4 := http_print r3 CRLF in
  log_access (set_response_length r4 n') status.

(** ** return_json - /repo/http_utils.c:271-274; created_with_json - 398-401 *)
Definition return_json (r : api_request) (data : str) : outcome api_request :=
  return_json_with_status r 200 data.
Definition created_with_json (r : api_request) (data : str) : outcome api_request :=
  return_json_with_status r 201 data.

(** ** return_json_list - /repo/http_utils.c:276-287; the list as its serialisations. *)
Definition return_json_list (r : api_request) (ents : list cptr) : outcome api_request :=
  json <- json_array_of_entities ents;; return_json r json.

(** ** send_http_status - /repo/http_utils.c:414-444 *)
Definition send_http_status (r : api_request) (status : Z) (message : str) : outcome api_request :=
  let i := find_http_status_index status in
  if i =? -1 then Ok r
  else
    b <- (if negb (str_eqb [] message) then
            cl <- fits 100 (L "Content-Length: " ++ dec_nat (len message + 2) ++ CRLF ++ CRLF);;
            fits 1024 (http_start i ++ WAYUU_HTTP_SERVER_STRING ++ cl ++ message)
          else fits 1024 (http_start i ++ WAYUU_HTTP_SERVER_STRING ++ HTTP_CONTENT_LENGTH_ZERO));;
    let r1 := http_print r b in
    let r2 := set_response_length r1 (r_response_length r1 + len b) in
    let r3 := http_print r2 CRLF in
    let r4 := set_response_length r3 (r_response_length r3 + len CRLF) in
    log_access r4 status.

(** ** The status helpers - /repo/http_utils.c:349-412 *)
Definition not_found (r : api_request) := send_http_status r 404 [].
Definition too_many_connections (r : api_request) := send_http_status r 429 [].
Definition not_authenticated (r : api_request) := send_http_status r 401 [].
Definition bad_request (r : api_request) := send_http_status r 400 [].
Definition forbidden (r : api_request) := send_http_status r 403 [].
Definition ok (r : api_request) := send_http_status r 200 [].
Definition created (r : api_request) := send_http_status r 201 [].
Definition internal_server_error (r : api_request) := send_http_status r 500 [].

(** ** wayuu_error_t - http_utils.h:95-99, as contents *)
Record wayuu_error := mkError { err_code : str; err_message : str }.

(** ** wayuu_error_t_json_serializer - /repo/http_utils.c:482-498; also returns the
    error, whose code it may set. *)
Definition wayuu_error_json (e : wayuu_error) : outcome (str * wayuu_error) :=
  code <- (if len (err_code e) =? 0 then fits HTTP_MAX_ERROR_CODE_LEN (L "UNKNOWN")
           else Ok (err_code e));;
  c <- json_key_value (L "code") (Some code);;
  m <- json_key_value (L "message") (Some (err_message e));;
  b <- strcpy (malloc (len c + len m + 25)) 0 (L "{" ++ c ++ L "," ++ m ++ L "}");;
  s <- cstr b;;
  Ok (s, mkError code (err_message e)).

(** ** new_error_with_values - /repo/http_utils.c:500-506 *)
Definition new_error_with_values (code message : str) : outcome wayuu_error :=
  c <- fits HTTP_MAX_ERROR_CODE_LEN code;;
  m <- fits HTTP_MAX_ERROR_MSG_LEN message;;
  Ok (mkError c m).

(** ** *_with_error - /repo/http_utils.c:369-374, 381-386, 408-412 *)
Definition status_with_error (status : Z) (r : api_request) (e : wayuu_error) : outcome api_request :=
  '(json, _) <- wayuu_error_json e;; return_json_with_status r status json.
Definition bad_request_with_error := status_with_error 400.
Definition forbidden_with_error := status_with_error 403.
Definition internal_server_error_with_error := status_with_error 500.

(** ** get_path_and_query_string - /repo/http_utils.c:450-470.
    With no token, list->strings[0] is an uninitialised pointer (line 457). *)
Definition get_path_and_query_string (url : str) : outcome (str * str) :=
  l <- split url (L "?");;
  match l with
  | [] => UB UninitRead
  | p :: t =>
    path <- cstr p;;
    match t with
    | [] => Ok (path, [])
    | q :: _ => query <- cstr q;; Ok (path, query)
    end
  end.

(** ** return_response - /repo/http_utils.c:532-573.
    The auxiliary pointers are uninitialised unless assigned (None). *)
Record call_response := mkRsp {
  rsp_status : Z; rsp_text : str; rsp_description : str; rsp_additional : cptr }.

Definition use_ptr (p : option str) : outcome str :=
  match p with Some s => Ok s | None => UB UninitRead end.

Definition return_response (rsp : call_response) : outcome str :=
  let q (s : str) : str := [DQ] ++ s ++ [DQ] in
  let aux_err :=
    if rsp_status rsp =? -1 then Some (q (L "RSP") ++ L ":" ++ q (L "FAIL"))
    else if rsp_status rsp =? 0 then Some (q (L "RSP") ++ L ":" ++ q (L "OK"))
    else if rsp_status rsp =? 1 then Some (q (L "RSP") ++ L ":" ++ q (L "ERROR"))
    else if rsp_status rsp =? 2 then Some (q (L "RSP") ++ L ":" ++ q (L "WARNING"))
    else None in
  let aux_txt := if len (rsp_text rsp) =? 0 then None
                 else Some (L ", " ++ q (L "info") ++ L ":" ++ q (rsp_text rsp)) in
  let aux_description := if len (rsp_description rsp) =? 0 then None
                 else Some (L ", " ++ q (L "description") ++ L ":" ++ q (rsp_description rsp)) in
  let aux_info := L "," ++ q (L "data") ++ L ":" ++
                  match rsp_additional rsp with Some a => a | None => q [] end in
  e <- use_ptr aux_err;;
  t <- use_ptr aux_txt;;
  d <- use_ptr aux_description;;
  Ok (L "{" ++ e ++ t ++ d ++ aux_info ++ L "}").

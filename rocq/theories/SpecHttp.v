(** SpecHttp.v - what the HTTP response properties mean. *)
From Verif Require Import Base CLib HttpUtils SpecJson Spec.
(** From CLib/HttpUtils only the record types, [cstr] (the C string in an object) and the
    field names are used here. *)

(** [d] is the usual decimal text of [n]. *)
Definition decimal (d : str) (n : Z) : Prop :=
  d <> [] /\ Forall (fun c => digit c = true) d /\ value_of_digits 0 d = n
  /\ (forall t, d = "0"%char :: t -> t = []).

(** An HTTP message: start line, header lines, blank line, body. *)
Definition message (start : str) (headers : list str) (body : str) : str :=
  start ++ CRLF ++ flat_map (fun h => h ++ CRLF) headers ++ CRLF ++ body.

(** The status lines of the supported statuses. *)
Definition status_lines : list (Z * str) :=
  [(200, L "HTTP/1.1 200 OK"); (201, L "HTTP/1.1 201 CREATED");
   (400, L "HTTP/1.1 400 Bad Request"); (401, L "HTTP/1.1 401 UNAUTHORIZED");
   (403, L "HTTP/1.1 403 Forbidden"); (404, L "HTTP/1.1 404 NOT FOUND");
   (429, L "HTTP/1.1 429 Too many connections"); (500, L "HTTP/1.1 500 Internal Server Error")].
Definition supported (status : Z) (line : str) : Prop := In (status, line) status_lines.

Definition server : str := L "Server: WAYUU/1.5.0".
Definition cors : list str :=
  [L "Access-Control-Allow-Origin: *"; L "Access-Control-Allow-Methods: GET, POST, DELETE, PUT";
   L "Access-Control-Allow-Headers: Content-Type"].

(** Headers: the stored header holds this name and value. *)
Definition holds (h : header) (nv : str * str) : Prop :=
  cstr (h_name h) = Ok (fst nv) /\ cstr (h_value h) = Ok (snd nv).
Definition has_headers (r : api_request) (hl : list (str * str)) : Prop :=
  Forall2 holds (r_headers r) hl.

(** The value of the first header with that name, or the empty string. *)
Inductive lookup : list (str * str) -> str -> str -> Prop :=
| lk_none : forall l n, ~ In n (map fst l) -> lookup l n []
| lk_found : forall a n v b, ~ In n (map fst a) -> lookup (a ++ (n, v) :: b) n v.

(** Nothing else about the request changes. *)
Definition same_request (r r' : api_request) : Prop :=
  r_socket r' = r_socket r /\ r_headers r' = r_headers r /\ r_content_type r' = r_content_type r
  /\ r_form r' = r_form r /\ r_method r' = r_method r /\ r_url r' = r_url r /\ r_path r' = r_path r
  /\ r_query r' = r_query r /\ r_ip r' = r_ip r /\ r_username r' = r_username r
  /\ r_session r' = r_session r /\ r_request_line r' = r_request_line r.

(** [r'] is [r] after sending [bytes] and logging one access entry with this status and
    the byte count [n] (kept in 32 bits). *)
Definition answered (r r' : api_request) (hl : list (str * str)) (status : Z) (bytes : str) (n : Z) : Prop :=
  same_request r r' /\ r_sent r' = r_sent r ++ bytes /\ r_response_length r' = n mod 2 ^ 32
  /\ exists referer agent, lookup hl (L "Referer") referer /\ lookup hl (L "User-Agent") agent
     /\ r_log r' = r_log r ++ [mkEntry (r_ip r) (r_request_line r) status (n mod 2 ^ 32) referer agent].
(** The same with the bytes cut as they were given to the socket, one element per call. *)
Definition answered_by (r r' : api_request) (hl : list (str * str)) (status : Z) (sends : list str) (n : Z) : Prop :=
  same_request r r' /\ r_sends r' = r_sends r ++ sends /\ r_response_length r' = n mod 2 ^ 32
  /\ exists referer agent, lookup hl (L "Referer") referer /\ lookup hl (L "User-Agent") agent
     /\ r_log r' = r_log r ++ [mkEntry (r_ip r) (r_request_line r) status (n mod 2 ^ 32) referer agent].

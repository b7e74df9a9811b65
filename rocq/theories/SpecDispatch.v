(** SpecDispatch.v - what the request dispatch properties mean. *)
From Verif Require Import Base CLib WsRequest SpecJson SpecHttp SpecConn SpecReq Spec.
(** From the model only the record types, [cstr] and [get_content_type] are used here (the values of
    the latter are property C32). *)

Definition allowed (m : str) : Prop := exists p, In p [L "GET"; L "POST"; L "PUT"; L "DELETE"] /\ ci_prefix p m.
Definition is_get (m : str) : Prop := ci_equal (L "GET") m.
Definition api_url (u : str) : Prop := ci_prefix (L "/api") u.

(** Path and query of a URL: the texts before the first and before the second question mark. *)
Definition url_parts (u p q : str) : Prop :=
  exists ts, tokens (L "?") u (p :: ts) /\ len ts <= 49 /\ q = hd [] ts.

(** The request read from a connection: nothing sent or logged yet. *)
Definition request_read (r : api_request) (socket : Z) (line m u : str) : Prop :=
  r_socket r = socket /\ r_method r = m /\ r_url r = u /\ r_request_line r = line
  /\ r_response_length r = 0 /\ r_sent r = [] /\ r_log r = [] /\ r_username r = [] /\ r_form r = cs [].
Definition request_told (r : api_request) (x : told) (p q : str) : Prop :=
  r_path r = p /\ r_query r = q /\ r_ip r = td_ip x /\ r_content_type r = td_type x
  /\ cstr (r_session r) = Ok (td_session x) /\ len (r_session r) = 64
  /\ has_headers r (firstn 20 (td_fields x)).
(** Fields that fit their arrays. *)
Definition short_fields (x : told) : Prop :=
  Forall (fun nv => len (fst nv) <= 63 /\ len (snd nv) <= 255) (firstn 20 (td_fields x)).

(** The application does not change the socket of a request. *)
Definition keeps_socket (a : callbacks) : Prop :=
  (forall n r, r_socket (fst (on_filter a n r)) = r_socket r) /\ (forall n r, r_socket (on_handler a n r) = r_socket r).

(** ** Static files *)
(** The file a static request is mapped to, [junk] being the text found on the stack. *)
Inductive static_target (v : wsenv) (junk : str) : str -> str -> Prop :=
| st_index : forall p, In p [L "/"; L "/index.html"] -> static_target v junk p (v_index v)
| st_favicon : static_target v junk (L "/favicon.ico") (v_favicon v)
| st_slash : forall p j, ~ In p [L "/"; L "/index.html"; L "/favicon.ico"] -> junk = j ++ L "/" ->
    static_target v junk p (p ++ L "index.html")
| st_plain : forall p j c, ~ In p [L "/"; L "/index.html"; L "/favicon.ico"] -> junk = j ++ [c] -> c <> "/"%char ->
    static_target v junk p p.

(** Lexical resolution of a path: '.' stays, '..' goes up. *)
Fixpoint walk (d : list str) (segs : list str) : list str :=
  match segs with
  | [] => d
  | s :: t => if list_eq_dec ascii_dec s (L ".") then walk d t
              else if list_eq_dec ascii_dec s (L "..") then walk (removelast d) t
              else walk (d ++ [s]) t
  end.
Definition resolves (path : str) (segs : list str) : Prop := exists ts, tokens (L "/") path ts /\ segs = walk [] ts.
(** A file system in which names that resolve alike are the same file (no links). *)
Definition plain_fs (f : fs) : Prop := forall a b segs, resolves a segs -> resolves b segs -> f a = f b.
Definition no_dot_dot (path : str) : Prop := exists ts, tokens (L "/") path ts /\ ~ In (L "..") ts.

(** The response to a static request. *)
Definition file_message (name sess content : str) : str :=
  let start := L "HTTP/1.1 200 OK" ++ CRLF ++ L "Server: WAYUU/1.5.0" ++ CRLF in
  start ++ start ++ get_content_type name
  ++ (if list_eq_dec ascii_dec sess [] then [] else
      L "X-Session: " ++ sess ++ CRLF ++ L "Set-Cookie:WSSESSION=" ++ sess ++ CRLF) ++ CRLF ++ content.

(** What a client takes for the body of a message: all that follows the first empty line. *)
Definition message_body (msg body : str) : Prop :=
  exists head, msg = head ++ CRLF ++ CRLF ++ body /\ forall a b, msg = a ++ CRLF ++ CRLF ++ b -> len head <= len a.

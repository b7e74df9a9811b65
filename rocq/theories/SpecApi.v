(** SpecApi.v - what the properties of whole API requests mean. *)
From Verif Require Import Base CLib WsRequest SpecJson SpecHttp SpecConn SpecReq SpecRouter SpecDispatch Spec.

(** The body of a request that announced [n] bytes, [s] being all that comes after its header
    section: the first [n] bytes; the last byte is repeated if there are not enough. *)
Inductive request_body : Z -> str -> str -> Prop :=
| bo_none : forall n s, n <= 0 -> request_body n s []
| bo_full : forall n b rest, 0 < n -> len b = n -> request_body n (b ++ rest) b
| bo_short : forall n s k, len s < n -> 0 < n -> len s + Z.of_nat k = n -> request_body n s (s ++ repeat (last s NUL) k).

(** A connection with a request [m] for [p] below the API mount, with query [q], request line
    [line] and URL [u], that is admitted (the table is then [t1]); its headers told [x] and [after]
    follows them. *)
Definition api_asked (v : wsenv) (t : table) (socket : Z) (peer stream m u p q line : str) (x : told) (after : str) (t1 : table) : Prop :=
  exists s1 mount, asks stream m u line s1 /\ len peer <= 15 /\ allowed m
  /\ connection_add (v_limits v) t socket peer (firstn 254 u) = Ok (true, t1)
  /\ section s1 (nothing_told peer) x after /\ short_fields x
  /\ url_parts (firstn 254 u) (mount ++ p) q /\ len mount = 4 /\ api_url (firstn 254 u).

(** The request handed to the application: nothing sent yet, everything the client told, and the
    body as its form. *)
Definition api_given (r : api_request) (socket : Z) (m u p q line : str) (x : told) (form : str) : Prop :=
  r_socket r = socket /\ r_method r = m /\ r_url r = firstn 254 u /\ r_path r = p /\ r_query r = q
  /\ r_request_line r = firstn (length line - 2) line /\ r_form r = cs form
  /\ r_ip r = td_ip x /\ r_content_type r = td_type x /\ cstr (r_session r) = Ok (td_session x)
  /\ has_headers r (firstn 20 (td_fields x)) /\ r_response_length r = 0 /\ r_sent r = [] /\ r_log r = [].

(** SpecLog.v - what the properties of the access log's lines mean. *)
From Verif Require Import Base CLib HttpUtils Router WsRequest SpecReq Spec.

Definition one_line (s : str) : Prop := ~ In LF s.

(** Neither the request line nor a header value nor an entry logged so far holds a line feed (the
    client address is left out). *)
Definition tidy_header (h : header) : Prop := forall s, cstr (h_value h) = Ok s -> one_line s.
Definition tidy_entry (e : log_entry) : Prop := one_line (e_line e) /\ one_line (e_referer e) /\ one_line (e_agent e).
Definition tidy (r : api_request) : Prop :=
  one_line (r_request_line r) /\ Forall tidy_header (r_headers r) /\ Forall tidy_entry (r_log r).

(** The application leaves it so. *)
Definition keeps_tidy (a : callbacks) : Prop :=
  (forall n r, tidy r -> tidy (fst (on_filter a n r))) /\ (forall n r, tidy r -> tidy (on_handler a n r)).

(** The number of lines a text adds to a file. *)
Definition line_count (s : str) : nat := count_occ ascii_dec s LF.

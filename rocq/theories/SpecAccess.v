(** SpecAccess.v - what the properties of the access log as a file of several threads mean. *)
From Verif Require Import Base CLib HttpUtils Router WsRequest Time Spec.

(** Lines taken from the threads' lists, each list in its own order, and what is left. *)
Inductive taken {A} : list (list A) -> list A -> list (list A) -> Prop :=
| tk_none ths : taken ths [] ths
| tk_next a x t b l rest : taken (a ++ t :: b) l rest -> taken (a ++ (x :: t) :: b) (x :: l) rest.

(** An entry with short fields: an address of at most 24 bytes, a request line of at most 1021,
    a referer and user agent of at most 255; the status is an int, the length a uint32_t. *)
Definition brief_entry (e : log_entry) : Prop :=
  len (e_ip e) <= 24 /\ len (e_line e) <= 1021 /\ - 2 ^ 31 <= e_status e < 2 ^ 31 /\ 0 <= e_length e < 2 ^ 32
  /\ len (e_referer e) <= 255 /\ len (e_agent e) <= 255.
Definition brief_header (h : header) : Prop := forall s, cstr (h_value h) = Ok s -> len s <= 255.
Definition brief (r : api_request) : Prop :=
  len (r_ip r) <= 24 /\ len (r_request_line r) <= 1021 /\ Forall brief_header (r_headers r)
  /\ 0 <= r_response_length r < 2 ^ 32 /\ Forall brief_entry (r_log r).
(** The application leaves them short. *)
Definition keeps_brief (a : callbacks) : Prop :=
  (forall n r, brief r -> brief (fst (on_filter a n r))) /\ (forall n r, brief r -> brief (on_handler a n r)).

(** A line logged by a request: any request the server may get, at any time and after any delay. *)
Definition logged_by (v : wsenv) (line : str) : Prop :=
  exists f t socket peer stream res e ts start now,
    accept_request v f t socket peer stream = Ok res /\ In e (r_log (o_req res)) /\ len ts < 64
    /\ line = access_line ts (print_f3 (response_time start now)) e.

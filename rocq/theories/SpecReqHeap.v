(** SpecReqHeap.v - what the heap properties of the request handling mean. *)
From Verif Require Import Base CLib HttpUtils Router WsRequest ConfHeap ReqHeap SpecReq SpecRouter SpecHeap Spec.

(** How many of the header lines of a stream, up to the blank line that ends them, give a
    content type. *)
Inductive typed : str -> nat -> Prop :=
| ty_end : forall s rest, line_of 1024 s [] rest -> typed s 0
| ty_blank : forall s l t rest, line_of 1024 s l rest -> seen_as l t -> blank_line t -> typed s 0
| ty_other : forall s l t rest n, line_of 1024 s l rest -> l <> [] -> seen_as l t -> ~ blank_line t ->
    ~ ci_prefix (L "Content-Type:") t -> typed rest n -> typed s n
| ty_type : forall s l t rest n, line_of 1024 s l rest -> l <> [] -> seen_as l t -> ~ blank_line t ->
    ci_prefix (L "Content-Type:") t -> typed rest n -> typed s (S n).

(** The first stored header of that name has an empty value. *)
Definition given_empty (hs : list header) (name : str) : Prop :=
  exists pre x post, hs = pre ++ x :: post /\ Forall (fun y => cstr (h_name y) <> Ok name) pre
    /\ cstr (h_name x) = Ok name /\ cstr (h_value x) = Ok [].
Definition one_if (P : Prop) (n : nat) : Prop := (P /\ n = 1 \/ ~ P /\ n = 0)%nat.
(** How many of the two headers that are logged are given and empty. *)
Definition given_empties (hs : list header) (n : nat) : Prop :=
  exists a b, one_if (given_empty hs (L "Referer")) a /\ one_if (given_empty hs (L "User-Agent")) b /\ n = (a + b)%nat.

(** What is left behind by the log entry of the response, if one was written. *)
Definition logged_empties (r : api_request) (n : nat) : Prop :=
  r_log r = [] /\ n = 0%nat \/ length (r_log r) = 1%nat /\ given_empties (r_headers r) n.
(** The same if the application was not called. *)
Definition unrouted_empties (calls : list call) (r : api_request) (n : nat) : Prop :=
  calls = [] /\ given_empties (r_headers r) n \/ calls <> [] /\ n = 0%nat.

(** The number of blocks a request leaves behind.  A request with a bad method: the address and
    the request line.  One that is not admitted: also the URL.  Any other: also the session, the
    query string and the path, each content type, and the empty headers that were logged; and an
    API request its body, and the form made of the parameter in its path. *)
Definition request_loses (stream : str) (res : result) (n : nat) : Prop :=
  match o_taken res with
  | TBadMethod => n = 2%nat
  | TTooMany => n = 3%nat
  | TStatic | TNotGet => exists line rest c e, line_of 1024 stream line rest /\ typed rest c /\ logged_empties (o_req res) e /\ n = (6 + c + e)%nat
  | TApi calls => exists line rest c b p e, line_of 1024 stream line rest /\ typed rest c /\ (b <= 1)%nat /\ (p <= 1)%nat
      /\ unrouted_empties calls (o_req res) e /\ n = (6 + c + b + p + e)%nat
  end.

(** The same for an API request whose headers told [x] and whose body is [body]: the body counts if
    one was announced, the form if the first matching route has a parameter and the body shows
    nothing. *)
Definition api_loses (v : wsenv) (stream m p : str) (x : told) (body : str) (calls : list call) (r : api_request) (n : nat) : Prop :=
  exists line rest c b f e, line_of 1024 stream line rest /\ typed rest c /\ one_if (0 < td_length x) b
    /\ one_if (exists rt, selected (v_routes v) (m ++ L ":" ++ p) rt /\ rt_type rt = MATCHER_TYPE_PARAM /\ seen_as body []) f
    /\ unrouted_empties calls r e /\ n = (6 + c + b + f + e)%nat.

(** Connections one after the other; [None] for one that is refused. *)
Fixpoint accepted_all (u : list call -> heap -> outcome heap) (h : heap) (l : list (option (wsenv * fs * table * Z) * str * str)) : outcome heap :=
  match l with
  | [] => Ok h
  | (served, peer, stream) :: l' => h1 <- accepted_h u h served peer stream;; accepted_all u h1 l'
  end.
Definition served (c : option (wsenv * fs * table * Z) * str * str) : nat := match fst (fst c) with Some _ => 1 | None => 0 end.

(** The application frees what it allocates and nothing else. *)
Definition balanced (u : list call -> heap -> outcome heap) : Prop :=
  forall calls h l, blocks_are h l -> exists h', u calls h = Ok h' /\ blocks_are h' l.

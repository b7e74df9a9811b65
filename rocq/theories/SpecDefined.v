(** SpecDefined.v - which requests outside the API have a defined effect. *)
From Verif Require Import Base CLib WsRequest SpecJson SpecHttp SpecConn SpecReq SpecDispatch Spec.
(** From the model only the record types and [cstr] are used here. *)

(** ** The first line *)
(** [seen] is what a C program sees of the first line of the stream, [m] and [url] the method and
    the URL taken from it, [s1] what follows.  The words are cut from the 1024 bytes of the line
    buffer: the line, and zeros.  [url] is [None] if the buffer ends before the URL does. *)
Definition first_line (stream seen m : str) (url : option str) (s1 : str) : Prop :=
  exists l w sp u more,
    line_of 1024 stream l s1 /\ seen_as l seen
    /\ l ++ repeat NUL (1024 - length l) = w ++ sp ++ u ++ more
    /\ Forall (fun c => ~ blank c) w /\ (len w = 254 \/ (len w < 254 /\ sp <> []))
    /\ Forall blank sp /\ u <> [] /\ Forall (fun c => ~ blank c) u
    /\ (more = [] \/ exists c r, more = c :: r /\ blank c)
    /\ seen_as w m
    /\ ((exists x, url = Some x /\ seen_as (firstn 254 u) x /\ (more <> [] \/ 255 <= len u))
        \/ (url = None /\ more = [] /\ len u <= 254)).

(** ** Header lines *)
(** Too long a session or boundary. *)
Definition bad_line (t : str) : Prop :=
  (session_line t /\ 74 <= len t)
  \/ (ci_prefix form_data t /\ exists a b, ci_cut (L "boundary=") t a b /\ 98 <= len b).
(** Some line before the blank one is bad. *)
Inductive bad_headers : str -> Prop :=
| bh_here : forall s l rest t, line_of 1024 s l rest -> ~ blank_line l -> seen_as l t -> bad_line t -> bad_headers s
| bh_later : forall s l rest, line_of 1024 s l rest -> ~ blank_line l -> bad_headers rest -> bad_headers s.
(** The fields of all lines before the blank one or the end of the stream. *)
Inductive headers : str -> list (str * str) -> Prop :=
| hd_end : headers [] []
| hd_blank : forall s l rest, line_of 1024 s l rest -> blank_line l -> headers s []
| hd_line : forall s l rest t new fs, line_of 1024 s l rest -> l <> [] -> ~ blank_line l -> seen_as l t ->
    tells_fields t [] new -> headers rest fs -> headers s (new ++ fs).
(** A value the access log reports does not fit its array: of the first twenty fields, the first
    with that name. *)
Definition long_logged (fs : list (str * str)) : Prop :=
  exists name a v b, In name [L "Referer"; L "User-Agent"] /\ firstn 20 fs = a ++ (name, v) :: b
    /\ ~ In name (map fst a) /\ 256 <= len v.

(** ** The answer *)
(** The table has a free slot and no limit is exceeded. *)
Definition let_in (v : wsenv) (t : table) (peer url : str) : Prop :=
  ~ over_limit (v_limits v) (occupied t) peer url /\ len (occupied t) < len t.
(** There is a file for this path. *)
Definition found (v : wsenv) (f : fs) (junk path : str) : Prop :=
  exists p name content, static_target v junk path p
    /\ In name [v_static_root v ++ L "/" ++ p; v_static_root v ++ L "/" ++ v_index v] /\ f name = Some (File content).

(** What is wrong with a request: [seen], [m], [url] and [s1] are as in [first_line]. *)
Definition wrong (v : wsenv) (f : fs) (t : table) (peer junk seen m : str) (url : option str) (s1 : str) : Prop :=
  len seen < 2
  \/ (allowed m /\ url = None)
  \/ (allowed m /\ exists u, url = Some u /\ let_in v t peer u /\
       (bad_headers s1
        \/ (exists ts, tokens (L "?") u ts /\ (ts = [] \/ 50 < len ts))
        \/ (exists p q fs, url_parts u p q /\ (~ is_get m \/ found v f junk p) /\ headers s1 fs /\ long_logged fs))).

(** The setting: everything the server itself has chosen fits. *)
Definition sound_setting (v : wsenv) (f : fs) (t : table) (peer junk : str) : Prop :=
  len peer <= 15 /\ Forall (fun r => no_nul (l_path r)) (v_limits v)
  /\ Forall (fun c => no_nul (c_path c)) (occupied t)
  /\ cstr (v_stk v) = Ok junk /\ junk <> []
  /\ len (v_static_root v) <= 758 /\ len (v_index v) <= 264 /\ len (v_favicon v) <= 264
  /\ (forall name content, f name = Some (File content) -> len content <= 2 ^ 31 - 2048).

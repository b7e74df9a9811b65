(** SpecTrace.v - what the properties of the application log mean.  From the model only the record
    types, [cstr] and [connection_add] are used (the latter's results are properties C57, C58). *)
From Verif Require Import Base CLib WsRequest LogMain SpecJson SpecHttp SpecConn SpecReq SpecRouter SpecDispatch SpecApi SpecLog Spec.

(** A message is a level (0 trace, 1 debug, 2 info, 3 warn, 4 error) and a text. *)
Definition trace (s : str) : Z * str := (0, s).
Definition debug (s : str) : Z * str := (1, s).
Definition warn (s : str) : Z * str := (3, s).
Definition error (s : str) : Z * str := (4, s).

(** The messages of at least this level, in order. *)
Definition at_least (level : Z) (ms : list (Z * str)) : list (Z * str) := filter (fun m => level <=? fst m) ms.

(** ** The messages of a request *)
Definition request_note (peer line : str) : Z * str := trace (L "IP: " ++ peer ++ L ", Request: " ++ line).
Definition field_note (nv : str * str) : Z * str := trace (L "Found header: " ++ fst nv ++ L ", " ++ snd nv).
(** What is noted of every request that gets past the limits. *)
Definition opening (peer line : str) (x : told) : list (Z * str) :=
  request_note peer line :: map field_note (firstn 20 (td_fields x)).

(** Why a connection was refused: the first rule in force that is exceeded, its total before its
    number for the address; or else the table was full. *)
Inductive refusal (rules : list limit) (t : list conn) (ip path : str) : Z * str -> Prop :=
| rf_total : forall a r b n, rules = a ++ r :: b -> Forall (fun r' => l_path r' <> []) (a ++ [r]) ->
    (forall r', In r' a -> ~ over_limit [r'] (occupied t) ip path) -> ci_prefix (l_path r) path ->
    counts (on (l_path r)) (occupied t) n -> l_max r < n ->
    refusal rules t ip path (debug (L "IP:" ++ ip ++ L " denied, max_connections exceeded for " ++ l_path r))
| rf_address : forall a r b n m, rules = a ++ r :: b -> Forall (fun r' => l_path r' <> []) (a ++ [r]) ->
    (forall r', In r' a -> ~ over_limit [r'] (occupied t) ip path) -> ci_prefix (l_path r) path ->
    counts (on (l_path r)) (occupied t) n -> n <= l_max r ->
    counts (on_from (l_path r) ip) (occupied t) m -> l_max_ip r < m ->
    refusal rules t ip path (debug (L "IP:" ++ ip ++ L " denied, max_connections_per_ip exceeded for " ++ l_path r))
| rf_full : ~ over_limit rules (occupied t) ip path -> Forall (fun c => c_socket c <> 0) t ->
    refusal rules t ip path (debug (L "WS_MAX_CONNECTIONS reached")).

(** Static files: a warning for each name that is not a file, the index page being tried second. *)
Definition a_file (f : fs) (name : str) : Prop := exists c, f name = Some (File c).
Definition not_found (name : str) : Z * str := warn (L "File not found: " ++ name).
Inductive looked_for (f : fs) (name index : str) : list (Z * str) -> Prop :=
| lf_there : a_file f name -> looked_for f name index []
| lf_index : ~ a_file f name -> a_file f index -> looked_for f name index [not_found name]
| lf_neither : ~ a_file f name -> ~ a_file f index -> looked_for f name index [not_found name; not_found index].
Definition static_notes (v : wsenv) (ip p p2 : str) : list (Z * str) :=
  [debug (L "Handle static route: " ++ p);
   debug (L "IP:" ++ ip ++ L " GET: " ++ p2 ++ L ", PATH: " ++ v_static_root v ++ L "/" ++ p2)].

(** API requests. *)
Definition api_notes (m u p q : str) (x : told) : list (Z * str) :=
  debug (L "IP:" ++ td_ip x ++ L ", URL:" ++ u ++ L ", METHOD:" ++ m ++ L ", PATH:" ++ p ++ L ", SESSION:" ++ td_session x ++ L " ")
  :: (if list_eq_dec ascii_dec q [] then [] else [debug (L "IP: " ++ td_ip x ++ L " PARAMETERS: " ++ q)]).
Definition param_note (rt : route) (m : str) : list (Z * str) :=
  match rt_type rt with
  | MATCHER_TYPE_CONSTANT => []
  | MATCHER_TYPE_PARAM =>
    [debug (L "router_extract_param(path=" ++ m ++ L ",prefix=" ++ rt_prefix rt ++ L ",param=" ++ rt_param rt ++ L ")")]
  end.
Definition no_route_notes (m u p ip : str) : list (Z * str) :=
  [debug (L "Unable to find matching route for method " ++ m ++ L " and path " ++ p);
   debug (L "IP:" ++ ip ++ L " Ignored API URL: " ++ u)].

(** What the router notes of a request with this method, URL and path: whether a route was found
    for METHOD:PATH and whether that route has a handler. *)
Inductive routed (t : list route) (m u p ip : str) : list (Z * str) -> Prop :=
| ro_found : forall rt h, selected t (m ++ L ":" ++ p) rt -> rt_handler rt = Some h ->
    routed t m u p ip (debug (L "Router handle request " ++ m ++ L ":" ++ p) :: param_note rt (m ++ L ":" ++ p))
| ro_no_handler : forall rt, selected t (m ++ L ":" ++ p) rt -> rt_handler rt = None ->
    routed t m u p ip (debug (L "Router handle request " ++ m ++ L ":" ++ p) :: param_note rt (m ++ L ":" ++ p) ++ no_route_notes m u p ip)
| ro_none : none_selected t (m ++ L ":" ++ p) ->
    routed t m u p ip (debug (L "Router handle request " ++ m ++ L ":" ++ p) :: no_route_notes m u p ip).

(** A multipart form: a part without a field name, or a file that cannot be written, is above debug level. *)
Definition no_form_data (ip : str) : Z * str := warn (L "IP:" ++ ip ++ L " Multipart error: Form-data not found ").
Definition unwritable (name : str) : Z * str := error (L "There was an error opening file: /tmp/wayuu/" ++ name).
Inductive form_note (ip : str) : Z * str -> Prop :=
| fn_debug : forall s, form_note ip (debug s)
| fn_nameless : form_note ip (no_form_data ip)
| fn_unwritable : forall name, form_note ip (unwritable name).

(** ** What can be logged at the level the program starts with *)
Inductive loud_note (root : str) : Z * str -> Prop :=
| ln_not_found : forall name, loud_note root (not_found (root ++ L "/" ++ name))
| ln_nameless : forall ip, loud_note root (no_form_data ip)
| ln_unwritable : forall name, loud_note root (unwritable name).

(** Headers that told the same, the session apart. *)
Definition same_but_session (x y : told) : Prop :=
  td_type x = td_type y /\ td_boundary x = td_boundary y /\ td_length x = td_length y /\ td_ip x = td_ip y.

(** ** http_log_headers *)
Definition header_notes (hs : list (str * str)) : list (Z * str) :=
  map (fun nv => debug (L "HEADER: " ++ fst nv ++ L ", VALUE: " ++ snd nv)) hs.
(** The logger has written these messages to where it writes. *)
Definition logged (s s' : logstate) (ms : list (Z * str)) : Prop :=
  lg_out s' = lg_out s ++ map (fun m => (fst m, snd m, match lg_file s with LogNull => LogStderr | d => d end)) ms
  /\ lg_level s' = lg_level s /\ lg_exited s' = lg_exited s.

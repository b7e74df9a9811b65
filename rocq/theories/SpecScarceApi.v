(** SpecScarceApi.v - which blocks a request to the API cannot do without. *)
From Verif Require Import Base CLib WsRequest Scarce SpecMultipart SpecJson SpecHttp SpecConn SpecReq SpecRouter SpecDispatch SpecApi SpecDefined SpecDecode SpecDefinedApi SpecMemory SpecScarce Spec.
(** From the model only the types [place] and [site] and the record types are used here. *)

(** The blocks for the part [p] at [at_]; [t] are the bytes it is read through: one for its name, if
    something follows the mark, and then one for its value, if a blank line starts in the part. *)
Inductive part_asks (t p : str) (at_ : Z) : site -> Prop :=
| pa_name : forall T a b, seen_as t T -> first_of name_mark T a b -> b <> [] -> part_asks t p at_ (Field at_)
| pa_value : forall T a b c d, seen_as t T -> first_of name_mark T a b -> b <> [] ->
    t = c ++ SpecMultipart.blank_line ++ d -> len c < len p -> part_asks t p at_ (Value at_).

(** The blocks for the parts in the rest [s] of a body of [n] bytes, taken as in [decoded]. *)
Inductive parts_ask (n : Z) (bnd : str) : str -> str -> site -> Prop :=
| ps_here : forall s a s1 p q old x, first_of bnd s a s1 -> first_of bnd s1 p q ->
    part_asks (laid p old) p (n - len s1) x -> parts_ask n bnd s old x
| ps_next : forall s a s1 p q c rest old next x, first_of bnd s a s1 -> first_of bnd s1 p q ->
    cleared (laid p old) next -> s1 = c :: rest -> parts_ask n bnd rest next x -> parts_ask n bnd s old x.

(** The blocks for a body. *)
Definition body_wants (n : Z) (bnd after : str) (p : place) : Prop :=
  0 < n /\ (p = PBody Form
    \/ (2 <= len bnd /\ (p = PBody Fields
        \/ exists body, request_body n after body
             /\ ((delimits bnd body /\ p = PBody Part)
                 \/ exists x, parts_ask n bnd body (repeat NUL (S (length body))) x /\ p = PBody x)))).

(** The blocks for finding the route of METHOD:PATH, if the form has the text [text]. *)
Definition route_wants (routes : list route) (mp : str) (fs : list (str * str)) (text : str) (p : place) : Prop :=
  (none_selected routes mp /\ log_wants fs p)
  \/ exists rt, selected routes mp rt
       /\ ((rt_handler rt = None /\ log_wants fs p)
           \/ (rt_type rt = MATCHER_TYPE_PARAM /\ (In p [PParamText; PParam] \/ (text <> [] /\ p = PAppend)))).

(** All blocks of an admitted request to the API: [u], [s1] as in [first_line]. *)
Definition api_wants (v : wsenv) (m path u s1 : str) (fs : list (str * str)) (n : Z) (bnd after text : str) (p : place) : Prop :=
  In p [PRequest; PPeer; PLine; PUrl; PApiPath]
  \/ (exists k i x, line_at s1 k i x /\ line_wants k i x p)
  \/ url_wants u p
  \/ body_wants n bnd after p
  \/ route_wants (v_routes v) (m ++ L ":" ++ path) fs text p.

(** The stream ends with the bare name of the length: then the length is what the line before has left. *)
Definition ends_bare (s : str) : Prop := exists a z, s = a ++ z /\ ci_equal (L "Content-Length:") z.

(** The form is to be made from the path: the route has a parameter and there is no other form text. *)
Definition form_from_path (routes : list route) (mp text : str) (rt : route) : Prop :=
  selected routes mp rt /\ rt_type rt = MATCHER_TYPE_PARAM /\ text = [].
(** What the application is called for and what it makes of the request [r]. *)
Definition app_does (a : callbacks) (h : nat) (flt : option nat) (r : api_request) : list call * api_request :=
  match flt with
  | None => ([CallHandler h], on_handler a h r)
  | Some g => if snd (on_filter a g r) then ([CallFilter g; CallHandler h], on_handler a h (fst (on_filter a g r)))
              else ([CallFilter g], fst (on_filter a g r))
  end.
(** [res] is the result with the form from the path, [res'] the one with a NULL form. *)
Definition form_lost (v : wsenv) (m path : str) (rt : route) (res res' : result) : Prop :=
  o_fs res' = o_fs res /\ exists r form,
  cstr form = Ok (rt_param rt ++ L "=" ++ skipn (length (rt_prefix rt)) (m ++ L ":" ++ path))
  /\ match rt_handler rt with
     | None => o_taken res = TApi [] /\ o_taken res' = TApi [] /\ o_req res = set_form r form /\ o_req res' = set_form r []
     | Some h => o_taken res = TApi (fst (app_does (v_app v) h (rt_filter rt) (set_form r form)))
       /\ o_req res = snd (app_does (v_app v) h (rt_filter rt) (set_form r form))
       /\ o_taken res' = TApi (fst (app_does (v_app v) h (rt_filter rt) (set_form r [])))
       /\ o_req res' = snd (app_does (v_app v) h (rt_filter rt) (set_form r []))
     end.

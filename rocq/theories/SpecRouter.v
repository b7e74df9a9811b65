(** SpecRouter.v - what the routing properties mean.  From the model only the record types
    are used ([route], [api_request]). *)
From Verif Require Import Base CLib HttpUtils Router SpecHttp Spec.

(** A route matches the text METHOD:PATH. *)
Definition matches (rt : route) (m : str) : Prop :=
  match rt_type rt with
  | MATCHER_TYPE_CONSTANT => rt_prefix rt = m
  | MATCHER_TYPE_PARAM => substring (rt_prefix rt) m /\ rt_prefix rt <> m
  end.

(** [rt] is the first route of the table that matches [m]. *)
Definition selected (t : list route) (m : str) (rt : route) : Prop :=
  exists a b, t = a ++ rt :: b /\ matches rt m /\ Forall (fun x => ~ matches x m) a.
Definition none_selected (t : list route) (m : str) : Prop := Forall (fun x => ~ matches x m) t.

(** No matcher of the table has been freed. *)
Definition live (t : list route) : Prop := Forall (fun rt => rt_live rt = true) t.

(** ASCII text without NUL and without [c]. *)
Definition plain_text (c : ascii) (s : str) : Prop := Forall (fun x => 0 < code x < 128 /\ x <> c) s.

(** What the path parameter adds to the form text: [v] is METHOD:PATH without as many bytes
    as the prefix is long. *)
Definition with_param (form p v : str) : str :=
  match form with
  | [] => p ++ L "=" ++ v
  | _ => form ++ L "&" ++ p ++ L "=" ++ v
  end.

(** The request as the application sees it when [rt] is selected: [r] except that the form
    of a parametric route has been extended. *)
Definition seen (r r1 : api_request) (rt : route) (m : str) : Prop :=
  match rt_type rt with
  | MATCHER_TYPE_CONSTANT => r1 = r
  | MATCHER_TYPE_PARAM =>
    exists form b, cstr (r_form r) = Ok form
      /\ cstr b = Ok (with_param form (rt_param rt) (skipn (length (rt_prefix rt)) m))
      /\ r1 = set_form r b
  end.

(** There is room for the parameter text: in the buffer made for it and, if the form is not
    empty, behind the form. *)
Definition room (r : api_request) (rt : route) (m : str) : Prop :=
  match rt_type rt with
  | MATCHER_TYPE_CONSTANT => True
  | MATCHER_TYPE_PARAM =>
    len (rt_param rt) <= 2 * len (rt_prefix rt) + 8
    /\ exists form, cstr (r_form r) = Ok form
       /\ (form = [] \/ len (with_param form (rt_param rt) (skipn (length (rt_prefix rt)) m)) < len (r_form r))
  end.

(** The text METHOD:PATH. *)
Definition method_path (r : api_request) : str := r_method r ++ L ":" ++ r_path r.

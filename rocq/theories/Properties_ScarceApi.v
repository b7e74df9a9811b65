(** Properties_ScarceApi.v - C107: a request to the API when memory is short (/repo/ws.c, router.c). *)
From Verif Require Import WsRequest Memory Scarce Lemmas Defined_proofs DefinedApi_proofs Scarce_proofs ScarceApi_proofs Properties_Dispatch Properties_Api Properties_DefinedApi
  SpecMultipart SpecHttp SpecConn SpecReq SpecRouter SpecDispatch SpecApi SpecDefined SpecDecode SpecDefinedApi SpecScarce SpecScarceApi Spec.

Local Opaque accept_request accept_scarce.

(** C107.  A request to the API that would be handled to the end (C99) is undefined exactly if a
    block it wants is refused; the stream must not end with the bare name of the length. *)
Theorem C107_undefined : forall ok v f t socket peer stream seen m u s1 fs n bnd after text mount p q,
  sound_limits v t peer -> sound_routes v -> first_line stream seen m (Some u) s1 -> 2 <= len seen -> allowed m -> let_in v t peer u ->
  api_url u -> url_parts u (mount ++ p) q -> len mount = 4 -> ~ bad_headers s1 ->
  headers s1 fs -> announced s1 (-1) [] n bnd after -> ~ ends_bare s1 -> form_given n bnd after text -> ~ api_wrong v m p fs n text ->
  (undefined (accept_scarce ok v f t socket peer stream) <-> exists b, api_wants v m p u s1 fs n bnd after text b /\ ok b = false).
Proof.
  intros ok v f t socket peer stream seen m u s1 fs n bnd after text mount p q S Sr FL S2 Al LI Ha P L4 Nb Hh An Eb Fg W.
  destruct (C99_handled v f t socket peer stream seen m u s1 fs n bnd after text mount p q S Sr FL S2 Al LI Ha P L4 Nb Hh An Fg W) as (res & calls & R & _).
  destruct (api_scarce_runs ok v f t socket peer stream seen m u s1 fs n bnd after mount p q text res S Sr FL S2 Al LI Ha P L4 Nb Hh An Eb Fg R) as (res' & [(X & U)|(X & U)] & _); [tauto|].
  split; [intros (e & E); congruence|]. intros (b & B & O). rewrite (X b B) in O. discriminate.
Qed.
Print Assumptions C107_undefined.
(** Otherwise it has the effect it has with all blocks given, whatever others are refused... *)
Theorem C107_same : forall ok v f t socket peer stream seen m u s1 fs n bnd after text mount p q,
  sound_limits v t peer -> sound_routes v -> first_line stream seen m (Some u) s1 -> 2 <= len seen -> allowed m -> let_in v t peer u ->
  api_url u -> url_parts u (mount ++ p) q -> len mount = 4 -> ~ bad_headers s1 ->
  headers s1 fs -> announced s1 (-1) [] n bnd after -> ~ ends_bare s1 -> form_given n bnd after text -> ~ api_wrong v m p fs n text ->
  (forall b, api_wants v m p u s1 fs n bnd after text b -> ok b = true) ->
  ok PForm = true \/ (forall rt, ~ form_from_path (v_routes v) (m ++ L ":" ++ p) text rt) ->
  accept_scarce ok v f t socket peer stream = accept_request v f t socket peer stream.
Proof.
  intros ok v f t socket peer stream seen m u s1 fs n bnd after text mount p q S Sr FL S2 Al LI Ha P L4 Nb Hh An Eb Fg W G F.
  destruct (C99_handled v f t socket peer stream seen m u s1 fs n bnd after text mount p q S Sr FL S2 Al LI Ha P L4 Nb Hh An Fg W) as (res & calls & R & _).
  destruct (api_scarce_runs ok v f t socket peer stream seen m u s1 fs n bnd after mount p q text res S Sr FL S2 Al LI Ha P L4 Nb Hh An Eb Fg R) as (res' & [((b & B & O) & _)|(_ & U)] & D & _).
  - rewrite (G b B) in O. discriminate.
  - rewrite U, R. f_equal. auto.
Qed.
Print Assumptions C107_same.
(** ...but for one: if the form is to be made from the path and its copy is refused, the application
    is called with a NULL form, and for nothing else than it would be called for with the form. *)
Theorem C107_no_form : forall ok v f t socket peer stream seen m u s1 fs n bnd after text mount p q rt,
  sound_limits v t peer -> sound_routes v -> first_line stream seen m (Some u) s1 -> 2 <= len seen -> allowed m -> let_in v t peer u ->
  api_url u -> url_parts u (mount ++ p) q -> len mount = 4 -> ~ bad_headers s1 ->
  headers s1 fs -> announced s1 (-1) [] n bnd after -> ~ ends_bare s1 -> form_given n bnd after text -> ~ api_wrong v m p fs n text ->
  (forall b, api_wants v m p u s1 fs n bnd after text b -> ok b = true) ->
  ok PForm = false -> form_from_path (v_routes v) (m ++ L ":" ++ p) text rt ->
  exists res res', accept_request v f t socket peer stream = Ok res /\ accept_scarce ok v f t socket peer stream = Ok res' /\ form_lost v m p rt res res'.
Proof.
  intros ok v f t socket peer stream seen m u s1 fs n bnd after text mount p q rt S Sr FL S2 Al LI Ha P L4 Nb Hh An Eb Fg W G F Fp.
  destruct (C99_handled v f t socket peer stream seen m u s1 fs n bnd after text mount p q S Sr FL S2 Al LI Ha P L4 Nb Hh An Fg W) as (res & calls & R & _).
  destruct (api_scarce_runs ok v f t socket peer stream seen m u s1 fs n bnd after mount p q text res S Sr FL S2 Al LI Ha P L4 Nb Hh An Eb Fg R) as (res' & [((b & B & O) & _)|(_ & U)] & _ & D).
  - rewrite (G b B) in O. discriminate.
  - exists res, res'. auto.
Qed.
Print Assumptions C107_no_form.
(** A request that is turned away, to the API or not, wants four or five blocks, and nothing else
    makes a difference to it. *)
Theorem C107_refused : forall ok v f t socket peer stream seen m u s1,
  sound_limits v t peer -> first_line stream seen m (Some u) s1 -> 2 <= len seen -> ~ allowed m \/ ~ let_in v t peer u ->
  let wanted b := In b [PRequest; PPeer; PLine; PStamp] \/ (allowed m /\ b = PUrl /\ (some_rule (v_limits v) \/ len (occupied t) < len t)) in
  (undefined (accept_scarce ok v f t socket peer stream) <-> exists b, wanted b /\ ok b = false)
  /\ ((forall b, wanted b -> ok b = true) -> accept_scarce ok v f t socket peer stream = accept_request v f t socket peer stream).
Proof.
  intros ok v f t socket peer stream seen m u s1 S FL S2 D wanted.
  destruct (refused_total v f t socket peer stream seen m u s1 S FL S2 D) as (res & R & _).
  destruct (refused_runs ok v f t socket peer stream seen m u s1 S FL S2 D) as [(X & U)|(X & U)].
  - split; [tauto|]. intros G. destruct X as (b & B & O). rewrite (G b B) in O. discriminate.
  - split; [|intros _; exact U]. split; [intros (e & E); congruence|]. intros (b & B & O). rewrite (X b B) in O. discriminate.
Qed.
Print Assumptions C107_refused.

(** The hypotheses hold for a request to a route of the example application. *)
Example C107_plain : forall ok,
  undefined (accept_scarce ok api_env demo_fs demo_table 9 (L "1.2.3.4") plain_stream)
  <-> exists b, api_wants api_env (L "POST") (L "/x") (L "/api/x") CRLF [] (-1) [] [] [] b /\ ok b = false.
Proof.
  intros ok. assert (Hl : line_of 1024 CRLF CRLF []) by (split; [reflexivity|split; [vm_compute; congruence|left; exists [CR]; split; [reflexivity|vm_compute; intuition discriminate]]]).
  eapply (C107_undefined ok api_env demo_fs demo_table 9 (L "1.2.3.4") plain_stream _ (L "POST") (L "/api/x") CRLF [] (-1) [] [] [] (L "/api") (L "/x") []).
  - repeat constructor; vm_compute; congruence.
  - split; [|split]; repeat constructor; discriminate.
  - exact plain_first.
  - vm_compute; congruence.
  - exists (L "POST"). split; [right; left; reflexivity|]. exists (L "POST"), []. split; [reflexivity|repeat constructor].
  - split; [|vm_compute; reflexivity]. intros (r & k & j & X & _). inversion X.
  - exists (L "/api"), (L "/x"); split; [reflexivity|repeat constructor].
  - exists []; split; [|split; [vm_compute; congruence|reflexivity]].
    apply (tokens_more _ [] (L "/api/x") []); [constructor|discriminate| |discriminate|constructor; constructor].
    apply Forall_forall. intros c I. vm_compute in I |- *. intuition congruence.
  - reflexivity.
  - eapply bad_at_blank; [exact Hl|now right].
  - eapply hd_blank; [exact Hl|now right].
  - eapply an_blank; [exact Hl|now right].
  - intros (a & z & E & Q). apply bare_text in Q as (_ & _ & _ & _ & _ & _ & Q). apply (f_equal (@length ascii)) in E. rewrite app_length in E. cbn in E. lia.
  - constructor; lia.
  - intros [W|[(W & _)|(rt & (a & b & E & Mt & N) & W)]].
    + revert W. vm_compute. congruence.
    + inversion W as [|? ? W1 _]. now elim W1.
    + destruct a as [|r1 a]; [|inversion N as [|? ? N1 _]; injection E as <- _; now elim N1].
      injection E as <- _. destruct W as [W|(W & _)]; [|discriminate]. apply W. discriminate.
Qed.
Local Transparent accept_request accept_scarce.
Definition api_blocks (ok : allocator) (u : str) (text : str) : option (list call * outcome str) :=
  match accept_scarce ok api_env demo_fs demo_table 9 (L "1.2.3.4")
    (L "POST " ++ u ++ L " HTTP/1.1" ++ CRLF ++ L "Content-Type: multipart/form-data; boundary=XyZ" ++ CRLF
     ++ L "Content-Length: " ++ dec_nat (len text) ++ CRLF ++ CRLF ++ text) with
  | Ok r => match o_taken r with TApi c => Some (c, cstr (r_form (o_req r))) | _ => None end
  | UB _ => None
  end.
Definition two_fields : str := body_of [] (L "--XyZ") [mkField (L "a") [] (L "1"); mkField (L "b") [] (L "2")] (L "--" ++ CRLF).
Definition without (l : list place) : allocator := fun p => negb (existsb (fun q =>
  match p, q with
  | PBody Form, PBody Form | PBody Part, PBody Part | PBody Fields, PBody Fields | PParamText, PParamText | PParam, PParam | PForm, PForm
  | PAppend, PAppend | PApiPath, PApiPath | PFile, PFile | PMime, PMime | PNewPath, PNewPath | PStamp, PStamp => true
  | PBody (Field a), PBody (Field b) | PBody (Value a), PBody (Value b) => a =? b
  | _, _ => false
  end) l).
Example C107_case :
  let full := Some ([CallHandler 9%nat], Ok (L "a=1&b=2&id=5")) in
  let post l := api_blocks (without l) (L "/api/u/5") two_fields in
  post [] = full
  /\ map (fun p => post [p]) [PBody Form; PBody Fields; PBody Part; PBody (Field 5); PBody (Value 5); PBody (Field 59); PBody (Value 59)] = repeat None 7
  /\ map (fun p => post [p]) [PParamText; PParam; PAppend; PApiPath] = repeat None 4
  /\ post [PBody (Field 6); PBody (Value 113); PForm; PMime; PFile; PNewPath; PStamp] = full
  /\ api_blocks (without [PForm]) (L "/api/u/5") [] = Some ([CallHandler 9%nat], cstr [])
  /\ api_blocks (without [PAppend]) (L "/api/u/5") [] = Some ([CallHandler 9%nat], Ok (L "id=5"))
  /\ api_blocks (without [PParam; PParamText; PForm; PAppend]) (L "/api/x") two_fields = Some ([CallFilter 8%nat; CallHandler 7%nat], Ok (L "a=1&b=2")).
Proof. cbv zeta. repeat (split; [vm_compute; reflexivity|]). vm_compute. reflexivity. Qed.

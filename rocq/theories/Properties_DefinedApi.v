(** Properties_DefinedApi.v - C99: exactly which requests to the API are undefined (/repo/ws.c, router.c). *)
From Verif Require Import WsRequest Workers Lemmas Defined_proofs DefinedApi_proofs Properties_Dispatch Properties_Api Properties_Workers
  SpecMultipart SpecHttp SpecConn SpecReq SpecRouter SpecDispatch SpecApi SpecWorkers SpecDefined SpecDefinedApi Spec.

Local Opaque accept_request.

(** C99.  An admitted request to the API, read without harm (C98_reading says when), is undefined
    exactly if its method and path have 254 bytes or more, the parameter of its route does not fit,
    or it is rejected with too long a value in what the log reports... *)
Theorem C99_exactly : forall v f t socket peer stream seen m u s1 fs n bnd after text mount p q,
  sound_limits v t peer -> sound_routes v -> first_line stream seen m (Some u) s1 -> 2 <= len seen -> allowed m -> let_in v t peer u ->
  api_url u -> url_parts u (mount ++ p) q -> len mount = 4 -> ~ bad_headers s1 ->
  headers s1 fs -> announced s1 (-1) [] n bnd after -> form_given n bnd after text ->
  (undefined (accept_request v f t socket peer stream) <-> api_wrong v m p fs n text).
Proof.
  intros v f t socket peer stream seen m u s1 fs n bnd after text mount p q S Sr FL S2 Al LI Ha P L4 Nb Hh An Fg.
  destruct (api_total v f t socket peer stream seen m u s1 fs n bnd after mount p q S Sr FL S2 Al LI Ha P L4 Nb Hh An) as [(NF & _)|(text' & Fg' & X)]; [now elim (NF text)|].
  pose proof (form_unique _ _ _ _ _ Fg Fg') as <-. destruct X as [(W & U)|(W & res & calls & R & _)]; [tauto|].
  split; [|tauto]. intros (e & E). congruence.
Qed.
Print Assumptions C99_exactly.
(** ...or if it has a multipart body without a form text (C100). *)
Theorem C99_no_form : forall v f t socket peer stream seen m u s1 n bnd after mount p q,
  sound_limits v t peer -> sound_routes v -> first_line stream seen m (Some u) s1 -> 2 <= len seen -> allowed m -> let_in v t peer u ->
  api_url u -> url_parts u (mount ++ p) q -> len mount = 4 -> ~ bad_headers s1 ->
  announced s1 (-1) [] n bnd after -> (forall text, ~ form_given n bnd after text) ->
  undefined (accept_request v f t socket peer stream) /\ 0 < n /\ 2 <= len bnd.
Proof.
  intros v f t socket peer stream seen m u s1 n bnd after mount p q S Sr FL S2 Al LI Ha P L4 Nb An NF. destruct (headers_exist s1) as (fs & Hh). split.
  - destruct (api_total v f t socket peer stream seen m u s1 fs n bnd after mount p q S Sr FL S2 Al LI Ha P L4 Nb Hh An) as [(_ & U)|(text & Fg & _)]; [exact U|now elim (NF text)].
  - split.
    + destruct (Z_lt_dec 0 n) as [G|G]; [exact G|]. elim (NF []). constructor. lia.
    + destruct (Z_le_dec 2 (len bnd)) as [G|G]; [exact G|]. destruct (body_exists n after) as (body & Hr). destruct (seen_exists body) as (text & Ht).
      destruct (Z_lt_dec 0 n) as [K|K]; [|elim (NF []); constructor; lia]. elim (NF text). eapply fg_body; eauto. lia.
Qed.
Print Assumptions C99_no_form.
(** All others are handled to the end, by the API. *)
Theorem C99_handled : forall v f t socket peer stream seen m u s1 fs n bnd after text mount p q,
  sound_limits v t peer -> sound_routes v -> first_line stream seen m (Some u) s1 -> 2 <= len seen -> allowed m -> let_in v t peer u ->
  api_url u -> url_parts u (mount ++ p) q -> len mount = 4 -> ~ bad_headers s1 ->
  headers s1 fs -> announced s1 (-1) [] n bnd after -> form_given n bnd after text -> ~ api_wrong v m p fs n text ->
  exists res calls, accept_request v f t socket peer stream = Ok res /\ o_taken res = TApi calls.
Proof.
  intros v f t socket peer stream seen m u s1 fs n bnd after text mount p q S Sr FL S2 Al LI Ha P L4 Nb Hh An Fg W.
  destruct (api_total v f t socket peer stream seen m u s1 fs n bnd after mount p q S Sr FL S2 Al LI Ha P L4 Nb Hh An) as [(NF & _)|(text' & Fg' & X)]; [now elim (NF text)|].
  pose proof (form_unique _ _ _ _ _ Fg Fg') as <-. destruct X as [(X & _)|(_ & R)]; [contradiction|exact R].
Qed.
Print Assumptions C99_handled.
(** What the headers announce, in every stream; and there is at most one form. *)
Theorem C99_announced : forall s n b, ~ bad_headers s -> exists n' b' after, announced s n b n' b' after
  /\ forall text text', form_given n' b' after text -> form_given n' b' after text' -> text' = text.
Proof.
  intros s n b H. destruct (announced_exists s H n b) as (n' & b' & after & A). exists n', b', after. split; [exact A|].
  intros text text' F F'. exact (form_unique _ _ _ _ _ F' F).
Qed.
Print Assumptions C99_announced.
(** A request that is not let in is answered, whatever follows its first line. *)
Theorem C99_refused : forall v f t socket peer stream seen m u s1,
  sound_limits v t peer -> first_line stream seen m (Some u) s1 -> 2 <= len seen -> ~ allowed m \/ ~ let_in v t peer u ->
  exists res, accept_request v f t socket peer stream = Ok res /\ In (o_taken res) [TBadMethod; TTooMany].
Proof. exact refused_total. Qed.
Print Assumptions C99_refused.
(** So a server whose requests are all harmless alone never gets into undefined behaviour, however
    its threads interleave. *)
Theorem C99_no_schedule : forall f qs n sched u, Forall as_built qs ->
  Forall (fun q => harmless (q_env q) f empty_table (q_peer q) (q_stream q)) qs -> wrun (pool_start f qs n) sched <> Some (UB u).
Proof.
  intros f qs n sched u B H R. destruct (C95_undefined f qs n sched u B R) as (q & I & E). rewrite Forall_forall in H.
  destruct (harmless_total _ f empty_table (q_socket q) _ _ (H q I)) as (res & Q). unfold alone in E. congruence.
Qed.
Print Assumptions C99_no_schedule.

(** A request without headers to a small API is harmless. *)
Definition plain_stream : str := L "POST /api/x HTTP/1.1" ++ CRLF ++ CRLF.
Lemma not_blank s : forallb (fun c => negb (isspace c)) s = true -> Forall (fun c => ~ blank c) s.
Proof. intros H. apply Forall_forall. intros c I B. rewrite forallb_forall in H. specialize (H c I). repeat (destruct B as [<-|B]; [discriminate H|]). elim B. Qed.
Lemma plain_first : first_line plain_stream (L "POST /api/x HTTP/1.1" ++ CRLF) (L "POST") (Some (L "/api/x")) CRLF.
Proof.
  exists (L "POST /api/x HTTP/1.1" ++ CRLF), (L "POST"), (L " "), (L "/api/x"), (L " HTTP/1.1" ++ CRLF ++ repeat NUL (1024 - 22)).
  split; [split; [reflexivity|]; split; [vm_compute; congruence|]; left; exists (L "POST /api/x HTTP/1.1" ++ [CR]); split; [reflexivity|vm_compute; intuition discriminate]|].
  split; [split; [apply no_nul_dec_b; reflexivity|now left]|]. split; [reflexivity|]. split; [apply not_blank; reflexivity|].
  split; [right; split; [reflexivity|discriminate]|]. split; [repeat constructor; now left|]. split; [discriminate|]. split; [apply not_blank; reflexivity|].
  split; [right; eexists _, _; split; [reflexivity|vm_compute; tauto]|]. split; [split; [apply no_nul_dec_b; reflexivity|now left]|].
  left. eexists. split; [reflexivity|]. split; [split; [apply no_nul_dec_b; reflexivity|now left]|left; discriminate].
Qed.
Example C99_harmless : harmless api_env demo_fs demo_table (L "1.2.3.4") plain_stream.
Proof.
  eexists _, _, _, _. split; [exact plain_first|]. right. split; [repeat constructor; vm_compute; congruence|]. split; [vm_compute; congruence|].
  eexists. split; [reflexivity|]. right. right. split; [split; [|split]; repeat constructor; discriminate|].
  split; [exists (L "/api"), (L "/x"); split; [reflexivity|repeat constructor]|].
  assert (Hl : line_of 1024 CRLF CRLF []) by (split; [reflexivity|split; [vm_compute; congruence|left; exists [CR]; split; [reflexivity|vm_compute; intuition discriminate]]]).
  split; [eapply bad_at_blank; [exact Hl|now right]|].
  exists (L "/api"), (L "/x"), [], [], (-1), [], [], [].
  split; [exists []; split; [|split; [vm_compute; congruence|reflexivity]]|].
  { apply (tokens_more _ [] (L "/api/x") []); [constructor|discriminate| |discriminate|constructor; constructor].
    apply Forall_forall. intros c I. vm_compute in I |- *. intuition congruence. }
  split; [reflexivity|]. split; [eapply hd_blank; [exact Hl|now right]|]. split; [eapply an_blank; [exact Hl|now right]|].
  split; [constructor; lia|]. intros [W|[(W & _)|(rt & (a & b & E & Mt & N) & W)]].
  - revert W. vm_compute. congruence.
  - inversion W as [|? ? W1 _]. now elim W1.
  - destruct a as [|r1 a]; [|inversion N as [|? ? N1 _]; injection E as <- _; now elim N1].
    injection E as <- _. destruct W as [W|(W & _)]; [|discriminate]. apply W. discriminate.
Qed.

(** A form with room for the parameter: one byte less is too few. *)
Local Transparent accept_request.
Definition api_defined (u : str) (body : str) : bool :=
  match accept_request api_env demo_fs demo_table 9 (L "1.2.3.4")
    (L "POST " ++ u ++ L " HTTP/1.1" ++ CRLF ++ L "Content-Length: " ++ dec_nat (len body) ++ CRLF ++ CRLF ++ body) with Ok _ => true | UB _ => false end.
Example C99_case :
  map (fun k => api_defined (L "/api/u/5") (L "a" ++ repeat NUL k)) [4; 5; 6]%nat = [false; true; true]
  /\ with_param (L "a") (L "id") (L "5") = L "a&id=5"
  /\ map (fun k => api_defined (L "/api/" ++ repeat "x"%char k) []) [247; 248; 249]%nat = [true; true; false]
  /\ api_defined (L "/api/x") (L "any body") = true.
Proof. repeat split; vm_compute; reflexivity. Qed.

(** Properties_Harmless.v - C101: exactly the harmless requests have a defined effect, alone and at the
    same time (/repo/ws.c:accept_request, ws_connection_handler). *)
From Verif Require Import WsRequest Workers Lemmas Defined_proofs DefinedApi_proofs Workers_proofs Properties_Dispatch Properties_Api Properties_Workers Properties_DefinedApi
  SpecMultipart SpecHttp SpecConn SpecReq SpecRouter SpecDispatch SpecApi SpecWorkers SpecDefined SpecDefinedApi Spec.
From Coq Require Import Permutation.

Local Opaque accept_request.

(** C101.  For every byte stream, to the API or not: behaviour is undefined exactly if the request is
    not harmless. *)
Theorem C101_exactly : forall v f t socket peer stream junk, sound_setting v f t peer junk -> sound_routes v ->
  ((exists res, accept_request v f t socket peer stream = Ok res) <-> harmless v f t peer stream)
  /\ (undefined (accept_request v f t socket peer stream) <-> ~ harmless v f t peer stream).
Proof.
  intros v f t socket peer stream junk S Sr. split; split.
  - intros (res & R). eapply handled_harmless; eauto.
  - apply harmless_total.
  - intros (e & E) H. destruct (harmless_total v f t socket peer stream H) as (res & R). congruence.
  - intros H. destruct (accept_request v f t socket peer stream) as [res|e] eqn:E; [|now exists e].
    elim H. eapply handled_harmless; eauto.
Qed.
Print Assumptions C101_exactly.

(** Connections to a server without limits, each with everything the server has chosen itself in order. *)
Definition in_order (f : fs) (q : incoming) : Prop :=
  as_built q /\ keeps_socket (v_app (q_env q)) /\ v_limits (q_env q) = [] /\ sound_routes (q_env q)
  /\ exists junk, sound_setting (q_env q) f empty_table (q_peer q) junk.
(** If one of them is not harmless, no schedule of the threads avoids undefined behaviour: whatever
    they have done so far, some thread can do a step, and however they go on, behaviour is undefined
    after at most seven steps for each connection. *)
Theorem C101_unavoidable : forall f qs n sched p, Forall (in_order f) qs -> (0 < n <= 1024)%nat ->
  ~ Forall (fun q => harmless (q_env q) f empty_table (q_peer q) (q_stream q)) qs -> wrun (pool_start f qs n) sched = Some (Ok p) ->
  (exists k, wstep p k <> None) /\ len sched <= 7 * len qs /\ exists more u, wrun (pool_start f qs n) (sched ++ more) = Some (UB u).
Proof.
  intros f qs n sched p O N NH R.
  assert (B : Forall as_built qs) by (eapply Forall_impl; [|exact O]; intros q (A & _); exact A).
  assert (K : Forall (fun q => keeps_socket (v_app (q_env q)) /\ v_limits (q_env q) = []) qs) by (eapply Forall_impl; [|exact O]; intros q (_ & A1 & A2 & _); auto).
  assert (G : forall sched p, wrun (pool_start f qs n) sched = Some (Ok p) -> exists k, (k < length (w_threads p))%nat /\ wstep p k <> None).
  { clear sched p R. intros sched p R.
    assert (X : (exists k, (k < length (w_threads p))%nat /\ wstep p k <> None) \/ forall k, (k < length (w_threads p))%nat -> wstep p k = None).
    { generalize (length (w_threads p)). intros m. induction m as [|m [(k & Hk & S)|IH]]; [right; lia|left; exists k; split; [lia|exact S]|].
      destruct (wstep p m) eqn:E; [left; exists m; split; [lia|congruence]|]. right. intros k Hk. destruct (Nat.eq_dec k m) as [->|Nk]; [exact E|apply IH; lia]. }
    destruct X as [X|X]; [exact X|]. exfalso. apply NH.
    assert (S : forall k, wstep p k = None).
    { intros k. destruct (le_lt_dec (length (w_threads p)) k) as [Hk|Hk]; [|now apply X]. unfold wstep. now rewrite (proj2 (nth_error_None _ _) Hk). }
    destruct (C95_ends f qs n sched p B ltac:(lia) R) as (_ & P). specialize (P S). apply Forall_forall. intros q I.
    apply (Permutation_in _ P) in I. unfold answered in I. apply in_map_iff in I as (((q' & k) & r) & E & I). cbn [fst] in E. subst q'.
    destruct (C95_no_limits f qs n sched p B K ltac:(lia) R q k r I) as (res & A & _).
    assert (Iq : In q qs). { apply (Permutation_in _ (Permutation_sym P)). unfold answered. apply in_map_iff. exists (q, k, r). auto. }
    rewrite Forall_forall in O. destruct (O q Iq) as (_ & _ & _ & Sr & junk & Sj). eapply handled_harmless; eauto. }
  split; [destruct (G _ _ R) as (k & _ & S); eauto|]. split; [exact (proj1 (C95_ends f qs n sched p B ltac:(lia) R))|].
  assert (H : forall d sched p, (7 * length qs < length sched + d)%nat -> wrun (pool_start f qs n) sched = Some (Ok p) ->
    exists more u, wrun (pool_start f qs n) (sched ++ more) = Some (UB u)).
  { clear sched p R. induction d as [|d IH]; intros sched p D R.
    - exfalso. destruct (C95_ends f qs n sched p B ltac:(lia) R) as (E & _). unfold len in E. lia.
    - destruct (G _ _ R) as (k & _ & S). destruct (wstep p k) as [o|] eqn:E; [|easy].
      assert (A : forall l p0, wrun p0 l = Some (Ok p) -> wrun p0 (l ++ [k]) = Some o).
      { induction l as [|j l IHl]; intros p0 R0.
        - injection R0 as ->. cbn. rewrite E. now destruct o.
        - cbn [app]. unfold wrun in *. cbn [run_with] in *. destruct (wstep p0 j) as [[p1|u]|]; [now apply IHl|discriminate|discriminate]. }
      specialize (A _ _ R). destruct o as [p1|u]; [|exists [k], u; exact A].
      destruct (IH (sched ++ [k]) p1) as (more & u & Q); [rewrite app_length; cbn; lia|exact A|]. exists (k :: more), u. now rewrite <- app_assoc in Q. }
  exact (H (S (7 * length qs)) sched p ltac:(lia) R).
Qed.
Print Assumptions C101_unavoidable.
(** So such a server can get into undefined behaviour exactly if one of the requests is not harmless. *)
Theorem C101_schedules : forall f qs n, Forall (in_order f) qs -> (0 < n <= 1024)%nat ->
  ((forall sched u, wrun (pool_start f qs n) sched <> Some (UB u))
   <-> Forall (fun q => harmless (q_env q) f empty_table (q_peer q) (q_stream q)) qs).
Proof.
  intros f qs n O N. split.
  - intros H. apply Forall_forall. intros q I.
    assert (D : harmless (q_env q) f empty_table (q_peer q) (q_stream q) \/ ~ harmless (q_env q) f empty_table (q_peer q) (q_stream q)).
    { rewrite Forall_forall in O. destruct (O q I) as (_ & _ & _ & Sr & junk & Sj). destruct (C101_exactly _ f _ (q_socket q) _ (q_stream q) _ Sj Sr) as (X & Y).
      destruct (accept_request (q_env q) f empty_table (q_socket q) (q_peer q) (q_stream q)) as [res|e]; [left; apply X; eauto|right; apply Y; now exists e]. }
    destruct D as [D|D]; [exact D|]. exfalso.
    destruct (C101_unavoidable f qs n [] (pool_start f qs n) O N) as (_ & _ & more & u & R); [|reflexivity|exact (H _ _ R)].
    rewrite Forall_forall. intros A. exact (D (A q I)).
  - intros H sched u. apply C99_no_schedule; [|exact H]. eapply Forall_impl; [|exact O]. intros q (A & _). exact A.
Qed.
Print Assumptions C101_schedules.

(** Requests to a small API: a multipart body whose blank line precedes the name (C100), a length left
    over from the line before, and one cut behind its name by a NUL. *)
Local Transparent accept_request.
Definition api_stream (headers body : str) : str := L "POST /api/x HTTP/1.1" ++ CRLF ++ headers ++ body.
Definition multi (n : nat) : str :=
  let body := L "--X" ++ SpecMultipart.blank_line ++ name_mark ++ repeat "x"%char n ++ CRLF ++ L "--X" in
  api_stream (L "Content-Type: multipart/form-data; boundary=X" ++ CRLF ++ L "Content-Length: " ++ dec_nat (len body) ++ CRLF ++ CRLF) body.
Definition form_of_request (s : str) : option str :=
  match accept_request api_env demo_fs demo_table 9 (L "1.2.3.4") s with
  | Ok res => match cstr (r_form (o_req res)) with Ok t => Some t | UB _ => None end
  | UB _ => None
  end.
Definition posted (s : str) : incoming := mkIn api_env 4 (L "1.2.3.4") s.
Definition ends (qs : list incoming) (sched : list nat) : option (option Z) :=
  match wrun (pool_start demo_fs qs 2) sched with Some (Ok p) => Some (Some (len (w_answers p))) | Some (UB _) => Some None | None => None end.
Example C101_case :
  map form_of_request [multi 11; multi 12] = [Some (repeat "x"%char 11 ++ L "=form-data; name=" ++ [DQ] ++ repeat "x"%char 11); None]
  /\ form_of_request (api_stream (L "Content-Length: 12" ++ CRLF ++ L "Content-Length:") []) = Some []
  /\ form_of_request (api_stream (L "Content-Length:" ++ [NUL] ++ L "2" ++ CRLF ++ CRLF) (L "abc")) = Some (L "ab")
  /\ form_of_request (api_stream (L "Content-Length: 18446744073709551618" ++ CRLF ++ CRLF) (L "abc")) = Some []
  /\ form_of_request (api_stream (L "Content-Length: 4294967298" ++ CRLF ++ CRLF) (L "abc")) = Some (L "ab")
  /\ ends [posted (multi 11); posted (multi 11)] [0; 0; 1; 0; 1; 0; 1; 0; 1; 0; 1; 0; 1; 1]%nat = Some (Some 2)
  /\ ends [posted (multi 11); posted (multi 12)] [0; 0; 1; 0; 1; 0; 1; 0; 1; 0; 1; 0; 1; 1]%nat = Some None.
Proof. repeat split; vm_compute; reflexivity. Qed.
(** These requests are in order. *)
Example C101_in_order : forall s, in_order demo_fs (posted s).
Proof.
  intros s. split; [split; [reflexivity|]; repeat constructor; discriminate|]. split; [split; intros; reflexivity|]. split; [reflexivity|].
  split; [split; [|split]; repeat constructor; discriminate|]. exists (L "junk").
  do 8 (split; [first [constructor; fail|vm_compute; congruence|vm_compute; constructor]|]).
  intros name content E. apply (Z.le_trans _ 100); [|lia]. revert E. unfold demo_fs.
  repeat (destruct (str_eqb _ _); [intros [= <-]; vm_compute; congruence|]). discriminate.
Qed.

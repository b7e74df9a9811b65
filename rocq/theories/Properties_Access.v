(** Properties_Access.v - C97: the access log as a file that several threads append to
    (/repo/wayuu_log.c:38-57, ws.c, http_utils.c). *)
From Verif Require Import AccessLog WsRequest Lemmas AccessLog_proofs Properties_Dispatch SpecLog SpecAccess Spec.

Local Opaque accept_request.

(** C97.  Whatever a client sends, the fields of what is logged are short, if the application does
    not make them longer... *)
Theorem C97_short : forall v f t socket peer stream res, keeps_brief (v_app v) ->
  accept_request v f t socket peer stream = Ok res -> Forall brief_entry (r_log (o_req res)).
Proof. intros v f t socket peer stream res K H. exact (proj2 (proj2 (proj2 (proj2 (accept_brief _ _ _ _ _ _ _ K H))))). Qed.
Print Assumptions C97_short.
(** ... and an application that answers with the library's functions does not. *)
Theorem C97_library : forall r r', brief r ->
  (forall st m, - 2 ^ 31 <= st < 2 ^ 31 -> send_http_status r st m = Ok r' -> brief r')
  /\ (forall st d, - 2 ^ 31 <= st < 2 ^ 31 -> return_json_with_status r st d = Ok r' -> brief r')
  /\ (forall st c, - 2 ^ 31 <= st < 2 ^ 31 -> return_json_stream r st c = Ok r' -> brief r')
  /\ (forall ents, return_json_list r ents = Ok r' -> brief r')
  /\ (forall st e, - 2 ^ 31 <= st < 2 ^ 31 -> status_with_error st r e = Ok r' -> brief r')
  /\ (forall f name st, direct_file f r name = Ok (st, r') -> brief r')
  /\ (forall st, - 2 ^ 31 <= st < 2 ^ 31 -> log_access r st = Ok r' -> brief r').
Proof.
  intros r r' T. repeat match goal with |- _ /\ _ => split end; intros; eauto using status_brief, with_status_brief, json_stream_brief, list_brief, error_brief, direct_file_brief, log_access_brief.
Qed.
Print Assumptions C97_library.
(** Such an entry's line has at most 1680 bytes, whenever it is logged. *)
Theorem C97_line : forall ts start now e, brief_entry e -> len ts < 64 -> len (access_line ts (print_f3 (response_time start now)) e) <= 1680.
Proof. intros ts start now e B Ht. apply access_line_len; auto. apply time_len. Qed.
Print Assumptions C97_line.

(** So the file always holds, after what was there before, whole lines and nothing else: those
    that the threads have logged, each thread's in its own order. *)
Theorem C97_whole : forall v ths ws old sched out rest, keeps_brief (v_app v) -> Forall (Forall (logged_by v)) ths -> Forall2 thread_writes ths ws ->
  append_run old ws sched = Some (out, rest) -> exists l, taken ths l rest /\ out = old ++ concat l.
Proof.
  intros v ths ws old sched out rest K F W H. assert (S : Forall (Forall single) ths).
  { eapply Forall_impl; [|exact F]. intros t Ft. eapply Forall_impl; [|exact Ft]. intros line G. eapply logged_single; eauto. }
  apply (all_single ths ws S) in W. subst ws. now apply run_taken in H.
Qed.
Print Assumptions C97_whole.
(** Every such order can happen. *)
Theorem C97_orders : forall v ths l rest old, keeps_brief (v_app v) -> Forall (Forall (logged_by v)) ths -> taken ths l rest ->
  forall ws, Forall2 thread_writes ths ws -> exists sched, append_run old ws sched = Some (old ++ concat l, rest).
Proof.
  intros v ths l rest old K F T ws W. assert (S : Forall (Forall single) ths).
  { eapply Forall_impl; [|exact F]. intros t Ft. eapply Forall_impl; [|exact Ft]. intros line G. eapply logged_single; eauto. }
  apply (all_single ths ws S) in W. subst ws. exact (taken_run _ _ _ T old).
Qed.
Print Assumptions C97_orders.
(** An application that logs a longer request line can get another thread's line inside its own. *)
Theorem C97_long_refuted : exists e e' ts rt ws sched out, brief_entry e' /\ brief_entry (mkEntry (e_ip e) [] (e_status e) (e_length e) (e_referer e) (e_agent e))
  /\ Forall2 thread_writes [[access_line ts rt e]; [access_line ts rt e']] ws /\ append_run [] ws sched = Some (out, [[]; []])
  /\ ~ exists l rest, taken [[access_line ts rt e]; [access_line ts rt e']] l rest /\ out = concat l.
Proof.
  pose (e := mkEntry (L "1.2.3.4") (repeat "a"%char (Z.to_nat 4096)) 200 5 [] []). pose (e' := mkEntry (L "5.6.7.8") (L "GET / HTTP/1.1") 200 5 [] []).
  pose (x := access_line (L "T") (L "0.002") e). pose (y := access_line (L "T") (L "0.002") e').
  exists e, e', (L "T"), (L "0.002"), [[firstn (Z.to_nat 4096) x; skipn (Z.to_nat 4096) x]; [y]], [0; 1; 0]%nat, (firstn (Z.to_nat 4096) x ++ y ++ skipn (Z.to_nat 4096) x).
  split; [repeat split; vm_compute; congruence|]. split; [repeat split; vm_compute; congruence|]. fold x y. split.
  { constructor; [|constructor; [|constructor]].
    - rewrite <- (app_nil_r [_; _]). constructor; [|constructor]. apply w_pieces; [vm_compute; discriminate| |].
      + cbn [concat]. rewrite app_nil_r. apply firstn_skipn.
      + apply Forall_cons; [vm_compute; discriminate|]. apply Forall_cons; [vm_compute; discriminate|constructor].
    - rewrite <- (app_nil_r [y]). constructor; [|constructor]. apply w_once; [vm_compute; discriminate|vm_compute; reflexivity]. }
  split; [vm_compute; reflexivity|]. intros (l & rest & T & E).
  apply taken_run with (old := []) in T as (sched & T). cbn [app] in T. rewrite <- E in T. clear E l.
  assert (N : forall k s, match take_call k [[x]; [y]] with Some (c, ts) => lrun (c, ts) s | None => None end = Some (firstn (Z.to_nat 4096) x ++ y ++ skipn (Z.to_nat 4096) x, rest) -> False).
  { intros k s. destruct k as [|[|k]]; cbn [take_call]; [| |destruct k; discriminate].
    - destruct s as [|k s]; [vm_compute; discriminate|]. cbn [lrun fst snd]. destruct k as [|[|k]]; cbn [take_call]; [discriminate| |destruct k; discriminate].
      destruct s as [|k s]; [vm_compute; discriminate|]. cbn [lrun fst snd]. destruct k as [|[|k]]; cbn [take_call]; try discriminate. destruct k; discriminate.
    - destruct s as [|k s]; [vm_compute; discriminate|]. cbn [lrun fst snd]. destruct k as [|[|k]]; cbn [take_call]; [|discriminate|destruct k; discriminate].
      destruct s as [|k s]; [vm_compute; discriminate|]. cbn [lrun fst snd]. destruct k as [|[|k]]; cbn [take_call]; try discriminate. destruct k; discriminate. }
  destruct sched as [|k s]; [vm_compute in T; discriminate|]. exact (N k s T).
Qed.
Print Assumptions C97_long_refuted.

(** Two threads with two lines and one. *)
Example C97_case :
  taken [[L "a1"; L "a2"]; [L "b"]] [L "a1"; L "b"] [[L "a2"]; []]
  /\ append_run (L "old ") [[L "a1 "; L "a2 "]; [L "b "]] [0; 1; 0]%nat = Some (L "old a1 b a2 ", [[]; []])
  /\ (let e := mkEntry (L "1.2.3.4") (L "GET / HTTP/1.1") 200 5 [] [] in brief_entry e /\ thread_writes [access_line (L "T") (L "0.002") e] [access_line (L "T") (L "0.002") e])
  /\ keeps_brief (v_app demo).
Proof.
  split; [apply (tk_next [] (L "a1") [L "a2"] [[L "b"]]); apply (tk_next [[L "a2"]] (L "b") [] []); constructor|].
  split; [reflexivity|]. split; [split; [repeat split; vm_compute; congruence|]|split; intros n r B; [exact B|]; exact (length_brief r _ B)].
  rewrite <- (app_nil_r [access_line _ _ _]) at 2. constructor; [|constructor]. apply w_once; [vm_compute; discriminate|vm_compute; reflexivity].
Qed.

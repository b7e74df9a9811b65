(** Properties_Log.v - C81: the lines of the access log (/repo/wayuu_log.c:38-57, ws.c, http_utils.c). *)
From Verif Require Import WsRequest Lemmas StringUtils_proofs HttpUtils_proofs WsConn_proofs WsRequest_proofs WsDispatch_proofs Router_proofs JsonUtils_proofs
  Properties_Dispatch Log_proofs SpecJson SpecHttp SpecConn SpecReq SpecRouter SpecDispatch SpecLog Spec.

Local Opaque accept_request.

(** C81.  Whatever a client sends, no request line, referer or user agent with a line feed in it
    is logged, if the application does not put one there. *)
Theorem C81_one_line : forall v f t socket peer stream res, keeps_tidy (v_app v) ->
  accept_request v f t socket peer stream = Ok res -> Forall tidy_entry (r_log (o_req res)).
Proof. intros v f t socket peer stream res K H. exact (proj2 (proj2 (accept_tidy _ _ _ _ _ _ _ K H))). Qed.
Print Assumptions C81_one_line.
(** An application that answers with the library's functions does not. *)
Theorem C81_library : forall r r', tidy r ->
  (forall st m, send_http_status r st m = Ok r' -> tidy r')
  /\ (forall st d, return_json_with_status r st d = Ok r' -> tidy r')
  /\ (forall st c, return_json_stream r st c = Ok r' -> tidy r')
  /\ (forall ents, return_json_list r ents = Ok r' -> tidy r')
  /\ (forall st e, status_with_error st r e = Ok r' -> tidy r')
  /\ (forall f name st, direct_file f r name = Ok (st, r') -> tidy r')
  /\ (forall st, log_access r st = Ok r' -> tidy r').
Proof.
  intros r r' T. repeat match goal with |- _ /\ _ => split end; intros; eauto using status_tidy, with_status_tidy, json_stream_tidy, list_tidy, error_tidy, direct_file_tidy, log_access_tidy.
Qed.
Print Assumptions C81_library.
(** The client address holds no line feed either, if every X-Real-IP header has a value... *)
Theorem C81_address : forall s peer x after, section s (nothing_told peer) x after -> one_line peer -> one_line (td_ip x).
Proof. intros s peer x after H Hp. eapply section_ip_line; eauto. Qed.
Print Assumptions C81_address.
(** ... but one without a value makes the address the end of its own line, line feed included. *)
Theorem C81_blank_address : forall h c w st old, ci_equal (L "X-Real-IP:") h -> Forall blank (c :: w) ->
  exists b, take_ip (cs (h ++ c :: w) ++ st) old = Ok (firstn 24 w, b).
Proof. intros h c w st old Hh Hw. eexists. now apply take_ip_blank. Qed.
Print Assumptions C81_blank_address.
(** So a client can break its log entry over two lines. *)
Theorem C81_entry_is_one_line_refuted : exists v f t socket peer stream res e,
  keeps_tidy (v_app v) /\ one_line peer /\ accept_request v f t socket peer stream = Ok res /\ r_log (o_req res) = [e]
  /\ forall ts rt, line_count (access_line ts rt e) = (2 + line_count ts + line_count rt)%nat.
Proof.
  exists demo, demo_fs, demo_table, 9, (L "1.2.3.4"), (L "GET /a.txt HTTP/1.1" ++ CRLF ++ L "X-Real-IP:" ++ CRLF ++ CRLF).
  assert (E : exists res e, accept_request demo demo_fs demo_table 9 (L "1.2.3.4") (L "GET /a.txt HTTP/1.1" ++ CRLF ++ L "X-Real-IP:" ++ CRLF ++ CRLF) = Ok res
    /\ r_log (o_req res) = [e] /\ e_ip e = [LF] /\ line_count (e_line e) = 0%nat /\ line_count (e_referer e) = 0%nat /\ line_count (e_agent e) = 0%nat
    /\ e_status e = 200 /\ 0 <= e_length e).
  { eexists _, _. split; [vm_compute; reflexivity|]. split; [reflexivity|]. repeat split; vm_compute; congruence. }
  destruct E as (res & e & E & El & E1 & E2 & E3 & E4 & E5 & E6). exists res, e. split; [split; intros; [exact H|exact H]|].
  split; [vm_compute; intuition discriminate|]. split; [exact E|]. split; [exact El|]. intros ts rt. unfold access_line.
  rewrite !count_app, E1, E2, E3, E4, E5. assert (X : line_count (dec_nat (e_length e)) = 0%nat) by (now apply one_line_count, dec_nat_one_line). rewrite X.
  change (line_count [DQ]) with 0%nat. change (line_count [LF]) with 1%nat.
  change (line_count (dec 200)) with 0%nat. change (line_count (L " - - [")) with 0%nat. change (line_count (L "] ")) with 0%nat.
  change (line_count (L " ")) with 0%nat. lia.
Qed.
Print Assumptions C81_entry_is_one_line_refuted.
(** With no line feed in its fields an entry is exactly one line. *)
Theorem C81_line : forall ts rt e, one_line ts -> one_line rt -> one_line (e_ip e) -> tidy_entry e -> 0 <= e_length e ->
  exists s, access_line ts rt e = s ++ [LF] /\ one_line s.
Proof.
  intros ts rt e Ht Hr Hi (H1 & H2 & H3) Hl. unfold access_line. eexists. split; [rewrite !app_assoc; reflexivity|].
  pose proof (dec_one_line (e_status e)) as H4. pose proof (dec_nat_one_line _ Hl) as H5.
  rewrite one_line_count in *. rewrite !count_app, Ht, Hr, Hi, H1, H2, H3, H4, H5. reflexivity.
Qed.
Print Assumptions C81_line.
(** If no double quote is in the request line, referer or agent and no space in the address, then the
    line tells the entry; quotes are not escaped, so otherwise different entries give equal lines. *)
Theorem C81_unambiguous : forall ts rt e e', let plain e := ~ In SP (e_ip e) /\ ~ In DQ (e_line e) /\ ~ In DQ (e_referer e) /\ ~ In DQ (e_agent e) /\ 0 <= e_length e in
  plain e -> plain e' -> access_line ts rt e = access_line ts rt e' -> e = e'.
Proof.
  intros ts rt [i l st n rf ag] [i' l' st' n' rf' ag'] plain (H1 & H2 & H3 & H4 & H5) (G1 & G2 & G3 & G4 & G5) E.
  unfold access_line in E. cbn [e_ip e_line e_status e_length e_referer e_agent] in *.
  assert (Hd : forall z, ~ In SP (dec z)) by (intros z; apply dec_not_in; [intros d Hd ->; discriminate|discriminate]).
  apply cut_unique in E as (-> & E); auto. injection E as E. apply app_inv_head in E. injection E as E.
  apply cut_unique in E as (-> & E); auto. injection E as E.
  apply (cut_unique SP (dec st) _ (dec st')) in E as (D & E); auto. apply dec_inj in D as ->.
  rewrite !dec_nat_dec in E by auto. apply (cut_unique SP (dec n) _ (dec n')) in E as (D & E); auto. apply dec_inj in D as ->.
  injection E as E. apply cut_unique in E as (-> & E); auto. injection E as E.
  apply cut_unique in E as (-> & E); auto.
Qed.
Print Assumptions C81_unambiguous.
Theorem C81_unambiguous_refuted : exists e e', e <> e' /\ tidy_entry e /\ tidy_entry e' /\ e_ip e = e_ip e' /\
  forall ts rt, access_line ts rt e = access_line ts rt e'.
Proof.
  exists (mkEntry (L "1.2.3.4") (L "GET / HTTP/1.1") 200 5 (L "a"" ""b") (L "c")), (mkEntry (L "1.2.3.4") (L "GET / HTTP/1.1") 200 5 (L "a") (L "b"" ""c")).
  split; [discriminate|]. do 2 (split; [vm_compute; intuition discriminate|]). split; reflexivity.
Qed.
Print Assumptions C81_unambiguous_refuted.
Example C81_case :
  match accept_request demo demo_fs demo_table 9 (L "1.2.3.4") (L "GET /a.txt HTTP/1.1" ++ CRLF ++ L "Referer: r" ++ CRLF ++ L "X-Real-IP: 8.8.8.8" ++ CRLF ++ CRLF) with
  | Ok res => map (access_line (L "T") (L "0.002")) (r_log (o_req res)) = [L "8.8.8.8 - - [T] ""GET /a.txt HTTP/1.1"" 200 108 ""r"" """" 0.002" ++ [LF]]
  | UB _ => False
  end.
Proof. vm_compute. reflexivity. Qed.

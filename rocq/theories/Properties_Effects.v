(** Properties_Effects.v - C92: what a request can change and what its answer can tell, for any
    bytes from the peer (/repo/ws.c, http_utils.c, file_utils.c). *)
From Verif Require Import Trace Lemmas WsMultipart_proofs HttpUtils_proofs WsConn_proofs WsRequest_proofs WsDispatch_proofs Log_proofs Effects_proofs Properties_Dispatch
  SpecJson SpecHttp SpecConn SpecReq SpecRouter SpecDispatch SpecMultipart SpecLog SpecEffects Spec.

Local Opaque send_http_status bad_request too_many_connections accept_rest accept_request startswithany get_line parse_request_line
  parse_url connection_add finish.

(** C92.  With md5sum's array of 36 bytes (ws.c:234) a request that is handled to its end leaves
    every file as it was. *)
Theorem C92_files : forall v f t socket peer stream res, mp_md5_size (v_mp v) = 36 -> accept_request v f t socket peer stream = Ok res ->
  forall name, o_fs res name = f name.
Proof. intros v f t socket peer stream res Hm H name. rewrite (accept_no_files v f t socket peer stream res); auto. lia. Qed.
Print Assumptions C92_files.

(** With an array of any size, it changes only the directory for uploads and names in it that are
    made of the worker's number and hexadecimal digits. *)
Theorem C92_names : forall v f t socket peer stream res, 0 <= mp_tid (v_mp v) -> accept_request v f t socket peer stream = Ok res ->
  forall name, name <> L "/tmp/wayuu" -> ~ upload_name (mp_tid (v_mp v)) name -> o_fs res name = f name.
Proof. intros v f t socket peer stream res Ht H name N1 N2. apply (accept_names v f t socket peer stream res); auto. intros [E|E]; contradiction. Qed.
Print Assumptions C92_names.

(** No request is answered otherwise, outside the API, than with 400, with 429, with a file below
    the document root and the session's own header lines, or not at all; and the access log tells
    which. *)
Theorem C92_reply : forall v f t socket peer stream res, one_line peer -> accept_request v f t socket peer stream = Ok res ->
  (forall calls, o_taken res <> TApi calls) ->
  reply (v_static_root v) f (o_taken res) (r_sent (o_req res)) (map e_status (r_log (o_req res))).
Proof.
  intros v f t socket peer stream res Hp H N. eapply accept_reply; eauto. unfold outside_api. destruct (o_taken res) eqn:E; auto. eapply N; eauto.
Qed.
Print Assumptions C92_reply.

(** The names the document root leads to are all that a request, the API's included, can learn of
    the file system: elsewhere two file systems can differ at will. *)
Theorem C92_secret : forall v f f' t socket peer stream, mp_md5_size (v_mp v) = 36 ->
  (forall p, f (v_static_root v ++ L "/" ++ p) = f' (v_static_root v ++ L "/" ++ p)) ->
  match accept_request v f t socket peer stream, accept_request v f' t socket peer stream with
  | Ok a, Ok b => o_taken a = o_taken b /\ o_req a = o_req b /\ o_table a = o_table b /\ o_closed a = o_closed b
  | UB u, UB u' => u = u'
  | _, _ => False
  end.
Proof.
  intros v f f' t socket peer stream Hm H. rewrite (accept_moved v f f') by (auto; lia). destruct (accept_request v f t socket peer stream); cbn; auto.
Qed.
Print Assumptions C92_secret.

(** Requests do not influence one another: handled in a row, each gets what it would have got
    alone. *)
Theorem C92_independent : forall v f t qs, mp_md5_size (v_mp v) = 36 -> keeps_socket (v_app v) ->
  Forall (fun c => c_socket c = 0 -> c = free_slot) t -> (forall q, In q qs -> vs_socket q <> 0 /\ ~ In (vs_socket q) (map c_socket t)) ->
  in_sequence v f t qs = each_alone v f t qs.
Proof. intros. apply sequence_alone; auto. lia. Qed.
Print Assumptions C92_independent.

(** An array long enough for md5sum, in a server whose document root is the directory for uploads:
    a request then fetches what another has left. *)
Theorem C92_independent_refuted : exists v f t qs, mp_md5_size (v_mp v) = 129 /\ keeps_socket (v_app v)
  /\ Forall (fun c => c_socket c = 0 -> c = free_slot) t /\ (forall q, In q qs -> vs_socket q <> 0 /\ ~ In (vs_socket q) (map c_socket t))
  /\ exists a b, in_sequence v f t qs = Ok a /\ each_alone v f t qs = Ok b
     /\ map (fun r => r_sent (o_req r)) a = [[]; file_message (L "/tmp/wayuu/7-6b6b6b6b6b6b6b6b6b6b6b6b6b6b6b6b") [] (L "data")]
     /\ map (fun r => r_sent (o_req r)) b = [[]; []].
Proof.
  set (body := L "--XyZ" ++ CRLF ++ L "Content-Disposition: form-data; name=" ++ [DQ] ++ L "b" ++ [DQ] ++ L "; filename=" ++ [DQ] ++ L "x" ++ [DQ] ++ CRLF ++ CRLF ++ L "data" ++ CRLF ++ L "--XyZ--" ++ CRLF).
  exists (mkEnv demo_app [mkRoute MATCHER_TYPE_CONSTANT (L "POST:/x") [] (Some 7%nat) None true] [] (L "/tmp/wayuu") (L "i") (L "f")
           (mkMpenv (fun _ => repeat "k"%char 16) 7 true 129) (cs (L "junk"))), (fun _ => None), demo_table.
  exists [mkVisit 9 (L "1.2.3.4") (L "POST /api/x HTTP/1.1" ++ CRLF ++ L "Content-Type: multipart/form-data; boundary=XyZ" ++ CRLF ++ L "Content-Length: " ++ dec_nat (len body) ++ CRLF ++ CRLF ++ body);
          mkVisit 9 (L "5.6.7.8") (L "GET 7-6b6b6b6b6b6b6b6b6b6b6b6b6b6b6b6b HTTP/1.1" ++ CRLF ++ CRLF)].
  split; [reflexivity|]. split; [split; reflexivity|]. split; [repeat constructor|]. split; [intros q [<-|[<-|[]]]; vm_compute; intuition discriminate|].
  match goal with |- exists a b, ?x = _ /\ ?y = _ /\ _ =>
    assert (E : match x, y with Ok a, Ok b => map (fun r => r_sent (o_req r)) a = [[]; file_message (L "/tmp/wayuu/7-6b6b6b6b6b6b6b6b6b6b6b6b6b6b6b6b") [] (L "data")]
       /\ map (fun r => r_sent (o_req r)) b = [[]; []] | _, _ => False end) by (vm_compute; split; reflexivity);
    destruct x as [a|]; [|contradiction]; destruct y as [b|]; [|contradiction] end.
  exists a, b. auto.
Qed.
Print Assumptions C92_independent_refuted.

Example C92_case :
  let ask u := mkVisit 9 (L "1.2.3.4") (L "GET " ++ u ++ L " HTTP/1.1" ++ CRLF ++ L "X-Session: tok" ++ CRLF ++ CRLF) in
  match in_sequence demo demo_fs demo_table [ask (L "/a.txt"); mkVisit 9 (L "5.6.7.8") (L "BREW / HTTP/1.1" ++ CRLF ++ CRLF); ask (L "/none")] with
  | Ok rs => map (fun r => (o_taken r, r_sent (o_req r), map e_status (r_log (o_req r)))) rs =
      [(TStatic, file_message (L "/www//a.txt") (L "tok") (L "TEXT"), [200]); (TBadMethod, plain_status (L "HTTP/1.1 400 Bad Request"), [400]);
       (TStatic, file_message (L "/www//index.html") (L "tok") (L "INDEX"), [200])]
  | UB _ => False
  end /\ upload_name 7 (L "/tmp/wayuu/7-6b6b") /\ ~ upload_name 7 (L "/tmp/wayuu/8-6b6b").
Proof.
  split; [vm_compute; reflexivity|]. split.
  - exists (L "7"), (L "6b6b"). split; [apply (dec_nat_decimal 7); lia|]. split; [repeat constructor; vm_compute; tauto|reflexivity].
  - intros (d & h & D & _ & E). apply (decimal_unique d (L "7") 7) in D; [subst d|apply (dec_nat_decimal 7); lia]. discriminate E.
Qed.

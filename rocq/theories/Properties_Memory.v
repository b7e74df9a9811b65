(** Properties_Memory.v - C93: blocks whose size the client chooses (/repo/ws.c:178, 201, 247-248, 295). *)
From Verif Require Import Memory Lemmas WsRequest_proofs WsApi_proofs Memory_proofs Properties_Dispatch SpecHttp SpecReq SpecDispatch SpecApi SpecMemory Spec.

(** C93.  No refusal is handled: a request either completes as if all memory had been there, or is
    undefined.  So what C38-C92 say of completed requests holds with any memory. *)
Theorem C93_completed : forall ok v f t socket peer stream res,
  accept_memory ok v f t socket peer stream = Ok res -> accept_request v f t socket peer stream = Ok res.
Proof. exact memory_le. Qed.
Print Assumptions C93_completed.
(** If blocks of up to 2^31 bytes are given, every connection goes as before, whatever is sent. *)
Theorem C93_enough : forall ok v f t socket peer stream, (forall s size, size <= 2 ^ 31 -> ok s size = true) ->
  accept_memory ok v f t socket peer stream = accept_request v f t socket peer stream.
Proof.
  intros ok v f t socket peer stream H. apply memory_same. intros n Hn. repeat split; intros; apply H; lia.
Qed.
Print Assumptions C93_enough.
(** The block for the body is used before the first byte of the body is read; so is that for the
    decoded fields of a multipart body. *)
Theorem C93_refused : forall ok v f t socket peer stream m u p q line x after t1,
  api_asked v t socket peer stream m u p q line x after t1 -> 0 < td_length x ->
  (ok Form (td_length x + 1) = false \/ (2 <= len (td_boundary x) /\ ok Fields (td_length x + 1) = false)) ->
  undefined (accept_memory ok v f t socket peer stream).
Proof.
  intros ok v f t socket peer stream m u p q line x after t1 A Hn H.
  destruct (api_memory ok v f t socket peer stream m u p q line x after t1 A) as (r & -> & _).
  destruct (handle_refused ok v f after r (td_length x) (td_boundary x) Hn H) as (w & ->). eexists. reflexivity.
Qed.
Print Assumptions C93_refused.
(** The third block is needed only if the body has two boundaries. *)
Theorem C93_part_refused : forall ok v f t socket peer stream m u p q line x after t1 body,
  api_asked v t socket peer stream m u p q line x after t1 -> 0 < td_length x -> 2 <= len (td_boundary x) -> request_body (td_length x) after body ->
  ok Form (td_length x + 1) = true -> ok Part (td_length x + 1) = false -> ok Fields (td_length x + 1) = true ->
  (delimits (td_boundary x) body -> undefined (accept_memory ok v f t socket peer stream))
  /\ (~ delimits (td_boundary x) body -> accept_memory ok v f t socket peer stream = accept_request v f t socket peer stream).
Proof.
  intros ok v f t socket peer stream m u p q line x after t1 body A Hn Hb B G1 G2 G3.
  destruct (api_memory ok v f t socket peer stream m u p q line x after t1 A) as (r & -> & -> & Nb & _).
  destruct (handle_part ok v f after r (td_length x) (td_boundary x) body) as [K1 K2]; auto using body_read.
  split; intros D; [destruct (K1 D) as (w & ->); eexists; reflexivity|now rewrite (K2 D)].
Qed.
Print Assumptions C93_part_refused.
(** In bytes: without a boundary, one block; with one, three blocks are always needed and five suffice. *)
Theorem C93_plain_body : forall room v f t socket peer stream m u p q line x after t1,
  api_asked v t socket peer stream m u p q line x after t1 -> 0 < td_length x -> len (td_boundary x) < 2 ->
  (td_length x + 1 <= room -> accept_memory (within room (td_length x)) v f t socket peer stream = accept_request v f t socket peer stream)
  /\ (room <= td_length x -> undefined (accept_memory (within room (td_length x)) v f t socket peer stream)).
Proof.
  intros room v f t socket peer stream m u p q line x after t1 A Hn Hb. split; intros H.
  - destruct (api_memory (within room (td_length x)) v f t socket peer stream m u p q line x after t1 A) as (r & -> & -> & _).
    rewrite handle_plain; auto. unfold within. lia.
  - eapply C93_refused; eauto. left. unfold within. lia.
Qed.
Print Assumptions C93_plain_body.
Theorem C93_multipart_body : forall room v f t socket peer stream m u p q line x after t1,
  api_asked v t socket peer stream m u p q line x after t1 -> 0 < td_length x -> 2 <= len (td_boundary x) ->
  (5 * (td_length x + 1) <= room -> accept_memory (within room (td_length x)) v f t socket peer stream = accept_request v f t socket peer stream)
  /\ (room < 3 * (td_length x + 1) -> undefined (accept_memory (within room (td_length x)) v f t socket peer stream)).
Proof.
  intros room v f t socket peer stream m u p q line x after t1 A Hn Hb. split; intros H.
  - destruct (api_memory (within room (td_length x)) v f t socket peer stream m u p q line x after t1 A) as (r & -> & -> & Nb & Lt).
    rewrite handle_same; auto. intros _. unfold given, within. repeat split; lia.
  - eapply C93_refused; eauto. right. split; [exact Hb|]. unfold within. lia.
Qed.
Print Assumptions C93_multipart_body.
(** So a request of at most 50 bytes, none of them in its body, stops the server if a connection to
    "/api" is admitted and fewer than [n + 1] bytes are left... *)
Theorem C93_announcement : forall room v f t socket peer d n t1, decimal d n -> 0 < n < 2 ^ 31 -> len peer <= 15 ->
  connection_add (v_limits v) t socket peer (L "/api") = Ok (true, t1) ->
  len (announcement d) <= 50
  /\ (room <= n -> undefined (accept_memory (within room n) v f t socket peer (announcement d)))
  (* ... and otherwise makes it store n bytes *)
  /\ (n < room -> exists r, len (r_form r) = n + 1 /\ r_form r = cs (repeat NUL (Z.to_nat n)) /\ r_socket r = socket
       /\ accept_memory (within room n) v f t socket peer (announcement d)
          = ('(calls, r') <- router_handle_request (v_app v) (v_routes v) r;;
             Ok (mkResult (TApi calls) r' (connection_del t1 (r_socket r')) [r_socket r'] f))).
Proof.
  intros room v f t socket peer d n t1 Hd Hn Hp Hc. split; [now apply (announcement_len d n)|].
  pose proof (announcement_asked v t socket peer d n t1 Hd Hn Hp Hc) as (line & x & A & El & Eb).
  destruct (C93_plain_body room v f t socket peer (announcement d) _ _ _ _ _ x _ t1 A) as [K1 K2]; [lia|rewrite Eb; cbn; lia|]. rewrite El in K1, K2.
  split; [exact K2|]. intros Hr. rewrite K1 by lia.
  assert (B : request_body (td_length x) [] (repeat NUL (Z.to_nat n))).
  { rewrite El. exact (bo_short n [] (Z.to_nat n) ltac:(cbn; lia) ltac:(lia) ltac:(cbn [len length]; unfold len; cbn [length]; lia)). }
  destruct (api_start v f t socket peer (announcement d) _ _ _ _ _ x _ t1 _ A B) as (r & G & _ & _ & E); [rewrite Eb; cbn; lia|].
  exists r. destruct G as (G1 & _ & _ & _ & _ & _ & G7 & _). split; [|split; [exact G7|split; [exact G1|exact E]]].
  rewrite G7. unfold cs. rewrite len_app, len_map. unfold len. rewrite repeat_length. cbn [length]. lia.
Qed.
Print Assumptions C93_announcement.
Example C93_case :
  let go ok := accept_memory ok demo demo_fs demo_table 9 (L "1.2.3.4") in
  let small s n := match s with Form => n <=? 60 | Part => false | _ => true end in
  let post body := L "POST /api HTTP/1.1" ++ CRLF ++ L "Content-Length: 4" ++ CRLF ++ L "Content-Type: multipart/form-data; boundary=x" ++ CRLF ++ CRLF ++ body in
  undefined (go (within 2147483647 2147483647) (announcement (L "2147483647")))
  /\ undefined (go (within 4 4) (announcement (L "4")))
  /\ go (within 5 4) (announcement (L "4")) = accept_request demo demo_fs demo_table 9 (L "1.2.3.4") (announcement (L "4"))
  /\ (exists res, go (within 5 4) (announcement (L "4")) = Ok res /\ o_taken res = TApi [])
  /\ (exists res, go small (post (L "--x-")) = Ok res) /\ undefined (go small (announcement (L "60")))
  /\ undefined (go (within 14 4) (post (L "--x-"))) /\ exists res, go (within 15 4) (post (L "--x-")) = Ok res.
Proof.
  cbv zeta. split.
  { eapply C93_announcement; [|lia|vm_compute; discriminate|vm_compute; reflexivity|lia].
    split; [easy|]. split; [repeat constructor|]. split; [reflexivity|]. intros t E. discriminate E. }
  vm_compute. split; [eexists; reflexivity|]. split; [reflexivity|]. split; [eexists; split; reflexivity|]. split; [eexists; reflexivity|].
  split; [eexists; reflexivity|]. split; [eexists; reflexivity|]. eexists. reflexivity.
Qed.

(** Properties_ReqHeap.v - C82: the heap blocks of a request (/repo/ws.c, http_utils.c, router.c, wayuu_log.c). *)
From Verif Require Import ReqHeap Lemmas WsRequest_proofs ReqHeap_proofs Properties_Dispatch Properties_Api
  SpecHttp SpecConn SpecReq SpecRouter SpecDispatch SpecApi SpecHeap SpecReqHeap Spec.

(** C82.  A request that can be answered at all frees no block twice, no block that is not its
    own, and nothing that is not a block; and it leaves behind a number of blocks that is
    known exactly - at least two, and six unless it is turned away.  [u] is what the application
    does to the heap; it is assumed to free what it allocates. *)
Theorem C82_request_leaks : forall u h v f t socket peer stream res l,
  balanced u -> accept_request v f t socket peer stream = Ok res -> blocks_are h l ->
  exists h' lost, accept_request_h u h v f t socket peer stream = Ok (h', res) /\ blocks_are h' (lost ++ l) /\ request_loses stream res (length lost).
Proof. exact accept_h_general. Qed.
Print Assumptions C82_request_leaks.
(** The model with the heap answers as the model without. *)
Theorem C82_same_answer : forall u h v f t socket peer stream h' res,
  accept_request_h u h v f t socket peer stream = Ok (h', res) -> accept_request v f t socket peer stream = Ok res.
Proof. exact accept_erase. Qed.
Print Assumptions C82_same_answer.
(** API requests exactly: the body, and the form made of a parameter in the path. *)
Theorem C82_api_leaks : forall u h v f t socket peer stream m ur p q line x after t1 body res l,
  balanced u -> accept_request v f t socket peer stream = Ok res -> blocks_are h l ->
  api_asked v t socket peer stream m ur p q line x after t1 -> request_body (td_length x) after body -> len (td_boundary x) < 2 ->
  exists h' lost calls, accept_request_h u h v f t socket peer stream = Ok (h', res) /\ blocks_are h' (lost ++ l)
    /\ o_taken res = TApi calls /\ api_loses v stream m p x body calls (o_req res) (length lost).
Proof. exact api_loses_eq. Qed.
Print Assumptions C82_api_leaks.
(** The counts in these statements are determined by the stream and the headers. *)
Theorem C82_counts_unique : forall s hs,
  (forall n m, typed s n -> typed s m -> n = m) /\ (forall n m, given_empties hs n -> given_empties hs m -> n = m).
Proof. intros s hs. split; [intros n m A; now apply typed_unique|apply given_empties_unique]. Qed.
Print Assumptions C82_counts_unique.

(** Writing one line of the access log leaves behind the copy of each logged header that is given
    and empty; return_headers_with_mime always its content type; send_http_status nothing else. *)
Theorem C82_log_leaks : forall r st r' h l, log_access r st = Ok r' -> blocks_are h l ->
  exists h1 lost, log_access_h h r st = Ok (h1, r') /\ blocks_are h1 (lost ++ l) /\ given_empties (r_headers r) (length lost).
Proof. exact log_access_h_eq. Qed.
Print Assumptions C82_log_leaks.
Theorem C82_mime_leaks : forall r st mime line x h l, supported st line -> return_headers_with_mime r st mime = Ok x -> blocks_are h l ->
  exists h1 b, headers_with_mime_h h r st mime = Ok (h1, x) /\ blocks_are h1 (b :: l).
Proof. exact mime_leaks. Qed.
Print Assumptions C82_mime_leaks.
Theorem C82_status_leaks : forall r st line msg r' h l, supported st line -> send_http_status r st msg = Ok r' -> blocks_are h l ->
  exists h1 lost, send_http_status_h h r st msg = Ok (h1, r') /\ blocks_are h1 (lost ++ l) /\ given_empties (r_headers r) (length lost).
Proof. exact status_leaks. Qed.
Print Assumptions C82_status_leaks.

(** An accepted connection leaves the text of its address, and what its request leaves. *)
Theorem C82_connection_leaks : forall u h peer stream l, balanced u -> blocks_are h l -> len peer <= 15 ->
  (exists h' b, accepted_h u h None peer stream = Ok h' /\ blocks_are h' (b :: l))
  /\ (forall v f t socket res, accept_request v f t socket peer stream = Ok res ->
      exists h' lost b, accepted_h u h (Some (v, f, t, socket)) peer stream = Ok h' /\ blocks_are h' (lost ++ b :: l) /\ request_loses stream res (length lost)).
Proof. exact accepted_made. Qed.
Print Assumptions C82_connection_leaks.
(** So memory only grows: each accepted connection leaves at least one block, three if it is
    served, whatever the connections send. *)
Theorem C82_memory_grows : forall u cl h h' l, balanced u -> accepted_all u h cl = Ok h' -> blocks_are h l ->
  exists lost, blocks_are h' (lost ++ l) /\ (length cl + 2 * fold_right (fun c n => served c + n) 0 cl <= length lost)%nat.
Proof. intros u cl h h' l U. now apply accepted_all_eq. Qed.
Print Assumptions C82_memory_grows.
(** "A request frees what it allocates" is false, for every request that is answered. *)
Theorem C82_clean_refuted : forall u h v f t socket peer stream h' res l,
  balanced u -> blocks_are h l -> accept_request_h u h v f t socket peer stream = Ok (h', res) -> ~ blocks_are h' l.
Proof. exact never_clean. Qed.
Print Assumptions C82_clean_refuted.

Definition idle : list call -> heap -> outcome heap := fun _ h => Ok h.
Example C82_idle_balanced : balanced idle.
Proof. intros calls h l A. exists h. auto. Qed.
Definition left_by (v : wsenv) (stream : str) : option (route_taken * nat) :=
  match accept_request_h idle (mkHeap 5 [(3%nat, L "other")]) v demo_fs demo_table 9 (L "1.2.3.4") stream with
  | Ok (h, res) => Some (o_taken res, (length (h_live h) - 1)%nat)
  | UB _ => None
  end.
Definition get (url : str) (hs : list str) : str := L "GET " ++ url ++ L " HTTP/1.1" ++ CRLF ++ flat_map (fun x => x ++ CRLF) hs ++ CRLF.
Example C82_case :
  left_by api_env (L "BREW / HTTP/1.1" ++ CRLF ++ CRLF) = Some (TBadMethod, 2%nat)
  /\ left_by api_env (get (L "/index.html") []) = Some (TStatic, 6%nat)
  /\ left_by api_env (get (L "/index.html?q") [L "Content-Type: a"; L "X-Real-IP: 9.9.9.9"; L "Content-Type: b"]) = Some (TStatic, 8%nat)
  /\ left_by api_env (get (L "/index.html") [L "User-Agent:"; L "Referer: "]) = Some (TStatic, 8%nat)
  /\ left_by api_env (get (L "/index.html") [L "User-Agent: x"; L "Referer: y"]) = Some (TStatic, 6%nat)
  /\ left_by api_env (get (L "/api/nope") [L "User-Agent:"]) = Some (TApi [], 7%nat)
  /\ left_by api_env (L "POST /api/u/5 HTTP/1.1" ++ CRLF ++ CRLF) = Some (TApi [CallHandler 9%nat], 7%nat)
  /\ left_by api_env (L "POST /api/x HTTP/1.1" ++ CRLF ++ L "Content-Length: 4" ++ CRLF ++ CRLF ++ L "abcd") = Some (TApi [CallFilter 8%nat; CallHandler 7%nat], 7%nat).
Proof. vm_compute. repeat split; reflexivity. Qed.

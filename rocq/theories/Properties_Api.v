(** Properties_Api.v - C80: API requests from the connection to the handler (/repo/ws.c, router.c). *)
From Verif Require Import WsRequest Lemmas StringUtils_proofs HttpUtils_proofs WsConn_proofs WsRequest_proofs WsDispatch_proofs Router_proofs
  Properties_Request Properties_Router Properties_Dispatch WsApi_proofs Properties_Multipart SpecMultipart SpecJson SpecHttp SpecConn SpecReq SpecRouter SpecDispatch SpecApi Spec.

Local Opaque accept_request handle_api_request router_handle_request connection_add.

(** C80.  The handler of the first matching constant route gets the request as sent, body
    included; the filter, if there is one, gets it first and decides.  Then the socket is closed
    and leaves the table. *)
Theorem C80_constant_route : forall v f t socket peer stream m u p q line x after t1 body rt h,
  api_asked v t socket peer stream m u p q line x after t1 -> request_body (td_length x) after body -> len (td_boundary x) < 2 ->
  live (v_routes v) -> keeps_socket (v_app v) -> len m + len p <= 253 ->
  selected (v_routes v) (m ++ L ":" ++ p) rt -> rt_type rt = MATCHER_TYPE_CONSTANT -> no_nul (rt_param rt) -> rt_handler rt = Some h ->
  exists r, api_given r socket m u p q line x body /\
    match rt_filter rt with
    | None => accept_request v f t socket peer stream
        = Ok (mkResult (TApi [CallHandler h]) (on_handler (v_app v) h r) (connection_del t1 socket) [socket] f)
    | Some fl => forall r2 pass, on_filter (v_app v) fl r = (r2, pass) ->
        accept_request v f t socket peer stream
        = Ok (if pass then mkResult (TApi [CallFilter fl; CallHandler h]) (on_handler (v_app v) h r2) (connection_del t1 socket) [socket] f
              else mkResult (TApi [CallFilter fl]) r2 (connection_del t1 socket) [socket] f)
    end.
Proof.
  intros v f t socket peer stream m u p q line x after t1 body rt h A Hb Hd Hl [Kf Kh] Hm Hs Ht Hn Hh.
  destruct (api_start v f t socket peer stream m u p q line x after t1 body A Hb Hd) as (r & G & Nm & M & E).
  exists r. split; [exact G|]. destruct G as (Sk & _).
  destruct (C38_selected_route_runs (v_app v) (v_routes v) r rt h) as (r1 & S & R); auto.
  { rewrite M, !len_app. change (len (L ":")) with 1. lia. } { now rewrite M. } { unfold room. now rewrite Ht. }
  unfold seen in S. rewrite Ht in S. subst r1. destruct (rt_filter rt) as [fl|].
  - intros r2 pass Ef. rewrite E, (R r2 pass Ef). clear E R.
    assert (S2 : r_socket r2 = socket). { pose proof (Kf fl r) as X. rewrite Ef in X. cbn [fst] in X. congruence. }
    destruct pass; cbn [bind].
    + now rewrite Kh, S2.
    + now rewrite S2.
  - rewrite E, R. cbn [bind]. now rewrite Kh, Sk.
Qed.
Print Assumptions C80_constant_route.
(** A parametric route at the start of the path, no body: the form is NAME=VALUE. *)
Theorem C80_parametric_route : forall v f t socket peer stream m u p q line x after t1 rt h value,
  api_asked v t socket peer stream m u p q line x after t1 -> td_length x <= 0 -> len (td_boundary x) < 2 ->
  live (v_routes v) -> keeps_socket (v_app v) -> len m + len p <= 253 ->
  selected (v_routes v) (m ++ L ":" ++ p) rt -> rt_type rt = MATCHER_TYPE_PARAM -> rt_handler rt = Some h -> rt_filter rt = None ->
  no_nul (rt_param rt) -> len (rt_param rt) <= 2 * len (rt_prefix rt) + 8 -> m ++ L ":" ++ p = rt_prefix rt ++ value ->
  exists r b, api_given r socket m u p q line x [] /\ cstr b = Ok (rt_param rt ++ L "=" ++ value)
    /\ accept_request v f t socket peer stream
       = Ok (mkResult (TApi [CallHandler h]) (on_handler (v_app v) h (set_form r b)) (connection_del t1 socket) [socket] f).
Proof.
  intros v f t socket peer stream m u p q line x after t1 rt h value A Hb Hd Hl [Kf Kh] Hm Hs Ht Hh Hfi Hn Hpl Hv.
  destruct (api_start v f t socket peer stream m u p q line x after t1 [] A) as (r & G & Nm & M & E); auto; [now constructor|].
  destruct G as (Sk & G1). pose proof G1 as (_ & _ & _ & _ & _ & Fo & _).
  destruct (C41_parameter_in_form (v_app v) (v_routes v) r rt h value []) as (r1 & b & R & -> & B); auto.
  { rewrite M, !len_app. change (len (L ":")) with 1. lia. } { now rewrite M. } { now rewrite M. }
  { rewrite Fo. reflexivity. } { unfold room. rewrite Ht. split; [exact Hpl|]. exists []. split; [now rewrite Fo|now left]. }
  exists r, b. split; [split; auto|]. split; [exact B|]. rewrite E, R. cbn [bind]. rewrite Kh. change (r_socket (set_form r b)) with (r_socket r). now rewrite Sk.
Qed.
Print Assumptions C80_parametric_route.
(** No route: one 400 response, no application code runs. *)
Theorem C80_unrouted : forall v f t socket peer stream m u p q line x after t1 body,
  api_asked v t socket peer stream m u p q line x after t1 -> request_body (td_length x) after body -> len (td_boundary x) < 2 ->
  live (v_routes v) -> len m + len p <= 253 -> none_selected (v_routes v) (m ++ L ":" ++ p) ->
  exists r, accept_request v f t socket peer stream = Ok (mkResult (TApi []) r (connection_del t1 socket) [socket] f)
    /\ let bytes := message (L "HTTP/1.1 400 Bad Request") [server; L "Content-Length: 0"] [] in
       r_sent r = bytes /\ exists referer agent,
         lookup (firstn 20 (td_fields x)) (L "Referer") referer /\ lookup (firstn 20 (td_fields x)) (L "User-Agent") agent
         /\ r_log r = [mkEntry (td_ip x) (firstn (length line - 2) line) 400 (len bytes) referer agent].
Proof.
  intros v f t socket peer stream m u p q line x after t1 body A Hb Hd Hl Hm Hs.
  destruct (api_start v f t socket peer stream m u p q line x after t1 body A Hb Hd) as (r & G & Nm & M & E).
  destruct G as (Sk & _ & _ & _ & _ & Rl & _ & Ri & _ & _ & Hh & R0 & Rs & Rg).
  destruct (C40_unrouted (v_app v) (v_routes v) r (firstn 20 (td_fields x))) as (r' & R & An); auto.
  { rewrite M, !len_app. change (len (L ":")) with 1. lia. } { now rewrite M. }
  exists r'. rewrite E, R. cbn [bind]. cbv zeta in An. rewrite (answered_socket _ _ _ _ _ _ An), Sk. split; [reflexivity|].
  cbv zeta. destruct An as (_ & S1 & _ & ref & ag & H1 & H2 & H3). split; [now rewrite S1, Rs|].
  exists ref, ag. split; [exact H1|]. split; [exact H2|]. rewrite H3, Rg, Ri, Rl, R0. reflexivity.
Qed.
Print Assumptions C80_unrouted.
(** Two ways in which a client makes the server undefined: a body sent to a parametric route, and
    a method and path longer than 253 bytes together. *)
Theorem C80_body_to_parametric_route : forall v f t socket peer stream m u p q line x after t1 body rt,
  api_asked v t socket peer stream m u p q line x after t1 -> request_body (td_length x) after body -> len (td_boundary x) < 2 ->
  live (v_routes v) -> selected (v_routes v) (m ++ L ":" ++ p) rt -> rt_type rt = MATCHER_TYPE_PARAM -> no_nul (rt_param rt) ->
  no_nul body -> body <> [] -> undefined (accept_request v f t socket peer stream).
Proof.
  intros v f t socket peer stream m u p q line x after t1 body rt A Hb Hd Hl Hs Ht Hn Nb Hne.
  destruct (api_start v f t socket peer stream m u p q line x after t1 body A Hb Hd) as (r & G & Nm & M & E).
  destruct (C44_body_overrun (v_app v) (v_routes v) r rt body) as [w U]; auto; [now rewrite M|apply G|].
  exists w. now rewrite E, U.
Qed.
Print Assumptions C80_body_to_parametric_route.
Theorem C80_long_path : forall v f t socket peer stream m u p q line x after t1 body,
  api_asked v t socket peer stream m u p q line x after t1 -> request_body (td_length x) after body -> len (td_boundary x) < 2 ->
  254 <= len m + len p -> undefined (accept_request v f t socket peer stream).
Proof.
  intros v f t socket peer stream m u p q line x after t1 body A Hb Hd Hm.
  destruct (api_start v f t socket peer stream m u p q line x after t1 body A Hb Hd) as (r & G & Nm & M & E).
  destruct (handle_request_ub (v_app v) (v_routes v) r) as [w U].
  { rewrite M, !len_app. change (len (L ":")) with 1. lia. }
  exists w. now rewrite E, U.
Qed.
Print Assumptions C80_long_path.

(** A multipart form, announced with its boundary and length: the form holds its fields. *)
Theorem C80_multipart_form : forall v f t socket peer stream m u p q line x after t1 pre bnd xs tail more rt h,
  api_asked v t socket peer stream m u p q line x after t1 -> td_boundary x = bnd -> td_length x = len (body_of pre bnd xs tail) ->
  after = body_of pre bnd xs tail ++ more ->
  clean_boundary bnd -> 2 <= len bnd -> clean_preamble bnd pre -> Forall (clean_field bnd) xs -> ~ SpecMultipart.holds bnd tail -> len (body_of pre bnd xs tail) < 2 ^ 31 ->
  live (v_routes v) -> keeps_socket (v_app v) -> len m + len p <= 253 ->
  selected (v_routes v) (m ++ L ":" ++ p) rt -> rt_type rt = MATCHER_TYPE_CONSTANT -> no_nul (rt_param rt) -> rt_handler rt = Some h -> rt_filter rt = None ->
  exists r form, api_given r socket m u p q line x [] /\ cstr form = Ok (form_of xs)
    /\ accept_request v f t socket peer stream
       = Ok (mkResult (TApi [CallHandler h]) (on_handler (v_app v) h (set_form r form)) (connection_del t1 socket) [socket] f).
Proof.
  intros v f t socket peer stream m u p q line x after t1 pre bnd xs tail more rt h A Eb El Ea Hb H2 Hp Hx Ht Hl Hlive [Kf Kh] Hm Hs Hty Hn Hh Hfi.
  destruct (api_reaches v f t socket peer stream m u p q line x after t1 A) as (r & G & Nm & M & E).
  destruct (C52_request v f more r pre bnd xs tail Hb Hp Hx Ht Hl H2) as (form & Hfm & Ef). exists r, form. split; [exact G|]. split; [exact Hfm|].
  rewrite E, Eb, El, Ea, Ef. clear E Ef. destruct G as (Sk & _).
  assert (M2 : method_path (set_form r form) = m ++ L ":" ++ p) by exact M.
  destruct (C38_selected_route_runs (v_app v) (v_routes v) (set_form r form) rt h) as (r1 & S & R); auto.
  { rewrite M2, !len_app. change (len (L ":")) with 1. lia. } { now rewrite M2. } { now rewrite M2. } { unfold room. now rewrite Hty. }
  rewrite Hfi in R. unfold seen in S. rewrite Hty in S. subst r1. rewrite R. cbn [bind]. rewrite Kh.
  change (r_socket (set_form r form)) with (r_socket r). now rewrite Sk.
Qed.
Print Assumptions C80_multipart_form.
(** The third way: uploading a file, on any API path. *)
Theorem C80_upload : forall v f t socket peer stream m u p q line x after t1 pre bnd xs hd dt head name tail more,
  mp_md5_size (v_mp v) = MD5_BUF ->
  let body := body_of pre bnd xs ((hd ++ dt) ++ bnd ++ tail) in
  api_asked v t socket peer stream m u p q line x after t1 -> td_boundary x = bnd -> td_length x = len body -> after = body ++ more ->
  clean_boundary bnd -> 2 <= len bnd -> clean_preamble bnd pre -> Forall (clean_field bnd) xs ->
  no_nul hd -> hd = head ++ name_mark ++ name -> name <> [] -> SpecMultipart.holds filename_mark hd -> SpecMultipart.holds SpecMultipart.blank_line (hd ++ dt) ->
  first_boundary bnd (hd ++ dt) tail -> len body < 2 ^ 31 ->
  undefined (accept_request v f t socket peer stream).
Proof.
  intros v f t socket peer stream m u p q line x after t1 pre bnd xs hd dt head name tail more Hmd body A Eb El Ea Hb H2 Hp Hx Hn Eh Hne Hf Hbl Hfb Hl.
  destruct (api_reaches v f t socket peer stream m u p q line x after t1 A) as (r & G & Nm & M & E).
  destruct (C53_upload (v_mp v) f pre bnd xs hd dt head name Hmd Hb Hp Hx Hn Eh Hne Hf Hbl tail Hfb Hl) as (w & U).
  exists w. rewrite E, Eb, El, Ea. clear E. rewrite (multipart_undefined_api v f body r bnd more w); [reflexivity| |exact H2|exact U].
  unfold body, body_of. rewrite !len_app. pose proof (len_nonneg _ pre). pose proof (len_nonneg _ (flat_map (fun x => bnd ++ part_of x) xs)).
  pose proof (len_nonneg _ tail). pose proof (len_nonneg _ hd). pose proof (len_nonneg _ dt). lia.
Qed.
Print Assumptions C80_upload.

Definition api_app : callbacks := mkApp (fun _ r => (set_ip r (L "root"), true)) (fun n r => set_response_length r (Z.of_nat n)).
Definition api_env : wsenv :=
  mkEnv api_app [mkRoute MATCHER_TYPE_CONSTANT (L "POST:/x") [] (Some 7%nat) (Some 8%nat) true;
                 mkRoute MATCHER_TYPE_PARAM (L "POST:/u/") (L "id") (Some 9%nat) None true] [] (L "/www") (L "/index.html") (L "/f.ico")
    (mkMpenv (fun s => s) 1 true MD5_BUF) (cs (L "junk")).
Definition api_post (u body : str) := accept_request api_env demo_fs demo_table 9 (L "1.2.3.4")
  (L "POST " ++ u ++ L " HTTP/1.1" ++ CRLF ++ L "Content-Length: 4" ++ CRLF ++ L "X-Session: tok" ++ CRLF ++ CRLF ++ body).
Example C80_case :
  match api_post (L "/api/x?a=b") (L "abcdefgh"), api_post (L "/api/nope") (L "abcd") with
  | Ok a, Ok b =>
      o_taken a = TApi [CallFilter 8%nat; CallHandler 7%nat] /\ r_form (o_req a) = cs (L "abcd") /\ r_query (o_req a) = L "a=b"
      /\ r_ip (o_req a) = L "root" /\ cstr (r_session (o_req a)) = Ok (L "tok") /\ o_closed a = [9] /\ o_table a = demo_table
      /\ o_taken b = TApi [] /\ r_sent (o_req b) = message (L "HTTP/1.1 400 Bad Request") [server; L "Content-Length: 0"] []
      /\ undefined (api_post (L "/api/u/5") (L "abcd"))
      /\ exists res, api_post (L "/api/u/5") (repeat NUL 4) = Ok res /\ cstr (r_form (o_req res)) = Ok (L "id=5")
  | _, _ => False
  end.
Proof.
  vm_compute. do 9 (split; [reflexivity|]). split; [eexists; reflexivity|]. eexists. split; reflexivity.
Qed.

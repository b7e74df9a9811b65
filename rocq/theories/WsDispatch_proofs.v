(** WsDispatch_proofs.v - lemmas about request dispatch (/repo/ws.c). *)
From Verif Require Import WsRequest Lemmas StringUtils_proofs ConfParser_proofs WsMultipart_proofs HttpUtils_proofs WsConn_proofs WsRequest_proofs
  SpecJson SpecHttp SpecConn SpecReq SpecDispatch Spec.

(** ** What follows the request line *)
Definition accept_rest (v : wsenv) (f : fs) (t1 : table) (r2 : api_request) (method url : str) (b : buf) (s1 : str) : outcome result :=
  b1 <- write_at b 0 [Some "A"%char; Some NUL];;
  '(n, b2, s2) <- get_line s1 b1 1024;;
  h <- header_loop (length s1) n (mkH b2 s2 [] None [] (-1) (r_ip r2) (calloc MAX_SESSION));;
  let r3 := set_session (set_ip (set_content_type (set_headers r2 (hs_headers h))
              (hs_content_type h)) (hs_ip h)) (hs_session h) in
  '(path, query) <- get_path_and_query_string url;;
  let r4 := set_query r3 query in
  api <- startswith (cs url) API_MOUNT;;
  if negb api then
    let r5 := set_path r4 path in
    if str_caseeqb method (L "GET") then
      r6 <- handle_static_routes v f r5;; Ok (finish TStatic r6 t1 f)
    else
      r6 <- bad_request r5;; Ok (finish TNotGet r6 t1 f)
  else
    p <- cstr (from (cs path) (len API_MOUNT));;
    let r5 := set_path r4 p in
    '(calls, r6, f') <- handle_api_request v f (hs_stream h) r5 (hs_length h) (hs_boundary h);;
    Ok (finish (TApi calls) r6 t1 f').

Definition req0 (socket : Z) (peer : str) : api_request :=
  mkReq socket [] None (cs []) [] [] [] [] peer [] (cs []) [] 0 [] [].
Definition req1 socket peer rl m := set_method (set_request_line (req0 socket peer) rl) m.
Definition req2 socket peer rl m u := set_url (req1 socket peer rl m) u.

Lemma accept_unfold v f t socket peer stream : accept_request v f t socket peer stream =
  (r0 <- new_request socket peer;;
   '(_, b, s1) <- get_line stream (calloc 1024) 1024;;
   '(rl, method, j) <- parse_request_line b;;
   let r1 := set_method (set_request_line r0 rl) method in
   ok_method <- startswithany (cs method) ALLOWED_HTTP_METHODS;;
   if negb ok_method then
     r2 <- bad_request r1;; Ok (finish TBadMethod r2 t f)
   else
   url <- parse_url b j;;
   let r2 := set_url r1 url in
   '(admitted, t1) <- connection_add (v_limits v) t socket (r_ip r2) url;;
   if negb admitted then
     r3 <- too_many_connections r2;; Ok (finish TTooMany r3 t1 f)
   else accept_rest v f t1 r2 method url b s1).
Proof. reflexivity. Qed.

Lemma methods_eq m : no_nul m -> exists r, startswithany (cs m) ALLOWED_HTTP_METHODS = Ok r /\ (r = true <-> allowed m).
Proof.
  intros Hn. rewrite <- (app_nil_r (cs m)).
  destruct (startswithany_eq m [] [L "GET"; L "POST"; L "PUT"; L "DELETE"] None Hn) with (more := @nil (option (list ascii)))
    as (r & E & H); auto.
  - repeat constructor; try easy.
  - exists r. split; auto.
Qed.
Lemma api_eq u : no_nul u -> exists r, startswith (cs u) API_MOUNT = Ok r /\ (r = true <-> api_url u).
Proof.
  intros Hn. rewrite <- (app_nil_r (cs u)). destruct (startswith_eq u [] API_MOUNT) as (r & E & H); [auto|apply no_nul_dec_b; reflexivity|].
  exists r. split; [exact E|]. rewrite H. reflexivity.
Qed.
Lemma caseeqb_ci a b : str_caseeqb a b = true <-> ci_equal b a.
Proof.
  rewrite ci_equal_lower. revert b. induction a as [|x a IH]; intros [|y b]; cbn; try (split; [discriminate|discriminate]); [tauto|].
  rewrite Bool.andb_true_iff, IH, ceq_true. split; [intros [-> ->]; reflexivity|intros E; now inversion E].
Qed.

Lemma accept_start v f t socket peer stream m u line s1 : asks stream m u line s1 -> len peer <= 23 ->
  exists b, line_in b line /\
  (~ allowed m -> accept_request v f t socket peer stream
     = (r2 <- bad_request (req1 socket peer (firstn (length line - 2) line) m);; Ok (finish TBadMethod r2 t f)))
  /\ (allowed m -> accept_request v f t socket peer stream =
     ('(admitted, t1) <- connection_add (v_limits v) t socket peer (firstn 254 u);;
      if negb admitted then r3 <- too_many_connections (req2 socket peer (firstn (length line - 2) line) m (firstn 254 u));; Ok (finish TTooMany r3 t1 f)
      else accept_rest v f t1 (req2 socket peer (firstn (length line - 2) line) m (firstn 254 u)) m (firstn 254 u) b s1)).
Proof.
  intros A Hp. destruct (asks_parse _ _ _ _ _ A) as (b & G & Lb & P & U). exists b. split; [exact Lb|].
  destruct A as (_ & _ & (_ & Nm & _) & _). destruct (methods_eq m Nm) as (r & E & Hr).
  split; intros H; rewrite accept_unfold; unfold new_request; rewrite fits_ok by lia; cbn [bind]; rewrite G; cbn [bind]; rewrite P; cbn [bind];
    rewrite E; cbn [bind].
  - destruct r; [exfalso; apply H, Hr; reflexivity|]. reflexivity.
  - destruct r; [|apply Hr in H; discriminate]. cbn [negb]. rewrite U. reflexivity.
Qed.

Lemma from_cs_skip h p n : length h = n -> from (cs (h ++ p)) (Z.of_nat n) = cs p.
Proof.
  intros H. rewrite <- (app_nil_r (cs (h ++ p))), <- (app_nil_r (cs p)). apply from_tail. exists h. auto.
Qed.

(** The path of an API URL starts with its first four bytes. *)
Lemma api_path u p q : api_url u -> url_parts u p q -> exists h p', p = h ++ p' /\ ci_equal (L "/api") h.
Proof.
  intros (h & r & -> & E) (ts & T & _ & _). inversion T as [|a t r' ts' Ha Ht Hp Hr T' Eu]; subst t ts'.
  assert (Nh : Forall (fun c => ~ In c (L "?")) h).
  { assert (Q : forall x y, In x (L "/api") -> same_letter x y -> ~ In y (L "?")).
    { intros x y Hx H [<-|[]]. vm_compute in Hx.
      assert (K : same_letter x "?"%char -> x = "?"%char).
      { intros [K|[K|K]]; [exact K| |]; vm_compute in K; repeat (destruct K as [K|K]; [discriminate|]); elim K. }
      apply K in H. subst x. repeat (destruct Hx as [Hx|Hx]; [discriminate|]). elim Hx. }
    clear - E Q. revert Q. induction E as [|x y p h H F IH]; intros Q; constructor.
    - apply (Q x y); [now left|exact H].
    - apply IH. intros a b Ha. apply Q. now right. }
  destruct a as [|a0 a].
  - cbn [app] in Eu. apply app_eq_app in Eu as (l & [[Ep Er]|[Eh Er]]).
    + exists h, l. auto.
    + destruct l as [|c l].
      * rewrite app_nil_r in Eh. subst h. exists p, []. now rewrite app_nil_r.
      * exfalso. rewrite Eh in Nh. apply Forall_app in Nh as [_ Nh]. inv Nh. apply H1. apply (Hr c (l ++ r)). reflexivity.
  - exfalso. inv Ha. destruct h as [|h0 h]; [inv E|]. cbn in Eu. inversion Eu; subst. inv Nh. auto.
Qed.

Lemma url_parts_eq u p q : no_nul u -> len u <= 254 -> url_parts u p q -> get_path_and_query_string u = Ok (p, q).
Proof.
  intros Hn Hl (ts & T & Ht & ->). assert (S : forall d x ys, tokens d x ys -> Forall (fun y => len y <= len x) ys).
  { clear. induction 1; [constructor|]. constructor; [rewrite !len_app; lens; lia|].
    eapply Forall_impl; [|exact IHtokens]. intros y Hy. cbn in Hy. rewrite !len_app. lens. lia. }
  specialize (S _ _ _ T). inv S. apply path_query_eq; auto; [lia|]. destruct ts; [cbn; lia|]. inv H2. cbn [hd]. lia.
Qed.
Lemma url_parts_no_nul u p q : no_nul u -> url_parts u p q -> no_nul p.
Proof. intros Hn (ts & T & _). inv T. apply no_nul_app in Hn as [_ Hn]. apply no_nul_app in Hn. tauto. Qed.

Lemma line_in_A b line : line_in b line -> exists b1, write_at b 0 [Some "A"%char; Some NUL] = Ok b1 /\ line_in b1 (L "A").
Proof.
  intros (st & E & Lb). rewrite write_at_0 by (rewrite Lb; cbn; lia). eexists. split; [reflexivity|].
  exists (skipn 2 (line ++ NUL :: st)). split.
  - change (cs (L "A")) with ([Some "A"%char; Some NUL]). f_equal. rewrite E. unfold cs. rewrite <- app_assoc, <- skipn_map, map_app. reflexivity.
  - rewrite len_app, len_skipn, Lb. reflexivity.
Qed.

Lemma accept_rest_start v f t1 socket peer rl m url b line s1 x after p q : no_nul m -> no_nul url -> len url <= 254 ->
  line_in b line -> section s1 (nothing_told peer) x after -> short_fields x -> url_parts url p q ->
  exists r : str -> api_request,
    (forall p, request_read (r p) socket rl m url /\ request_told (r p) x p q) /\
    (~ api_url url -> ~ is_get m -> accept_rest v f t1 (req2 socket peer rl m url) m url b s1
       = (r6 <- bad_request (r p);; Ok (finish TNotGet r6 t1 f)))
    /\ (~ api_url url -> is_get m -> accept_rest v f t1 (req2 socket peer rl m url) m url b s1
       = (r6 <- handle_static_routes v f (r p);; Ok (finish TStatic r6 t1 f)))
    /\ (forall h p', p = h ++ p' -> ci_equal (L "/api") h -> api_url url ->
        accept_rest v f t1 (req2 socket peer rl m url) m url b s1
       = ('(calls, r6, f') <- handle_api_request v f after (r p') (td_length x) (td_boundary x);; Ok (finish (TApi calls) r6 t1 f'))).
Proof.
  intros Nm Nu Lu Lb Hs Hsf Hp. destruct (line_in_A _ _ Lb) as (b1 & W & Lb1).
  destruct (line_of_exists 1024 ltac:(lia) s1) as (l & rest & Hl). pose proof Hl as (_ & Hle & _).
  assert (L1024 : len b1 = 1024) by (destruct Lb1 as (st & _ & ?); auto).
  pose proof (get_line_eq 1024 s1 l rest b1 Hl ltac:(lia)) as G.
  destruct (header_loop_eq s1 _ x after Hs (length s1) (L "A") b1
    (mkH (cs l ++ skipn (S (length l)) b1) rest [] None [] (-1) peer (calloc 64)) (len l) G) as (h & E & R & Aft); auto.
  { split; [reflexivity|]. split; [constructor|]. repeat (split; [reflexivity|]). exists (calloc 63).
    split; [reflexivity|]. split; [constructor|]. reflexivity. }
  pose proof (rep_stores _ _ R) as (S1 & S2 & S3 & S4 & S5 & S6 & S7 & S8).
  exists (fun p => set_path (set_query (set_session (set_ip (set_content_type (set_headers (req2 socket peer rl m url) (hs_headers h))
              (hs_content_type h)) (hs_ip h)) (hs_session h)) q) p).
  split.
  { intros p0. split; [repeat split|]. split; [reflexivity|]. split; [reflexivity|]. split; [exact S6|]. split; [exact S3|].
    split; [exact S7|]. split; [exact S8|]. apply S1, Hsf. }
  destruct (api_eq url Nu) as (api & Ea & Ha).
  assert (C : accept_rest v f t1 (req2 socket peer rl m url) m url b s1 =
    if negb api then
      if str_caseeqb m (L "GET") then
        r6 <- handle_static_routes v f (set_path (set_query (set_session (set_ip (set_content_type (set_headers (req2 socket peer rl m url) (hs_headers h))
              (hs_content_type h)) (hs_ip h)) (hs_session h)) q) p);; Ok (finish TStatic r6 t1 f)
      else r6 <- bad_request (set_path (set_query (set_session (set_ip (set_content_type (set_headers (req2 socket peer rl m url) (hs_headers h))
              (hs_content_type h)) (hs_ip h)) (hs_session h)) q) p);; Ok (finish TNotGet r6 t1 f)
    else p <- cstr (from (cs p) (len API_MOUNT));;
      '(calls, r6, f') <- handle_api_request v f (hs_stream h) (set_path (set_query (set_session (set_ip (set_content_type (set_headers (req2 socket peer rl m url) (hs_headers h))
              (hs_content_type h)) (hs_ip h)) (hs_session h)) q) p) (hs_length h) (hs_boundary h);;
      Ok (finish (TApi calls) r6 t1 f')).
  { unfold accept_rest. rewrite W. cbn [bind]. rewrite G. cbn [bind].
    change (r_ip (req2 socket peer rl m url)) with peer. change MAX_SESSION with 64. rewrite E. cbn [bind].
    rewrite (url_parts_eq url p q) by auto. cbn [bind]. rewrite Ea. reflexivity. }
  split; [|split].
  - intros H1 H2. rewrite C. destruct api; [exfalso; apply H1, Ha; reflexivity|]. cbn [negb].
    destruct (str_caseeqb m (L "GET")) eqn:Eg; [exfalso; apply H2; now apply caseeqb_ci|reflexivity].
  - intros H1 H2. rewrite C. destruct api; [exfalso; apply H1, Ha; reflexivity|]. cbn [negb].
    apply caseeqb_ci in H2. now rewrite H2.
  - intros h0 p' Ep Eh H1. rewrite C. destruct api; [|apply Ha in H1; discriminate]. cbn [negb].
    subst p. change (len API_MOUNT) with (Z.of_nat 4). rewrite from_cs_skip by (apply Forall2_length in Eh; now rewrite <- Eh).
    pose proof (url_parts_no_nul _ _ _ Nu Hp) as Np. apply no_nul_app in Np as [_ Np].
    rewrite cstr_cs0 by auto. cbn [bind]. rewrite Aft, S4, S5. reflexivity.
Qed.

(** ** The socket of the request *)
Ltac bsplit E := match type of E with
  | (if ?c then _ else _) = Ok _ => destruct c eqn:?
  | bind _ _ = Ok _ => let a := fresh "a" in let E1 := fresh "E" in apply bind_ok_inv in E as (a & E1 & E); try destruct a
  end.
Lemma log_access_socket r s r' : log_access r s = Ok r' -> r_socket r' = r_socket r.
Proof. unfold log_access. intros E. bsplit E; bsplit E; inv E; reflexivity. Qed.
Lemma send_status_socket r s m r' : send_http_status r s m = Ok r' -> r_socket r' = r_socket r.
Proof.
  unfold send_http_status. destruct (_ =? -1); [intros E; now inv E|]. intros E. apply bind_ok_inv in E as (b & _ & E).
  apply log_access_socket in E. rewrite E. reflexivity.
Qed.
Lemma bad_request_socket r r' : bad_request r = Ok r' -> r_socket r' = r_socket r.
Proof. unfold bad_request. apply send_status_socket. Qed.
Lemma too_many_socket r r' : too_many_connections r = Ok r' -> r_socket r' = r_socket r.
Proof. unfold too_many_connections. apply send_status_socket. Qed.
Lemma direct_file_socket f r n z r' : direct_file f r n = Ok (z, r') -> r_socket r' = r_socket r.
Proof.
  unfold direct_file. destruct (negb (is_file f n)); [intros E; now inv E|]. intros E.
  apply bind_ok_inv in E as ([l1 r1] & E1 & E). apply bind_ok_inv in E as ([l2 r2] & E2 & E). apply bind_ok_inv in E as (l & _ & E). apply bind_ok_inv in E as (r4 & E3 & E).
  inv E. apply log_access_socket in E3. rewrite E3. cbn.
  assert (r_socket r2 = r_socket r1) as ->.
  { unfold return_file in E2. destruct (f n) as [[c|]|]; [destruct (int_max <? len c); [discriminate|]| |]; inv E2; reflexivity. }
  unfold return_headers in E1. apply bind_ok_inv in E1 as (a & _ & E1). apply bind_ok_inv in E1 as (b & _ & E1).
  apply bind_ok_inv in E1 as (c & _ & E1). apply bind_ok_inv in E1 as ([l3 r3] & E4 & E1). inv E1. cbn.
  destruct (0 <? len c); [apply bind_ok_inv in E4 as (d & _ & E4)|]; inv E4; reflexivity.
Qed.
Lemma static_socket v f r r' : handle_static_routes v f r = Ok r' -> r_socket r' = r_socket r.
Proof.
  unfold handle_static_routes. intros E. apply bind_ok_inv in E as (n & _ & E). apply bind_ok_inv in E as (p & _ & E).
  apply bind_ok_inv in E as (file & _ & E). apply bind_ok_inv in E as ([st r2] & E1 & E). apply direct_file_socket in E1. cbn in E1.
  destruct (st <? 0); [|inv E; exact E1]. apply bind_ok_inv in E as (file' & _ & E). apply bind_ok_inv in E as ([z r3] & E2 & E).
  inv E. apply direct_file_socket in E2. congruence.
Qed.
Lemma route_loop_socket t m : forall r r' h fl, route_loop t m r = Ok (r', h, fl) -> r_socket r' = r_socket r.
Proof.
  induction t as [|rt t IH]; intros r r' h fl E; cbn [route_loop] in E; [now inv E|]. destruct (negb (rt_live rt)); [discriminate|].
  destruct (rt_type rt).
  - destruct (str_eqb (rt_prefix rt) m); [now inv E|eauto].
  - destruct (strstr m (rt_prefix rt)); [|eauto]. destruct (str_eqb (rt_prefix rt) m); [eauto|].
    apply bind_ok_inv in E as (qs & _ & E). apply bind_ok_inv in E as (nn & _ & E). apply bind_ok_inv in E as (fm & _ & E). now inv E.
Qed.
Lemma router_socket a t r calls r' : keeps_socket a -> router_handle_request a t r = Ok (calls, r') -> r_socket r' = r_socket r.
Proof.
  intros [Kf Kh] E. unfold router_handle_request in E. apply bind_ok_inv in E as (m & _ & E).
  apply bind_ok_inv in E as ([[r1 h] fl] & E1 & E). apply route_loop_socket in E1. rewrite <- E1. destruct h as [h|].
  - destruct fl as [fl|]; [|inv E; apply Kh]. pose proof (Kf fl r1) as K. destruct (on_filter a fl r1) as [r2 [|]]; cbn in K; inv E; [rewrite Kh|]; exact K.
  - apply bind_ok_inv in E as (r2 & E2 & E). inv E. eapply bad_request_socket; eauto.
Qed.
Lemma api_socket v f s r n b calls r' f' : keeps_socket (v_app v) -> handle_api_request v f s r n b = Ok (calls, r', f') ->
  r_socket r' = r_socket r.
Proof.
  intros K E. unfold handle_api_request in E. apply bind_ok_inv in E as ([r1 f1] & E1 & E).
  apply bind_ok_inv in E as ([c r2] & E2 & E). inv E. apply router_socket in E2; auto. rewrite E2.
  destruct (0 <? n); [|now inv E1]. destruct (2 <=? len b); [|now inv E1]. apply bind_ok_inv in E1 as ([fm ff] & _ & E1). now inv E1.
Qed.

(** Adding and removing the connection. *)
Lemma claim_del s t ip path ok t1 : claim_slot t s ip path = Ok (ok, t1) -> s <> 0 -> ~ In s (map c_socket t) ->
  Forall (fun c => c_socket c = 0 -> c = free_slot) t -> connection_del t1 s = t.
Proof.
  revert ok t1. induction t as [|c t IH]; intros ok t1 E Hs Hi F; cbn [claim_slot] in E; [now inv E|]. inv F.
  destruct (Z.eqb_spec (c_socket c) 0) as [X|X].
  - apply bind_ok_inv in E as (p & _ & E). apply bind_ok_inv in E as (i & _ & E). inv E. cbn [connection_del c_socket].
    rewrite Z.eqb_refl. now rewrite H1.
  - apply bind_ok_inv in E as ([r t''] & E & E'). inv E'. cbn [connection_del].
    replace (c_socket c =? s) with false; [|symmetry; apply Z.eqb_neq; intros <-; apply Hi; now left]. f_equal.
    eapply IH; eauto. intros I. apply Hi. now right.
Qed.
Lemma add_del rules s t ip path ok t1 : connection_add rules t s ip path = Ok (ok, t1) -> s <> 0 -> ~ In s (map c_socket t) ->
  Forall (fun c => c_socket c = 0 -> c = free_slot) t -> connection_del t1 s = t.
Proof.
  unfold connection_add. intros E. apply bind_ok_inv in E as ([|] & _ & E); [eapply claim_del; eauto|]. inv E. intros _ Hi _. now apply del_absent.
Qed.

Lemma finish_ok k r t f s : r_socket r = s -> finish k r t f = mkResult k r (connection_del t s) [s] f.
Proof. intros <-. reflexivity. Qed.

Lemma accept_rest_socket v f t1 r2 m url b s1 res : accept_rest v f t1 r2 m url b s1 = Ok res -> keeps_socket (v_app v) ->
  exists k r6 f', res = finish k r6 t1 f' /\ r_socket r6 = r_socket r2.
Proof.
  intros E K. unfold accept_rest in E. apply bind_ok_inv in E as (b1 & _ & E). apply bind_ok_inv in E as ([[n' b2] s2] & _ & E).
  apply bind_ok_inv in E as (h & _ & E). cbv zeta in E. apply bind_ok_inv in E as ([p q] & _ & E). apply bind_ok_inv in E as (api & _ & E).
  destruct api; cbn [negb] in E.
  - apply bind_ok_inv in E as (p' & _ & E). apply bind_ok_inv in E as ([[calls r6] f'] & E6 & E). apply api_socket in E6; auto.
    exists (TApi calls), r6, f'. split; [congruence|rewrite E6; reflexivity].
  - destruct (str_caseeqb m (L "GET")).
    + apply bind_ok_inv in E as (r6 & E6 & E). apply static_socket in E6. exists TStatic, r6, f. split; [congruence|rewrite E6; reflexivity].
    + apply bind_ok_inv in E as (r6 & E6 & E). apply bad_request_socket in E6. exists TNotGet, r6, f. split; [congruence|rewrite E6; reflexivity].
Qed.

Local Opaque send_http_status bad_request too_many_connections accept_rest startswithany get_line parse_request_line parse_url connection_add finish.
Lemma accept_closes v f t socket peer stream res : accept_request v f t socket peer stream = Ok res -> keeps_socket (v_app v) ->
  o_closed res = [socket] /\ r_socket (o_req res) = socket /\
  (socket <> 0 -> ~ In socket (map c_socket t) -> Forall (fun c => c_socket c = 0 -> c = free_slot) t -> o_table res = t).
Proof.
  intros E K. rewrite accept_unfold in E. apply bind_ok_inv in E as (r0 & E0 & E).
  assert (S0 : r_socket r0 = socket). { unfold new_request in E0. apply bind_ok_inv in E0 as (ip & _ & E0). now inv E0. }
  apply bind_ok_inv in E as ([[n b] s1] & _ & E). apply bind_ok_inv in E as ([[rl m] j] & _ & E). cbv zeta in E.
  apply bind_ok_inv in E as (okm & _ & E). destruct okm; cbn [negb] in E.
  2:{ apply bind_ok_inv in E as (r2 & E2 & E). apply bad_request_socket in E2. rewrite (finish_ok _ _ _ _ socket) in E by (rewrite E2; exact S0). injection E as <-. cbn [o_closed o_req o_table].
      split; [reflexivity|]. split; [rewrite E2; exact S0|]. intros _ Hi _. now apply del_absent. }
  apply bind_ok_inv in E as (url & _ & E). apply bind_ok_inv in E as ([adm t1] & Ea & E).
  pose proof (add_del _ _ _ _ _ _ _ Ea) as D.
  assert (F : forall k r f', r_socket r = socket -> res = finish k r t1 f' ->
     o_closed res = [socket] /\ r_socket (o_req res) = socket /\
     (socket <> 0 -> ~ In socket (map c_socket t) -> Forall (fun c => c_socket c = 0 -> c = free_slot) t -> o_table res = t)).
  { intros k r f' Sr ->. rewrite (finish_ok _ _ _ _ socket Sr). cbn [o_closed o_req o_table]. auto. }
  destruct adm; cbn [negb] in E.
  2:{ apply bind_ok_inv in E as (r2 & E2 & E). apply too_many_socket in E2. apply (F TTooMany r2 f); [|congruence]. rewrite E2. exact S0. }
  apply accept_rest_socket in E as (k & r6 & f' & -> & S6); auto. apply (F k r6 f'); [|reflexivity]. rewrite S6. exact S0.
Qed.

Local Transparent send_http_status bad_request too_many_connections accept_rest startswithany get_line parse_request_line parse_url connection_add finish.

(** ** Static files *)
Lemma static_pick v f r junk p : cstr (v_stk v) = Ok junk -> static_target v junk (r_path r) p ->
  exists pick, handle_static_routes v f r =
  (p <- pick;; file <- fits 1024 (v_static_root v ++ L "/" ++ p);;
   '(st, r2) <- direct_file f (set_path r p) file;;
   if st <? 0 then
     file' <- fits 1024 (v_static_root v ++ L "/" ++ v_index v);; '(_, r3) <- direct_file f r2 file';; Ok r3
   else Ok r2) /\ (pick = Ok p \/ pick = fits 1024 p).
Proof.
  intros Hj Ht. unfold handle_static_routes, strlen. rewrite Hj. cbn [bind].
  destruct (cstr_inv _ _ Hj) as (_ & rr & Ej).
  assert (R : forall j c, junk = j ++ [c] -> rd (v_stk v) (len junk - 1) = Ok c).
  { intros j c ->. rewrite Ej, cs_app. replace (len (j ++ [c]) - 1) with (len (map (@Some ascii) j)) by (rewrite len_map; llia).
    rewrite <- app_assoc. now apply rd_at. }
  assert (N : forall p0, ~ In p0 [L "/"; L "/index.html"; L "/favicon.ico"] ->
    str_eqb p0 (L "/") = false /\ str_eqb p0 (L "/index.html") = false /\ str_eqb p0 (L "/favicon.ico") = false).
  { intros p0 H. repeat split; apply str_eqb_neq; intros ->; apply H; cbn; tauto. }
  inversion Ht as [p0 I E1 E2|E1 E2|p0 j I E E1 E2|p0 j c I E C E1 E2]; subst p.
  - assert (str_eqb (r_path r) (L "/") || str_eqb (r_path r) (L "/index.html") = true) as ->; [|eexists; split; [reflexivity|now left]].
    destruct I as [<-|[<-|[]]]; rewrite str_eqb_refl; [reflexivity|apply Bool.orb_true_r].
  - eexists; split; [reflexivity|now left].
  - destruct (N _ I) as (-> & -> & ->). cbn [orb]. rewrite (R j "/"%char E). cbn [bind]. rewrite ceq_refl.
    eexists. split; [reflexivity|now right].
  - destruct (N _ I) as (-> & -> & ->). cbn [orb]. rewrite (R j c E). cbn [bind]. rewrite ceq_neq by auto. eexists. split; [reflexivity|now left].
Qed.

Lemma static_eq v f r junk p : cstr (v_stk v) = Ok junk -> static_target v junk (r_path r) p -> len p <= 1023 ->
  handle_static_routes v f r =
  (file <- fits 1024 (v_static_root v ++ L "/" ++ p);;
   '(st, r2) <- direct_file f (set_path r p) file;;
   if st <? 0 then
     file' <- fits 1024 (v_static_root v ++ L "/" ++ v_index v);; '(_, r3) <- direct_file f r2 file';; Ok r3
   else Ok r2).
Proof.
  intros Hj Ht Hl. destruct (static_pick v f r junk p Hj Ht) as (q & -> & [->| ->]); [reflexivity|].
  rewrite fits_ok by lia. reflexivity.
Qed.

Lemma file_message_eq name sess content :
  (ok_start ++ ok_start ++ get_content_type name ++ flat_map (fun h => h ++ CRLF) (session_lines sess) ++ CRLF) ++ content
  = file_message name sess content.
Proof.
  unfold file_message. change (L "HTTP/1.1 200 OK" ++ CRLF ++ L "Server: WAYUU/1.5.0" ++ CRLF) with ok_start.
  rewrite <- !app_assoc. do 3 f_equal. destruct (list_eq_dec ascii_dec sess []) as [->|N]; [reflexivity|].
  destruct sess as [|c s]; [easy|]. cbn [session_lines flat_map]. rewrite <- !app_assoc. reflexivity.
Qed.

(** ** Lexical resolution *)
Lemma tokens_app d a ts1 b ts2 x : tokens d a ts1 -> tokens d b ts2 -> In x d -> tokens d (a ++ x :: b) (ts1 ++ ts2).
Proof.
  intros T1 T2 Hx. induction T1 as [s F|a t r ts Ha Ht Hp Hr T IH].
  - cbn [app]. destruct T2 as [s2 F2|a t r ts Ha Ht Hp Hr T2].
    + constructor. apply Forall_app. split; auto.
    + replace (s ++ x :: a ++ t ++ r) with ((s ++ x :: a) ++ t ++ r) by (now rewrite <- app_assoc). constructor; auto.
      apply Forall_app. auto.
  - replace ((a ++ t ++ r) ++ x :: b) with (a ++ t ++ (r ++ x :: b)) by (now rewrite <- !app_assoc). cbn [app]. constructor; auto.
    intros c r' E. destruct r as [|c0 r]; cbn in E; inversion E; subst; [exact Hx|eapply Hr; reflexivity].
Qed.
Lemma walk_app d a b : walk d (a ++ b) = walk (walk d a) b.
Proof.
  revert d. induction a as [|s a IH]; intros d; [reflexivity|]. cbn [app walk].
  destruct (list_eq_dec ascii_dec s (L ".")); [apply IH|]. destruct (list_eq_dec ascii_dec s (L "..")); apply IH.
Qed.
Lemma walk_down ts : ~ In (L "..") ts -> forall d, exists m, walk d ts = d ++ m.
Proof.
  induction ts as [|s ts IH]; intros H d; [exists []; now rewrite app_nil_r|]. cbn [walk].
  assert (H' : ~ In (L "..") ts) by (intros I; apply H; now right). specialize (IH H').
  destruct (list_eq_dec ascii_dec s (L ".")); [apply IH|]. destruct (list_eq_dec ascii_dec s (L "..")) as [->|]; [exfalso; apply H; now left|].
  destruct (IH (d ++ [s])) as (m & ->). exists (s :: m). now rewrite <- app_assoc.
Qed.

Lemma accept_rest_taken v f t1 r2 m url b s1 res : accept_rest v f t1 r2 m url b s1 = Ok res -> no_nul url ->
  match o_taken res with
  | TApi calls => api_url url /\ exists r, router_handle_request (v_app v) (v_routes v) r = Ok (calls, o_req res)
                    /\ r_method r = r_method r2 /\ r_url r = r_url r2
  | TStatic => ~ api_url url /\ is_get m
  | TNotGet => ~ api_url url /\ ~ is_get m
  | _ => False
  end.
Proof.
  intros E Nu. unfold accept_rest in E. apply bind_ok_inv in E as (b1 & _ & E). apply bind_ok_inv in E as ([[n' b2] s2] & _ & E).
  apply bind_ok_inv in E as (h & _ & E). cbv zeta in E. apply bind_ok_inv in E as ([p q] & _ & E). apply bind_ok_inv in E as (api & Ea & E).
  destruct (api_eq url Nu) as (r & Er & Hr). rewrite Er in Ea. injection Ea as ->. destruct api; cbn [negb] in E.
  - apply bind_ok_inv in E as (p' & _ & E). apply bind_ok_inv in E as ([[calls r6] f'] & E6 & E). injection E as <-.
    change (o_taken (finish (TApi calls) r6 t1 f')) with (TApi calls). change (o_req (finish (TApi calls) r6 t1 f')) with r6.
    cbv iota. split; [now apply Hr|]. unfold handle_api_request in E6. apply bind_ok_inv in E6 as ([r7 f7] & E7 & E6).
    apply bind_ok_inv in E6 as ([c r8] & E8 & E6). injection E6 as <- <- <-. exists r7. split; [exact E8|].
    destruct (0 <? hs_length h); [|injection E7 as <- <-; split; reflexivity].
    destruct (2 <=? len (hs_boundary h)); [apply bind_ok_inv in E7 as ([fm ff] & _ & E7)|]; injection E7 as <- <-; split; reflexivity.
  - assert (A : ~ api_url url) by (intros H; apply Hr in H; discriminate).
    destruct (str_caseeqb m (L "GET")) eqn:G.
    + apply bind_ok_inv in E as (r6 & _ & E). injection E as <-. change (o_taken (finish TStatic r6 t1 f)) with TStatic. cbv iota.
      split; [exact A|]. now apply caseeqb_ci.
    + apply bind_ok_inv in E as (r6 & _ & E). injection E as <-. change (o_taken (finish TNotGet r6 t1 f)) with TNotGet. cbv iota.
      split; [exact A|]. intros H. apply caseeqb_ci in H. congruence.
Qed.
Lemma finish_taken k r t f : o_taken (finish k r t f) = k.
Proof. reflexivity. Qed.

(** Answers without a body. *)
Definition status_bytes (line : str) : str := message line [server; L "Content-Length: 0"] [].
Lemma empty_status r hl status line : supported status line -> has_headers r hl -> r_response_length r = 0 ->
  exists r', send_http_status r status [] = Ok r' /\ answered r r' hl status (status_bytes line) (len (status_bytes line)).
Proof.
  intros Hs Hh H0. destruct (send_status_ok r hl status line [] Hs Hh) as (r' & E & A).
  - clear - Hs. vm_compute in Hs. repeat (destruct Hs as [Hs|Hs]; [inversion Hs; subst; vm_compute; discriminate|]). elim Hs.
  - exists r'. split; [exact E|]. cbv zeta in A. rewrite H0 in A. exact A.
Qed.

Lemma req1_told socket peer rl m : request_read (req1 socket peer rl m) socket rl m [] /\ has_headers (req1 socket peer rl m) []
  /\ r_ip (req1 socket peer rl m) = peer.
Proof. repeat split. constructor. Qed.
Lemma req2_told socket peer rl m u : request_read (req2 socket peer rl m u) socket rl m u /\ has_headers (req2 socket peer rl m u) []
  /\ r_ip (req2 socket peer rl m u) = peer.
Proof. repeat split. constructor. Qed.
Lemma answered_socket r r' hl st b n : answered r r' hl st b n -> r_socket r' = r_socket r.
Proof. intros ((H & _) & _). exact H. Qed.

(** ** Static files *)
Lemma direct_file_missing f r name : (forall c, f name <> Some (File c)) -> direct_file f r name = Ok (-1, r).
Proof. intros H. unfold direct_file, is_file. destruct (f name) as [[c|]|]; [elim (H c); reflexivity| |]; reflexivity. Qed.
Lemma junk_oob v f r : cstr (v_stk v) = Ok [] -> ~ In (r_path r) [L "/"; L "/index.html"; L "/favicon.ico"] ->
  handle_static_routes v f r = UB OobRead.
Proof.
  intros Hj Hp. unfold handle_static_routes, strlen. rewrite Hj. cbn [bind].
  rewrite !(proj2 (str_eqb_neq _ _)) by (intros E; apply Hp; rewrite E; cbn [In]; tauto). cbn [orb].
  unfold rd. change (len (@nil ascii) - 1) with (-1). cbn [Z.ltb Z.compare bind]. reflexivity.
Qed.
Lemma junk_undefined v f r u : cstr (v_stk v) = UB u -> handle_static_routes v f r = UB u.
Proof. intros Hj. unfold handle_static_routes, strlen. now rewrite Hj. Qed.
Lemma static_long v f r junk p : cstr (v_stk v) = Ok junk -> static_target v junk (r_path r) p ->
  1023 < len (v_static_root v ++ L "/" ++ p) -> undefined (handle_static_routes v f r).
Proof.
  intros Hj Ht Hl. destruct (static_pick v f r junk p Hj Ht) as (q & -> & [->| ->]).
  - cbn [bind]. rewrite fits_oob by lia. eexists. reflexivity.
  - unfold fits at 1. destruct (len p + 1 <=? 1024); cbn [bind]; [rewrite fits_oob by lia|]; eexists; reflexivity.
Qed.
Lemma in_root root segs p : resolves root segs -> no_dot_dot p -> exists more, resolves (root ++ L "/" ++ p) (segs ++ more).
Proof.
  intros (ts & T & ->) (tp & Tp & Hd). destruct (walk_down tp Hd (walk [] ts)) as (m & E). exists m, (ts ++ tp).
  split; [apply (tokens_app (L "/") root ts p tp "/"%char T Tp); now left|]. now rewrite walk_app.
Qed.
Lemma set_path_headers r hl p : has_headers r hl -> has_headers (set_path r p) hl.
Proof. intros H. exact H. Qed.
Lemma static_serves v f r hl junk sess p content : has_headers r hl -> cstr (r_session r) = Ok sess -> len sess <= 493 ->
  cstr (v_stk v) = Ok junk -> static_target v junk (r_path r) p -> len (v_static_root v ++ L "/" ++ p) <= 1023 ->
  f (v_static_root v ++ L "/" ++ p) = Some (File content) -> len content <= 2 ^ 31 - 2048 ->
  exists r', handle_static_routes v f r = Ok r'
    /\ answered (set_path r p) r' hl 200 (file_message (v_static_root v ++ L "/" ++ p) sess content)
         (len (file_message (v_static_root v ++ L "/" ++ p) sess content)).
Proof.
  intros Hh Hs Hl Hj Ht Hp Hf Hc. rewrite (static_eq v f r junk p Hj Ht) by (revert Hp; llia). rewrite fits_ok by lia. cbn [bind].
  destruct (direct_file_eq f (set_path r p) hl _ content sess Hh Hf Hc Hs Hl) as (r' & E & A). rewrite E. cbn [bind]. exists r'. split; [reflexivity|].
  cbv zeta in A. now rewrite file_message_eq in A.
Qed.
Lemma static_index v f r hl junk sess p content : has_headers r hl -> cstr (r_session r) = Ok sess -> len sess <= 493 ->
  cstr (v_stk v) = Ok junk -> static_target v junk (r_path r) p -> len (v_static_root v ++ L "/" ++ p) <= 1023 ->
  (forall c, f (v_static_root v ++ L "/" ++ p) <> Some (File c)) -> len (v_static_root v ++ L "/" ++ v_index v) <= 1023 ->
  f (v_static_root v ++ L "/" ++ v_index v) = Some (File content) -> len content <= 2 ^ 31 - 2048 ->
  exists r', handle_static_routes v f r = Ok r'
    /\ answered (set_path r p) r' hl 200 (file_message (v_static_root v ++ L "/" ++ v_index v) sess content)
         (len (file_message (v_static_root v ++ L "/" ++ v_index v) sess content)).
Proof.
  intros Hh Hs Hl Hj Ht Hp Hm Hi Hf Hc. rewrite (static_eq v f r junk p Hj Ht) by (revert Hp; llia). rewrite fits_ok by lia. cbn [bind].
  rewrite direct_file_missing by auto. cbn [bind]. change (-1 <? 0) with true. cbv iota. rewrite fits_ok by lia. cbn [bind].
  destruct (direct_file_eq f (set_path r p) hl _ content sess Hh Hf Hc Hs Hl) as (r' & E & A). rewrite E. cbn [bind]. exists r'. split; [reflexivity|].
  cbv zeta in A. now rewrite file_message_eq in A.
Qed.
Lemma static_none v f r junk p : cstr (v_stk v) = Ok junk -> static_target v junk (r_path r) p -> len (v_static_root v ++ L "/" ++ p) <= 1023 ->
  (forall c, f (v_static_root v ++ L "/" ++ p) <> Some (File c)) -> len (v_static_root v ++ L "/" ++ v_index v) <= 1023 ->
  (forall c, f (v_static_root v ++ L "/" ++ v_index v) <> Some (File c)) ->
  handle_static_routes v f r = Ok (set_path r p).
Proof.
  intros Hj Ht Hp Hm Hi Hn. rewrite (static_eq v f r junk p Hj Ht) by (revert Hp; llia). rewrite fits_ok by lia. cbn [bind].
  rewrite direct_file_missing by auto. cbn [bind]. change (-1 <? 0) with true. cbv iota. rewrite fits_ok by lia. cbn [bind].
  now rewrite direct_file_missing by auto.
Qed.

Lemma accept_rest_no_path v f t1 socket peer rl m url b line s1 x after : no_nul url ->
  line_in b line -> section s1 (nothing_told peer) x after -> tokens (L "?") url [] ->
  accept_rest v f t1 (req2 socket peer rl m url) m url b s1 = UB UninitRead.
Proof.
  intros Nu Lb Hs Hp. destruct (line_in_A _ _ Lb) as (b1 & W & Lb1).
  destruct (line_of_exists 1024 ltac:(lia) s1) as (l & rest & Hl). pose proof Hl as (_ & Hle & _).
  assert (L1024 : len b1 = 1024) by (destruct Lb1 as (st & _ & ?); auto).
  pose proof (get_line_eq 1024 s1 l rest b1 Hl ltac:(lia)) as G.
  destruct (header_loop_eq s1 _ x after Hs (length s1) (L "A") b1
    (mkH (cs l ++ skipn (S (length l)) b1) rest [] None [] (-1) peer (calloc 64)) (len l) G) as (h & E & _); auto.
  { split; [reflexivity|]. split; [constructor|]. repeat (split; [reflexivity|]). exists (calloc 63).
    split; [reflexivity|]. split; [constructor|]. reflexivity. }
  unfold accept_rest. rewrite W. cbn [bind]. rewrite G. cbn [bind].
  change (r_ip (req2 socket peer rl m url)) with peer. change MAX_SESSION with 64. rewrite E. cbn [bind].
  rewrite (path_query_none url) by auto. reflexivity.
Qed.

(** ** Climbing out of the root *)
Definition ups (k : nat) : str := concat (repeat (L "/..") k).
Lemma ups_tokens k b ts : tokens (L "/") b ts -> tokens (L "/") (ups k ++ L "/" ++ b) (repeat (L "..") k ++ ts).
Proof.
  intros T. induction k as [|k IH]; unfold ups in *; cbn [repeat concat app].
  - apply (tokens_app (L "/") [] [] b ts "/"%char); [constructor; constructor|exact T|now left].
  - rewrite <- app_assoc. apply (tokens_more _ (L "/") (L "..")); auto.
    + repeat constructor.
    + discriminate.
    + repeat constructor; intros [E|[]]; discriminate.
    + intros c r' E. destruct k; cbn in E; inversion E; now left.
Qed.
Lemma walk_up k : forall d, (length d <= k)%nat -> walk d (repeat (L "..") k) = [].
Proof.
  induction k as [|k IH]; intros d H; [destruct d; [reflexivity|cbn in H; lia]|].
  cbn [repeat walk]. destruct (list_eq_dec ascii_dec (L "..") (L ".")) as [E|_]; [discriminate|].
  destruct (list_eq_dec ascii_dec (L "..") (L "..")) as [_|N]; [|elim N; reflexivity]. apply IH.
  destruct d as [|a d] using rev_ind; [cbn; lia|]. rewrite removelast_last. rewrite app_length in H. cbn in H. lia.
Qed.
Lemma climbs root segs k b sb : resolves root segs -> (length segs <= k)%nat -> resolves b sb ->
  resolves (root ++ L "/" ++ ups k ++ L "/" ++ b) sb.
Proof.
  intros (ts & T & ->) Hk (tb & Tb & ->). exists (ts ++ repeat (L "..") k ++ tb). split.
  - apply (tokens_app (L "/") root ts _ _ "/"%char T); [|now left]. now apply ups_tokens.
  - rewrite !walk_app, walk_up by auto. reflexivity.
Qed.

(** ** The first empty line of a message *)
Lemma body_of_lines ls l body : plain_line l -> Forall plain_line ls ->
  message_body (l ++ CRLF ++ flat_map (fun x => x ++ CRLF) ls ++ CRLF ++ body) body.
Proof.
  intros Hl Hls. destruct ls as [|x ls'] eqn:E using rev_ind.
  - exists l. split; [reflexivity|]. intros a b Ea. pose proof (first_blank body [] l a b Hl Hls Ea) as H. revert H. cbn [flat_map]. llia.
  - clear IHls'. exists (l ++ CRLF ++ flat_map (fun x => x ++ CRLF) ls' ++ x). split.
    + rewrite flat_map_app. cbn [flat_map]. now rewrite <- !app_assoc.
    + intros a b Ea. pose proof (first_blank body (ls' ++ [x]) l a b Hl Hls Ea) as H. revert H. rewrite flat_map_app. cbn [flat_map]. llia.
Qed.
Lemma type_line name : exists t, get_content_type name = t ++ CRLF /\ plain_line t.
Proof.
  assert (P : forall t, t <> [] -> forallb (fun c => negb (ceq c CR)) t = true -> plain_line t).
  { intros t Ht F. split; [exact Ht|]. intros I. rewrite forallb_forall in F. specialize (F _ I). now rewrite ceq_refl in F. }
  unfold get_content_type. destruct (strrchr name ".") as [[|n]|].
  all: repeat match goal with |- context [if ?c then _ else _] => destruct c end.
  all: match goal with |- exists t, ?x = _ /\ _ => exists (firstn (length x - 2) x) end.
  all: split; [reflexivity|apply P; [discriminate|reflexivity]].
Qed.
Lemma file_lines name t : get_content_type name = t ++ CRLF -> forall sess content, file_message name sess content =
  L "HTTP/1.1 200 OK" ++ CRLF ++ flat_map (fun x => x ++ CRLF) ([L "Server: WAYUU/1.5.0"; L "HTTP/1.1 200 OK"; L "Server: WAYUU/1.5.0"; t] ++
     (if list_eq_dec ascii_dec sess [] then [] else [L "X-Session: " ++ sess; L "Set-Cookie:WSSESSION=" ++ sess])) ++ CRLF ++ content.
Proof.
  intros Et sess content. unfold file_message. rewrite Et, flat_map_app. cbn [flat_map]. rewrite <- !app_assoc.
  destruct (list_eq_dec ascii_dec sess []); cbn [flat_map]; rewrite <- ?app_assoc; reflexivity.
Qed.
Lemma plain_app p s : plain_line p -> ~ In CR s -> plain_line (p ++ s).
Proof. intros [H1 H2] H3. split; [destruct p; [easy|discriminate]|]. intros I. apply in_app_or in I as [I|I]; auto. Qed.
Lemma plain_text t : t <> [] -> forallb (fun c => negb (ceq c CR)) t = true -> plain_line t.
Proof. intros Ht F. split; [exact Ht|]. intros I. rewrite forallb_forall in F. specialize (F _ I). now rewrite ceq_refl in F. Qed.
Lemma body_plain name sess content : ~ In CR sess -> message_body (file_message name sess content) content.
Proof.
  intros Hs. destruct (type_line name) as (t & Et & Ht). rewrite (file_lines _ _ Et). apply body_of_lines; [now apply plain_text|].
  apply Forall_app. split; [repeat apply Forall_cons; try (now apply plain_text); auto|].
  destruct (list_eq_dec ascii_dec sess []); [constructor|]. repeat apply Forall_cons; auto; apply plain_app; auto; now apply plain_text.
Qed.
Lemma body_split name tok content : ~ In CR tok ->
  message_body (file_message name (tok ++ CRLF) content) (L "Set-Cookie:WSSESSION=" ++ tok ++ CRLF ++ CRLF ++ CRLF ++ content).
Proof.
  intros Hs. destruct (type_line name) as (t & Et & Ht). rewrite (file_lines _ _ Et).
  destruct (list_eq_dec ascii_dec (tok ++ CRLF) []) as [E|_]; [destruct tok; discriminate|].
  replace (L "HTTP/1.1 200 OK" ++ _) with (L "HTTP/1.1 200 OK" ++ CRLF ++ flat_map (fun x => x ++ CRLF)
    ([L "Server: WAYUU/1.5.0"; L "HTTP/1.1 200 OK"; L "Server: WAYUU/1.5.0"; t; L "X-Session: " ++ tok])
    ++ CRLF ++ (L "Set-Cookie:WSSESSION=" ++ tok ++ CRLF ++ CRLF ++ CRLF ++ content)).
  2:{ rewrite flat_map_app. cbn [flat_map]. rewrite <- !app_assoc. reflexivity. }
  apply body_of_lines; [now apply plain_text|].
  repeat apply Forall_cons; try (now apply plain_text); auto. apply plain_app; auto; now apply plain_text.
Qed.

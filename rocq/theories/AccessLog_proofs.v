(** AccessLog_proofs.v - lemmas for C97. *)
From Verif Require Tame_proofs.
From Verif Require Import AccessLog WsRequest Lemmas StringUtils_proofs HttpUtils_proofs WsConn_proofs WsRequest_proofs WsDispatch_proofs Router_proofs
  JsonUtils_proofs Time_proofs Log_proofs SpecJson SpecTime SpecHttp SpecConn SpecReq SpecRouter SpecDispatch SpecLog SpecAccess Spec.

(** ** The request line, the headers, the address *)
Lemma request_line_brief b rl m j : line_buf b -> parse_request_line b = Ok (rl, m, j) -> len rl <= 1021.
Proof.
  intros (_ & s & st & -> & Nn & He & Hl) H. unfold parse_request_line in H. rewrite cstr_cs in H by auto. cbn [bind] in H.
  apply bind_ok_inv in H as (w & Hw & H). apply bind_ok_inv in H as (rls & Hr & H).
  apply bind_ok_inv in H as ((m', j') & _ & H). apply bind_ok_inv in H as (mb & _ & H). apply bind_ok_inv in H as (me & _ & H).
  injection H as <- _ _.
  destruct (Z_lt_dec (len s - 2) 0) as [G|G].
  { exfalso. unfold wr, write_at in Hw. replace (0 <=? len s - 2) with false in Hw by lia. discriminate Hw. }
  assert (E : exists a x y, s = a ++ [x; y]).
  { destruct s as [|y s'] using rev_ind; [cbn in G; lia|]. destruct s' as [|x a] using rev_ind; [cbn in G; lia|].
    exists a, x, y. now rewrite <- app_assoc. }
  destruct E as (a & x & y & ->). rewrite len_app in Hl, Hw. change (len [x; y]) with 2 in Hl, Hw.
  rewrite cs_app in Hw. unfold cs in Hw. cbn [map app] in Hw. rewrite wr_at in Hw by (rewrite len_map; lia).
  injection Hw as <-. rewrite cstr_map in Hr by (apply no_nul_app in Nn; tauto). injection Hr as <-. lia.
Qed.
Lemma strncpy_len d s n x : strncpy d s n = Ok x -> len x = len d.
Proof. unfold strncpy. intros H. apply bind_ok_inv in H as (l & _ & H). apply write_at_len in H. unfold len. congruence. Qed.
Lemma cstr_short b s : cstr b = Ok s -> len s < len b.
Proof. intros H. apply cstr_inv in H as (_ & r & ->). unfold cs. rewrite !len_app, len_map. change (len [Some NUL]) with 1. pose proof (len_nonneg _ r). lia. Qed.
Lemma store_brief b hs hs' : Forall brief_header hs -> store_header b hs = Ok hs' -> Forall brief_header hs'.
Proof.
  intros F H. unfold store_header in H. destruct (len hs <? HTTP_MAX_HEADERS); [|injection H as <-; exact F].
  apply bind_ok_inv in H as (nv & _ & H). destruct nv as [|e0 [|e1 nv]]; [injection H as <-; exact F|injection H as <-; exact F|].
  apply bind_ok_inv in H as (name & _ & H). apply bind_ok_inv in H as (e1' & _ & H). apply bind_ok_inv in H as (value & H1 & H). injection H as <-.
  apply strncpy_len in H1. rewrite len_calloc in H1 by (unfold HTTP_MAX_HEADER_VALUE; lia).
  apply Forall_app. split; [exact F|]. apply Forall_cons; [|constructor]. intros s Hs. apply cstr_short in Hs. cbn [h_value] in Hs. unfold HTTP_MAX_HEADER_VALUE in H1. lia.
Qed.
Lemma cstr_before : forall a r s, cstr (a ++ Some NUL :: r) = Ok s -> len s <= len a.
Proof.
  induction a as [|[c|] a IH]; intros r s H; cbn [cstr app] in H; [injection H as <-; reflexivity| |discriminate].
  destruct (ceq c NUL); [injection H as <-; rewrite len_cons; pose proof (len_nonneg _ a); change (len (@nil ascii)) with 0; lia|].
  apply bind_ok_inv in H as (t & H1 & H). injection H as <-. apply IH in H1. rewrite !len_cons. lia.
Qed.
Lemma take_ip_brief b old ip b' : len old <= 24 -> take_ip b old = Ok (ip, b') -> len ip <= 24.
Proof.
  intros Ho H. unfold take_ip in H. apply bind_ok_inv in H as (m & _ & H). destruct m; [|now injection H as <- _].
  apply bind_ok_inv in H as (b1 & _ & H). apply bind_ok_inv in H as (i & H1 & H). apply bind_ok_inv in H as (s & H2 & H). injection H as <- _.
  unfold strncpy in H1. apply bind_ok_inv in H1 as (l & H3 & H1). change (Z.to_nat 24) with 24%nat in *.
  set (w := map Some l ++ repeat (Some NUL) (24 - length l)) in *.
  assert (Lw : length w = 24%nat). { unfold w. rewrite app_length, map_length, repeat_length. apply Tame_proofs.cstrn_inv in H3 as (_ & H3 & _). lia. }
  rewrite write_at_0 in H1 by (unfold len; rewrite Lw; now vm_compute). rewrite Lw in H1. injection H1 as <-.
  change (skipn 24 (calloc 26)) with [Some NUL; Some NUL] in H2. apply cstr_before in H2. unfold len in *. lia.
Qed.
Lemma header_line_brief h h' : len (hs_ip h) <= 24 -> Forall brief_header (hs_headers h) -> header_line h = Ok h' ->
  Forall brief_header (hs_headers h') /\ len (hs_ip h') <= 24.
Proof.
  intros Lb F H. unfold header_line in H. cbv zeta in H. apply bind_ok_inv in H as (hs & H1 & H). apply bind_ok_inv in H as (ct & _ & H).
  apply bind_ok_inv in H as (bd & _ & H). apply bind_ok_inv in H as (cl & _ & H). apply bind_ok_inv in H as ((ip, b1) & H2 & H).
  apply bind_ok_inv in H as (s1 & _ & H). apply bind_ok_inv in H as (s2 & _ & H). injection H as <-. cbn [hs_headers hs_ip].
  split; [eapply store_brief; eauto|]. eapply take_ip_brief; eauto.
Qed.
Lemma header_loop_brief : forall fuel n h h', len (hs_ip h) <= 24 -> Forall brief_header (hs_headers h) -> header_loop fuel n h = Ok h' ->
  Forall brief_header (hs_headers h') /\ len (hs_ip h') <= 24.
Proof.
  induction fuel as [|k IH]; intros n h h' Lb F H; cbn [header_loop] in H; (destruct (0 <? n); [|now injection H as <-]);
    apply bind_ok_inv in H as (e1 & _ & H); (destruct e1; [now injection H as <-|]);
    apply bind_ok_inv in H as (e2 & _ & H); (destruct e2; [now injection H as <-|]);
    apply bind_ok_inv in H as (h1 & H1 & H); apply bind_ok_inv in H as (((n', b'), s') & H2 & H); [discriminate|].
  destruct (header_line_brief _ _ Lb F H1) as (F1 & L1). apply IH in H; auto.
Qed.

(** ** Responses *)
Definition is_int (n : Z) : Prop := - 2 ^ 31 <= n < 2 ^ 31.
Lemma get_header_brief hs name s : Forall brief_header hs -> get_header_loop hs name = Ok s -> len s <= 255.
Proof.
  induction 1 as [|h hs Hh _ IH]; cbn [get_header_loop]; intros H; [injection H as <-; now vm_compute|].
  apply bind_ok_inv in H as (e & _ & H). destruct e; auto.
Qed.
Lemma log_access_brief r st r' : is_int st -> brief r -> log_access r st = Ok r' -> brief r'.
Proof.
  intros I (T1 & T2 & T3 & T4 & T5) H. unfold log_access in H. apply bind_ok_inv in H as (rf & H1 & H). apply bind_ok_inv in H as (ua & H2 & H). injection H as <-.
  split; [exact T1|]. split; [exact T2|]. split; [exact T3|]. split; [exact T4|]. cbn [add_log r_log]. apply Forall_app. split; [exact T5|]. apply Forall_cons; [|constructor].
  split; [exact T1|]. split; [exact T2|]. split; [exact I|]. split; [exact T4|]. cbn [e_referer e_agent]. split; eapply get_header_brief; eauto.
Qed.
Lemma print_brief r d : brief (http_print r d) <-> brief r.
Proof. reflexivity. Qed.
Lemma length_brief r n : brief r -> brief (set_response_length r n).
Proof.
  intros (T1 & T2 & T3 & T4 & T5). split; [exact T1|]. split; [exact T2|]. split; [exact T3|]. split; [|exact T5].
  cbn [set_response_length r_response_length]. apply Z.mod_pos_bound. reflexivity.
Qed.
Lemma status_brief r st m r' : is_int st -> brief r -> send_http_status r st m = Ok r' -> brief r'.
Proof.
  intros I T H. unfold send_http_status in H. cbv zeta in H. destruct (_ =? -1); [now injection H as <-|].
  apply bind_ok_inv in H as (b & _ & H). apply log_access_brief in H; auto.
  repeat first [apply length_brief|apply (proj2 (print_brief _ _))]; exact T.
Qed.
Lemma return_headers_brief r name l r' : brief r -> return_headers r name = Ok (l, r') -> brief r'.
Proof.
  intros T H. unfold return_headers in H. cbv zeta in H. apply bind_ok_inv in H as (a & _ & H). apply bind_ok_inv in H as (b & _ & H).
  apply bind_ok_inv in H as (s & _ & H). apply bind_ok_inv in H as ((l3, r3) & H1 & H). injection H as _ <-.
  destruct (0 <? len s).
  - apply bind_ok_inv in H1 as (c & _ & H1). injection H1 as _ <-. exact T.
  - injection H1 as _ <-. exact T.
Qed.
Lemma direct_file_brief f r name st r' : brief r -> direct_file f r name = Ok (st, r') -> brief r'.
Proof.
  intros T H. unfold direct_file in H. destruct (negb _); [now injection H as _ <-|].
  apply bind_ok_inv in H as ((l1, r1) & H1 & H). apply return_headers_brief in H1; auto.
  apply bind_ok_inv in H as ((l2, r2) & H2 & H). apply bind_ok_inv in H as (l & _ & H). cbv zeta in H. apply bind_ok_inv in H as (r4 & H4 & H). injection H as _ <-.
  apply log_access_brief in H4; [auto|now vm_compute|]. apply length_brief. change (brief r2). unfold return_file in H2. destruct (f name) as [[c|]|]; [|now injection H2 as _ <-|now injection H2 as _ <-].
  destruct (_ <? _); [discriminate|]. injection H2 as _ <-. exact H1.
Qed.
Lemma static_brief v f r r' : brief r -> handle_static_routes v f r = Ok r' -> brief r'.
Proof.
  intros T H. unfold handle_static_routes in H. apply bind_ok_inv in H as (n & _ & H). apply bind_ok_inv in H as (p & _ & H). cbv zeta in H.
  apply bind_ok_inv in H as (file & _ & H). apply bind_ok_inv in H as ((st, r2) & H1 & H). apply direct_file_brief in H1; [|exact T].
  destruct (st <? 0); [|now injection H as <-]. apply bind_ok_inv in H as (file' & _ & H). apply bind_ok_inv in H as ((st', r3) & H2 & H).
  injection H as <-. eapply direct_file_brief; eauto.
Qed.
Lemma route_loop_brief t m : forall r r' h fl, brief r -> route_loop t m r = Ok (r', h, fl) -> brief r'.
Proof.
  induction t as [|rt t IH]; intros r r' h fl T H; cbn [route_loop] in H; [injection H as <- _ _; exact T|].
  destruct (negb (rt_live rt)); [discriminate|]. cbv zeta in H. destruct (rt_type rt).
  - destruct (str_eqb _ _); [injection H as <- _ _; exact T|eauto].
  - destruct (strstr _ _); [|eauto]. destruct (str_eqb _ _); [eauto|]. apply bind_ok_inv in H as (qs & _ & H). apply bind_ok_inv in H as (nf & _ & H).
    apply bind_ok_inv in H as (fm & _ & H). injection H as <- _ _. exact T.
Qed.
Lemma router_brief a t r calls r' : keeps_brief a -> brief r -> router_handle_request a t r = Ok (calls, r') -> brief r'.
Proof.
  intros (Kf & Kh) T H. unfold router_handle_request in H. apply bind_ok_inv in H as (m & _ & H). apply bind_ok_inv in H as (((r1, h), fl) & H1 & H).
  apply route_loop_brief in H1; [|exact T]. destruct h as [h|].
  - destruct fl as [fl|]; [|injection H as _ <-; now apply Kh]. pose proof (Kf fl r1 H1) as K. destruct (on_filter a fl r1) as [r2 []]; injection H as _ <-; auto.
  - apply bind_ok_inv in H as (r2 & H2 & H). injection H as _ <-. unfold reject_routing_request, bad_request in H2. apply status_brief in H2; auto. now vm_compute.
Qed.
Lemma api_brief v f s r n bd calls r' f' : keeps_brief (v_app v) -> brief r -> handle_api_request v f s r n bd = Ok (calls, r', f') -> brief r'.
Proof.
  intros K T H. unfold handle_api_request in H. apply bind_ok_inv in H as ((r1, f1) & H1 & H). apply bind_ok_inv in H as ((c, r2) & H2 & H).
  injection H as _ <- _. eapply router_brief; [exact K| |exact H2]. destruct (0 <? n); [|injection H1 as <- _; exact T]. cbv zeta in H1.
  destruct (2 <=? len bd); [|injection H1 as <- _; exact T]. apply bind_ok_inv in H1 as ((fm, f2) & _ & H1). injection H1 as <- _. exact T.
Qed.

Lemma bad_request_brief r r' : brief r -> bad_request r = Ok r' -> brief r'.
Proof. intros T H. unfold bad_request in H. refine (status_brief _ 400 _ _ _ T H); now vm_compute. Qed.
Lemma too_many_brief r r' : brief r -> too_many_connections r = Ok r' -> brief r'.
Proof. intros T H. unfold too_many_connections in H. refine (status_brief _ 429 _ _ _ T H); now vm_compute. Qed.
Lemma brief_start r : len (r_ip r) <= 24 -> len (r_request_line r) <= 1021 -> Forall brief_header (r_headers r) -> r_response_length r = 0 -> r_log r = [] -> brief r.
Proof. intros H1 H2 H3 H4 E. split; [exact H1|]. split; [exact H2|]. split; [exact H3|]. rewrite H4, E. split; [lia|constructor]. Qed.

Local Opaque send_http_status bad_request too_many_connections startswithany startswith get_line parse_request_line parse_url connection_add finish
  header_loop get_path_and_query_string handle_static_routes handle_api_request str_caseeqb write_at.
Lemma rest_brief v f t1 r2 m url b s1 res : keeps_brief (v_app v) -> len (r_ip r2) <= 24 -> len (r_request_line r2) <= 1021 -> r_response_length r2 = 0 -> r_log r2 = [] ->
  accept_rest v f t1 r2 m url b s1 = Ok res -> brief (o_req res).
Proof.
  intros K Hi Hl Hn Hg H. unfold accept_rest in H. apply bind_ok_inv in H as (b1 & _ & H).
  apply bind_ok_inv in H as (((n2, b2), s2) & _ & H).
  apply bind_ok_inv in H as (h & H5 & H). apply header_loop_brief in H5; [|exact Hi|constructor]. destruct H5 as (H5 & H5'). cbv zeta in H.
  apply bind_ok_inv in H as ((path, query) & _ & H). apply bind_ok_inv in H as (api & _ & H).
  destruct api; cbn [negb] in H.
  - apply bind_ok_inv in H as (p & _ & H). apply bind_ok_inv in H as (((calls, r6), f') & H6 & H). injection H as <-. rewrite finish_req.
    apply api_brief in H6; auto. apply brief_start; auto.
  - destruct (str_caseeqb m (L "GET")); apply bind_ok_inv in H as (r6 & H6 & H); injection H as <-; rewrite finish_req.
    + apply static_brief in H6; auto. apply brief_start; auto.
    + apply bad_request_brief in H6; auto. apply brief_start; auto.
Qed.
Local Opaque accept_rest.
Lemma accept_brief v f t socket peer stream res : keeps_brief (v_app v) -> accept_request v f t socket peer stream = Ok res -> brief (o_req res).
Proof.
  intros K H. rewrite accept_unfold in H. apply bind_ok_inv in H as (r0 & H0 & H).
  assert (R0 : r_headers r0 = [] /\ r_log r0 = [] /\ r_response_length r0 = 0 /\ len (r_ip r0) <= 24).
  { unfold new_request in H0. apply bind_ok_inv in H0 as (ip & Hi & H0). injection H0 as <-. unfold fits in Hi.
    destruct (Z.leb_spec (len peer + 1) 24); [|discriminate]. injection Hi as <-. cbn [r_ip]. repeat split; auto. lia. }
  destruct R0 as (Rh & Rg & Rn & Ri).
  apply bind_ok_inv in H as (((n, b), s1) & H1 & H). apply get_line_buf in H1; [|reflexivity].
  apply bind_ok_inv in H as (((rl, m), j) & H2 & H). apply request_line_brief in H2; [|exact H1]. cbv zeta in H.
  apply bind_ok_inv in H as (okm & _ & H). destruct okm; cbn [negb] in H.
  2:{ apply bind_ok_inv in H as (r2 & H3 & H). injection H as <-. rewrite finish_req. apply bad_request_brief in H3; auto.
      apply brief_start; auto. cbn [set_method set_request_line r_headers]. rewrite Rh. constructor. }
  apply bind_ok_inv in H as (url & _ & H). apply bind_ok_inv in H as ((adm, t1) & _ & H). destruct adm; cbn [negb] in H.
  - apply rest_brief in H; auto.
  - apply bind_ok_inv in H as (r2 & H3 & H). injection H as <-. rewrite finish_req. apply too_many_brief in H3; auto.
    apply brief_start; auto. cbn [set_url set_method set_request_line r_headers]. rewrite Rh. constructor.
Qed.
Local Transparent accept_rest send_http_status bad_request too_many_connections startswithany startswith get_line parse_request_line parse_url connection_add finish
  header_loop get_path_and_query_string handle_static_routes handle_api_request str_caseeqb write_at.

Lemma json_headers_brief r st n r' : brief r -> return_json_headers r st = Ok (n, r') -> brief r'.
Proof.
  intros T H. unfold return_json_headers in H. cbv zeta in H. destruct (_ =? -1); [injection H as _ <-; exact T|].
  apply bind_ok_inv in H as (b & _ & H). injection H as _ <-. exact T.
Qed.
Lemma stream_loop_brief : forall fuel c n r n' r', brief r -> stream_loop fuel c n r = Ok (n', r') -> brief r'.
Proof.
  induction fuel as [|k IH]; intros c n r n' r' T H; cbn [stream_loop] in H; destruct (fgets (1024 - 1) c) as [[line rest]|];
    try discriminate; try (injection H as _ <-; exact T). cbv zeta in H. apply bind_ok_inv in H as (m & _ & H). apply IH in H; auto.
Qed.
Lemma with_status_brief r st d r' : is_int st -> brief r -> return_json_with_status r st d = Ok r' -> brief r'.
Proof.
  intros I T H. unfold return_json_with_status in H. apply bind_ok_inv in H as ((n, r1) & H1 & H). apply json_headers_brief in H1; auto.
  apply bind_ok_inv in H as (b & _ & H). cbv zeta in H. apply log_access_brief in H; auto.
  repeat first [apply length_brief|apply (proj2 (print_brief _ _))]; exact H1.
Qed.
Lemma json_stream_brief r st c r' : is_int st -> brief r -> return_json_stream r st c = Ok r' -> brief r'.
Proof.
  intros I T H. unfold return_json_stream in H. apply bind_ok_inv in H as ((n, r1) & H1 & H). apply json_headers_brief in H1; auto.
  cbv zeta in H. apply bind_ok_inv in H as ((m, r3) & H2 & H). unfold send_stream in H2. apply bind_ok_inv in H2 as ((m', r4) & H2 & H3).
  apply stream_loop_brief in H2; auto. injection H3 as _ <-. apply bind_ok_inv in H as (a & _ & H). apply bind_ok_inv in H as (b & _ & H). apply log_access_brief in H; auto.
  apply length_brief. exact H2.
Qed.
Lemma list_brief r ents r' : brief r -> return_json_list r ents = Ok r' -> brief r'.
Proof. intros T H. unfold return_json_list, return_json in H. apply bind_ok_inv in H as (j & _ & H). apply with_status_brief in H; auto. now vm_compute. Qed.
Lemma error_brief st r e r' : is_int st -> brief r -> status_with_error st r e = Ok r' -> brief r'.
Proof. intros I T H. unfold status_with_error in H. apply bind_ok_inv in H as ((j, e') & _ & H). eapply with_status_brief; eauto. Qed.


(** ** The length of a line *)
Lemma double_bound p q B : 0 <= p -> 0 < q -> 0 <= B -> p <= B * q ->
  0 <= d_num (round_double p q) /\ (0 <= d_exp (round_double p q) -> d_num (round_double p q) * 2 ^ d_exp (round_double p q) <= 2 * B)
  /\ (d_exp (round_double p q) < 0 -> d_num (round_double p q) <= 2 * B * 2 ^ (- d_exp (round_double p q))).
Proof.
  intros P Q HB H. destruct (Z.eq_dec p 0) as [->|N].
  - change (round_double 0 q) with (mkDouble 0 0). cbn [d_num d_exp]. change (2 ^ 0) with 1. lia.
  - destruct (round_double_nearest p q ltac:(lia) Q) as (M & E1 & E2). set (m := d_num (round_double p q)) in *. set (e := d_exp (round_double p q)) in *. clearbody m e.
    change (2 ^ 52) with 4503599627370496 in M. split; [lia|]. split; intros E.
    + destruct (E1 E) as (R & _). assert (D : 0 < 2 ^ e) by (apply Z.pow_pos_nonneg; lia). set (u := 2 ^ e) in *. clearbody u. nia.
    + destruct (E2 E) as (R & _). assert (D : 0 < 2 ^ (- e)) by (apply Z.pow_pos_nonneg; lia). set (u := 2 ^ (- e)) in *. clearbody u. nia.
Qed.
Lemma three_len n : 0 <= n < 1000 -> len ((if n <? 100 then L "0" else []) ++ two n) <= 3.
Proof.
  intros H. unfold two. pose proof (proj2 (proj2 (proj2 (dec_nat_spec n ltac:(lia))))) as D. rewrite !len_app.
  destruct (Z.ltb_spec n 100) as [G|G]; destruct (Z.ltb_spec n 10) as [G'|G']; try lia; change (len (L "0")) with 1; change (len (@nil ascii)) with 0.
  - specialize (D 1 ltac:(lia)). change (10 ^ 1) with 10 in D. lia.
  - specialize (D 2 ltac:(lia)). change (10 ^ 2) with 100 in D. lia.
  - specialize (D 3 ltac:(lia)). change (10 ^ 3) with 1000 in D. lia.
Qed.
Lemma print_len x B : 0 <= d_num x -> 0 <= B < 10 ^ 17 -> (0 <= d_exp x -> d_num x * 2 ^ d_exp x <= B) -> (d_exp x < 0 -> d_num x <= B * 2 ^ (- d_exp x)) ->
  len (print_f3 x) <= 21.
Proof.
  intros M HB H1 H2. unfold print_f3. change (10 ^ 17) with 100000000000000000 in HB.
  set (n := if 0 <=? d_exp x then d_num x * 2 ^ d_exp x * 1000 else nearest (d_num x * 1000) (2 ^ (- d_exp x))).
  assert (N : 0 <= n <= B * 1000).
  { unfold n. destruct (Z.leb_spec 0 (d_exp x)) as [G|G].
    - specialize (H1 G). assert (0 < 2 ^ d_exp x) by (apply Z.pow_pos_nonneg; lia). nia.
    - specialize (H2 G). assert (D : 0 < 2 ^ (- d_exp x)) by (apply Z.pow_pos_nonneg; lia).
      apply (rounded_range (d_num x * 1000) (2 ^ (- d_exp x))); [exact D|lia|lia|now apply nearest_rounded]. }
  clearbody n. cbv zeta. rewrite len_app, (len_app _ (L ".")). change (len (L ".")) with 1.
  pose proof (three_len (n mod 1000) (Z.mod_pos_bound n 1000 eq_refl)) as T.
  assert (Q : 0 <= n / 1000 < 10 ^ 17).
  { split; [apply Z.div_pos; lia|]. apply Z.div_lt_upper_bound; [lia|]. change (10 ^ 17) with 100000000000000000. lia. }
  pose proof (proj2 (proj2 (proj2 (dec_nat_spec (n / 1000) (proj1 Q)))) 17 ltac:(lia) (proj2 Q)). lia.
Qed.
Lemma time_len start now : len (print_f3 (response_time start now)) <= 21.
Proof.
  unfold response_time. set (d := (now - start) mod 2 ^ 64).
  assert (D : 0 <= d < 18446744073709551616) by (apply Z.mod_pos_bound; reflexivity). clearbody d.
  destruct (double_bound d 1 18446744073709551616 ltac:(lia) ltac:(lia) ltac:(lia) ltac:(lia)) as (M & X1 & X2).
  set (x := round_double d 1) in *. clearbody x. unfold div_double.
  assert (E : exists p q, (if 0 <=? d_exp x then round_double (d_num x * 2 ^ d_exp x) 1000 else round_double (d_num x) (1000 * 2 ^ (- d_exp x))) = round_double p q
    /\ 0 <= p /\ 0 < q /\ p <= 36893488147419104 * q).
  { destruct (Z.leb_spec 0 (d_exp x)) as [G|G].
    - specialize (X1 G). assert (0 < 2 ^ d_exp x) by (apply Z.pow_pos_nonneg; lia). exists (d_num x * 2 ^ d_exp x), 1000. split; [reflexivity|].
      assert (0 <= d_num x * 2 ^ d_exp x) by (apply Z.mul_nonneg_nonneg; lia). lia.
    - specialize (X2 G). assert (0 < 2 ^ (- d_exp x)) by (apply Z.pow_pos_nonneg; lia). exists (d_num x), (1000 * 2 ^ (- d_exp x)). split; [reflexivity|]. lia. }
  destruct E as (p & q & -> & P & Q & H). destruct (double_bound p q 36893488147419104 P Q ltac:(lia) H) as (M' & Y1 & Y2).
  apply (print_len _ (2 * 36893488147419104)); auto. change (10 ^ 17) with 100000000000000000. lia.
Qed.
Lemma dec_len n : is_int n -> len (dec n) <= 11.
Proof.
  unfold is_int. change (2 ^ 31) with 2147483648. intros H. unfold dec. destruct (Z.ltb_spec n 0) as [G|G].
  - pose proof (proj2 (proj2 (proj2 (dec_nat_spec (- n) ltac:(lia)))) 10 ltac:(lia)) as D. change (10 ^ 10) with 10000000000 in D. rewrite len_cons. lia.
  - pose proof (proj2 (proj2 (proj2 (dec_nat_spec n ltac:(lia)))) 10 ltac:(lia)) as D. change (10 ^ 10) with 10000000000 in D. lia.
Qed.
Lemma access_line_len ts rt e : brief_entry e -> len ts < 64 -> len rt <= 21 -> len (access_line ts rt e) <= 1680.
Proof.
  intros (H1 & H2 & H3 & H4 & H5 & H6) Ht Hr. unfold access_line. apply dec_len in H3. change (2 ^ 32) with 4294967296 in H4.
  pose proof (proj2 (proj2 (proj2 (dec_nat_spec (e_length e) (proj1 H4)))) 10 ltac:(lia)) as D. change (10 ^ 10) with 10000000000 in D.
  rewrite !len_app. change (len [DQ]) with 1. change (len [LF]) with 1. change (len (L " ")) with 1. change (len (L "] ")) with 2. change (len (L " - - [")) with 6. lia.
Qed.
Lemma access_line_some ts rt e : access_line ts rt e <> [].
Proof. unfold access_line. intros H. apply (f_equal (@length ascii)) in H. rewrite !app_length in H. cbn [length] in H. lia. Qed.

(** ** Writes *)
Definition single (s : str) : Prop := s <> [] /\ len s < STDIO_BUFFER.
Lemma writes_single ls qs : Forall single ls -> thread_writes ls qs -> qs = ls.
Proof.
  intros F H. induction H as [|s ls ps qs W _ IH]; [reflexivity|]. inversion F as [|? ? [S1 S2] F']; subst. rewrite IH by auto.
  destruct W as [|s ? ?|s ps G ? ?]; [easy|reflexivity|lia].
Qed.
Lemma all_single ths ws : Forall (Forall single) ths -> Forall2 thread_writes ths ws -> ws = ths.
Proof.
  intros F H. induction H as [|t w ths ws W _ IH]; [reflexivity|]. inversion F; subst. rewrite IH by auto. f_equal. now apply writes_single.
Qed.
Lemma take_split : forall k ts c ts', take_call k ts = Some (c, ts') -> exists a t b, ts = a ++ (c :: t) :: b /\ ts' = a ++ t :: b.
Proof.
  induction k as [|k IH]; intros [|t ts] c ts' H; cbn [take_call] in H; try discriminate.
  - destruct t as [|x t]; [discriminate|]. injection H as <- <-. now exists [], t, ts.
  - destruct t as [|x t].
    + destruct (take_call k ts) as [[d us]|] eqn:E; [|discriminate]. injection H as <- <-. apply IH in E as (a & u & b & -> & ->). now exists ([] :: a), u, b.
    + destruct (take_call k ts) as [[d us]|] eqn:E; [|discriminate]. injection H as <- <-. apply IH in E as (a & u & b & -> & ->). now exists ((x :: t) :: a), u, b.
Qed.
Lemma run_taken : forall sched old ths out rest, lrun (old, ths) sched = Some (out, rest) -> exists l, taken ths l rest /\ out = old ++ concat l.
Proof.
  induction sched as [|k sched IH]; intros old ths out rest H; cbn [lrun fst snd] in H.
  - injection H as <- <-. exists []. split; [constructor|now rewrite app_nil_r].
  - destruct (take_call k ths) as [[c ts]|] eqn:E; [|discriminate]. apply take_split in E as (a & t & b & -> & ->).
    apply IH in H as (l & T & ->). exists (c :: l). split; [now constructor|]. cbn [concat]. now rewrite <- app_assoc.
Qed.
Lemma take_at : forall a c t b, take_call (length a) (a ++ (c :: t) :: b) = Some (c, a ++ t :: b).
Proof. induction a as [|u a IH]; intros c t b; [reflexivity|]. cbn [length app take_call]. rewrite IH. now destruct u. Qed.
Lemma taken_run : forall ths l rest, taken ths l rest -> forall old, exists sched, lrun (old, ths) sched = Some (old ++ concat l, rest).
Proof.
  induction 1 as [ths|a x t b l rest _ IH]; intros old; [exists []; cbn; now rewrite app_nil_r|].
  destruct (IH (old ++ x)) as (sched & E). exists (length a :: sched). cbn [lrun fst snd]. rewrite take_at, E. cbn [concat]. now rewrite <- app_assoc.
Qed.
Lemma logged_single v line : keeps_brief (v_app v) -> logged_by v line -> single line.
Proof.
  intros K (f & t & socket & peer & stream & res & e & ts & start & now & H & I & Ht & ->). split; [apply access_line_some|].
  apply (accept_brief _ _ _ _ _ _ _ K) in H as (_ & _ & _ & _ & B). rewrite Forall_forall in B.
  pose proof (access_line_len ts _ e (B e I) Ht (time_len start now)). unfold STDIO_BUFFER. lia.
Qed.

(** Log_proofs.v - lemmas for C81. *)
From Verif Require Import WsRequest Lemmas StringUtils_proofs HttpUtils_proofs WsConn_proofs WsRequest_proofs WsDispatch_proofs Router_proofs
  SpecJson SpecHttp SpecConn SpecReq SpecRouter SpecDispatch SpecLog Spec.
From Verif Require Import JsonUtils_proofs.

(** Text with a line feed at most at its end. *)
Definition ends_line (s : str) : Prop := exists a, one_line a /\ (s = a \/ s = a ++ [LF]).

Lemma ends_prefix a b : ends_line (a ++ b) -> ends_line a /\ (b <> [] -> one_line a).
Proof.
  intros (x & Hx & [E|E]).
  - assert (one_line a) by (intros I; apply Hx; rewrite <- E; apply in_or_app; auto). split; auto. exists a; auto.
  - destruct b as [|c b'] using rev_ind.
    + rewrite app_nil_r in E. subst a. split; [exists x; auto|easy].
    + rewrite app_assoc in E. apply app_inj_tail in E as [E _].
      assert (one_line a) by (intros I; apply Hx; rewrite <- E; apply in_or_app; auto). split; auto. exists a; auto.
Qed.
Lemma ends_suffix a b : ends_line (a ++ b) -> ends_line b.
Proof.
  intros (x & Hx & [E|E]).
  - exists b. split; auto. intros I. apply Hx. rewrite <- E. apply in_or_app; auto.
  - destruct b as [|c b'] using rev_ind; [exists []; split; [intros []|auto]|].
    rewrite app_assoc in E. apply app_inj_tail in E as [E ->]. exists b'. split; auto. intros I. apply Hx. rewrite <- E. apply in_or_app; auto.
Qed.
Lemma lf_blank : blank LF. Proof. vm_compute. tauto. Qed.
Lemma trimmed_one_line s t : ends_line s -> trimmed s t -> one_line t.
Proof.
  intros H (l & r & -> & Hl & Hr & He1 & He2). apply ends_suffix in H. apply ends_prefix in H as [(a & Ha & [->| ->]) _]; auto.
  exfalso. apply (He2 a LF eq_refl). exact lf_blank.
Qed.

Lemma line_ends size s l rest : line_of size s l rest -> ends_line l.
Proof. intros (_ & _ & [(l' & -> & H)|(H & _)]); [exists l'; auto|exists l; auto]. Qed.

(** The line buffer: 1024 bytes, beginning with a string that has a line feed at most at its end. *)
Definition line_buf (b : buf) : Prop := len b = 1024 /\ exists s st, b = cs s ++ st /\ no_nul s /\ ends_line s /\ len s <= 1023.


Lemma upto_prefix s : exists r, s = upto_nul s ++ r.
Proof.
  induction s as [|c s [r IH]]; [exists []; reflexivity|]. cbn [upto_nul]. destruct (ceq c NUL); [exists (c :: s); reflexivity|].
  exists r. cbn. now rewrite <- IH.
Qed.
Lemma get_line_buf s b n b' s' : len b = 1024 -> get_line s b 1024 = Ok (n, b', s') -> line_buf b'.
Proof.
  intros Hb H. destruct (line_of_exists 1024 ltac:(lia) s) as (l & rest & Hl).
  pose proof Hl as (_ & Ll & _).
  pose proof (get_line_inv _ _ _ _ _ _ H) as (_ & Lb).
  rewrite (get_line_eq 1024 s l rest b Hl) in H by lia. injection H as _ Eb _.
  assert (E : cstr b' = Ok (upto_nul l)).
  { rewrite <- Eb. unfold cs. rewrite <- app_assoc. cbn [app]. apply upto_nul_cstr. }
  split; [unfold len in *; lia|]. apply cstr_inv in E as (Nn & r & E). exists (upto_nul l), r. split; [exact E|]. split; [exact Nn|].
  apply line_ends in Hl. destruct (upto_prefix l) as (x & Ex). rewrite Ex in Hl, Ll. split; [now apply ends_prefix in Hl|].
  revert Ll. llia.
Qed.

(** ** The request line *)
Lemma request_line_tidy b rl m j : line_buf b -> parse_request_line b = Ok (rl, m, j) -> one_line rl.
Proof.
  intros (_ & s & st & -> & Nn & He & _) H. unfold parse_request_line in H. rewrite cstr_cs in H by auto. cbn [bind] in H.
  apply bind_ok_inv in H as (w & Hw & H). apply bind_ok_inv in H as (rls & Hr & H).
  apply bind_ok_inv in H as ((m', j') & _ & H). apply bind_ok_inv in H as (mb & _ & H). apply bind_ok_inv in H as (me & _ & H).
  injection H as <- _ _.
  destruct (Z_lt_dec (len s - 2) 0) as [G|G].
  { exfalso. unfold wr, write_at in Hw. replace (0 <=? len s - 2) with false in Hw by lia. discriminate Hw. }
  assert (E : exists a x y, s = a ++ [x; y]).
  { destruct s as [|y s'] using rev_ind; [cbn in G; lia|]. destruct s' as [|x a] using rev_ind; [cbn in G; lia|].
    exists a, x, y. now rewrite <- app_assoc. }
  destruct E as (a & x & y & ->).
  rewrite cs_app in Hw. unfold cs in Hw. cbn [map app] in Hw. rewrite wr_at in Hw by (rewrite len_map, len_app; change (len [x; y]) with 2; lia).
  injection Hw as <-. rewrite cstr_map in Hr by (apply no_nul_app in Nn; tauto). injection Hr as <-.
  apply ends_prefix in He as [_ He]. apply He. discriminate.
Qed.

(** ** Headers *)
Lemma store_tidy b hs hs' : line_buf b -> Forall tidy_header hs -> store_header b hs = Ok hs' -> Forall tidy_header hs'.
Proof.
  intros (_ & s & st & -> & Nn & He & Hl) F H. unfold store_header in H. destruct (len hs <? HTTP_MAX_HEADERS); [|injection H as <-; exact F].
  destruct (in_dec ascii_dec ":"%char s) as [I|I].
  - apply first_cut_exists in I as (a & b & Hc). destruct (exists_trimmed a) as (n & Hn). destruct (exists_trimmed b) as (v & Hv).
    assert (Hf : field_of s (n, v)) by (exists a, b; auto).
    destruct (field_facts s (n, v) Nn Hf) as (N1 & N2 & L1 & L2 & E2). cbn [fst snd] in *.
    rewrite (split_once_cut s a b n v) in H by auto. cbn [bind] in H.
    destruct (entry_cs n ltac:(lia)) as (r1 & Er1). destruct (entry_cs v ltac:(lia)) as (r2 & Er2). rewrite Er1, Er2 in H.
    change HTTP_MAX_HEADER_NAME with (Z.of_nat 64) in H. rewrite strncpy_filled in H by (auto; rewrite len_calloc; lia). cbn [bind] in H.
    rewrite trim_fixed in H by auto. cbn [bind] in H. change HTTP_MAX_HEADER_VALUE with (Z.of_nat 256) in H.
    rewrite strncpy_filled in H by (auto; rewrite len_calloc; lia). cbn [bind] in H. injection H as <-.
    apply Forall_app. split; [exact F|]. constructor; [|constructor]. intros x Hx. cbn [h_value] in Hx.
    destruct (Z_lt_dec (len v) 256).
    + rewrite filled_holds in Hx by auto. injection Hx as <-. apply (trimmed_one_line b); auto.
      destruct Hc as (-> & _). change (":"%char :: b) with ([":"%char] ++ b) in He. rewrite app_assoc in He. now apply ends_suffix in He.
    + rewrite filled_long in Hx by (auto; lia). discriminate.
  - destruct (exists_trimmed s) as (t & Ht). rewrite (split_once_none s t) in H by auto. cbn [bind] in H. injection H as <-. exact F.
Qed.

Lemma trim_keeps_len b b' : trim b = Ok b' -> len b' = len b.
Proof.
  unfold trim. intros H. apply bind_ok_inv in H as (n & _ & H). apply bind_ok_inv in H as (i & _ & H). apply bind_ok_inv in H as (b1 & H1 & H).
  apply bind_ok_inv in H as (n2 & _ & H). apply bind_ok_inv in H as (e & _ & H). apply wr_len in H.
  assert (length b1 = length b).
  { destruct (i =? 0); [now injection H1 as <-|]. apply bind_ok_inv in H1 as (r & _ & H1). apply bind_ok_inv in H1 as (b2 & H2 & H1).
    apply bind_ok_inv in H1 as (r' & _ & H1). apply wr_len in H1. unfold memcpy in H2. apply bind_ok_inv in H2 as (l & _ & H2). apply write_at_len in H2. congruence. }
  unfold len. congruence.
Qed.
Lemma take_ip_len b x ip b' : take_ip b x = Ok (ip, b') -> len b' = len b.
Proof.
  unfold take_ip. intros H. apply bind_ok_inv in H as (m & _ & H). destruct m; [|now injection H as _ <-].
  apply bind_ok_inv in H as (b1 & H1 & H). apply bind_ok_inv in H as (i & _ & H). apply bind_ok_inv in H as (s & _ & H). injection H as _ <-.
  now apply trim_keeps_len.
Qed.
Lemma header_line_tidy h h' : line_buf (hs_buf h) -> Forall tidy_header (hs_headers h) -> header_line h = Ok h' ->
  Forall tidy_header (hs_headers h') /\ len (hs_buf h') = 1024.
Proof.
  intros Lb F H. unfold header_line in H. cbv zeta in H. apply bind_ok_inv in H as (hs & H1 & H). apply bind_ok_inv in H as (ct & _ & H).
  apply bind_ok_inv in H as (bd & _ & H). apply bind_ok_inv in H as (cl & _ & H). apply bind_ok_inv in H as ((ip, b1) & H2 & H).
  apply bind_ok_inv in H as (s1 & _ & H). apply bind_ok_inv in H as (s2 & _ & H). injection H as <-. cbn [hs_headers hs_buf].
  split; [eapply store_tidy; eauto|]. apply take_ip_len in H2. destruct Lb as (Lb & _). congruence.
Qed.
Lemma header_loop_tidy : forall fuel n h h', line_buf (hs_buf h) -> Forall tidy_header (hs_headers h) -> header_loop fuel n h = Ok h' ->
  Forall tidy_header (hs_headers h').
Proof.
  induction fuel as [|k IH]; intros n h h' Lb F H; cbn [header_loop] in H; (destruct (0 <? n); [|now injection H as <-]);
    apply bind_ok_inv in H as (e1 & _ & H); (destruct e1; [now injection H as <-|]);
    apply bind_ok_inv in H as (e2 & _ & H); (destruct e2; [now injection H as <-|]);
    apply bind_ok_inv in H as (h1 & H1 & H); apply bind_ok_inv in H as (((n', b'), s') & H2 & H); [discriminate|].
  destruct (header_line_tidy _ _ Lb F H1) as (F1 & L1). apply get_line_buf in H2; [|exact L1].
  apply IH in H; auto.
Qed.

(** ** Responses *)
Lemma get_header_tidy hs name s : Forall tidy_header hs -> get_header_loop hs name = Ok s -> one_line s.
Proof.
  induction 1 as [|h hs Hh _ IH]; cbn [get_header_loop]; intros H; [injection H as <-; intros []|].
  apply bind_ok_inv in H as (e & _ & H). destruct e; auto.
Qed.
Lemma log_access_tidy r st r' : tidy r -> log_access r st = Ok r' -> tidy r'.
Proof.
  intros (T1 & T2 & T3) H. unfold log_access in H. apply bind_ok_inv in H as (rf & H1 & H). apply bind_ok_inv in H as (ua & H2 & H). injection H as <-.
  split; [exact T1|]. split; [exact T2|]. cbn [add_log r_log]. apply Forall_app. split; [exact T3|]. constructor; [|constructor].
  split; [exact T1|]. split; cbn [e_referer e_agent]; eapply get_header_tidy; eauto.
Qed.
Lemma status_tidy r st m r' : tidy r -> send_http_status r st m = Ok r' -> tidy r'.
Proof.
  intros T H. unfold send_http_status in H. cbv zeta in H. destruct (_ =? -1); [now injection H as <-|].
  apply bind_ok_inv in H as (b & _ & H). apply log_access_tidy in H; auto.
Qed.
Lemma return_headers_tidy r name l r' : tidy r -> return_headers r name = Ok (l, r') -> tidy r'.
Proof.
  intros T H. unfold return_headers in H. cbv zeta in H. apply bind_ok_inv in H as (a & _ & H). apply bind_ok_inv in H as (b & _ & H).
  apply bind_ok_inv in H as (s & _ & H). apply bind_ok_inv in H as ((l3, r3) & H1 & H). injection H as _ <-.
  destruct (0 <? len s).
  - apply bind_ok_inv in H1 as (c & _ & H1). injection H1 as _ <-. exact T.
  - injection H1 as _ <-. exact T.
Qed.
Lemma direct_file_tidy f r name st r' : tidy r -> direct_file f r name = Ok (st, r') -> tidy r'.
Proof.
  intros T H. unfold direct_file in H. destruct (negb _); [now injection H as _ <-|].
  apply bind_ok_inv in H as ((l1, r1) & H1 & H). apply return_headers_tidy in H1; auto.
  apply bind_ok_inv in H as ((l2, r2) & H2 & H). apply bind_ok_inv in H as (l & _ & H). cbv zeta in H. apply bind_ok_inv in H as (r4 & H4 & H). injection H as _ <-.
  apply log_access_tidy in H4; auto. change (tidy r2). unfold return_file in H2. destruct (f name) as [[c|]|]; [|now injection H2 as _ <-|now injection H2 as _ <-].
  destruct (_ <? _); [discriminate|]. injection H2 as _ <-. exact H1.
Qed.
Lemma static_tidy v f r r' : tidy r -> handle_static_routes v f r = Ok r' -> tidy r'.
Proof.
  intros T H. unfold handle_static_routes in H. apply bind_ok_inv in H as (n & _ & H). apply bind_ok_inv in H as (p & _ & H). cbv zeta in H.
  apply bind_ok_inv in H as (file & _ & H). apply bind_ok_inv in H as ((st, r2) & H1 & H). apply direct_file_tidy in H1; [|exact T].
  destruct (st <? 0); [|now injection H as <-]. apply bind_ok_inv in H as (file' & _ & H). apply bind_ok_inv in H as ((st', r3) & H2 & H).
  injection H as <-. eapply direct_file_tidy; eauto.
Qed.
Lemma route_loop_tidy t m : forall r r' h fl, tidy r -> route_loop t m r = Ok (r', h, fl) -> tidy r'.
Proof.
  induction t as [|rt t IH]; intros r r' h fl T H; cbn [route_loop] in H; [injection H as <- _ _; exact T|].
  destruct (negb (rt_live rt)); [discriminate|]. cbv zeta in H. destruct (rt_type rt).
  - destruct (str_eqb _ _); [injection H as <- _ _; exact T|eauto].
  - destruct (strstr _ _); [|eauto]. destruct (str_eqb _ _); [eauto|]. apply bind_ok_inv in H as (qs & _ & H). apply bind_ok_inv in H as (nf & _ & H).
    apply bind_ok_inv in H as (fm & _ & H). injection H as <- _ _. exact T.
Qed.
Lemma router_tidy a t r calls r' : keeps_tidy a -> tidy r -> router_handle_request a t r = Ok (calls, r') -> tidy r'.
Proof.
  intros (Kf & Kh) T H. unfold router_handle_request in H. apply bind_ok_inv in H as (m & _ & H). apply bind_ok_inv in H as (((r1, h), fl) & H1 & H).
  apply route_loop_tidy in H1; [|exact T]. destruct h as [h|].
  - destruct fl as [fl|]; [|injection H as _ <-; now apply Kh]. pose proof (Kf fl r1 H1) as K. destruct (on_filter a fl r1) as [r2 []]; injection H as _ <-; auto.
  - apply bind_ok_inv in H as (r2 & H2 & H). injection H as _ <-. unfold reject_routing_request, bad_request in H2. eapply status_tidy; eauto.
Qed.
Lemma api_tidy v f s r n bd calls r' f' : keeps_tidy (v_app v) -> tidy r -> handle_api_request v f s r n bd = Ok (calls, r', f') -> tidy r'.
Proof.
  intros K T H. unfold handle_api_request in H. apply bind_ok_inv in H as ((r1, f1) & H1 & H). apply bind_ok_inv in H as ((c, r2) & H2 & H).
  injection H as _ <- _. eapply router_tidy; [exact K| |exact H2]. destruct (0 <? n); [|injection H1 as <- _; exact T]. cbv zeta in H1.
  destruct (2 <=? len bd); [|injection H1 as <- _; exact T]. apply bind_ok_inv in H1 as ((fm, f2) & _ & H1). injection H1 as <- _. exact T.
Qed.

Lemma finish_req k r t f : o_req (finish k r t f) = r.
Proof. reflexivity. Qed.
Lemma bad_request_tidy r r' : tidy r -> bad_request r = Ok r' -> tidy r'.
Proof. intros T H. exact (status_tidy _ _ _ _ T H). Qed.
Lemma too_many_tidy r r' : tidy r -> too_many_connections r = Ok r' -> tidy r'.
Proof. intros T H. exact (status_tidy _ _ _ _ T H). Qed.
Lemma tidy_start r rl hs : one_line rl -> Forall tidy_header hs -> r_request_line r = rl -> r_headers r = hs -> r_log r = [] -> tidy r.
Proof. intros H1 H2 <- <- E. split; [exact H1|]. split; [exact H2|]. rewrite E. constructor. Qed.
Lemma first_line_buf b b1 : line_buf b -> write_at b 0 [Some "A"%char; Some NUL] = Ok b1 -> len b1 = 1024.
Proof. intros (Lb & _) H. apply write_at_len in H. unfold len in *. congruence. Qed.

Local Opaque send_http_status bad_request too_many_connections startswithany startswith get_line parse_request_line parse_url connection_add finish
  header_loop get_path_and_query_string handle_static_routes handle_api_request str_caseeqb write_at.
Lemma rest_tidy v f t1 r2 m url b s1 res : keeps_tidy (v_app v) -> line_buf b -> one_line (r_request_line r2) -> r_log r2 = [] ->
  accept_rest v f t1 r2 m url b s1 = Ok res -> tidy (o_req res).
Proof.
  intros K Lb Hl Hg H. unfold accept_rest in H. apply bind_ok_inv in H as (b1 & Hb1 & H). apply first_line_buf in Hb1; auto.
  apply bind_ok_inv in H as (((n2, b2), s2) & H4 & H). apply get_line_buf in H4; auto.
  apply bind_ok_inv in H as (h & H5 & H). apply header_loop_tidy in H5; [|exact H4|constructor]. cbv zeta in H.
  apply bind_ok_inv in H as ((path, query) & _ & H). apply bind_ok_inv in H as (api & _ & H).
  destruct api; cbn [negb] in H.
  - apply bind_ok_inv in H as (p & _ & H). apply bind_ok_inv in H as (((calls, r6), f') & H6 & H). injection H as <-. rewrite finish_req.
    apply api_tidy in H6; auto. apply (tidy_start _ (r_request_line r2) (hs_headers h)); auto.
  - destruct (str_caseeqb m (L "GET")); apply bind_ok_inv in H as (r6 & H6 & H); injection H as <-; rewrite finish_req.
    + apply static_tidy in H6; auto. apply (tidy_start _ (r_request_line r2) (hs_headers h)); auto.
    + apply bad_request_tidy in H6; auto. apply (tidy_start _ (r_request_line r2) (hs_headers h)); auto.
Qed.
Local Opaque accept_rest.
Lemma accept_tidy v f t socket peer stream res : keeps_tidy (v_app v) -> accept_request v f t socket peer stream = Ok res -> tidy (o_req res).
Proof.
  intros K H. rewrite accept_unfold in H. apply bind_ok_inv in H as (r0 & H0 & H).
  assert (R0 : r_headers r0 = [] /\ r_log r0 = []). { unfold new_request in H0. apply bind_ok_inv in H0 as (ip & _ & H0). injection H0 as <-. auto. }
  destruct R0 as (Rh & Rg).
  apply bind_ok_inv in H as (((n, b), s1) & H1 & H). apply get_line_buf in H1; [|reflexivity].
  apply bind_ok_inv in H as (((rl, m), j) & H2 & H). apply request_line_tidy in H2; [|exact H1]. cbv zeta in H.
  apply bind_ok_inv in H as (okm & _ & H). destruct okm; cbn [negb] in H.
  2:{ apply bind_ok_inv in H as (r2 & H3 & H). injection H as <-. rewrite finish_req. apply bad_request_tidy in H3; auto.
      apply (tidy_start _ rl []); auto. }
  apply bind_ok_inv in H as (url & _ & H). apply bind_ok_inv in H as ((adm, t1) & _ & H). destruct adm; cbn [negb] in H.
  - apply rest_tidy in H; auto.
  - apply bind_ok_inv in H as (r2 & H3 & H). injection H as <-. rewrite finish_req. apply too_many_tidy in H3; auto.
    apply (tidy_start _ rl []); auto.
Qed.
Local Transparent accept_rest send_http_status bad_request too_many_connections startswithany startswith get_line parse_request_line parse_url connection_add finish
  header_loop get_path_and_query_string handle_static_routes handle_api_request str_caseeqb write_at.

(** ** The client address *)
Lemma trim_right t c r rest : no_nul t -> t <> [] -> no_blank_edges t -> Forall blank (c :: r) ->
  trim (cs (t ++ c :: r) ++ rest) = Ok (cs t ++ cs r ++ rest).
Proof.
  intros Nt Hne [Hb He] Hr. assert (Nr : no_nul (c :: r)) by (eapply Forall_impl; [|exact Hr]; apply blank_not_nul).
  assert (Nn : no_nul (t ++ c :: r)) by (apply no_nul_app; auto).
  unfold trim. rewrite strlen_cs by auto. cbn [bind]. rewrite to_nat_len.
  replace (cs (t ++ c :: r) ++ rest) with (map Some ([] ++ [] ++ t ++ c :: r) ++ ([Some NUL] ++ rest)) by (unfold cs; now rewrite <- app_assoc).
  assert (Es : lscan (length (t ++ c :: r)) 0 (map Some ([] ++ [] ++ t ++ c :: r) ++ [Some NUL] ++ rest) = Ok 0).
  { apply (lscan_ok [] (t ++ c :: r) [] ([Some NUL] ++ rest)); auto. destruct t; [easy|]. intros x q [= <- _]. eauto. }
  rewrite Es. cbn [bind app]. change (0 =? 0) with true. cbn iota. cbn [bind].
  unfold strlen. rewrite cstr_map by auto. cbn [bind]. rewrite to_nat_len, rscan_ok by auto. cbn [bind].
  replace (len t - 1 + 1) with (len (map (@Some ascii) t)) by (rewrite len_map; lia). rewrite map_app, <- app_assoc. cbn [map app].
  rewrite wr_at by reflexivity. unfold cs. now rewrite <- !app_assoc.
Qed.
Lemma letters_not_blank : forall a b, In (a, b) letter_pairs -> ~ blank a /\ ~ blank b.
Proof.
  assert (H : forallb (fun p => negb (isspace (fst p)) && negb (isspace (snd p))) letter_pairs = true) by (vm_compute; reflexivity).
  intros a b I. rewrite forallb_forall in H. apply H in I. cbn [fst snd] in I. rewrite <- !isspace_not_blank.
  destruct (isspace a), (isspace b); try discriminate. auto.
Qed.
Lemma same_not_blank a b : same_letter a b -> ~ blank a -> ~ blank b.
Proof. intros [<-|[H|H]] N; [auto| |]; apply letters_not_blank in H; tauto. Qed.
Lemma real_ip_edges h : ci_equal (L "X-Real-IP:") h -> no_blank_edges h.
Proof.
  intros H. assert (F : Forall (fun c => ~ blank c) h).
  { assert (P : Forall (fun c => ~ blank c) (L "X-Real-IP:")) by (repeat constructor; apply isspace_not_blank; reflexivity).
    revert P. induction H as [|a b p q S H IH]; intros P; constructor; inversion P; subst; auto. eapply same_not_blank; eauto. }
  split; intros x y ->; [now inv F|]. apply Forall_app in F as [_ F]. now inv F.
Qed.
Lemma cstrn_stop n s x : no_nul s -> cstrn n (cs s ++ x) = Ok (firstn n s).
Proof. intros. now apply cstrn_cs. Qed.
Lemma take_ip_blank h c w st x : ci_equal (L "X-Real-IP:") h -> Forall blank (c :: w) ->
  take_ip (cs (h ++ c :: w) ++ st) x = Ok (firstn 24 w, cs h ++ cs w ++ st).
Proof.
  intros Hh Hw. assert (Nw : no_nul (c :: w)) by (eapply Forall_impl; [|exact Hw]; apply blank_not_nul).
  assert (Nh : no_nul h) by (eapply ci_no_nul; eauto; apply no_nul_dec_b; reflexivity).
  assert (Hn : no_nul (h ++ c :: w)) by (apply no_nul_app; auto).
  destruct (named _ _ (c :: w) Hh) as [P _].
  unfold take_ip. sw r Hr. destruct r; [|apply Hr in P; discriminate].
  assert (Hne : h <> []) by (intros ->; inversion Hh). pose proof (real_ip_edges h Hh) as He. rewrite trim_right by auto. cbn [bind].
  assert (Lh : len (cs h) = 11) by (apply Forall2_length in Hh; unfold cs, len; rewrite app_length, map_length, <- Hh; reflexivity).
  rewrite from_app by (symmetry; exact Lh).
  assert (Nt : no_nul w) by (now apply no_nul_cons in Nw).
  unfold strncpy. change (Z.to_nat 24) with 24%nat. rewrite cstrn_cs by auto. cbn [bind].
  rewrite write_at_0.
  2:{ rewrite len_app, len_map, len_repeat, len_firstn, len_calloc, firstn_length. unfold len. lia. }
  cbn [bind]. unfold calloc. change (Z.to_nat 26) with 26%nat.
  rewrite <- (app_nil_r (skipn _ _)). rewrite cstr_map_pad; [reflexivity|now apply no_nul_firstn|].
  rewrite app_length, map_length, repeat_length, firstn_length. lia.
Qed.

Lemma one_line_firstn n s : one_line s -> one_line (firstn n s).
Proof. intros H I. apply H. rewrite <- (firstn_skipn n s). apply in_or_app. auto. Qed.
Lemma section_ip_line s x x' after : section s x x' after -> one_line (td_ip x) -> one_line (td_ip x').
Proof.
  induction 1 as [| |s l rest x x1 x' after Hl Hne Hb Hn Ht Hs IH]; auto. intros Hx. apply IH. clear IH.
  destruct Ht as (_ & _ & _ & _ & [(_ & E)|(_ & u & t & Hu & (h & E & _) & Ei)] & _).
  - now rewrite E.
  - rewrite Ei. apply one_line_firstn. apply line_ends in Hl. apply trimmed_one_line in Hu; auto.
    intros I. apply Hu. rewrite E. apply in_or_app; auto.
Qed.

(** ** The line written *)
Lemma count_app s t : line_count (s ++ t) = (line_count s + line_count t)%nat.
Proof. apply count_occ_app. Qed.
Lemma one_line_count s : one_line s <-> line_count s = 0%nat.
Proof. unfold one_line, line_count. rewrite (count_occ_not_In ascii_dec). reflexivity. Qed.
Lemma digits_one_line d : Forall (fun c => digit c = true) d -> one_line d.
Proof. intros H I. rewrite Forall_forall in H. apply H in I. discriminate. Qed.
Lemma dec_nat_one_line n : 0 <= n -> one_line (dec_nat n).
Proof. intros H. apply digits_one_line. apply dec_nat_spec. auto. Qed.
Lemma dec_one_line z : one_line (dec z).
Proof.
  unfold dec. destruct (z <? 0) eqn:E; [|apply dec_nat_one_line; lia]. intros [I|I]; [discriminate|]. revert I. apply dec_nat_one_line. lia.
Qed.

(** ** The functions an application answers with *)
Lemma print_tidy r d : tidy (http_print r d) <-> tidy r.
Proof. reflexivity. Qed.
Lemma length_tidy r n : tidy (set_response_length r n) <-> tidy r.
Proof. reflexivity. Qed.
Lemma json_headers_tidy r st n r' : tidy r -> return_json_headers r st = Ok (n, r') -> tidy r'.
Proof.
  intros T H. unfold return_json_headers in H. cbv zeta in H. destruct (_ =? -1); [injection H as _ <-; exact T|].
  apply bind_ok_inv in H as (b & _ & H). injection H as _ <-. exact T.
Qed.
Lemma stream_loop_tidy : forall fuel c n r n' r', tidy r -> stream_loop fuel c n r = Ok (n', r') -> tidy r'.
Proof.
  induction fuel as [|k IH]; intros c n r n' r' T H; cbn [stream_loop] in H; destruct (fgets (1024 - 1) c) as [[line rest]|];
    try discriminate; try (injection H as _ <-; exact T). cbv zeta in H. apply bind_ok_inv in H as (m & _ & H). apply IH in H; auto.
Qed.
Lemma with_status_tidy r st d r' : tidy r -> return_json_with_status r st d = Ok r' -> tidy r'.
Proof.
  intros T H. unfold return_json_with_status in H. apply bind_ok_inv in H as ((n, r1) & H1 & H). apply json_headers_tidy in H1; auto.
  apply bind_ok_inv in H as (b & _ & H). cbv zeta in H. apply log_access_tidy in H; auto.
Qed.
Lemma json_stream_tidy r st c r' : tidy r -> return_json_stream r st c = Ok r' -> tidy r'.
Proof.
  intros T H. unfold return_json_stream in H. apply bind_ok_inv in H as ((n, r1) & H1 & H). apply json_headers_tidy in H1; auto.
  cbv zeta in H. apply bind_ok_inv in H as ((m, r3) & H2 & H). unfold send_stream in H2. apply bind_ok_inv in H2 as ((m', r4) & H2 & H3).
  apply stream_loop_tidy in H2; auto. injection H3 as _ <-. apply bind_ok_inv in H as (a & _ & H). apply bind_ok_inv in H as (b & _ & H). apply log_access_tidy in H; auto.
Qed.
Lemma list_tidy r ents r' : tidy r -> return_json_list r ents = Ok r' -> tidy r'.
Proof. intros T H. unfold return_json_list, return_json in H. apply bind_ok_inv in H as (j & _ & H). eapply with_status_tidy; eauto. Qed.
Lemma error_tidy st r e r' : tidy r -> status_with_error st r e = Ok r' -> tidy r'.
Proof. intros T H. unfold status_with_error in H. apply bind_ok_inv in H as ((j, e') & _ & H). eapply with_status_tidy; eauto. Qed.

(** ** Reading a line back *)
Lemma cut_unique (c : ascii) a b x y : ~ In c a -> ~ In c x -> a ++ c :: b = x ++ c :: y -> a = x /\ b = y.
Proof.
  revert x. induction a as [|e a IH]; intros [|f x] Ha Hx E; cbn in E; injection E.
  - auto.
  - intros _ ->. elim Hx. now left.
  - intros _ ->. elim Ha. now left.
  - intros E1 ->. destruct (IH x) as (-> & ->); auto; intros I; [apply Ha|apply Hx]; now right.
Qed.
Lemma dec_inj x y : dec x = dec y -> x = y.
Proof. intros E. pose proof (jnumber_dec x) as H. rewrite E, jnumber_dec in H. congruence. Qed.
Lemma dec_not_in c z : (forall d, digit d = true -> d <> c) -> c <> "-"%char -> ~ In c (dec z).
Proof.
  intros Hd Hm. assert (X : forall n, 0 <= n -> ~ In c (dec_nat n)).
  { intros n Hn I. destruct (dec_nat_spec n Hn) as (D & _). rewrite Forall_forall in D. apply D in I. now apply Hd in I. }
  unfold dec. destruct (z <? 0) eqn:E; [|apply X; lia]. intros [I|I]; [congruence|]. revert I. apply X. lia.
Qed.
Lemma dec_nat_dec n : 0 <= n -> dec_nat n = dec n.
Proof. intros H. unfold dec. replace (n <? 0) with false by lia. reflexivity. Qed.

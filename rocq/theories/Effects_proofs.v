(** Effects_proofs.v - lemmas for C92. *)
From Verif Require Import Trace Lemmas StringUtils_proofs WsMultipart_proofs HttpUtils_proofs WsConn_proofs WsRequest_proofs
  WsDispatch_proofs Router_proofs Log_proofs Trace_proofs Tame_proofs SpecJson SpecHttp SpecConn SpecReq SpecRouter SpecDispatch SpecLog SpecEffects Spec.

(** ** Files *)
Definition holding (P : ascii -> Prop) (b : buf) : Prop := forall a, In (Some a) b -> P a.
Lemma holding_app P a b : holding P (a ++ b) <-> holding P a /\ holding P b.
Proof. unfold holding. split; [intros H; split; intros c I; apply H; apply in_or_app; auto|]. intros [H H'] c I. apply in_app_or in I as [I|I]; auto. Qed.
Lemma holding_firstn P n b : holding P b -> holding P (firstn n b).
Proof. intros H. rewrite <- (firstn_skipn n b) in H. now apply holding_app in H. Qed.
Lemma holding_skipn P n b : holding P b -> holding P (skipn n b).
Proof. intros H. rewrite <- (firstn_skipn n b) in H. now apply holding_app in H. Qed.
Lemma holding_write P b i l b' : write_at b i l = Ok b' -> holding P b -> holding P l -> holding P b'.
Proof.
  unfold write_at. destruct (_ && _); [|discriminate]. intros [= <-] H Hl. rewrite !holding_app. split; [now apply holding_firstn|]. split; [exact Hl|now apply holding_skipn].
Qed.
Lemma holding_slice P b i n l : slice b i n = Ok l -> holding P b -> holding P l.
Proof.
  unfold slice. destruct (_ <? 0); [discriminate|]. destruct (_ && _); [|discriminate]. intros H Hb. assert (E : firstn (Z.to_nat n) (skipn (Z.to_nat i) b) = l) by congruence.
  rewrite <- E. now apply holding_firstn, holding_skipn.
Qed.
Lemma holding_malloc P n : holding P (malloc n).
Proof. intros c I. apply repeat_spec in I. discriminate. Qed.
Definition hexish (a : ascii) : Prop := a = NUL \/ In a hex_digits.
Lemma hexish_hex c : holding hexish (cs (hex2 c)).
Proof.
  assert (K : forallb (fun c => forallb (fun o => match o with Some a => ceq a NUL || existsb (ceq a) hex_digits | None => true end) (cs (hex2 c))) (map ascii_of_nat (seq 0 256)) = true)
    by (vm_compute; reflexivity).
  rewrite forallb_forall in K. specialize (K c). rewrite forallb_forall in K. intros a I. apply K in I.
  - apply orb_true_iff in I as [I|I]; [left; now destruct (ceq_spec a NUL)|]. right. apply existsb_exists in I as (x & I & E). now destruct (ceq_spec a x); subst.
  - apply in_map_iff. exists (nat_of_ascii c). split; [apply ascii_nat_embedding|]. apply in_seq. pose proof (nat_ascii_bounded c). lia.
Qed.
Lemma md5_hexish md5 n data off k b s : md5sum md5 (malloc n) data off k = Ok b -> cstr b = Ok s -> Forall (fun c => In c hex_digits) s.
Proof.
  intros H E. assert (K : holding hexish b).
  { unfold md5sum in H. apply bind_ok_inv in H as (m0 & H0 & H). apply bind_ok_inv in H as (msg & _ & H).
    apply bind_ok_inv in H as (m & H1 & H). apply bind_ok_inv in H as (o & H2 & H).
    assert (N : holding hexish [Some NUL]) by (intros a [[= <-]|[]]; now left).
    apply (holding_write _ _ _ _ _ H); [|exact N]. unfold memcpy in H2. apply bind_ok_inv in H2 as (l & H3 & H2).
    apply (holding_write _ _ _ _ _ H2); [apply holding_malloc|].
    assert (Hm : holding hexish m).
    { apply (holding_write hexish) in H0; [|apply holding_malloc|exact N]. clear - H0 H1. revert H0 H1. generalize 0 at 1.
      revert m0. induction (md5 msg) as [|c d IH]; intros m0 i H0 H1; cbn [md5_hex] in H1; [now injection H1 as <-|].
      apply bind_ok_inv in H1 as (b' & H1 & H). eapply IH; [|exact H]. apply (holding_write _ _ _ _ _ H1); auto. apply hexish_hex. }
    exact (holding_slice _ _ _ _ _ H3 Hm). }
  apply cstr_inv in E as (Nn & r & ->). apply Forall_forall. intros c I. apply holding_app in K as [K _]. unfold cs in K. apply holding_app in K as [K _].
  destruct (K c) as [->|G]; [now apply in_map|exfalso; unfold no_nul in Nn; rewrite Forall_forall in Nn; now apply (Nn NUL I)|exact G].
Qed.
Definition same_but (P : str -> Prop) (f f' : fs) : Prop := forall name, ~ P name -> f' name = f name.
Lemma same_refl P f : same_but P f f. Proof. intros name _. reflexivity. Qed.
Lemma same_trans P f f' f'' : same_but P f f' -> same_but P f' f'' -> same_but P f f''.
Proof. intros H H' name N. rewrite (H' name N). auto. Qed.
Lemma upd_same (P : str -> Prop) f name x : P name -> same_but P f (upd f name x).
Proof. intros H n N. unfold upd. destruct (str_eqb n name) eqn:E; [|reflexivity]. apply str_eqb_eq in E. subst. contradiction. Qed.
Definition touched (tid : Z) (name : str) : Prop := name = L "/tmp/wayuu" \/ upload_name tid name.
Lemma save_same e f tf field sf td ds al tf' f' : 0 <= mp_tid e -> save_tmp_file e f tf field sf td ds al = Ok (tf', f') -> same_but (touched (mp_tid e)) f f'.
Proof.
  intros He H. unfold save_tmp_file in H. cbv zeta in H. apply bind_ok_inv in H as (o1 & _ & H). apply bind_ok_inv in H as (o2 & _ & H).
  apply bind_ok_inv in H as (o3 & _ & H). apply bind_ok_inv in H as (orig & _ & H).
  apply bind_ok_inv in H as (m & H3 & H). apply bind_ok_inv in H as (s & H4 & H). pose proof (md5_hexish _ _ _ _ _ _ _ H3 H4) as Os.
  apply bind_ok_inv in H as (tmp & H5 & H). apply fits_inv in H5 as [-> _]. apply bind_ok_inv in H as (tp & H5 & H). apply fits_inv in H5 as [-> _].
  apply bind_ok_inv in H as (f2 & H6 & H). apply bind_ok_inv in H as (t & _ & H). assert (E2 : f2 = f') by congruence. subst f2. clear H.
  eapply same_trans with (f' := if is_dir f FILE_DOWNLOAD_TMP_DIR then f else snd (check_createdir (mp_mkdir e) f FILE_DOWNLOAD_TMP_DIR)).
  - destruct (is_dir f FILE_DOWNLOAD_TMP_DIR) eqn:D; [apply same_refl|]. unfold check_createdir. rewrite D.
    destruct (f FILE_DOWNLOAD_TMP_DIR); [apply same_refl|]. destruct (mp_mkdir e); [|apply same_refl]. cbn [snd]. apply upd_same. left. reflexivity.
  - revert H6. generalize (if is_dir f FILE_DOWNLOAD_TMP_DIR then f else snd (check_createdir (mp_mkdir e) f FILE_DOWNLOAD_TMP_DIR)). intros g H6.
    unfold write_file in H6. apply bind_ok_inv in H6 as (n & _ & H6). destruct (is_dir g _); [injection H6 as <-; apply same_refl|].
    apply bind_ok_inv in H6 as (l & _ & H6). apply bind_ok_inv in H6 as (d & _ & H6). injection H6 as <-. apply upd_same. right.
    exists (dec_nat (mp_tid e)), s. split; [now apply dec_nat_decimal|]. split; [exact Os|]. reflexivity.
Qed.
Section Files.
Variable e : mpenv.
Variable P : fs -> fs -> Prop.
Hypothesis P_refl : forall f, P f f.
Hypothesis P_trans : forall f g h, P f g -> P g h -> P f h.
Hypothesis P_save : forall f tf field sf td ds al tf' f', save_tmp_file e f tf field sf td ds al = Ok (tf', f') -> P f f'.
Lemma part_files f tf td n tf' f' : part_parse e f tf td n = Ok (tf', f') -> P f f'.
Proof.
  intros H. unfold part_parse in H. cbv zeta in H. apply bind_ok_inv in H as (k & _ & H). apply bind_ok_inv in H as (st & _ & H).
  destruct (st <? 1); [injection H as _ <-; apply P_refl|].
  apply bind_ok_inv in H as (m & _ & H). destruct (m <=? 0); [injection H as _ <-; apply P_refl|].
  apply bind_ok_inv in H as (f0 & _ & H). apply bind_ok_inv in H as (f1 & _ & H). apply bind_ok_inv in H as (f2 & _ & H). apply bind_ok_inv in H as (fd & _ & H).
  apply bind_ok_inv in H as (ds & _ & H). apply bind_ok_inv in H as (tl & _ & H). apply bind_ok_inv in H as (tf1 & _ & H). apply bind_ok_inv in H as (sf & _ & H).
  destruct (0 <? ds); [|injection H as _ <-; apply P_refl]. destruct (0 <? sf); [eapply P_save; eauto|].
  apply bind_ok_inv in H as (v & _ & H). apply bind_ok_inv in H as (value & _ & H). apply bind_ok_inv in H as (t & _ & H). injection H as _ <-. apply P_refl.
Qed.
Lemma multipart_loop_files : forall fuel f form tp tf bd cl ptr tf' f', multipart_loop fuel e f form tp tf bd cl ptr = Ok (tf', f') -> P f f'.
Proof.
  induction fuel as [|k IH]; intros f form tp tf bd cl ptr tf' f' H; cbn [multipart_loop] in H; (destruct (ptr <? cl); [|injection H as _ <-; apply P_refl]);
    apply bind_ok_inv in H as (ps & _ & H); (destruct (ps <? 0); [injection H as _ <-; apply P_refl|]);
    apply bind_ok_inv in H as (pe & _ & H); (destruct (pe <? 0); [injection H as _ <-; apply P_refl|]); cbv zeta in H;
    apply bind_ok_inv in H as (tp1 & _ & H); apply bind_ok_inv in H as ((tf1, f1) & H1 & H); apply bind_ok_inv in H as (tp2 & _ & H); [discriminate|].
  apply part_files in H1. apply IH in H. eauto.
Qed.
Lemma api_files v f s r n bd calls r' f' : v_mp v = e -> handle_api_request v f s r n bd = Ok (calls, r', f') -> P f f'.
Proof.
  intros Ev H. unfold handle_api_request in H. apply bind_ok_inv in H as ((r1, f1) & H1 & H). apply bind_ok_inv in H as ((c, r2) & _ & H). injection H as _ _ <-.
  destruct (0 <? n); [|injection H1 as _ <-; apply P_refl]. cbv zeta in H1. destruct (2 <=? len bd); [|injection H1 as _ <-; apply P_refl].
  apply bind_ok_inv in H1 as ((fm, f2) & H2 & H1). injection H1 as _ <-. unfold multipart_parse in H2. rewrite Ev in H2. apply bind_ok_inv in H2 as ((tf, f3) & H3 & H2).
  apply bind_ok_inv in H2 as (x & _ & H2). apply bind_ok_inv in H2 as (y & _ & H2). injection H2 as _ <-. eapply multipart_loop_files; eauto.
Qed.
Lemma rest_files v f t1 r2 m url b s1 res : v_mp v = e -> accept_rest v f t1 r2 m url b s1 = Ok res -> P f (o_fs res).
Proof.
  intros Ev H. unfold accept_rest in H. apply bind_ok_inv in H as (b1 & _ & H). apply bind_ok_inv in H as (((n2, b2), s2) & _ & H).
  apply bind_ok_inv in H as (h & _ & H). cbv zeta in H. apply bind_ok_inv in H as ((path, query) & _ & H). apply bind_ok_inv in H as (api & _ & H).
  destruct api; cbn [negb] in H.
  - apply bind_ok_inv in H as (p & _ & H). apply bind_ok_inv in H as (((calls, r6), f') & H6 & H).
    assert (E : finish (TApi calls) r6 t1 f' = res) by congruence. rewrite <- E. eapply api_files; eauto.
  - destruct (str_caseeqb m (L "GET")); apply bind_ok_inv in H as (r6 & _ & H).
    + assert (E : finish TStatic r6 t1 f = res) by congruence. rewrite <- E. apply P_refl.
    + assert (E : finish TNotGet r6 t1 f = res) by congruence. rewrite <- E. apply P_refl.
Qed.
Local Opaque send_http_status bad_request too_many_connections accept_rest startswithany get_line parse_request_line parse_url connection_add finish.
Lemma finish_fs k r t f : o_fs (finish k r t f) = f.
Proof. reflexivity. Qed.
Lemma accept_files v f t socket peer stream res : v_mp v = e -> accept_request v f t socket peer stream = Ok res -> P f (o_fs res).
Proof.
  intros Ev H. rewrite accept_unfold in H. apply bind_ok_inv in H as (r0 & _ & H).
  apply bind_ok_inv in H as (((n, b), s1) & _ & H). apply bind_ok_inv in H as (((rl, m), j) & _ & H). cbv zeta in H.
  apply bind_ok_inv in H as (okm & _ & H). destruct okm; cbn [negb] in H.
  2:{ apply bind_ok_inv in H as (r2 & _ & H). assert (E : finish TBadMethod r2 t f = res) by congruence. rewrite <- E, finish_fs. apply P_refl. }
  apply bind_ok_inv in H as (url & _ & H). apply bind_ok_inv in H as ((adm, t1) & _ & H). destruct adm; cbn [negb] in H.
  2:{ apply bind_ok_inv in H as (r2 & _ & H). assert (E : finish TTooMany r2 t1 f = res) by congruence. rewrite <- E, finish_fs. apply P_refl. }
  eapply rest_files; eauto.
Qed.
End Files.
Local Opaque accept_request.
Lemma accept_names v f t socket peer stream res : 0 <= mp_tid (v_mp v) -> accept_request v f t socket peer stream = Ok res ->
  same_but (touched (mp_tid (v_mp v))) f (o_fs res).
Proof.
  intros Ht H. eapply (accept_files (v_mp v) (same_but (touched (mp_tid (v_mp v))))); eauto using same_refl, same_trans. intros. eapply save_same; eauto.
Qed.
Lemma accept_no_files v f t socket peer stream res : mp_md5_size (v_mp v) <= 128 -> accept_request v f t socket peer stream = Ok res -> o_fs res = f.
Proof.
  intros Ht H. symmetry. eapply (accept_files (v_mp v) eq); eauto; [congruence|]. intros g tf fl sf td ds al tf' f' E.
  destruct (save_small (v_mp v) g tf fl sf td ds al Ht) as (u & U). congruence.
Qed.

(** ** One request after another *)
Lemma sequence_alone v f t qs : mp_md5_size (v_mp v) <= 128 -> keeps_socket (v_app v) ->
  Forall (fun c => c_socket c = 0 -> c = free_slot) t -> (forall q, In q qs -> vs_socket q <> 0 /\ ~ In (vs_socket q) (map c_socket t)) ->
  in_sequence v f t qs = each_alone v f t qs.
Proof.
  intros Hm K Hf. unfold in_sequence, each_alone. induction qs as [|q qs IH]; intros Hq; cbn [sequence separate]; [reflexivity|].
  destruct (handle v f t q) as [r|u] eqn:E; cbn [bind]; [|reflexivity]. unfold handle in E.
  rewrite (accept_no_files _ _ _ _ _ _ _ Hm E). destruct (accept_closes _ _ _ _ _ _ _ E K) as (_ & _ & T). destruct (Hq q) as (Q1 & Q2); [now left|].
  rewrite T by auto. rewrite IH; [reflexivity|]. intros q' I. apply Hq. now right.
Qed.

(** ** Answers *)
Local Transparent send_http_status bad_request too_many_connections.
Lemma print_sent r d : r_sent (http_print r d) = r_sent r ++ d.
Proof. unfold r_sent. cbn [http_print r_sends]. rewrite concat_app. cbn [concat]. now rewrite app_nil_r. Qed.
Lemma length_sent r n : r_sent (set_response_length r n) = r_sent r.
Proof. reflexivity. Qed.
Lemma log_access_sent r st r' : log_access r st = Ok r' -> r_sent r' = r_sent r /\ map e_status (r_log r') = map e_status (r_log r) ++ [st].
Proof.
  intros H. unfold log_access in H. apply bind_ok_inv in H as (rf & _ & H). apply bind_ok_inv in H as (ua & _ & H). injection H as <-.
  split; [reflexivity|]. cbn [add_log r_log]. now rewrite map_app.
Qed.
Lemma status_sent r st i line b r' : find_http_status_index st = i -> i <> -1 -> fits 1024 (http_start i ++ WAYUU_HTTP_SERVER_STRING ++ HTTP_CONTENT_LENGTH_ZERO) = Ok b ->
  b ++ CRLF = plain_status line -> send_http_status r st [] = Ok r' ->
  r_sent r' = r_sent r ++ plain_status line /\ map e_status (r_log r') = map e_status (r_log r) ++ [st].
Proof.
  intros Ei Ni Eb El H. unfold send_http_status in H. cbv zeta in H. rewrite Ei in H. destruct (Z.eqb_spec i (-1)); [contradiction|].
  change (negb (str_eqb [] [])) with false in H. cbv iota in H. rewrite Eb in H. cbn [bind] in H. apply log_access_sent in H as (-> & ->). split; [|reflexivity].
  rewrite <- El. rewrite length_sent, print_sent, length_sent, print_sent. now rewrite <- app_assoc.
Qed.
Lemma bad_sent r r' : bad_request r = Ok r' -> r_sent r' = r_sent r ++ plain_status (L "HTTP/1.1 400 Bad Request") /\ map e_status (r_log r') = map e_status (r_log r) ++ [400].
Proof. intros H. eapply status_sent; [reflexivity| | | |exact H]; [discriminate|vm_compute; reflexivity|vm_compute; reflexivity]. Qed.
Lemma many_sent r r' : too_many_connections r = Ok r' -> r_sent r' = r_sent r ++ plain_status (L "HTTP/1.1 429 Too many connections") /\ map e_status (r_log r') = map e_status (r_log r) ++ [429].
Proof. intros H. eapply status_sent; [reflexivity| | | |exact H]; [discriminate|vm_compute; reflexivity|vm_compute; reflexivity]. Qed.
Lemma file_sent f r name st r' : direct_file f r name = Ok (st, r') ->
  (st = -1 /\ r' = r) \/
  (st = 0 /\ exists sess content, cstr (r_session r) = Ok sess /\ f name = Some (File content) /\ len content <= 2 ^ 31 - 1
   /\ r_sent r' = r_sent r ++ file_message name sess content /\ map e_status (r_log r') = map e_status (r_log r) ++ [200]).
Proof.
  intros H. unfold direct_file, is_file in H. destruct (f name) as [[content|]|] eqn:F; cbn [negb] in H; [|injection H as <- <-; now left|injection H as <- <-; now left]. right.
  apply bind_ok_inv in H as ((l1, r1) & H1 & H). apply bind_ok_inv in H as ((l2, r2) & H2 & H). apply bind_ok_inv in H as (l & _ & H). cbv zeta in H. apply bind_ok_inv in H as (r4 & H4 & H). injection H as <- <-.
  split; [reflexivity|]. unfold return_file in H2. rewrite F in H2. destruct (Z.ltb_spec int_max (len content)) as [G|G]; [discriminate|]. injection H2 as <- <-.
  unfold return_headers in H1. cbv zeta in H1. apply bind_ok_inv in H1 as (a & Ha & H1). apply fits_inv in Ha as [-> _]. apply bind_ok_inv in H1 as (b & Hb & H1). apply fits_inv in Hb as [-> _].
  apply bind_ok_inv in H1 as (sess & Hs & H1). exists sess, content. split; [exact Hs|]. split; [reflexivity|]. split; [exact G|].
  apply log_access_sent in H4 as (E1 & E2). rewrite E1, E2.
  apply bind_ok_inv in H1 as ((l3, r3) & H3 & H1). assert (E3 : http_print r3 CRLF = r1) by congruence. subst r1.
  assert (X : map e_status (r_log r3) = map e_status (r_log r) /\ r_sent r3 = r_sent r ++ ((HTTP_OK_START ++ WAYUU_HTTP_SERVER_STRING) ++ (HTTP_OK_START ++ WAYUU_HTTP_SERVER_STRING) ++ get_content_type name
     ++ (if list_eq_dec ascii_dec sess [] then [] else L "X-Session: " ++ sess ++ CRLF ++ L "Set-Cookie:WSSESSION=" ++ sess ++ CRLF))).
  { revert H3. generalize (HTTP_OK_START ++ WAYUU_HTTP_SERVER_STRING). intros k H3. destruct (Z.ltb_spec 0 (len sess)) as [Q|Q].
    - apply bind_ok_inv in H3 as (c & Hc & H3). apply fits_inv in Hc as [-> _]. assert (E : http_print (http_print (http_print r k) (k ++ get_content_type name)) (L "X-Session: " ++ sess ++ CRLF ++ L "Set-Cookie:WSSESSION=" ++ sess ++ CRLF) = r3) by congruence.
      rewrite <- E. split; [reflexivity|]. destruct (list_eq_dec ascii_dec sess []) as [->|_]; [cbn in Q; lia|].
      generalize (L "X-Session: " ++ sess ++ CRLF ++ L "Set-Cookie:WSSESSION=" ++ sess ++ CRLF). intros w.
      rewrite !print_sent. now rewrite <- !app_assoc.
    - assert (E : http_print (http_print r k) (k ++ get_content_type name) = r3) by congruence. rewrite <- E. split; [reflexivity|].
      destruct (list_eq_dec ascii_dec sess []) as [_|Z]; [|destruct sess; [now elim Z|rewrite len_cons in Q; pose proof (len_nonneg _ sess); lia]].
      rewrite !print_sent. now rewrite app_nil_r, <- !app_assoc. }
  destruct X as (X1 & X2). split.
  - change (r_sent (http_print (http_print r3 CRLF) content) = r_sent r ++ file_message name sess content).
    rewrite !print_sent, X2. unfold file_message.
    change (L "HTTP/1.1 200 OK" ++ CRLF ++ L "Server: WAYUU/1.5.0" ++ CRLF) with (HTTP_OK_START ++ WAYUU_HTTP_SERVER_STRING).
    generalize (HTTP_OK_START ++ WAYUU_HTTP_SERVER_STRING). intros k. cbv zeta. now rewrite <- !app_assoc.
  - change (map e_status (r_log r3) ++ [200] = map e_status (r_log r) ++ [200]). now rewrite X1.
Qed.
Lemma static_sent v f r r' : handle_static_routes v f r = Ok r' -> r_sent r = [] -> r_log r = [] ->
  (forall sess, cstr (r_session r) = Ok sess -> no_inner_line sess /\ len sess <= 63) -> reply (v_static_root v) f TStatic (r_sent r') (map e_status (r_log r')).
Proof.
  intros H Es El Hs. unfold handle_static_routes in H. apply bind_ok_inv in H as (pl & _ & H). apply bind_ok_inv in H as (p & _ & H). cbv zeta in H.
  apply bind_ok_inv in H as (file & Hf & H). apply fits_inv in Hf as [-> _]. apply bind_ok_inv in H as ((st, r2) & H2 & H).
  assert (K : forall name q st rq, name = v_static_root v ++ L "/" ++ q -> direct_file f (set_path r p) name = Ok (st, rq) ->
     (st = -1 /\ rq = set_path r p) \/ st = 0 /\ reply (v_static_root v) f TStatic (r_sent rq) (map e_status (r_log rq))).
  { intros name q st0 rq -> D. apply file_sent in D as [D|(-> & sess & content & S & F & Ln & E1 & E2)]; [now left|right]. split; [reflexivity|].
    change (r_sent (set_path r p)) with (r_sent r) in E1. change (r_log (set_path r p)) with (r_log r) in E2. rewrite E1, E2, Es, El. change (r_session (set_path r p)) with (r_session r) in S.
    destruct (Hs _ S). now apply rp_file. }
  destruct (K _ _ _ _ eq_refl H2) as [(-> & ->)|(-> & R)].
  - change (-1 <? 0) with true in H. cbv iota in H. apply bind_ok_inv in H as (file' & Hf & H). apply fits_inv in Hf as [-> _]. apply bind_ok_inv in H as ((st, r3) & H3 & H).
    assert (E : r3 = r') by congruence. subst r3. destruct (K _ _ _ _ eq_refl H3) as [(-> & ->)|(-> & R)]; [|exact R].
    change (r_sent (set_path r p)) with (r_sent r). change (r_log (set_path r p)) with (r_log r). rewrite Es, El. apply rp_nothing.
  - change (0 <? 0) with false in H. cbv iota in H. assert (E : r2 = r') by congruence. now subst.
Qed.
Lemma header_loop_session : forall fuel n h h' ms, hinv h -> header_loop_t fuel n h = Ok (h', ms) -> len (hs_session h') = MAX_SESSION.
Proof.
  assert (K : forall h, hinv h -> len (hs_session h) = MAX_SESSION) by now intros h (_ & _ & ? & ? & ?).
  induction fuel as [|k IH]; intros n h h' ms I H; cbn [header_loop_t] in H; (destruct (0 <? n); [|injection H as <- <-; auto]);
    apply bind_ok_inv in H as (e1 & _ & H); (destruct e1; [injection H as <- <-; auto|]);
    apply bind_ok_inv in H as (e2 & _ & H); (destruct e2; [injection H as <- <-; auto|]);
    apply bind_ok_inv in H as ((h1, m1) & H1 & H); apply bind_ok_inv in H as (((n', b'), s') & H2 & H); [discriminate|].
  apply bind_ok_inv in H as ((h2, m2) & H3 & H). injection H as <- <-.
  destruct (header_line_told _ _ _ I H1) as (T1 & L1 & C1 & I1 & S1 & U1).
  apply IH in H3; [exact H3|]. split; [cbn [hs_buf]; now apply get_line_buf in H2|]. split; [cbn [hs_buf]; eapply calm_get_line; eauto|]. auto.
Qed.
Local Transparent accept_rest get_line finish.
Local Opaque send_http_status bad_request too_many_connections handle_static_routes handle_api_request.
Definition outside_api (k : route_taken) : Prop := match k with TApi _ => False | _ => True end.
Lemma rest_reply v f t1 r2 m url b s1 res : len b = 1024 -> calm b -> ends_line (r_ip r2) -> r_sent r2 = [] -> r_log r2 = [] ->
  accept_rest v f t1 r2 m url b s1 = Ok res -> outside_api (o_taken res) -> reply (v_static_root v) f (o_taken res) (r_sent (o_req res)) (map e_status (r_log (o_req res))).
Proof.
  intros Lb C Hi Es El H. unfold accept_rest in H. apply bind_ok_inv in H as (b1 & Hb1 & H).
  pose proof (write_at_len _ _ _ _ Hb1) as L1. assert (L1' : len b1 = 1024) by (unfold len in *; lia). apply calm_first in Hb1; auto.
  apply bind_ok_inv in H as (((n2, b2), s2) & H4 & H). pose proof (get_line_buf _ _ _ _ _ L1' H4) as Lb2. apply calm_get_line in H4; auto.
  apply bind_ok_inv in H as (h & H5 & H).
  destruct (header_loop_traces (length s1) n2 (mkH b2 s2 [] None [] (-1) (r_ip r2) (calloc MAX_SESSION)) Lb2) as (ms & T). rewrite H5 in T. cbn [bind] in T.
  assert (I : hinv (mkH b2 s2 [] None [] (-1) (r_ip r2) (calloc MAX_SESSION))).
  { split; [exact Lb2|]. split; [exact H4|]. split; [exact Hi|]. split; [reflexivity|]. intros s E. cbn [hs_session] in E. vm_compute in E. injection E as <-. apply one_ends. intros []. }
  pose proof (header_loop_session _ _ _ _ _ I T) as Ls. apply header_loop_told in T as (_ & _ & Se); [|exact I]. cbv zeta in H.
  apply bind_ok_inv in H as ((path, query) & _ & H). apply bind_ok_inv in H as (api & _ & H). destruct api; cbn [negb] in H.
  - apply bind_ok_inv in H as (p & _ & H). apply bind_ok_inv in H as (((calls, r6), f') & _ & H). assert (E : finish (TApi calls) r6 t1 f' = res) by congruence.
    rewrite <- E. intros [].
  - intros _. destruct (str_caseeqb m (L "GET")); apply bind_ok_inv in H as (r6 & H6 & H).
    + assert (E : finish TStatic r6 t1 f = res) by congruence. rewrite <- E. change (reply (v_static_root v) f TStatic (r_sent r6) (map e_status (r_log r6))).
      eapply static_sent; [exact H6|exact Es|exact El|]. intros sess S. change (cstr (hs_session h) = Ok sess) in S. split; [exact (Se _ S)|].
      apply cstr_inv in S as (_ & rr & E'). rewrite E' in Ls. clear - Ls. change MAX_SESSION with 64 in Ls. unfold cs in Ls. rewrite !len_app, len_map in Ls. change (len [Some NUL]) with 1 in Ls. pose proof (len_nonneg _ rr). lia.
    + assert (E : finish TNotGet r6 t1 f = res) by congruence. rewrite <- E. change (reply (v_static_root v) f TNotGet (r_sent r6) (map e_status (r_log r6))).
      apply bad_sent in H6 as (-> & ->). change (reply (v_static_root v) f TNotGet (r_sent r2 ++ plain_status (L "HTTP/1.1 400 Bad Request")) (map e_status (r_log r2) ++ [400])). rewrite Es, El. apply rp_not_get.
Qed.
Local Opaque accept_rest get_line finish.
Local Transparent accept_request.
Lemma finish_taken k r t f : o_taken (finish k r t f) = k /\ o_req (finish k r t f) = r.
Proof. split; reflexivity. Qed.
Lemma accept_reply v f t socket peer stream res : one_line peer -> accept_request v f t socket peer stream = Ok res -> outside_api (o_taken res) ->
  reply (v_static_root v) f (o_taken res) (r_sent (o_req res)) (map e_status (r_log (o_req res))).
Proof.
  intros Hp H O. rewrite accept_unfold in H. apply bind_ok_inv in H as (r0 & H0 & H).
  assert (R0 : r_ip r0 = peer /\ r_sent r0 = [] /\ r_log r0 = []).
  { unfold new_request in H0. apply bind_ok_inv in H0 as (ip & Hf & H0). apply fits_inv in Hf as [-> _]. injection H0 as <-. auto. }
  destruct R0 as (R1 & R2 & R3).
  apply bind_ok_inv in H as (((n, b), s1) & H1 & H). pose proof (get_line_buf _ _ _ _ _ (eq_refl : len (calloc 1024) = 1024) H1) as Lb.
  apply calm_get_line in H1; [|reflexivity|]. 2:{ apply calm_nolf. intros I. apply repeat_spec in I. discriminate. }
  apply bind_ok_inv in H as (((rl, m), j) & _ & H). cbv zeta in H.
  apply bind_ok_inv in H as (okm & _ & H). destruct okm; cbn [negb] in H.
  2:{ apply bind_ok_inv in H as (r2 & H3 & H). assert (E : finish TBadMethod r2 t f = res) by congruence. rewrite <- E.
      destruct (finish_taken TBadMethod r2 t f) as (-> & ->). apply bad_sent in H3 as (-> & ->).
      change (reply (v_static_root v) f TBadMethod (r_sent r0 ++ plain_status (L "HTTP/1.1 400 Bad Request")) (map e_status (r_log r0) ++ [400])). rewrite R2, R3. apply rp_method. }
  apply bind_ok_inv in H as (url & _ & H). apply bind_ok_inv in H as ((adm, t1) & _ & H). destruct adm; cbn [negb] in H.
  2:{ apply bind_ok_inv in H as (r2 & H3 & H). assert (E : finish TTooMany r2 t1 f = res) by congruence. rewrite <- E.
      destruct (finish_taken TTooMany r2 t1 f) as (-> & ->). apply many_sent in H3 as (-> & ->).
      change (reply (v_static_root v) f TTooMany (r_sent r0 ++ plain_status (L "HTTP/1.1 429 Too many connections")) (map e_status (r_log r0) ++ [429])). rewrite R2, R3. apply rp_many. }
  eapply rest_reply; [|exact H1| | | |exact H|exact O]; cbn; [destruct Lb as (Lb & _); exact Lb|rewrite R1; now apply one_ends|exact R2|exact R3].
Qed.

(** ** What the answer depends on *)
Lemma md5sum_ub md5 n data off k : n <= 128 -> exists u, forall T (g : buf -> outcome T), (m <- md5sum md5 (malloc n) data off k;; g m) = UB u.
Proof. intros H. destruct (md5sum_small md5 n data off k H) as (u & E). exists u. intros T g. now rewrite E. Qed.
Lemma save_other e f f' tf field sf td ds al : mp_md5_size e <= 128 -> save_tmp_file e f' tf field sf td ds al = save_tmp_file e f tf field sf td ds al.
Proof.
  intros H. unfold save_tmp_file. cbv zeta. destruct (md5sum_ub (mp_md5 e) (mp_md5_size e) td ds (al - ds - 2) H) as (u & E).
  destruct (strncpy _ _ _) as [o1|]; [cbn [bind]|reflexivity]. destruct (wr _ _ _) as [o2|]; [cbn [bind]|reflexivity].
  destruct (chop_string o2) as [o3|]; [cbn [bind]|reflexivity]. destruct (cstr o3) as [orig|]; [cbn [bind]|reflexivity]. now rewrite !E.
Qed.
Definition moved {A} (f' : fs) (x : outcome (A * fs)) : outcome (A * fs) := a <- x;; Ok (fst a, f').
Lemma moved_bind A B f' (x : outcome B) (g : B -> outcome (A * fs)) : moved f' (bind x g) = (b <- x;; moved f' (g b)).
Proof. now destruct x. Qed.
Lemma bind_ext A B (x : outcome A) (g h : A -> outcome B) : (forall a, x = Ok a -> g a = h a) -> bind x g = bind x h.
Proof. destruct x; cbn [bind]; auto. Qed.
Section Others.
Variables (e : mpenv) (f f' : fs).
Hypothesis Hm : mp_md5_size e <= 128.
Lemma save_moved tf field sf td ds al : save_tmp_file e f' tf field sf td ds al = moved f' (save_tmp_file e f tf field sf td ds al).
Proof.
  rewrite (save_other e f f') by exact Hm. destruct (save_small e f tf field sf td ds al Hm) as (u & ->). reflexivity.
Qed.
Lemma part_moved tf td n : part_parse e f' tf td n = moved f' (part_parse e f tf td n).
Proof.
  unfold part_parse. cbv zeta. rewrite !moved_bind. apply bind_ext. intros k _. rewrite moved_bind. apply bind_ext. intros st _. destruct (st <? 1); [reflexivity|].
  rewrite moved_bind. apply bind_ext. intros m _. destruct (m <=? 0); [reflexivity|]. do 4 (rewrite moved_bind; apply bind_ext; intros ? _).
  do 4 (rewrite moved_bind; apply bind_ext; intros ? _). destruct (0 <? _); [|reflexivity]. destruct (0 <? _); [apply save_moved|].
  do 3 (rewrite moved_bind; apply bind_ext; intros ? _). reflexivity.
Qed.
Lemma multipart_loop_moved : forall fuel form tp tf bd cl ptr, multipart_loop fuel e f' form tp tf bd cl ptr = moved f' (multipart_loop fuel e f form tp tf bd cl ptr).
Proof.
  induction fuel as [|k IH]; intros form tp tf bd cl ptr; cbn [multipart_loop]; (destruct (ptr <? cl); [|reflexivity]);
    rewrite moved_bind; apply bind_ext; intros ps _; (destruct (ps <? 0); [reflexivity|]);
    rewrite moved_bind; apply bind_ext; intros pe _; (destruct (pe <? 0); [reflexivity|]); cbv zeta;
    rewrite moved_bind; apply bind_ext; intros tp1 _; rewrite moved_bind, part_moved;
    (destruct (part_parse e f tf tp1 _) as [[tf1 f1]|] eqn:E; [|reflexivity]); unfold moved at 1; cbn [bind fst];
    rewrite moved_bind; apply bind_ext; intros tp2 _; [reflexivity|].
  assert (f1 = f).
  { symmetry. eapply (part_files e eq); [reflexivity| |exact E]. intros g a b c d a1 a2 a3 a4 X. destruct (save_small e g a b c d a1 a2 Hm) as (u & U). congruence. }
  subst f1. apply IH.
Qed.
End Others.
Lemma multipart_moved e f f' form bd cl : mp_md5_size e <= 128 -> multipart_parse e f' form bd cl = moved f' (multipart_parse e f form bd cl).
Proof.
  intros H. unfold multipart_parse. rewrite (multipart_loop_moved e f f' H), moved_bind.
  destruct (multipart_loop _ e f _ _ _ _ _ _) as [[tf g]|] eqn:E; [|reflexivity]. unfold moved at 1. cbn [bind fst]. do 2 (rewrite moved_bind; apply bind_ext; intros ? _). reflexivity.
Qed.
Local Transparent handle_static_routes handle_api_request accept_rest finish.
Local Opaque multipart_parse.
Lemma api_moved v f f' s r n bd : mp_md5_size (v_mp v) <= 128 -> handle_api_request v f' s r n bd = moved f' (handle_api_request v f s r n bd).
Proof.
  intros H. unfold handle_api_request. rewrite moved_bind. cbv zeta. destruct (0 <? n); [|cbn [bind]; rewrite moved_bind; apply bind_ext; intros [c r2] _; reflexivity].
  destruct (2 <=? len bd); [|cbn [bind]; rewrite moved_bind; apply bind_ext; intros [c r2] _; reflexivity].
  rewrite (multipart_moved (v_mp v) f f') by exact H.
  destruct (multipart_parse (v_mp v) f _ bd n) as [[fm g]|] eqn:E; [|reflexivity]. unfold moved at 1. cbn [bind fst]. rewrite moved_bind; apply bind_ext; intros [c r2] _; reflexivity.
Qed.
Lemma direct_moved f f' r name : f name = f' name -> direct_file f' r name = direct_file f r name.
Proof. intros H. unfold direct_file, is_file, return_file. rewrite H. reflexivity. Qed.
Lemma static_moved v f f' r : (forall p, f (v_static_root v ++ L "/" ++ p) = f' (v_static_root v ++ L "/" ++ p)) -> handle_static_routes v f' r = handle_static_routes v f r.
Proof.
  intros H. unfold handle_static_routes. apply bind_ext. intros pl _. apply bind_ext. intros p _. cbv zeta. apply bind_ext. intros file E. apply fits_inv in E as [-> _].
  rewrite (direct_moved f f') by apply H. apply bind_ext. intros [st r2] _. destruct (st <? 0); [|reflexivity]. apply bind_ext. intros file' E. apply fits_inv in E as [-> _].
  now rewrite (direct_moved f f') by apply H.
Qed.
Definition with_fs (f' : fs) (x : outcome result) : outcome result := res <- x;; Ok (mkResult (o_taken res) (o_req res) (o_table res) (o_closed res) f').
Lemma with_bind B f' (x : outcome B) (g : B -> outcome result) : with_fs f' (bind x g) = (b <- x;; with_fs f' (g b)).
Proof. now destruct x. Qed.
Local Opaque handle_static_routes handle_api_request header_loop get_path_and_query_string startswith str_caseeqb bad_request.
Lemma rest_moved v f f' t1 r2 m url b s1 : mp_md5_size (v_mp v) <= 128 -> (forall p, f (v_static_root v ++ L "/" ++ p) = f' (v_static_root v ++ L "/" ++ p)) ->
  accept_rest v f' t1 r2 m url b s1 = with_fs f' (accept_rest v f t1 r2 m url b s1).
Proof.
  intros Hm H. unfold accept_rest. cbv zeta. rewrite with_bind. apply bind_ext. intros b1 _. rewrite with_bind. apply bind_ext. intros [[n b2] s2] _.
  rewrite with_bind. apply bind_ext. intros h _. rewrite with_bind. apply bind_ext. intros [path query] _. rewrite with_bind. apply bind_ext. intros [|] _; cbn [negb].
  - rewrite with_bind. apply bind_ext. intros p _. rewrite (api_moved v f f') by exact Hm. rewrite with_bind.
    destruct (handle_api_request v f _ _ _ _) as [[[c r6] g]|]; [|reflexivity]. unfold moved. cbn [bind fst]. reflexivity.
  - destruct (str_caseeqb m (L "GET")).
    + rewrite (static_moved v f f') by exact H. rewrite with_bind. apply bind_ext. intros r6 _. reflexivity.
    + rewrite with_bind. apply bind_ext. intros r6 _. reflexivity.
Qed.
Local Opaque accept_rest parse_request_line parse_url startswithany too_many_connections.
Lemma accept_moved v f f' t socket peer stream : mp_md5_size (v_mp v) <= 128 -> (forall p, f (v_static_root v ++ L "/" ++ p) = f' (v_static_root v ++ L "/" ++ p)) ->
  accept_request v f' t socket peer stream = with_fs f' (accept_request v f t socket peer stream).
Proof.
  intros Hm H. rewrite !accept_unfold. cbv zeta. rewrite with_bind. apply bind_ext. intros r0 _. rewrite with_bind. apply bind_ext. intros [[n b] s1] _.
  rewrite with_bind. apply bind_ext. intros [[rl m] j] _. rewrite with_bind. apply bind_ext. intros [|] _; cbn [negb].
  2:{ rewrite with_bind. apply bind_ext. intros r2 _. reflexivity. }
  rewrite with_bind. apply bind_ext. intros url _. rewrite with_bind. apply bind_ext. intros [[|] t1] _; cbn [negb].
  - now apply rest_moved.
  - rewrite with_bind. apply bind_ext. intros r2 _. reflexivity.
Qed.

(** Trace_proofs.v - lemmas about the application log. *)
From Verif Require Import Trace Lemmas StringUtils_proofs ConfParser_proofs WsMultipart_proofs HttpUtils_proofs WsConn_proofs WsRequest_proofs
  WsDispatch_proofs Router_proofs Log_proofs SpecJson SpecHttp SpecConn SpecReq SpecRouter SpecDispatch SpecApi SpecLog SpecTrace Spec.

(** ** The messages change nothing *)
Definition traces {A} (x : outcome A) (y : outcome (A * list note)) : Prop := exists ms, y = (a <- x;; Ok (a, ms)).

Lemma traces_ret A (a : A) ms : traces (Ok a) (Ok (a, ms)).
Proof. exists ms. reflexivity. Qed.
Lemma traces_ub A u : traces (@UB A u) (UB u).
Proof. exists []. reflexivity. Qed.
Lemma traces_bind A B (x : outcome A) y (k : A -> outcome B) k' : traces x y ->
  (forall a ms, x = Ok a -> traces (k a) (k' (a, ms))) -> traces (bind x k) (bind y k').
Proof.
  intros (ms & ->) H. destruct x as [a|u]; cbn [bind]; [now apply H|apply traces_ub].
Qed.
Lemma traces_step A B (x : outcome A) (k : A -> outcome B) k' : (forall a, x = Ok a -> traces (k a) (k' a)) -> traces (bind x k) (bind x k').
Proof. intros H. destruct x; [now apply H|apply traces_ub]. Qed.
Lemma traces_extra A B (x : outcome A) a (k : outcome B) k' : x = Ok a -> traces k (k' a) -> traces k (bind x k').
Proof. intros -> H. exact H. Qed.
Lemma traces_fst A (x : outcome A) y : traces x y -> x = match y with Ok (a, _) => Ok a | UB u => UB u end.
Proof. intros (ms & ->). now destruct x. Qed.

Ltac tr := repeat match goal with
  | |- traces (Ok _) (Ok (_, _)) => apply traces_ret
  | |- traces (UB _) (UB _) => apply traces_ub
  | |- traces (if ?c then _ else _) (if ?c then _ else _) => destruct c
  | |- traces (bind ?x _) (bind ?x _) => apply traces_step; intros ? ?
  end.

Lemma validate_t rules t ip path : traces (connection_validate rules t ip path) (connection_validate_t rules t ip path).
Proof.
  induction rules as [|r rs IH]; cbn [connection_validate connection_validate_t]; [tr|]. destruct (l_path r); [tr|].
  apply traces_step. intros p _. destruct p; [|exact IH]. apply traces_step. intros [total by_ip] _. tr. exact IH.
Qed.
Lemma add_t rules t socket ip path : traces (connection_add rules t socket ip path) (connection_add_t rules t socket ip path).
Proof.
  unfold connection_add, connection_add_t. apply traces_bind; [apply validate_t|]. intros v ms _. destruct v; [|tr].
  destruct (claim_slot t socket ip path) as [[r t']|u]; cbn [bind]; [|tr]. eexists. cbn [bind]. reflexivity.
Qed.
Lemma direct_t f r name : traces (direct_file f r name) (direct_file_t f r name).
Proof. unfold direct_file_t. destruct (direct_file f r name) as [[st r']|u]; cbn [bind]; tr. Qed.
Lemma static_t v f r : traces (handle_static_routes v f r) (handle_static_routes_t v f r).
Proof.
  unfold handle_static_routes, handle_static_routes_t. apply traces_step. intros n _. apply traces_step. intros p _. cbv zeta.
  apply traces_step. intros file _. apply traces_bind; [apply direct_t|]. intros [st r2] ms _. destruct (st <? 0); [|tr].
  apply traces_step. intros file' _. apply traces_bind; [apply direct_t|]. intros [st3 r3] ms' _. tr.
Qed.
Lemma write_t f name p off size : traces (write_file f name p off size) (write_file_t f name p off size).
Proof.
  unfold write_file_t. destruct (strlen (from p off)) as [n|u] eqn:E; cbn [bind].
  - destruct (write_file f name p off size); cbn [bind]; tr.
  - unfold write_file. rewrite E. cbn [bind]. tr.
Qed.
Lemma save_t e f tf field sf td ds al : traces (save_tmp_file e f tf field sf td ds al) (save_tmp_file_t e f tf field sf td ds al).
Proof.
  unfold save_tmp_file, save_tmp_file_t. cbv zeta. do 8 (apply traces_step; intros ? ?). apply traces_bind; [apply write_t|]. intros f2 ms' _. tr.
Qed.
Lemma part_t e ip f tf td n : traces (part_parse e f tf td n) (part_parse_t e ip f tf td n).
Proof.
  unfold part_parse, part_parse_t. cbv zeta. apply traces_step. intros a _. apply traces_step. intros start _.
  destruct (start <? 1); [tr|]. apply traces_step. intros m _. destruct (m <=? 0); [tr|].
  do 7 (apply traces_step; intros ? _). apply traces_step. intros sf _. match goal with |- context [0 <? ?d] => destruct (0 <? d) end; [|tr].
  destruct (0 <? sf); [apply save_t|tr].
Qed.
Lemma multipart_loop_traces e ip form b cl : forall fuel f tp tf ptr,
  traces (multipart_loop fuel e f form tp tf b cl ptr) (multipart_loop_t fuel e ip f form tp tf b cl ptr).
Proof.
  induction fuel as [|k IH]; intros f tp tf ptr; cbn [multipart_loop multipart_loop_t]; cbv zeta; (destruct (ptr <? cl); [|tr]);
    apply traces_step; intros ps _; (destruct (ps <? 0); [tr|]); apply traces_step; intros pe _; (destruct (pe <? 0); [tr|]);
    apply traces_step; intros tp' _; (apply traces_bind; [apply part_t|]); intros [tf' f'] ms _; apply traces_step; intros tp2 _; [tr|].
  destruct (IH f' tp2 tf' (ps + 1)) as (ms' & E). rewrite E. destruct (multipart_loop _ _ _ _ _ _ _ _ _) as [[x y]|u]; cbn [bind]; tr.
Qed.
Lemma multipart_t e ip f form b cl : traces (multipart_parse e f form b cl) (multipart_parse_t e ip f form b cl).
Proof. unfold multipart_parse, multipart_parse_t. apply traces_bind; [apply multipart_loop_traces|]. intros [tf f'] ms _. tr. Qed.
Lemma route_loop_traces m r : forall t, traces (route_loop t m r) (route_loop_t t m r).
Proof.
  induction t as [|rt t IH]; cbn [route_loop route_loop_t]; [tr|]. destruct (negb (rt_live rt)); [tr|]. cbv zeta.
  destruct (rt_type rt); [destruct (str_eqb _ _); [tr|exact IH]|]. destruct (strstr m (rt_prefix rt)); [|exact IH].
  destruct (str_eqb _ _); [exact IH|]. tr.
Qed.
Lemma router_t a t r : traces (router_handle_request a t r) (router_handle_request_t a t r).
Proof.
  unfold router_handle_request, router_handle_request_t. cbv zeta. apply traces_step. intros m _.
  apply traces_bind; [apply route_loop_traces|]. intros [[r1 h] fl] ms _. destruct h as [h|]; [|tr]. destruct fl as [fl|]; [|tr].
  destruct (on_filter a fl r1) as [r2 pass]. tr.
Qed.
Lemma api_t v f s r n b ses : cstr (r_session r) = Ok ses -> traces (handle_api_request v f s r n b) (handle_api_request_t v f s r n b).
Proof.
  intros E. unfold handle_api_request, handle_api_request_t. cbv zeta. eapply traces_extra; [exact E|].
  apply traces_bind.
  - destruct (0 <? n); [|tr]. destruct (2 <=? len b); [|tr]. apply traces_bind; [apply multipart_t|]. intros [form' f'] ms _. tr.
  - intros [r1 f1] ms _. apply traces_bind; [apply router_t|]. intros [calls r2] ms' _. tr.
Qed.

(** Header lines; the line buffer holds at most 1023 bytes of text. *)
Lemma store_t b hs : line_buf b -> traces (store_header b hs) (store_header_t b hs).
Proof.
  intros (_ & s & st & -> & Nn & He & Hl). unfold store_header, store_header_t. destruct (len hs <? HTTP_MAX_HEADERS); [|tr].
  destruct (in_dec ascii_dec ":"%char s) as [I|I].
  - apply first_cut_exists in I as (a & b & Hc). destruct (exists_trimmed a) as (n & Hn). destruct (exists_trimmed b) as (v & Hv).
    assert (Hf : field_of s (n, v)) by (exists a, b; auto).
    destruct (field_facts s (n, v) Nn Hf) as (N1 & N2 & L1 & L2 & E2). cbn [fst snd] in *.
    rewrite (split_once_cut s a b n v) by auto. cbn [bind].
    destruct (entry_cs n ltac:(lia)) as (r1 & ->). destruct (entry_cs v ltac:(lia)) as (r2 & ->).
    rewrite !cstr_cs by auto. cbn [bind]. tr.
  - destruct (exists_trimmed s) as (t & Ht). rewrite (split_once_none s t) by auto. cbn [bind]. tr.
Qed.
Lemma header_line_traces h : line_buf (hs_buf h) -> traces (header_line h) (header_line_t h).
Proof.
  intros Hb. unfold header_line, header_line_t. cbv zeta. apply traces_bind; [now apply store_t|]. intros hs ms _.
  do 3 (apply traces_step; intros ? ?). apply traces_step. intros [ip b1] _. tr.
Qed.
Definition readable (b : buf) : Prop := exists s, cstr b = Ok s.
Lemma strlen_readable b n : strlen b = Ok n -> readable b.
Proof. unfold strlen. intros H. apply bind_ok_inv in H as (s & H & _). exists s. exact H. Qed.
Lemma trim_readable b b' : trim b = Ok b' -> readable b'.
Proof.
  intros H. assert (R : readable b). { unfold trim in H. apply bind_ok_inv in H as (n & H & _). eapply strlen_readable; eauto. }
  destruct R as (s & Hs). apply cstr_inv in Hs as (Nn & rest & ->). destruct (exists_trimmed s) as (t & Ht).
  destruct (trim_str_eq s t rest) as (x & E & C); auto. rewrite E in H. injection H as <-. exists t. exact C.
Qed.
Lemma header_line_session h h' : readable (hs_session h) -> header_line h = Ok h' -> readable (hs_session h').
Proof.
  intros R H. unfold header_line in H. cbv zeta in H. apply bind_ok_inv in H as (hs & _ & H). apply bind_ok_inv in H as (ct & _ & H).
  apply bind_ok_inv in H as (bd & _ & H). apply bind_ok_inv in H as (cl & _ & H). apply bind_ok_inv in H as ((ip, b1) & _ & H).
  apply bind_ok_inv in H as (s1 & H1 & H). apply bind_ok_inv in H as (s2 & H2 & H). injection H as <-. cbn [hs_session].
  assert (R1 : readable s1).
  { unfold take_session in H1. apply bind_ok_inv in H1 as (m & _ & H1). destruct m; [|now injection H1 as <-].
    apply bind_ok_inv in H1 as (s & _ & H1). eapply trim_readable; eauto. }
  unfold take_cookie in H2. apply bind_ok_inv in H2 as (m & _ & H2). destruct m; [|now injection H2 as <-].
  apply bind_ok_inv in H2 as (c & _ & H2). destruct (ceq c NUL); [|now injection H2 as <-].
  apply bind_ok_inv in H2 as (s & Hs & H2). destruct (len s <? MAX_SESSION); [|now injection H2 as <-].
  apply cstr_inv in Hs as (Nn & _).
  destruct (Z_le_dec (len s + 1) (len s1)) as [G|G]; [|rewrite strcpy_oob in H2 by lia; discriminate].
  rewrite strcpy_0 in H2 by exact G. injection H2 as <-. exists s. now apply cstr_cs.
Qed.
Lemma header_loop_traces : forall fuel n h, line_buf (hs_buf h) -> traces (header_loop fuel n h) (header_loop_t fuel n h).
Proof.
  induction fuel as [|k IH]; intros n h Hb; cbn [header_loop header_loop_t]; (destruct (0 <? n); [|tr]); apply traces_step; intros e1 _;
    (destruct e1; [tr|]); apply traces_step; intros e2 _; (destruct e2; [tr|]);
    (apply traces_bind; [now apply header_line_traces|]); intros h1 ms Eh; apply traces_step; intros [[n' b'] s'] G; [tr|].
  assert (Hb' : line_buf b').
  { eapply get_line_buf; [|exact G]. clear - Hb Eh. unfold header_line in Eh. cbv zeta in Eh. apply bind_ok_inv in Eh as (hs & _ & H).
    apply bind_ok_inv in H as (ct & _ & H). apply bind_ok_inv in H as (bd & _ & H). apply bind_ok_inv in H as (cl & _ & H).
    apply bind_ok_inv in H as ((ip, b1) & H2 & H). apply bind_ok_inv in H as (s1 & _ & H). apply bind_ok_inv in H as (s2 & _ & H).
    injection H as <-. cbn [hs_buf]. apply take_ip_len in H2. destruct Hb as (Hb & _). congruence. }
  destruct (IH n' (mkH b' s' (hs_headers h1) (hs_content_type h1) (hs_boundary h1) (hs_length h1) (hs_ip h1) (hs_session h1)) Hb') as (ms' & E).
  rewrite E. destruct (header_loop _ _ _) as [h2|u]; cbn [bind]; tr.
Qed.
Lemma header_loop_session : forall fuel n h h', readable (hs_session h) -> header_loop fuel n h = Ok h' -> readable (hs_session h').
Proof.
  induction fuel as [|k IH]; intros n h h' R E; cbn [header_loop] in E; (destruct (0 <? n); [|injection E as <-; exact R]);
    apply bind_ok_inv in E as (e1 & _ & E); (destruct e1; [injection E as <-; exact R|]);
    apply bind_ok_inv in E as (e2 & _ & E); (destruct e2; [injection E as <-; exact R|]);
    apply bind_ok_inv in E as (h1 & E1 & E); apply bind_ok_inv in E as ([[n' b'] s'] & _ & E); [discriminate|].
  eapply IH; [|exact E]. cbn [hs_session]. eapply header_line_session; eauto.
Qed.

(** ** The whole request *)
Definition accept_rest_t (v : wsenv) (f : fs) (t1 : table) (r2 : api_request) (method url : str) (b : buf) (s1 : str) : outcome (result * list note) :=
  b1 <- write_at b 0 [Some "A"%char; Some NUL];;
  '(n, b2, s2) <- get_line s1 b1 1024;;
  '(h, ms2) <- header_loop_t (length s1) n (mkH b2 s2 [] None [] (-1) (r_ip r2) (calloc MAX_SESSION));;
  let r3 := set_session (set_ip (set_content_type (set_headers r2 (hs_headers h))
              (hs_content_type h)) (hs_ip h)) (hs_session h) in
  '(path, query) <- get_path_and_query_string url;;
  let r4 := set_query r3 query in
  api <- startswith (cs url) API_MOUNT;;
  if negb api then
    let r5 := set_path r4 path in
    if str_caseeqb method (L "GET") then
      '(r6, ms3) <- handle_static_routes_t v f r5;; Ok (finish TStatic r6 t1 f, ms2 ++ ms3)
    else
      r6 <- bad_request r5;; Ok (finish TNotGet r6 t1 f, ms2)
  else
    p <- cstr (from (cs path) (len API_MOUNT));;
    let r5 := set_path r4 p in
    '(calls, r6, f', ms3) <- handle_api_request_t v f (hs_stream h) r5 (hs_length h) (hs_boundary h);;
    Ok (finish (TApi calls) r6 t1 f', ms2 ++ ms3).

Ltac bcase := match goal with |- context [bind ?x _] => destruct x eqn:?; cbn [bind]; [|reflexivity] end.
Lemma accept_t_unfold v f t socket peer stream : accept_request_t v f t socket peer stream =
  (r0 <- new_request socket peer;;
   '(_, b, s1) <- get_line stream (calloc 1024) 1024;;
   line <- cstr b;;
   let m0 := (LOG_TRACE, L "IP: " ++ r_ip r0 ++ L ", Request: " ++ line) in
   '(rl, method, j) <- parse_request_line b;;
   let r1 := set_method (set_request_line r0 rl) method in
   ok_method <- startswithany (cs method) ALLOWED_HTTP_METHODS;;
   if negb ok_method then
     r2 <- bad_request r1;; Ok (finish TBadMethod r2 t f, [m0])
   else
   url <- parse_url b j;;
   let r2 := set_url r1 url in
   '(admitted, t1, ms1) <- connection_add_t (v_limits v) t socket (r_ip r2) url;;
   if negb admitted then
     r3 <- too_many_connections r2;; Ok (finish TTooMany r3 t1 f, m0 :: ms1)
   else '(res, ms) <- accept_rest_t v f t1 r2 method url b s1;; Ok (res, m0 :: ms1 ++ ms)).
Proof.
  unfold accept_request_t. cbv zeta.
  destruct (new_request socket peer) as [r0|]; cbn [bind]; [|reflexivity].
  destruct (get_line stream (calloc 1024) 1024) as [[[n b] s1]|]; cbn [bind]; [|reflexivity].
  destruct (cstr b) as [line|]; cbn [bind]; [|reflexivity].
  destruct (parse_request_line b) as [[[rl m] j]|]; cbn [bind]; [|reflexivity].
  destruct (startswithany (cs m) ALLOWED_HTTP_METHODS) as [ok|]; cbn [bind]; [|reflexivity].
  destruct (negb ok); [reflexivity|]. destruct (parse_url b j) as [url|]; cbn [bind]; [|reflexivity].
  destruct (connection_add_t _ _ _ _ _) as [[[adm t1] ms1]|]; cbn [bind]; [|reflexivity].
  destruct (negb adm); [reflexivity|]. unfold accept_rest_t. cbv zeta.
  destruct (write_at b 0 _) as [b1|]; cbn [bind]; [|reflexivity].
  destruct (get_line s1 b1 1024) as [[[n2 b2] s2]|]; cbn [bind]; [|reflexivity].
  destruct (header_loop_t _ _ _) as [[h ms2]|]; cbn [bind]; [|reflexivity].
  destruct (get_path_and_query_string url) as [[path query]|]; cbn [bind]; [|reflexivity].
  destruct (startswith (cs url) API_MOUNT) as [api|]; cbn [bind]; [|reflexivity].
  destruct (negb api).
  - destruct (str_caseeqb m (L "GET")).
    + destruct (handle_static_routes_t _ _ _) as [[r6 ms3]|]; cbn [bind]; reflexivity.
    + destruct (bad_request _); reflexivity.
  - destruct (cstr _); cbn [bind]; [|reflexivity]. destruct (handle_api_request_t _ _ _ _ _ _) as [[[[calls r6] f'] ms3]|]; cbn [bind]; reflexivity.
Qed.
Lemma accept_rest_traces v f t1 r2 m url b s1 : len b = 1024 -> traces (accept_rest v f t1 r2 m url b s1) (accept_rest_t v f t1 r2 m url b s1).
Proof.
  intros Lb. unfold accept_rest, accept_rest_t. cbv zeta. apply traces_step. intros b1 W. apply write_at_len in W.
  apply traces_step. intros [[n b2] s2] G. apply traces_bind.
  - apply header_loop_traces. cbn [hs_buf]. eapply get_line_buf; [|exact G]. unfold len in *. lia.
  - intros h ms Eh. apply header_loop_session in Eh; [|cbn [hs_session]; exists []; reflexivity]. destruct Eh as (ses & Eh).
    apply traces_step. intros [path query] _. apply traces_step. intros api _. destruct (negb api).
    + destruct (str_caseeqb m (L "GET")); [|tr]. apply traces_bind; [apply static_t|]. intros r6 ms3 _. tr.
    + apply traces_step. intros p _. apply traces_bind; [eapply api_t; cbn; exact Eh|]. intros [[calls r6] f'] ms3 _. tr.
Qed.
Lemma accept_traces v f t socket peer stream : traces (accept_request v f t socket peer stream) (accept_request_t v f t socket peer stream).
Proof.
  rewrite accept_unfold, accept_t_unfold. cbv zeta. apply traces_step. intros r0 _. apply traces_step. intros [[n b] s1] G.
  assert (Lb : line_buf b) by (eapply get_line_buf; [|exact G]; apply len_calloc; lia).
  pose proof Lb as (Lb' & s & st & Eb & Nn & _). eapply traces_extra; [rewrite Eb; now apply cstr_cs|].
  apply traces_step. intros [[rl m] j] _. apply traces_step. intros ok _. destruct (negb ok); [tr|].
  apply traces_step. intros url _. apply traces_bind; [apply add_t|]. intros [adm t1] ms1 _. destruct (negb adm); [tr|].
  destruct (accept_rest_traces v f t1 (set_url (set_method (set_request_line r0 rl) m) url) m url b s1 Lb') as (ms & E). rewrite E.
  destruct (accept_rest _ _ _ _ _ _ _ _); cbn [bind]; tr.
Qed.

(** ** The notes of a header section *)
Definition new_notes (fs fs' : list (str * str)) : list note := map field_note (skipn (length fs) (firstn 20 fs')).
Lemma new_none fs : new_notes fs fs = [].
Proof. unfold new_notes. rewrite skipn_all2; [reflexivity|]. rewrite firstn_length. lia. Qed.
Lemma new_trans fs a b : new_notes fs (fs ++ a) ++ new_notes (fs ++ a) (fs ++ a ++ b) = new_notes fs (fs ++ a ++ b).
Proof.
  unfold new_notes. rewrite <- map_app. f_equal. rewrite !skipn_firstn_comm, app_length.
  rewrite (app_assoc fs a b), !(skipn_app _ (fs ++ a)), !skipn_app.
  rewrite skipn_all. rewrite (skipn_all2 fs) by lia. cbn [app].
  replace (length fs + length a - length fs)%nat with (length a) by lia. rewrite skipn_all. cbn [app].
  rewrite app_length. replace (length fs - length fs)%nat with O by lia. replace (length fs - (length fs + length a))%nat with O by lia.
  replace (length fs + length a - (length fs + length a))%nat with O by lia. cbn [skipn app]. rewrite firstn_app. f_equal.
  f_equal. lia.
Qed.
Lemma tells_fields_more line fs fs' : tells_fields line fs fs' -> exists a, fs' = fs ++ a.
Proof. intros [(_ & ->)|(nv & _ & ->)]; [exists []; now rewrite app_nil_r|eauto]. Qed.
Lemma section_more s x x' after : section s x x' after -> exists a, td_fields x' = td_fields x ++ a.
Proof.
  induction 1 as [x|s l rest x|s l rest x x1 x' after _ _ _ _ T _ (a & IH)]; [exists []; now rewrite app_nil_r|exists []; now rewrite app_nil_r|].
  destruct T as (T & _). destruct (tells_fields_more _ _ _ T) as (c & E). rewrite E in IH. exists (c ++ a). now rewrite IH, <- app_assoc.
Qed.

Lemma store_header_t_eq line st fs fs' : no_nul line -> len line <= 1023 -> tells_fields line fs fs' ->
  store_header_t (cs line ++ st) (map stored (firstn 20 fs)) = Ok (map stored (firstn 20 fs'), new_notes fs fs').
Proof.
  intros Hn Hl H. unfold store_header_t. rewrite len_map, len_firstn. unfold HTTP_MAX_HEADERS.
  destruct H as [(Hc & ->)|(nv & Hf & ->)].
  - destruct (exists_trimmed line) as (t & Ht). rewrite (split_once_none line t) by auto. cbn [bind]. rewrite new_none.
    now destruct (_ <? 20).
  - unfold new_notes. destruct (Z.min (Z.of_nat 20) (len fs) <? 20) eqn:E.
    + destruct (field_facts line nv Hn Hf) as (N1 & N2 & L1 & L2 & E2).
      pose proof Hf as (a & b & Hcut & Ha & Hb). rewrite (split_once_cut line a b (fst nv) (snd nv)) by auto. cbn [bind].
      destruct (entry_cs (fst nv) ltac:(lia)) as (r1 & ->). destruct (entry_cs (snd nv) ltac:(lia)) as (r2 & ->).
      rewrite !cstr_cs by auto. cbn [bind].
      change HTTP_MAX_HEADER_NAME with (Z.of_nat 64). rewrite strncpy_filled by (auto; rewrite len_calloc; lia). cbn [bind].
      rewrite trim_fixed by auto. cbn [bind]. change HTTP_MAX_HEADER_VALUE with (Z.of_nat 256).
      rewrite strncpy_filled by (auto; rewrite len_calloc; lia). cbn [bind].
      assert (F : (length fs < 20)%nat) by (unfold len in E; lia).
      rewrite (firstn_all2 fs) by lia. rewrite firstn_all2 by (rewrite app_length; cbn; lia). rewrite map_app, skipn_app, skipn_all.
      replace (length fs - length fs)%nat with O by lia. destruct nv. reflexivity.
    + f_equal. rewrite firstn_app. assert (F : (20 <= length fs)%nat) by (unfold len in E; lia).
      replace (20 - length fs)%nat with O by lia. rewrite firstn_O, app_nil_r, skipn_all2 by (rewrite firstn_length; lia). reflexivity.
Qed.
Lemma header_line_t_from h h' hs ms : store_header_t (hs_buf h) (hs_headers h) = Ok (hs, ms) -> store_header (hs_buf h) (hs_headers h) = Ok hs ->
  header_line h = Ok h' -> header_line_t h = Ok (h', ms).
Proof.
  intros E1 E2 E. unfold header_line in E. unfold header_line_t. cbv zeta in *. rewrite E2 in E. rewrite E1. cbn [bind] in *.
  apply bind_ok_inv in E as (ct & -> & E). cbn [bind]. apply bind_ok_inv in E as (bd & -> & E). cbn [bind].
  apply bind_ok_inv in E as (cl & -> & E). cbn [bind]. apply bind_ok_inv in E as ((ip, b1) & -> & E). cbn [bind].
  apply bind_ok_inv in E as (s1 & -> & E). cbn [bind]. apply bind_ok_inv in E as (s2 & -> & E). cbn [bind]. injection E as <-. reflexivity.
Qed.
Lemma header_loop_t_eq s x x' after : section s x x' after -> forall fuel l b h n,
  get_line s b 1024 = Ok (n, hs_buf h, hs_stream h) -> line_in b l -> (length s <= fuel)%nat -> rep h x ->
  exists h', header_loop_t fuel n h = Ok (h', new_notes (td_fields x) (td_fields x')) /\ rep h' x' /\ hs_stream h' = after.
Proof.
  induction 1 as [x|s l0 rest x Hl Hb|s l0 rest x x1 x' after Hl Hne Hnb Hn T S IH]; intros fuel l b h n G Lb Hf R.
  - pose proof Lb as (st & _ & L1024). rewrite (get_line_eq 1024 [] [] []) in G; [|split; [reflexivity|split; [cbn; lia|right; split; [easy|auto]]]|cbn; lia].
    inversion G as [[G1 G2 G3]]. exists h. rewrite new_none. split; [destruct fuel; reflexivity|]. auto.
  - pose proof Lb as (st & _ & L1024). pose proof Hl as (_ & Hle & _).
    rewrite (get_line_eq 1024 _ _ _ _ Hl) in G by lia.
    assert (G1 : n = len l0) by congruence. assert (G2 : cs l0 ++ skipn (Datatypes.S (length l0)) b = hs_buf h) by congruence.
    assert (G3 : rest = hs_stream h) by congruence. subst n. clear G. exists h. split; [|auto].
    assert (Hn : no_nul l0) by (destruct Hb as [-> | ->]; apply no_nul_dec_b; reflexivity). rewrite new_none.
    destruct fuel; cbn [header_loop_t]; replace (0 <? len l0) with true by (destruct Hb as [-> | ->]; reflexivity);
      rewrite <- G2, !strcmp_lit by (auto; apply no_nul_dec_b; reflexivity); cbn [bind];
      destruct Hb as [-> | ->]; reflexivity.
  - pose proof Lb as (st & _ & L1024). pose proof Hl as (Es & Hle & _).
    rewrite (get_line_eq 1024 _ _ _ _ Hl) in G by lia.
    assert (G1 : n = len l0) by congruence. assert (G2 : cs l0 ++ skipn (Datatypes.S (length l0)) b = hs_buf h) by congruence.
    assert (G3 : rest = hs_stream h) by congruence. subst n. clear G.
    assert (P : 0 < len l0) by (destruct l0; [easy|rewrite len_cons; lens; lia]).
    destruct fuel as [|fuel]; [rewrite Es, app_length in Hf; unfold len in P; lia|].
    cbn [header_loop_t]. replace (0 <? len l0) with true by lia.
    pose proof (line_in_next b l l0 Lb ltac:(lia)) as L1. rewrite G2 in L1. destruct L1 as (st1 & E1 & L1').
    rewrite E1, !strcmp_lit by (auto; apply no_nul_dec_b; reflexivity). cbn [bind].
    assert (B1 : str_eqb [LF] l0 = false) by (apply str_eqb_neq; intros <-; apply Hnb; now left). rewrite B1.
    assert (B2 : str_eqb CRLF l0 = false) by (apply str_eqb_neq; intros <-; apply Hnb; now right). rewrite B2.
    destruct (header_line_eq h l0 x x1) as (h1 & l1 & E & Lh & R1 & St); auto; [exists st1; auto|].
    pose proof R as (Rh & _). pose proof T as (Tf & _).
    rewrite (header_line_t_from h h1 (map stored (firstn 20 (td_fields x1))) (new_notes (td_fields x) (td_fields x1)));
      [|rewrite E1, Rh; apply store_header_t_eq; auto; lia|rewrite E1, Rh; apply store_header_eq; auto; lia|exact E].
    cbn [bind]. rewrite St, <- G3. destruct (line_of_exists 1024 ltac:(lia) rest) as (l2 & r2 & Hl2).
    pose proof Lh as (st2 & _ & L2). pose proof Hl2 as (_ & Hle2 & _).
    pose proof (get_line_eq 1024 _ _ _ (hs_buf h1) Hl2 ltac:(lia)) as G'. rewrite G'. cbn [bind].
    destruct (IH fuel l1 (hs_buf h1) (mkH (cs l2 ++ skipn (Datatypes.S (length l2)) (hs_buf h1)) r2 (hs_headers h1) (hs_content_type h1)
        (hs_boundary h1) (hs_length h1) (hs_ip h1) (hs_session h1)) (len l2)) as (h' & E' & R' & A'); auto.
    + rewrite Es, app_length in Hf. unfold len in P. lia.
    + exists h'. rewrite E'. cbn [bind]. split; [|auto]. f_equal. f_equal.
      destruct (tells_fields_more _ _ _ Tf) as (a & Ea). destruct (section_more _ _ _ _ S) as (c & Ec). rewrite Ec, Ea, <- app_assoc. apply new_trans.
Qed.

(** ** Refused connections *)
Lemma add_admitted rules t s ip path t1 : connection_add rules t s ip path = Ok (true, t1) -> connection_add_t rules t s ip path = Ok (true, t1, []).
Proof.
  assert (V : forall rs v ms, connection_validate_t rs t ip path = Ok (v, ms) -> v = true -> ms = []).
  { induction rs as [|r rs IH]; cbn [connection_validate_t]; intros v ms E ->; [now injection E|]. destruct (l_path r); [now injection E|].
    apply bind_ok_inv in E as (p & _ & E). destruct p; [|now apply (IH true ms)]. apply bind_ok_inv in E as ([tot byip] & _ & E).
    destruct (l_max r <? tot); [discriminate|]. destruct (l_max_ip r <? byip); [discriminate|]. now apply (IH true ms). }
  intros E. unfold connection_add in E. unfold connection_add_t. destruct (validate_t rules t ip path) as (ms & Ev).
  apply bind_ok_inv in E as (v & Ec & E). rewrite Ec in Ev. cbn [bind] in Ev. rewrite Ev. cbn [bind]. destruct v; [|discriminate].
  rewrite E. cbn [bind]. rewrite (V _ _ _ Ev eq_refl). reflexivity.
Qed.
Lemma refused_notes rules t s ip path t1 : Forall (fun r => no_nul (l_path r)) rules -> Forall ok_path (occupied t) -> no_nul path ->
  connection_add rules t s ip path = Ok (false, t1) -> exists m, connection_add_t rules t s ip path = Ok (false, t1, [m]) /\ refusal rules t ip path m.
Proof.
  intros Hr Ht Hp E.
  assert (C1 : forall p, no_nul p -> forall n, counts (on p) (occupied t) n <-> n = len (filter (fun c => onb p (c_path c)) (occupied t))).
  { intros p Np n. apply counts_filter. intros c Hc. apply onb_iff; auto. rewrite Forall_forall in Ht. now apply Ht. }
  assert (C2 : forall p, no_nul p -> forall n, counts (on_from p ip) (occupied t) n
             <-> n = len (filter (fun c => onb p (c_path c) && str_eqb ip (c_ip c)) (occupied t))).
  { intros p Np n. apply counts_filter. intros c Hc. rewrite andb_true_iff, str_eqb_eq.
    rewrite onb_iff; auto; [|rewrite Forall_forall in Ht; now apply Ht]. unfold on_from, on. split; intros [A B]; auto. }
  assert (V : forall rs, Forall (fun r => no_nul (l_path r)) rs -> connection_validate rs t ip path = Ok false ->
            exists m, connection_validate_t rs t ip path = Ok (false, [m]) /\ refusal rs t ip path m
              /\ m <> debug (L "WS_MAX_CONNECTIONS reached")).
  { clear E Hr rules. induction rs as [|r rs IH]; intros Hr E; cbn [connection_validate connection_validate_t] in *; [discriminate|].
    inversion Hr as [|? ? Hr1 Hr2]; subst. destruct (l_path r) as [|x y] eqn:El; [discriminate|]. rewrite <- El in *.
    rewrite startswith_onb in * by auto. cbn [bind] in *.
    assert (Ne : l_path r <> []) by (rewrite El; discriminate). clear El.
    assert (Push : ~ over_limit [r] (occupied t) ip path -> connection_validate rs t ip path = Ok false ->
       exists m, connection_validate_t rs t ip path = Ok (false, [m]) /\ refusal (r :: rs) t ip path m /\ m <> debug (L "WS_MAX_CONNECTIONS reached")).
    { intros No E'. destruct (IH Hr2 E') as (m & Em & Hm & Hne). exists m. split; [exact Em|]. split; [|exact Hne].
      inversion Hm as [a r0 b n Er Hp0 Ha Hc Hn Hlt|a r0 b n k Er Hp0 Ha Hc Hn Hlt Hk Hlt2|]; subst.
      - apply (rf_total _ _ _ _ (r :: a) r0 b n); auto; [constructor; auto|]. intros r' [<-|I]; auto.
      - apply (rf_address _ _ _ _ (r :: a) r0 b n k); auto; [constructor; auto|]. intros r' [<-|I]; auto.
      - now elim Hne. }
    assert (One : forall n k, n = len (filter (fun c => onb (l_path r) (c_path c)) (occupied t)) -> k = len (filter (fun c => onb (l_path r) (c_path c) && str_eqb ip (c_ip c)) (occupied t)) ->
       n <= l_max r -> k <= l_max_ip r -> ~ over_limit [r] (occupied t) ip path).
    { intros n k -> -> Hn Hk (r' & n' & k' & I & _ & Cn & Ck & D).
      assert (r' = r). { inversion I as [? ? A|? ? ? ? I']; subst; [reflexivity|inversion I']. } subst r'.
      apply C1 in Cn; auto. apply C2 in Ck; auto. subst. lia. }
    destruct (onb (l_path r) path) eqn:Eo.
    - rewrite stats_eq in * by auto. cbn [bind] in *. rewrite !Z.add_0_l in *.
      destruct (l_max r <? _) eqn:E1 in E.
      + rewrite E1. eexists. split; [reflexivity|]. split; [|discriminate]. eapply (rf_total _ _ _ _ [] r rs).
        * reflexivity.
        * cbn [app]. constructor; auto.
        * intros r' [].
        * now apply onb_iff.
        * apply C1; auto.
        * lia.
      + rewrite E1. destruct (l_max_ip r <? _) eqn:E2 in E.
        * rewrite E2. eexists. split; [reflexivity|]. split; [|intros D; discriminate D]. eapply (rf_address _ _ _ _ [] r rs).
          -- reflexivity.
          -- cbn [app]. constructor; auto.
          -- intros r' [].
          -- now apply onb_iff.
          -- apply C1; auto.
          -- lia.
          -- apply C2; auto.
          -- lia.
        * rewrite E2. apply Push; [|exact E]. eapply One; [reflexivity|reflexivity|lia|lia].
    - apply Push; [|exact E]. intros (r' & n' & k' & I & Pr & _).
      assert (r' = r). { inversion I as [? ? A|? ? ? ? I']; subst; [reflexivity|inversion I']. } subst r'.
      apply onb_iff in Pr; auto. congruence. }
  unfold connection_add in E. unfold connection_add_t. apply bind_ok_inv in E as (v & Ev & E). destruct v.
  - destruct (validate_t rules t ip path) as (ms & Et). rewrite Ev in Et. cbn [bind] in Et. rewrite Et. cbn [bind]. rewrite E. cbn [bind].
    pose proof Ev as Ev'. rewrite validate_eq in Ev' by auto.
    assert (Em : ms = []).
    { assert (A : exists t2, connection_add rules t s ip path = Ok (false, t2)) by (unfold connection_add; rewrite Ev; cbn [bind]; eauto).
      clear - Et. revert ms Et. induction rules as [|r rs IH]; cbn [connection_validate_t]; intros ms Et; [now injection Et|].
      destruct (l_path r); [now injection Et|].
      apply bind_ok_inv in Et as (p & _ & Et). destruct p; [|now apply IH]. apply bind_ok_inv in Et as ([tot byip] & _ & Et).
      destruct (l_max r <? tot); [discriminate|]. destruct (l_max_ip r <? byip); [discriminate|]. now apply IH. }
    rewrite Em. cbn [app]. eexists. split; [reflexivity|]. apply rf_full.
    + intros O. apply overb_iff in O; auto. rewrite O in Ev'. discriminate.
    + clear - E. revert t1 E. induction t as [|c t IH]; intros t1 E; constructor; cbn [claim_slot] in E.
      * destruct (c_socket c =? 0) eqn:Z0; [|lia]. apply bind_ok_inv in E as (? & _ & E). apply bind_ok_inv in E as (? & _ & E). discriminate.
      * destruct (c_socket c =? 0); [apply bind_ok_inv in E as (? & _ & E); apply bind_ok_inv in E as (? & _ & E); discriminate|].
        apply bind_ok_inv in E as ([r t''] & E' & E). injection E as -> _. eapply IH; eauto.
  - destruct (V rules Hr Ev) as (m & Em & Hm & _). exists m. rewrite Em. cbn [bind]. injection E as <-. auto.
Qed.

(** ** The parts of a request *)
Lemma accept_start_t v f t socket peer stream m u line s1 : asks stream m u line s1 -> len peer <= 23 ->
  exists b, line_in b line /\
  (~ allowed m -> accept_request_t v f t socket peer stream
     = (r2 <- bad_request (req1 socket peer (firstn (length line - 2) line) m);; Ok (finish TBadMethod r2 t f, [request_note peer line])))
  /\ (allowed m -> accept_request_t v f t socket peer stream =
     ('(admitted, t1, ms1) <- connection_add_t (v_limits v) t socket peer (firstn 254 u);;
      if negb admitted then r3 <- too_many_connections (req2 socket peer (firstn (length line - 2) line) m (firstn 254 u));;
                            Ok (finish TTooMany r3 t1 f, request_note peer line :: ms1)
      else '(res, ms) <- accept_rest_t v f t1 (req2 socket peer (firstn (length line - 2) line) m (firstn 254 u)) m (firstn 254 u) b s1;;
           Ok (res, request_note peer line :: ms1 ++ ms))).
Proof.
  intros A Hp. destruct (asks_parse _ _ _ _ _ A) as (b & G & Lb & P & U). exists b. split; [exact Lb|].
  pose proof A as (_ & Nl & (_ & Nm & _) & _). destruct (methods_eq m Nm) as (r & E & Hr).
  assert (Cb : cstr b = Ok line) by (destruct Lb as (st & -> & _); now apply cstr_cs).
  split; intros H; rewrite accept_t_unfold; unfold new_request; rewrite fits_ok by lia; cbn [bind]; rewrite G; cbn [bind]; rewrite Cb; cbn [bind]; rewrite P; cbn [bind];
    rewrite E; cbn [bind].
  - destruct r; [exfalso; apply H, Hr; reflexivity|]. reflexivity.
  - destruct r; [|apply Hr in H; discriminate]. cbn [negb]. rewrite U. reflexivity.
Qed.

Lemma accept_rest_start_t v f t1 socket peer rl m url b line s1 x after p q : no_nul m -> no_nul url -> len url <= 254 ->
  line_in b line -> section s1 (nothing_told peer) x after -> url_parts url p q ->
  exists r : str -> api_request,
    (forall p, r_path (r p) = p /\ r_ip (r p) = td_ip x /\ r_method (r p) = m /\ r_url (r p) = url /\ r_query (r p) = q /\ cstr (r_session (r p)) = Ok (td_session x)
       /\ r_form (r p) = cs []) /\
    (~ api_url url -> ~ is_get m -> accept_rest_t v f t1 (req2 socket peer rl m url) m url b s1
       = (r6 <- bad_request (r p);; Ok (finish TNotGet r6 t1 f, map field_note (firstn 20 (td_fields x)))))
    /\ (~ api_url url -> is_get m -> accept_rest_t v f t1 (req2 socket peer rl m url) m url b s1
       = ('(r6, ms) <- handle_static_routes_t v f (r p);; Ok (finish TStatic r6 t1 f, map field_note (firstn 20 (td_fields x)) ++ ms)))
    /\ (forall h p', p = h ++ p' -> ci_equal (L "/api") h -> api_url url ->
        accept_rest_t v f t1 (req2 socket peer rl m url) m url b s1
       = ('(calls, r6, f', ms) <- handle_api_request_t v f after (r p') (td_length x) (td_boundary x);;
          Ok (finish (TApi calls) r6 t1 f', map field_note (firstn 20 (td_fields x)) ++ ms))).
Proof.
  intros Nm Nu Lu Lb Hs Hp. destruct (line_in_A _ _ Lb) as (b1 & W & Lb1).
  destruct (line_of_exists 1024 ltac:(lia) s1) as (l & rest & Hl). pose proof Hl as (_ & Hle & _).
  assert (L1024 : len b1 = 1024) by (destruct Lb1 as (st & _ & ?); auto).
  pose proof (get_line_eq 1024 s1 l rest b1 Hl ltac:(lia)) as G.
  destruct (header_loop_t_eq s1 _ x after Hs (length s1) (L "A") b1
    (mkH (cs l ++ skipn (S (length l)) b1) rest [] None [] (-1) peer (calloc 64)) (len l) G) as (h & E & R & Aft); auto.
  { split; [reflexivity|]. split; [constructor|]. repeat (split; [reflexivity|]). exists (calloc 63).
    split; [reflexivity|]. split; [constructor|]. reflexivity. }
  pose proof (rep_stores _ _ R) as (S1 & S2 & S3 & S4 & S5 & S6 & S7 & S8).
  exists (fun p => set_path (set_query (set_session (set_ip (set_content_type (set_headers (req2 socket peer rl m url) (hs_headers h))
              (hs_content_type h)) (hs_ip h)) (hs_session h)) q) p).
  split.
  { intros p0. split; [reflexivity|]. split; [exact S6|]. repeat (split; [reflexivity|]). split; [exact S7|reflexivity]. }
  destruct (api_eq url Nu) as (api & Ea & Ha). change (new_notes (td_fields (nothing_told peer)) (td_fields x)) with (map field_note (firstn 20 (td_fields x))) in E.
  assert (C : accept_rest_t v f t1 (req2 socket peer rl m url) m url b s1 =
    if negb api then
      if str_caseeqb m (L "GET") then
        '(r6, ms) <- handle_static_routes_t v f (set_path (set_query (set_session (set_ip (set_content_type (set_headers (req2 socket peer rl m url) (hs_headers h))
              (hs_content_type h)) (hs_ip h)) (hs_session h)) q) p);; Ok (finish TStatic r6 t1 f, map field_note (firstn 20 (td_fields x)) ++ ms)
      else r6 <- bad_request (set_path (set_query (set_session (set_ip (set_content_type (set_headers (req2 socket peer rl m url) (hs_headers h))
              (hs_content_type h)) (hs_ip h)) (hs_session h)) q) p);; Ok (finish TNotGet r6 t1 f, map field_note (firstn 20 (td_fields x)))
    else p <- cstr (from (cs p) (len API_MOUNT));;
      '(calls, r6, f', ms) <- handle_api_request_t v f (hs_stream h) (set_path (set_query (set_session (set_ip (set_content_type (set_headers (req2 socket peer rl m url) (hs_headers h))
              (hs_content_type h)) (hs_ip h)) (hs_session h)) q) p) (hs_length h) (hs_boundary h);;
      Ok (finish (TApi calls) r6 t1 f', map field_note (firstn 20 (td_fields x)) ++ ms)).
  { unfold accept_rest_t. rewrite W. cbn [bind]. rewrite G. cbn [bind].
    change (r_ip (req2 socket peer rl m url)) with peer. change MAX_SESSION with 64. rewrite E. cbn [bind].
    rewrite (url_parts_eq url p q) by auto. cbn [bind]. rewrite Ea. reflexivity. }
  split; [|split].
  - intros H1 H2. rewrite C. destruct api; [exfalso; apply H1, Ha; reflexivity|]. cbn [negb].
    destruct (str_caseeqb m (L "GET")) eqn:Eg; [exfalso; apply H2; now apply caseeqb_ci|reflexivity].
  - intros H1 H2. rewrite C. destruct api; [exfalso; apply H1, Ha; reflexivity|]. cbn [negb].
    apply caseeqb_ci in H2. now rewrite H2.
  - intros h0 p' Ep Eh H1. rewrite C. destruct api; [|apply Ha in H1; discriminate]. cbn [negb].
    subst p. change (len API_MOUNT) with (Z.of_nat 4). rewrite from_cs_skip by (apply Forall2_length in Eh; now rewrite <- Eh).
    pose proof (url_parts_no_nul _ _ _ Nu Hp) as Np. apply no_nul_app in Np as [_ Np].
    rewrite cstr_cs0 by auto. cbn [bind]. rewrite Aft, S4, S5. reflexivity.
Qed.

(** Static files. *)
Definition static_path (v : wsenv) (p : str) : outcome str :=
  pathlen <- strlen (v_stk v);;
  if str_eqb p (L "/") || str_eqb p (L "/index.html") then Ok (v_index v)
  else if str_eqb p (L "/favicon.ico") then Ok (v_favicon v)
  else c <- rd (v_stk v) (pathlen - 1);; if ceq c "/" then fits 1024 (p ++ L "index.html") else Ok p.
Lemma a_file_iff f name : a_file f name <-> is_file f name = true.
Proof. unfold a_file, is_file. destruct (f name) as [[c|]|]; split; intros H; try discriminate H; try (destruct H as (c' & H); discriminate H); eauto. Qed.
Lemma direct_t_inv f r name st r' ms : direct_file_t f r name = Ok (st, r', ms) ->
  (a_file f name /\ ms = [] /\ st = 0) \/ (~ a_file f name /\ ms = [not_found name] /\ st = -1 /\ r' = r).
Proof.
  intros E. unfold direct_file_t in E. apply bind_ok_inv in E as ([st0 r0] & E1 & E). injection E as -> -> <-. rewrite a_file_iff.
  unfold direct_file in E1. destruct (is_file f name); cbn [negb] in E1.
  - left. split; [reflexivity|]. split; [reflexivity|]. apply bind_ok_inv in E1 as ([l1 r1] & _ & E1). apply bind_ok_inv in E1 as ([l2 r2] & _ & E1).
    apply bind_ok_inv in E1 as (l & _ & E1). apply bind_ok_inv in E1 as (r4 & _ & E1). congruence.
  - right. split; [easy|]. split; [reflexivity|]. split; congruence.
Qed.
Lemma static_notes_of v f r r' ms : handle_static_routes_t v f r = Ok (r', ms) ->
  exists p2 ms', static_path v (r_path r) = Ok p2 /\ ms = static_notes v (r_ip r) (r_path r) p2 ++ ms'
    /\ looked_for f (v_static_root v ++ L "/" ++ p2) (v_static_root v ++ L "/" ++ v_index v) ms'.
Proof.
  intros E. unfold handle_static_routes_t in E. apply bind_ok_inv in E as (pl & Ep & E). apply bind_ok_inv in E as (p2 & Ek & E).
  apply bind_ok_inv in E as (file & Ef & E). apply fits_inv in Ef as [-> _]. apply bind_ok_inv in E as ([[st r2] ms1] & Ed & E).
  assert (K : static_path v (r_path r) = Ok p2) by (unfold static_path; rewrite Ep; exact Ek).
  destruct (direct_t_inv _ _ _ _ _ _ Ed) as [(H1 & -> & ->)|(H1 & -> & -> & _)].
  - change (0 <? 0) with false in E. cbv iota in E. exists p2, []. split; [exact K|]. split; [injection E as _ <-; reflexivity|now constructor].
  - change (-1 <? 0) with true in E. cbv iota in E. apply bind_ok_inv in E as (file' & Ef & E). apply fits_inv in Ef as [-> _].
    apply bind_ok_inv in E as ([[st' r3] ms2] & Ed' & E). exists p2. eexists. split; [exact K|]. split; [injection E as _ <-; reflexivity|].
    destruct (direct_t_inv _ _ _ _ _ _ Ed') as [(H2 & -> & _)|(H2 & -> & _)]; now constructor.
Qed.
Lemma static_path_target v junk p p2 : cstr (v_stk v) = Ok junk -> static_path v p = Ok p2 -> static_target v junk p p2.
Proof.
  intros Hj E. unfold static_path, strlen in E. rewrite Hj in E. cbn [bind] in E.
  destruct (str_eqb_spec p (L "/")) as [->|N1]; [injection E as <-; constructor; now left|].
  destruct (str_eqb_spec p (L "/index.html")) as [->|N2]; [injection E as <-; constructor; right; now left|]. cbn [orb] in E.
  destruct (str_eqb_spec p (L "/favicon.ico")) as [->|N3]; [injection E as <-; constructor|].
  assert (N : ~ In p [L "/"; L "/index.html"; L "/favicon.ico"]) by (intros [H|[H|[H|[]]]]; congruence).
  destruct (cstr_inv _ _ Hj) as (_ & rr & Ej). destruct junk as [|c j _] using rev_ind.
  { exfalso. change (len (@nil ascii) - 1) with (-1) in E. unfold rd in E. cbn in E. discriminate E. }
  assert (R : rd (v_stk v) (len (j ++ [c]) - 1) = Ok c).
  { rewrite Ej, cs_app. replace (len (j ++ [c]) - 1) with (len (map (@Some ascii) j)) by (rewrite len_map; llia).
    rewrite <- app_assoc. now apply rd_at. }
  rewrite R in E. cbn [bind] in E. destruct (ceq c "/") eqn:Ec.
  - apply ceq_true in Ec. subst c. apply fits_inv in E as [-> _]. now apply (st_slash _ _ p j).
  - injection E as <-. apply (st_plain _ _ p j c); auto. intros ->. now rewrite ceq_refl in Ec.
Qed.

(** Multipart forms. *)
Lemma part_notes e ip f tf td n tf' f' ms : part_parse_t e ip f tf td n = Ok (tf', f', ms) -> Forall (form_note ip) ms.
Proof.
  intros E. unfold part_parse_t in E. cbv zeta in E. apply bind_ok_inv in E as (a & _ & E). apply bind_ok_inv in E as (st & _ & E).
  destruct (st <? 1); [injection E as _ _ <-; repeat constructor|]. apply bind_ok_inv in E as (m & _ & E).
  destruct (m <=? 0); [injection E as _ _ <-; constructor|]. do 7 (apply bind_ok_inv in E as (? & _ & E)). apply bind_ok_inv in E as (sf & _ & E).
  match type of E with (if ?c then _ else _) = _ => destruct c end; [|injection E as _ _ <-; constructor].
  destruct (0 <? sf); [|apply bind_ok_inv in E as (? & _ & E); apply bind_ok_inv in E as (? & _ & E); apply bind_ok_inv in E as (? & _ & E); injection E as _ _ <-; constructor].
  unfold save_tmp_file_t in E. cbv zeta in E. do 6 (apply bind_ok_inv in E as (? & _ & E)). apply bind_ok_inv in E as (tmpfile & _ & E).
  apply bind_ok_inv in E as (path & Ep & E). apply fits_inv in Ep as [-> _]. apply bind_ok_inv in E as ([f2 ms'] & Ew & E). apply bind_ok_inv in E as (t & _ & E).
  injection E as _ _ <-. constructor; [constructor|]. constructor; [constructor|]. apply Forall_app. split.
  - destruct (is_dir f FILE_DOWNLOAD_TMP_DIR); repeat constructor.
  - unfold write_file_t in Ew. apply bind_ok_inv in Ew as (n0 & _ & Ew). apply bind_ok_inv in Ew as (f3 & _ & Ew). injection Ew as _ <-.
    constructor; [constructor|]. match goal with |- Forall _ (if ?c then _ else _) => destruct c end; constructor; [|constructor].
    exact (fn_unwritable ip tmpfile).
Qed.
Lemma loop_notes e ip form b cl : forall fuel f tp tf ptr tf' f' ms,
  multipart_loop_t fuel e ip f form tp tf b cl ptr = Ok (tf', f', ms) -> Forall (form_note ip) ms.
Proof.
  induction fuel as [|k IH]; intros f tp tf ptr tf' f' ms E; cbn [multipart_loop_t] in E; cbv zeta in E;
    (destruct (ptr <? cl); [|injection E as _ _ <-; constructor]);
    apply bind_ok_inv in E as (ps & _ & E); (destruct (ps <? 0); [injection E as _ _ <-; constructor|]);
    apply bind_ok_inv in E as (pe & _ & E); (destruct (pe <? 0); [injection E as _ _ <-; constructor|]);
    apply bind_ok_inv in E as (tp1 & _ & E); apply bind_ok_inv in E as ([[tf1 f1] ms1] & Ep & E); apply bind_ok_inv in E as (tp2 & _ & E).
  - discriminate E.
  - apply bind_ok_inv in E as ([[tf2 f2] ms2] & El & E). injection E as _ _ <-. apply Forall_app. split; [eapply part_notes, Ep|eapply IH, El].
Qed.
Lemma multipart_notes e ip f form b n form' f' ms : multipart_parse_t e ip f form b n = Ok (form', f', ms) -> Forall (form_note ip) ms.
Proof.
  intros E. unfold multipart_parse_t in E. apply bind_ok_inv in E as ([[tf f1] ms1] & El & E). apply loop_notes in El.
  apply bind_ok_inv in E as (s & _ & E). apply bind_ok_inv in E as (fm & _ & E). now injection E as _ _ <-.
Qed.

(** Routing. *)
Lemma route_loop_t_none t m r : live t -> none_selected t m -> route_loop_t t m r = Ok (r, None, None, []).
Proof.
  intros Hl Hn. induction t as [|rt t IH]; [reflexivity|]. inv Hl. inv Hn. cbn [route_loop_t]. rewrite H1. cbn [negb].
  unfold matches in H3. destruct (rt_type rt).
  - rewrite (proj2 (str_eqb_neq _ _)) by auto. auto.
  - destruct (str_eqb_spec (rt_prefix rt) m) as [E|N].
    + destruct (strstr m (rt_prefix rt)); auto.
    + destruct (strstr m (rt_prefix rt)) as [n|] eqn:S; auto. exfalso. apply H3. split; auto.
      apply strstr_substring. eauto.
Qed.
Lemma route_loop_t_skip a t m r : live a -> none_selected a m -> route_loop_t (a ++ t) m r = route_loop_t t m r.
Proof.
  intros Hl Hn. induction a as [|rt a IH]; [reflexivity|]. inv Hl. inv Hn. cbn [app route_loop_t]. rewrite H1. cbn [negb].
  unfold matches in H3. destruct (rt_type rt).
  - rewrite (proj2 (str_eqb_neq _ _)) by auto. auto.
  - destruct (str_eqb_spec (rt_prefix rt) m) as [E|N].
    + destruct (strstr m (rt_prefix rt)); auto.
    + destruct (strstr m (rt_prefix rt)) as [n|] eqn:S; auto. exfalso. apply H3. split; auto.
      apply strstr_substring. eauto.
Qed.
Lemma route_loop_t_selected t m r rt : live t -> selected t m rt ->
  route_loop_t t m r = (r1 <- step r rt m;; Ok (r1, rt_handler rt, rt_filter rt, param_note rt m)).
Proof.
  intros Hl (a & b & -> & Hm & Hn). apply Forall_app in Hl as [La Lb]. rewrite route_loop_t_skip by auto.
  inv Lb. cbn [route_loop_t]. rewrite H1. cbn [negb]. unfold matches in Hm. unfold step, param_note. destruct (rt_type rt).
  - subst m. now rewrite str_eqb_refl.
  - destruct Hm as [S N]. rewrite (proj2 (str_eqb_neq _ _)) by auto. apply strstr_substring in S as [n ->].
    destruct (router_extract_param m (rt_prefix rt) (rt_param rt)); [|reflexivity]. cbn [bind].
    destruct (strlen (r_form r)); [|reflexivity]. cbn [bind].
    match goal with |- context [bind ?x _] => destruct x end; reflexivity.
Qed.
Lemma step_same r rt m r1 : step r rt m = Ok r1 -> r_method r1 = r_method r /\ r_path r1 = r_path r /\ r_ip r1 = r_ip r /\ r_url r1 = r_url r.
Proof.
  unfold step. destruct (rt_type rt); intros E; [injection E as <-; auto|].
  repeat (apply bind_ok_inv in E as (? & _ & E)). injection E as <-. repeat split.
Qed.
Lemma router_notes a t r calls r' ms : live t -> router_handle_request_t a t r = Ok (calls, r', ms) ->
  routed t (r_method r) (r_url r) (r_path r) (r_ip r) ms.
Proof.
  intros Hl E. unfold router_handle_request_t in E. cbv zeta in E. apply bind_ok_inv in E as (mt & Em & E). apply fits_inv in Em as [-> _].
  destruct (selected_or_none t (r_method r ++ L ":" ++ r_path r)) as [(rt & Hs)|Hn].
  - rewrite (route_loop_t_selected _ _ _ rt) in E by auto. apply bind_ok_inv in E as ([[[r1 h] fl] ms1] & E1 & E).
    apply bind_ok_inv in E1 as (r1' & Es & E1). apply step_same in Es as (Q1 & Q2 & Q3 & Q4).
    assert (r1' = r1 /\ rt_handler rt = h /\ rt_filter rt = fl /\ param_note rt (r_method r ++ L ":" ++ r_path r) = ms1) as (-> & H1 & _ & <-) by (repeat split; congruence).
    clear E1. destruct h as [h|].
    + assert (Ems : ms = debug (L "Router handle request " ++ r_method r ++ L ":" ++ r_path r) :: param_note rt (r_method r ++ L ":" ++ r_path r)).
      { destruct fl as [fl|]; [|injection E as _ _ <-; reflexivity]. destruct (on_filter a fl r1) as [r2 pass]. destruct pass; injection E as _ _ <-; reflexivity. }
      rewrite Ems. eapply ro_found; eauto.
    + apply bind_ok_inv in E as (r2 & _ & E). injection E as _ _ <-. rewrite Q1, Q2, Q3, Q4. eapply ro_no_handler; eauto.
  - rewrite route_loop_t_none in E by auto. cbn [bind] in E. apply bind_ok_inv in E as (r2 & _ & E). injection E as _ _ <-. now constructor.
Qed.

(** API requests. *)
Definition form_step (v : wsenv) (f : fs) (ip after : str) (n : Z) (bnd : str) : outcome (option buf * fs * list note) :=
  if 0 <? n then
    let form := map Some (fst (read_body (Z.to_nat n) after NUL)) ++ [Some NUL] in
    if 2 <=? len bnd then '(form', f', ms) <- multipart_parse_t (v_mp v) ip f form bnd n;; Ok (Some form', f', ms)
    else Ok (Some form, f, [])
  else Ok (None, f, []).
Lemma api_notes_of v f after r n bnd calls r' f' ms ses : live (v_routes v) -> cstr (r_session r) = Ok ses ->
  handle_api_request_t v f after r n bnd = Ok (calls, r', f', ms) ->
  exists form mp rn, form_step v f (r_ip r) after n bnd = Ok (form, f', mp)
    /\ ms = debug (L "IP:" ++ r_ip r ++ L ", URL:" ++ r_url r ++ L ", METHOD:" ++ r_method r ++ L ", PATH:" ++ r_path r ++ L ", SESSION:" ++ ses ++ L " ")
       :: (if list_eq_dec ascii_dec (r_query r) [] then [] else [debug (L "IP: " ++ r_ip r ++ L " PARAMETERS: " ++ r_query r)]) ++ mp ++ rn
    /\ routed (v_routes v) (r_method r) (r_url r) (r_path r) (r_ip r) rn.
Proof.
  intros Hl Hs E. unfold handle_api_request_t in E. cbv zeta in E. rewrite Hs in E. cbn [bind] in E.
  apply bind_ok_inv in E as ([[r1 f1] mp] & E1 & E). apply bind_ok_inv in E as ([[calls0 r2] rn] & E2 & E). injection E as -> -> -> <-.
  apply router_notes in E2; auto.
  assert (K : exists form, form_step v f (r_ip r) after n bnd = Ok (form, f', mp) /\ r1 = match form with Some b => set_form r b | None => r end).
  { unfold form_step. cbv zeta. destruct (0 <? n); [|exists None; split; congruence]. destruct (2 <=? len bnd); [|eexists (Some _); split; [injection E1 as <- <- <-; reflexivity|congruence]].
    apply bind_ok_inv in E1 as ([[form' f2] ms2] & -> & E1). injection E1 as <- <- <-. cbn [bind]. exists (Some form'). auto. }
  destruct K as (form & K1 & K2). exists form, mp, rn. split; [exact K1|]. split.
  - destruct (r_query r) as [|c q]; [reflexivity|]. now destruct (list_eq_dec ascii_dec (c :: q) []).
  - destruct form; subst r1; exact E2.
Qed.

(** ** Loud messages *)
Definition level_ok (m : note) : Prop := 0 <= fst m <= 4.
Definition quiet (m : note) : Prop := 0 <= fst m < 2.
Definition kept (root : str) (m : note) : Prop := quiet m \/ loud_note root m.
Lemma quiet_kept root ms : Forall quiet ms -> Forall (kept root) ms.
Proof. intros H. eapply Forall_impl; [|exact H]. intros m Hm. now left. Qed.
Ltac qt := repeat match goal with |- Forall _ (_ :: _) => apply Forall_cons | |- Forall _ [] => apply Forall_nil | |- quiet _ => split; [discriminate|reflexivity] end.
Lemma add_quiet rules t s ip path b t1 ms : connection_add_t rules t s ip path = Ok (b, t1, ms) -> Forall quiet ms.
Proof.
  assert (V : forall rs v ms, connection_validate_t rs t ip path = Ok (v, ms) -> Forall quiet ms).
  { induction rs as [|r rs IH]; cbn [connection_validate_t]; intros v ms0 E; [injection E as _ <-; constructor|]. destruct (l_path r); [injection E as _ <-; constructor|].
    apply bind_ok_inv in E as (p & _ & E). destruct p; [|now apply (IH v ms0)]. apply bind_ok_inv in E as ([tot byip] & _ & E).
    destruct (l_max r <? tot); [injection E as _ <-; qt|]. destruct (l_max_ip r <? byip); [injection E as _ <-; qt|]. now apply (IH v ms0). }
  intros E. unfold connection_add_t in E. apply bind_ok_inv in E as ([v ms0] & Ev & E). apply V in Ev. destruct v; [|injection E as _ _ <-; exact Ev].
  apply bind_ok_inv in E as ([r t'] & _ & E). injection E as _ _ <-. destruct r; [exact Ev|]. apply Forall_app. split; [exact Ev|qt].
Qed.
Lemma header_line_quiet h h' ms : header_line_t h = Ok (h', ms) -> Forall quiet ms.
Proof.
  intros E. unfold header_line_t in E. cbv zeta in E. apply bind_ok_inv in E as ([hs ms0] & E0 & E). do 3 (apply bind_ok_inv in E as (? & _ & E)).
  apply bind_ok_inv in E as ([ip b1] & _ & E). do 2 (apply bind_ok_inv in E as (? & _ & E)). injection E as _ <-.
  unfold store_header_t in E0. destruct (_ <? _); [|injection E0 as _ <-; constructor]. apply bind_ok_inv in E0 as (nv & _ & E0).
  destruct nv as [|e0 [|e1 nv]]; [injection E0 as _ <-; constructor|injection E0 as _ <-; constructor|].
  do 5 (apply bind_ok_inv in E0 as (? & _ & E0)). injection E0 as _ <-. qt.
Qed.
Lemma header_loop_quiet fuel : forall n h h' ms, header_loop_t fuel n h = Ok (h', ms) -> Forall quiet ms.
Proof.
  induction fuel as [|k IH]; intros n h h' ms E; cbn [header_loop_t] in E; (destruct (0 <? n); [|injection E as _ <-; constructor]);
    apply bind_ok_inv in E as (e1 & _ & E); (destruct e1; [injection E as _ <-; constructor|]);
    apply bind_ok_inv in E as (e2 & _ & E); (destruct e2; [injection E as _ <-; constructor|]);
    apply bind_ok_inv in E as ([h1 ms1] & E1 & E); apply bind_ok_inv in E as ([[n' b'] s'] & _ & E); [discriminate E|].
  apply bind_ok_inv in E as ([h2 ms2] & E2 & E). injection E as _ <-. apply Forall_app. split; [eapply header_line_quiet, E1|eapply IH, E2].
Qed.
Lemma router_quiet a t r calls r' ms : router_handle_request_t a t r = Ok (calls, r', ms) -> Forall quiet ms.
Proof.
  assert (R : forall t m r r1 h fl ms, route_loop_t t m r = Ok (r1, h, fl, ms) -> Forall quiet ms).
  { clear. induction t as [|rt t IH]; intros m r r1 h fl ms E; cbn [route_loop_t] in E; [injection E as _ _ _ <-; constructor|].
    destruct (negb (rt_live rt)); [discriminate E|]. cbv zeta in E. destruct (rt_type rt).
    - destruct (str_eqb _ _); [injection E as _ _ _ <-; constructor|eapply IH, E].
    - destruct (strstr m (rt_prefix rt)); [|eapply IH, E]. destruct (str_eqb _ _); [eapply IH, E|].
      do 3 (apply bind_ok_inv in E as (? & _ & E)). injection E as _ _ _ <-. qt. }
  intros E. unfold router_handle_request_t in E. cbv zeta in E. apply bind_ok_inv in E as (mt & _ & E). apply bind_ok_inv in E as ([[[r1 h] fl] ms1] & E1 & E).
  apply R in E1. destruct h as [h|].
  - assert (ms = (LOG_DEBUG, L "Router handle request " ++ r_method r ++ L ":" ++ r_path r) :: ms1) as ->.
    { destruct fl as [fl|]; [|now injection E as _ _ <-]. destruct (on_filter a fl r1) as [r2 pass]. destruct pass; now injection E as _ _ <-. }
    constructor; [qt|exact E1].
  - apply bind_ok_inv in E as (r2 & _ & E). injection E as _ _ <-. constructor; [qt|]. apply Forall_app. split; [exact E1|qt].
Qed.
Lemma form_kept root ip m : form_note ip m -> kept root m.
Proof. intros [s| |name]; [left; qt|right; constructor|right; constructor]. Qed.
Lemma api_kept root v f after r n bnd calls r' f' ms : handle_api_request_t v f after r n bnd = Ok (calls, r', f', ms) -> Forall (kept root) ms.
Proof.
  intros E. unfold handle_api_request_t in E. cbv zeta in E. apply bind_ok_inv in E as (ses & _ & E).
  apply bind_ok_inv in E as ([[r1 f1] mp] & E1 & E). apply bind_ok_inv in E as ([[calls0 r2] rn] & E2 & E). injection E as _ _ _ <-.
  constructor; [left; qt|]. apply Forall_app. split; [destruct (r_query r); [constructor|apply quiet_kept; qt]|]. apply Forall_app. split; [|now apply quiet_kept; apply router_quiet in E2].
  destruct (0 <? n); [|injection E1 as _ _ <-; constructor]. destruct (2 <=? len bnd); [|injection E1 as _ _ <-; constructor].
  apply bind_ok_inv in E1 as ([[form' f2] ms2] & Em & E1). injection E1 as _ _ <-. apply multipart_notes in Em. eapply Forall_impl; [|exact Em]. apply form_kept.
Qed.
Lemma looked_kept root f p index ms : looked_for f (root ++ L "/" ++ p) (root ++ L "/" ++ index) ms -> Forall (kept root) ms.
Proof. intros [H|H1 H2|H1 H2]; repeat constructor; right; constructor. Qed.
Lemma static_kept v f r r' ms : handle_static_routes_t v f r = Ok (r', ms) -> Forall (kept (v_static_root v)) ms.
Proof.
  intros E. apply static_notes_of in E as (p2 & ms' & _ & -> & H). apply looked_kept in H. constructor; [left; qt|]. constructor; [left; qt|exact H].
Qed.
Lemma accept_kept v f t socket peer stream res ms : accept_request_t v f t socket peer stream = Ok (res, ms) -> Forall (kept (v_static_root v)) ms.
Proof.
  intros E. rewrite accept_t_unfold in E. cbv zeta in E. apply bind_ok_inv in E as (r0 & _ & E). apply bind_ok_inv in E as ([[n b] s1] & _ & E).
  apply bind_ok_inv in E as (line & _ & E). apply bind_ok_inv in E as ([[rl m] j] & _ & E). apply bind_ok_inv in E as (ok & _ & E).
  destruct (negb ok); [apply bind_ok_inv in E as (r2 & _ & E); injection E as _ <-; apply quiet_kept; qt|].
  apply bind_ok_inv in E as (url & _ & E). apply bind_ok_inv in E as ([[adm t1] ms1] & Ea & E). apply add_quiet, (quiet_kept (v_static_root v)) in Ea.
  destruct (negb adm); [apply bind_ok_inv in E as (r3 & _ & E); injection E as _ <-; constructor; [left; qt|exact Ea]|].
  apply bind_ok_inv in E as ([res0 ms2] & Er & E). injection E as _ <-. constructor; [left; qt|]. apply Forall_app. split; [exact Ea|].
  unfold accept_rest_t in Er. cbv zeta in Er. apply bind_ok_inv in Er as (b1 & _ & Er). apply bind_ok_inv in Er as ([[n2 b2] s2] & _ & Er).
  apply bind_ok_inv in Er as ([h ms3] & Eh & Er). apply header_loop_quiet, (quiet_kept (v_static_root v)) in Eh.
  apply bind_ok_inv in Er as ([path query] & _ & Er). apply bind_ok_inv in Er as (api & _ & Er). destruct (negb api).
  - destruct (str_caseeqb m (L "GET")).
    + apply bind_ok_inv in Er as ([r6 ms4] & Es & Er). apply static_kept in Es. injection Er as _ <-. apply Forall_app. auto.
    + apply bind_ok_inv in Er as (r6 & _ & Er). injection Er as _ <-. exact Eh.
  - apply bind_ok_inv in Er as (p & _ & Er). apply bind_ok_inv in Er as ([[[calls r6] f'] ms4] & Es & Er). apply (api_kept (v_static_root v)) in Es.
    injection Er as _ <-. apply Forall_app. auto.
Qed.
Lemma kept_level root ms : Forall (kept root) ms -> Forall level_ok ms.
Proof. intros H. eapply Forall_impl; [|exact H]. unfold level_ok. intros m [Hm|[?|?|?]]; [unfold quiet in Hm|..]; cbn; lia. Qed.
Lemma kept_loud root ms : Forall (kept root) ms -> Forall (loud_note root) (at_least 2 ms).
Proof.
  intros H. apply Forall_forall. intros m Hm. apply filter_In in Hm as [Hm Hl]. rewrite Forall_forall in H. destruct (H m Hm) as [Q|Q]; [|exact Q].
  unfold quiet in Q. lia.
Qed.
Lemma at_least_app k a b : at_least k (a ++ b) = at_least k a ++ at_least k b.
Proof. apply filter_app. Qed.
Lemma quiet_none ms : Forall quiet ms -> at_least 2 ms = [].
Proof. induction 1 as [|m ms H _ IH]; [reflexivity|]. unfold at_least in *. cbn [filter]. unfold quiet in H. replace (2 <=? fst m) with false by lia. exact IH. Qed.

(** ** The logger *)
Definition where_to (s : logstate) : logfile := match lg_file s with LogNull => LogStderr | d => d end.
Lemma write_all_eq ms : Forall level_ok ms -> forall s, lg_file s <> LogClosed -> exists s', write_all s ms = Ok s' /\ logged s s' (at_least (lg_level s) ms) /\ lg_file s' <> LogClosed
  /\ where_to s' = where_to s.
Proof.
  induction 1 as [|m ms Hm _ IH]; intros s Hs; cbn [write_all].
  - exists s. split; [reflexivity|]. split; [|auto]. split; [now rewrite app_nil_r|auto].
  - unfold logger. unfold level_ok in Hm. unfold at_least. cbn [filter]. destruct (fst m <? lg_level s) eqn:E.
    + replace (lg_level s <=? fst m) with false by lia. cbn [bind]. now apply IH.
    + replace (lg_level s <=? fst m) with true by lia. replace ((fst m <? 0) || (5 <? fst m)) with false by lia. replace (fst m =? LOG_FATAL) with false by (unfold LOG_FATAL; lia).
      assert (D : match lg_file s with LogNull => LogStderr | f => f end = where_to s /\ where_to s <> LogClosed /\ where_to s <> LogNull) by (unfold where_to; destruct (lg_file s); easy).
      destruct D as (-> & D & D').
      assert (K : (match where_to s with LogClosed => UB UseAfterFree | _ => Ok (mkLog (lg_level s) (where_to s) (lg_out s ++ [(fst m, snd m, where_to s)]) (lg_exited s)) end)
        = Ok (mkLog (lg_level s) (where_to s) (lg_out s ++ [(fst m, snd m, where_to s)]) (lg_exited s))) by (now destruct (where_to s)).
      rewrite K. cbn [bind]. destruct (IH (mkLog (lg_level s) (where_to s) (lg_out s ++ [(fst m, snd m, where_to s)]) (lg_exited s))) as (s' & E1 & (G1 & G2 & G3) & G4 & G5); [exact D|].
      assert (W : where_to (mkLog (lg_level s) (where_to s) (lg_out s ++ [(fst m, snd m, where_to s)]) (lg_exited s)) = where_to s) by (unfold where_to at 1; cbn; now destruct (where_to s)).
      rewrite W in G5. exists s'. split; [exact E1|]. split; [|auto]. cbn [lg_level lg_file lg_out lg_exited] in *. split; [|auto].
      rewrite G1, <- app_assoc. unfold where_to. destruct (lg_file s); reflexivity.
Qed.
Lemma write_all_app s a b : write_all s (a ++ b) = (s' <- write_all s a;; write_all s' b).
Proof. revert s. induction a as [|m a IH]; intros s; [reflexivity|]. cbn [app write_all]. destruct (logger s (fst m) (snd m)); cbn [bind]; [apply IH|reflexivity]. Qed.
Lemma log_lines_eq hs hl : Forall2 SpecHttp.holds hs hl -> forall s, log_header_lines s hs = write_all s (header_notes hl).
Proof.
  induction 1 as [|h nv hs hl (H1 & H2) _ IH]; intros s; [reflexivity|]. cbn [log_header_lines header_notes map write_all]. rewrite H1, H2. cbn [bind].
  change LOG_DEBUG with 1. cbn [fst snd debug]. destruct (logger s 1 _); cbn [bind]; [apply IH|reflexivity].
Qed.

(** ** Whole requests *)
Local Opaque bad_request too_many_connections accept_rest_t accept_request_t accept_request connection_add connection_add_t finish
  handle_static_routes_t handle_api_request_t multipart_parse_t read_body.
Lemma static_shape v f t socket peer stream m u line s1 t1 x after p q res ms : asks stream m u line s1 -> len peer <= 15 -> is_get m ->
  connection_add (v_limits v) t socket peer (firstn 254 u) = Ok (true, t1) ->
  section s1 (nothing_told peer) x after -> url_parts (firstn 254 u) p q -> ~ api_url (firstn 254 u) ->
  accept_request_t v f t socket peer stream = Ok (res, ms) ->
  exists p2 w, static_path v p = Ok p2 /\ ms = opening peer line x ++ static_notes v (td_ip x) p p2 ++ w
    /\ looked_for f (v_static_root v ++ L "/" ++ p2) (v_static_root v ++ L "/" ++ v_index v) w.
Proof.
  intros A Hp Hg Hc Hs Hu N1 E.
  assert (Ha : allowed m). { exists (L "GET"). split; [now left|]. exists m, []. split; [now rewrite app_nil_r|exact Hg]. }
  destruct (accept_start_t v f t socket peer stream m u line s1 A ltac:(lia)) as (b & Lb & _ & H). pose proof A as (_ & _ & (_ & Nm & _) & (_ & Nu & _) & _).
  destruct (accept_rest_start_t v f t1 socket peer (firstn (length line - 2) line) m (firstn 254 u) b line s1 x after p q) as (r & R & _ & C & _); auto;
    [rewrite len_firstn; lia|].
  rewrite (H Ha), (add_admitted _ _ _ _ _ _ Hc) in E. cbn [bind negb] in E. rewrite (C N1 Hg) in E. apply bind_ok_inv in E as ([res0 ms0] & E1 & E).
  apply bind_ok_inv in E1 as ([r6 ms1] & Es & E1). injection E1 as _ <-. injection E as _ <-. apply static_notes_of in Es as (p2 & w & Ep & -> & Hw).
  destruct (R p) as (Rp & Ri & _). rewrite Rp in *. rewrite Ri. exists p2, w. split; [exact Ep|]. split; [reflexivity|exact Hw].
Qed.
Lemma form_step_notes v f ip after n bnd form f' mp : form_step v f ip after n bnd = Ok (form, f', mp) -> Forall (form_note ip) mp.
Proof.
  intros Ef. unfold form_step in Ef. cbv zeta in Ef. destruct (0 <? n); [|injection Ef as _ _ <-; constructor].
  destruct (2 <=? len bnd); [|injection Ef as _ _ <-; constructor]. apply bind_ok_inv in Ef as ([[fm' f2] ms2] & Em & Ef). injection Ef as _ _ <-.
  eapply multipart_notes, Em.
Qed.
Lemma api_shape v f t socket peer stream m u p q line x after t1 res ms :
  api_asked v t socket peer stream m u p q line x after t1 -> live (v_routes v) ->
  accept_request_t v f t socket peer stream = Ok (res, ms) ->
  exists form f' mp rn, form_step v f (td_ip x) after (td_length x) (td_boundary x) = Ok (form, f', mp)
    /\ ms = opening peer line x ++ api_notes m (firstn 254 u) p q x ++ mp ++ rn
    /\ routed (v_routes v) m (firstn 254 u) p (td_ip x) rn.
Proof.
  intros (s1 & mount & A & Hp & Ha & Hc & Hs & Hf & Hu & Lm & N1) Hl E.
  destruct (accept_start_t v f t socket peer stream m u line s1 A ltac:(lia)) as (b & Lb & _ & H). pose proof A as (_ & _ & (_ & Nm & _) & (_ & Nu & _) & _).
  destruct (accept_rest_start_t v f t1 socket peer (firstn (length line - 2) line) m (firstn 254 u) b line s1 x after (mount ++ p) q) as (r & R & _ & _ & C); auto;
    [rewrite len_firstn; lia|].
  destruct (api_path _ _ _ N1 Hu) as (h & p' & Ep & Eh).
  assert (h = mount /\ p' = p) as [-> ->].
  { apply Forall2_length in Eh as Lh. change (length (L "/api")) with 4%nat in Lh.
    assert (K : length mount = length h) by (unfold len in Lm; lia). apply (f_equal (skipn (length mount))) in Ep as E1.
    rewrite K in E1 at 2. rewrite !skipn_app, !skipn_all, !Nat.sub_diag in E1. cbn in E1. subst p'. split; auto.
    apply app_inv_tail in Ep. auto. }
  rewrite (H Ha), (add_admitted _ _ _ _ _ _ Hc) in E. cbn [bind negb] in E. rewrite (C mount p eq_refl Eh N1) in E. apply bind_ok_inv in E as ([res0 ms0] & E1 & E).
  apply bind_ok_inv in E1 as ([[[calls r6] f'] ms1] & Es & E1). injection E1 as _ <-. injection E as _ <-.
  destruct (R p) as (R1 & R2 & R3 & R4 & R5 & R6 & _). eapply api_notes_of in Es as (fm & mp & rn & Ef & -> & Hr); [|exact Hl|exact R6]. rewrite R1, R2, R3, R4, R5 in *.
  exists fm, f', mp, rn. split; [exact Ef|]. split; [|exact Hr]. reflexivity.
Qed.
Lemma routed_quiet t m u p ip ms : routed t m u p ip ms -> Forall quiet ms.
Proof.
  intros [rt h _ _|rt _ _|_]; unfold param_note, no_route_notes; [destruct (rt_type rt)..|]; cbn [app]; qt.
Qed.
Lemma opening_quiet peer line x : Forall quiet (opening peer line x).
Proof. unfold opening. constructor; [qt|]. induction (firstn 20 (td_fields x)); cbn [map]; constructor; auto. qt. Qed.
Lemma api_notes_quiet m u p q x : Forall quiet (api_notes m u p q x).
Proof. unfold api_notes. destruct (list_eq_dec ascii_dec q []); qt. Qed.
Lemma static_notes_quiet v ip p p2 : Forall quiet (static_notes v ip p p2).
Proof. unfold static_notes. qt. Qed.
Lemma looked_all_loud f name index ms : looked_for f name index ms -> at_least 2 ms = ms.
Proof. now intros [H|H1 H2|H1 H2]. Qed.
Lemma looked_same f name index a b : looked_for f name index a -> looked_for f name index b -> a = b.
Proof. intros [H|H1 H2|H1 H2] [K|K1 K2|K1 K2]; try easy. Qed.
Lemma static_loud v f peer line x p p2 w : looked_for f (v_static_root v ++ L "/" ++ p2) (v_static_root v ++ L "/" ++ v_index v) w ->
  at_least 2 (opening peer line x ++ static_notes v (td_ip x) p p2 ++ w) = w.
Proof.
  intros H. rewrite !at_least_app, (quiet_none _ (opening_quiet _ _ _)), (quiet_none _ (static_notes_quiet v (td_ip x) p p2)). cbn [app].
  now apply looked_all_loud in H.
Qed.
Lemma api_loud t m u p q ip peer line x mp rn : routed t m u p ip rn -> at_least 2 (opening peer line x ++ api_notes m u p q x ++ mp ++ rn) = at_least 2 mp.
Proof.
  intros H. rewrite !at_least_app, (quiet_none _ (opening_quiet _ _ _)), (quiet_none _ (api_notes_quiet m u p q x)).
  apply routed_quiet, quiet_none in H. rewrite H. cbn [app]. apply app_nil_r.
Qed.
Lemma url_path_line u p q : url_parts u p q -> Forall (fun c => ~ blank c) u -> one_line p.
Proof.
  intros (ts & T & _) F I. rewrite Forall_forall in F. inversion T as [|a t r ts' Ha Ht Hp Hr T' Eu]; subst.
  apply (F LF); [|vm_compute; tauto]. apply in_or_app. right. apply in_or_app. now left.
Qed.
Lemma static_path_line v p p2 : static_path v p = Ok p2 -> one_line p -> one_line (v_index v) -> one_line (v_favicon v) -> one_line p2.
Proof.
  intros E Hp Hi Hf. unfold static_path in E. apply bind_ok_inv in E as (n & _ & E). destruct (_ || _); [now injection E as <-|].
  destruct (str_eqb p (L "/favicon.ico")); [now injection E as <-|]. apply bind_ok_inv in E as (c & _ & E).
  destruct (ceq c "/"); [|now injection E as <-]. apply fits_inv in E as [-> _]. intros I. apply in_app_or in I as [I|I]; [now apply Hp|]. revert I. now apply text_without.
Qed.
Lemma Forall_firstn {A} (P : A -> Prop) n l : Forall P l -> Forall P (firstn n l).
Proof. intros F. rewrite <- (firstn_skipn n l) in F. now apply Forall_app in F. Qed.
Lemma filter_all {A} (f : A -> bool) l : (forall x, In x l -> f x = true) -> filter f l = l.
Proof. induction l as [|a l IH]; intros H; [reflexivity|]. cbn [filter]. rewrite H by now left. rewrite IH; auto. intros x I. apply H. now right. Qed.

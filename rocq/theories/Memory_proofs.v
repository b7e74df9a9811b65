(** Memory_proofs.v - lemmas for C93. *)
From Verif Require Import Memory Lemmas StringUtils_proofs WsMultipart_proofs HttpUtils_proofs WsConn_proofs WsRequest_proofs WsDispatch_proofs
  SpecJson SpecHttp SpecConn SpecReq SpecDispatch SpecApi SpecMemory Spec.

(** ** Less memory never changes what a completed request did *)
Lemma part_le ok at_ e f tf tp n x : part_parse_a ok at_ e f tf tp n = Ok x -> part_parse e f tf tp n = Ok x.
Proof.
  unfold part_parse_a, part_parse. intros H. apply bind_ok_inv in H as (l & E & H). rewrite E. cbn [bind].
  apply bind_ok_inv in H as (st & E1 & H). rewrite E1. cbn [bind]. destruct (st <? 1); [exact H|].
  apply bind_ok_inv in H as (m & E2 & H). rewrite E2. cbn [bind]. destruct (m <=? 0); [exact H|]. cbv zeta in *.
  apply bind_ok_inv in H as ([] & _ & H).
  apply bind_ok_inv in H as (f0 & E3 & H). rewrite E3. cbn [bind].
  apply bind_ok_inv in H as (f1 & E4 & H). rewrite E4. cbn [bind].
  apply bind_ok_inv in H as (f2 & E5 & H). rewrite E5. cbn [bind].
  apply bind_ok_inv in H as (fd & E6 & H). rewrite E6. cbn [bind].
  apply bind_ok_inv in H as (ds & E7 & H). rewrite E7. cbn [bind].
  apply bind_ok_inv in H as (tl & E8 & H). rewrite E8. cbn [bind].
  apply bind_ok_inv in H as (tf' & E9 & H). rewrite E9. cbn [bind].
  apply bind_ok_inv in H as (sf & E10 & H). rewrite E10. cbn [bind].
  destruct (0 <? ds); [|exact H]. destruct (0 <? sf); [exact H|].
  apply bind_ok_inv in H as ([] & _ & H). exact H.
Qed.
Lemma loop_le ok : forall k e f form tp tf bd n p x, multipart_loop_a ok k e f form (Some tp) tf bd n p = Ok x ->
  multipart_loop k e f form tp tf bd n p = Ok x.
Proof.
  induction k as [|k IH]; intros e f form tp tf bd n p x; cbn [multipart_loop_a multipart_loop]; destruct (p <? n); auto; intros H;
    apply bind_ok_inv in H as (ps & E & H); rewrite E; cbn [bind]; destruct (ps <? 0); auto;
    apply bind_ok_inv in H as (pe & E1 & H); rewrite E1; cbn [bind]; destruct (pe <? 0); auto; cbv zeta in *;
    apply bind_ok_inv in H as (t & E2 & H); rewrite E2; cbn [bind];
    apply bind_ok_inv in H as ((tf' & f') & E3 & H); apply part_le in E3; rewrite E3; cbn [bind];
    apply bind_ok_inv in H as (t' & E4 & H); rewrite E4; cbn [bind]; [discriminate H|now apply IH].
Qed.
(** Without tmppart the loop ends before its first part. *)
Lemma loop_none ok k e f form tf bd n p tp x : multipart_loop_a ok k e f form None tf bd n p = Ok x ->
  x = (tf, f) /\ multipart_loop k e f form tp tf bd n p = Ok x.
Proof.
  destruct k as [|k]; cbn [multipart_loop_a multipart_loop]; (destruct (p <? n); [|intros H; split; [congruence|exact H]]); intros H;
    apply bind_ok_inv in H as (ps & E & H); rewrite E; cbn [bind]; (destruct (ps <? 0); [split; [congruence|exact H]|]);
    apply bind_ok_inv in H as (pe & E1 & H); rewrite E1; cbn [bind]; (destruct (pe <? 0); [split; [congruence|exact H]|]); discriminate H.
Qed.
Lemma multipart_le ok e f form bd n x : multipart_parse_a ok e f form bd n = Ok x -> multipart_parse e f form bd n = Ok x.
Proof.
  unfold multipart_parse_a, multipart_parse. cbv zeta. intros H. apply bind_ok_inv in H as ([] & _ & H).
  apply bind_ok_inv in H as ((tf, f') & E & H). destruct (ok Part (n + 1)).
  - apply loop_le in E. rewrite E. exact H.
  - apply (loop_none _ _ _ _ _ _ _ _ _ (calloc (n + 1))) in E as [_ E]. rewrite E. exact H.
Qed.
Lemma handle_le ok v f s r n bd x : handle_api_request_a ok v f s r n bd = Ok x -> handle_api_request v f s r n bd = Ok x.
Proof.
  unfold handle_api_request_a, handle_api_request. cbv zeta. intros H. apply bind_ok_inv in H as ((r1, f1) & E & H).
  destruct (0 <? n); [|rewrite E; exact H]. apply bind_ok_inv in E as ([] & _ & E).
  destruct (2 <=? len bd); [|rewrite E; exact H]. apply bind_ok_inv in E as ((fm, f') & E1 & E). apply multipart_le in E1. rewrite E1. cbn [bind].
  injection E as <- <-. exact H.
Qed.

(** ** With the blocks given nothing changes *)
Lemma part_same ok at_ e f tf tp n : ok (Field at_) (n + 1) = true -> ok (Value at_) (n + 1) = true -> part_parse_a ok at_ e f tf tp n = part_parse e f tf tp n.
Proof.
  intros H1 H2. unfold part_parse_a, part_parse, ask. rewrite H1, H2. reflexivity.
Qed.

Lemma find_range body bd p : no_nul bd -> bd <> [] -> 0 <= p ->
  exists r, text_find_after (map Some body ++ [Some NUL]) bd p (len body) = Ok r /\ (r = -1 \/ p + len bd <= r <= len body).
Proof.
  intros Hn He Hp. destruct (text_find_after_spec body bd [] p Hn He Hp) as (r & E & [(i & Hi & (a & b & Eb & Ei) & -> & _)|[-> _]]).
  - exists (i + len bd). split; [exact E|]. right. subst i body. rewrite !len_app. pose proof (len_nonneg _ b). lia.
  - exists (-1). auto.
Qed.
Lemma to_int_small n : 0 <= n < 2147483648 -> to_int n = n.
Proof. intros H. unfold to_int. rewrite Z.mod_small by lia. destruct (Z.ltb_spec n 2147483648); lia. Qed.
Lemma loop_same ok body bd : no_nul bd -> bd <> [] -> len body < 2147483648 ->
  (forall at_ m, 0 <= m <= len body -> ok (Field at_) (m + 1) = true /\ ok (Value at_) (m + 1) = true) ->
  forall k e f tp tf p, 0 <= p ->
  multipart_loop_a ok k e f (map Some body ++ [Some NUL]) (Some tp) tf bd (len body) p = multipart_loop k e f (map Some body ++ [Some NUL]) tp tf bd (len body) p.
Proof.
  intros Hn He Hl Ho. induction k as [|k IH]; intros e f tp tf p Hp; cbn [multipart_loop_a multipart_loop]; destruct (p <? len body); auto;
    destruct (find_range body bd p Hn He Hp) as (r & E & Hr); rewrite E; cbn [bind]; destruct (Z.ltb_spec r 0); auto; (destruct Hr as [->|Hr]; [lia|]);
    destruct (find_range body bd r Hn He ltac:(lia)) as (r2 & E2 & Hr2); rewrite E2; cbn [bind]; destruct (Z.ltb_spec r2 0); auto; (destruct Hr2 as [->|Hr2]; [lia|]);
    cbv zeta; (destruct (memcpy _ _ _ _ _) as [t|]; cbn [bind]; [|reflexivity]); rewrite to_int_small by (pose proof (len_nonneg _ bd); lia);
    (rewrite part_same by (apply Ho; pose proof (len_nonneg _ bd); lia)); (destruct (part_parse _ _ _ _ _) as [[tf' f']|]; cbn [bind]; [|reflexivity]);
    (destruct (trim t) as [t'|]; cbn [bind]; [|reflexivity]); [reflexivity|apply IH; lia].
Qed.
Lemma body_len n s : 0 <= n -> len (fst (read_body (Z.to_nat n) s NUL)) = n.
Proof.
  intros H. destruct (Nat.leb_spec (Z.to_nat n) (length s)) as [K|K].
  - rewrite read_body_enough by exact K. cbn [fst]. unfold len. rewrite firstn_length. lia.
  - rewrite read_body_short by lia. cbn [fst]. unfold len. rewrite app_length, repeat_length. lia.
Qed.
Definition given (ok : memory) (n : Z) : Prop :=
  ok Form (n + 1) = true /\ ok Part (n + 1) = true /\ ok Fields (n + 1) = true
  /\ forall at_ m, 0 <= m <= n -> ok (Field at_) (m + 1) = true /\ ok (Value at_) (m + 1) = true.
Lemma handle_same ok v f s r n bd : no_nul bd -> n < 2147483648 -> (0 < n -> given ok n) ->
  handle_api_request_a ok v f s r n bd = handle_api_request v f s r n bd.
Proof.
  intros Hb Hn Hg. unfold handle_api_request_a, handle_api_request. cbv zeta. destruct (Z.ltb_spec 0 n) as [H|H]; [|reflexivity].
  destruct (Hg H) as (G1 & G2 & G3 & G4). unfold ask at 1. rewrite G1. cbn [bind]. destruct (Z.leb_spec 2 (len bd)); [|reflexivity].
  unfold multipart_parse_a, multipart_parse, ask. cbv zeta. rewrite G2, G3. cbn [bind].
  pose proof (body_len n s ltac:(lia)) as El. remember (fst (read_body (Z.to_nat n) s NUL)) as body eqn:Eb.
  assert (He : bd <> []) by (intros ->; cbn in *; lia).
  pose proof (loop_same ok body bd Hb He) as K. rewrite El in K. rewrite (K Hn G4) by lia. reflexivity.
Qed.
Lemma handle_refused ok v f s r n bd : 0 < n -> (ok Form (n + 1) = false \/ (2 <= len bd /\ ok Fields (n + 1) = false)) ->
  undefined (handle_api_request_a ok v f s r n bd).
Proof.
  intros H K. unfold handle_api_request_a. replace (0 <? n) with true by lia. unfold ask at 1. destruct K as [K|[K1 K2]].
  - rewrite K. eexists. reflexivity.
  - destruct (ok Form (n + 1)); [|eexists; reflexivity]. cbn [bind]. cbv zeta. replace (2 <=? len bd) with true by lia.
    unfold multipart_parse_a, ask. rewrite K2. eexists. reflexivity.
Qed.

(** ** Whole requests *)
Definition rest_memory (ok : memory) (v : wsenv) (f : fs) (t1 : table) (r2 : api_request) (method url : str) (b : buf) (s1 : str) : outcome result :=
  b1 <- write_at b 0 [Some "A"%char; Some NUL];;
  '(n, b2, s2) <- get_line s1 b1 1024;;
  h <- header_loop (length s1) n (mkH b2 s2 [] None [] (-1) (r_ip r2) (calloc MAX_SESSION));;
  let r3 := set_session (set_ip (set_content_type (set_headers r2 (hs_headers h))
              (hs_content_type h)) (hs_ip h)) (hs_session h) in
  '(path, query) <- get_path_and_query_string url;;
  let r4 := set_query r3 query in
  api <- startswith (cs url) API_MOUNT;;
  if negb api then
    let r5 := set_path r4 path in
    if str_caseeqb method (L "GET") then
      r6 <- handle_static_routes v f r5;; Ok (finish TStatic r6 t1 f)
    else
      r6 <- bad_request r5;; Ok (finish TNotGet r6 t1 f)
  else
    p <- cstr (from (cs path) (len API_MOUNT));;
    let r5 := set_path r4 p in
    '(calls, r6, f') <- handle_api_request_a ok v f (hs_stream h) r5 (hs_length h) (hs_boundary h);;
    Ok (finish (TApi calls) r6 t1 f').
Lemma memory_unfold ok v f t socket peer stream : accept_memory ok v f t socket peer stream =
  (r0 <- new_request socket peer;;
   '(_, b, s1) <- get_line stream (calloc 1024) 1024;;
   '(rl, method, j) <- parse_request_line b;;
   let r1 := set_method (set_request_line r0 rl) method in
   ok_method <- startswithany (cs method) ALLOWED_HTTP_METHODS;;
   if negb ok_method then
     r2 <- bad_request r1;; Ok (finish TBadMethod r2 t f)
   else
   url <- parse_url b j;;
   let r2 := set_url r1 url in
   '(admitted, t1) <- connection_add (v_limits v) t socket (r_ip r2) url;;
   if negb admitted then
     r3 <- too_many_connections r2;; Ok (finish TTooMany r3 t1 f)
   else rest_memory ok v f t1 r2 method url b s1).
Proof. reflexivity. Qed.

Local Opaque send_http_status bad_request too_many_connections startswithany get_line parse_request_line parse_url connection_add finish
  header_loop get_path_and_query_string handle_static_routes handle_api_request handle_api_request_a str_caseeqb write_at startswith.
Lemma rest_le ok v f t1 r2 m url b s1 x : rest_memory ok v f t1 r2 m url b s1 = Ok x -> accept_rest v f t1 r2 m url b s1 = Ok x.
Proof.
  unfold rest_memory, accept_rest. intros H. apply bind_ok_inv in H as (b1 & E & H). rewrite E. cbn [bind].
  apply bind_ok_inv in H as (((n & b2) & s2) & E1 & H). rewrite E1. cbn [bind].
  apply bind_ok_inv in H as (h & E2 & H). rewrite E2. cbn [bind]. cbv zeta in *.
  apply bind_ok_inv in H as ((p & q) & E3 & H). rewrite E3. cbn [bind].
  apply bind_ok_inv in H as (api & E4 & H). rewrite E4. cbn [bind]. destruct (negb api); [exact H|].
  apply bind_ok_inv in H as (p' & E5 & H). rewrite E5. cbn [bind].
  apply bind_ok_inv in H as (((calls & r6) & f') & E6 & H). apply handle_le in E6. rewrite E6. exact H.
Qed.
Local Opaque accept_rest rest_memory.
Lemma memory_le ok v f t socket peer stream x : accept_memory ok v f t socket peer stream = Ok x -> accept_request v f t socket peer stream = Ok x.
Proof.
  rewrite memory_unfold, accept_unfold. intros H. apply bind_ok_inv in H as (r0 & E & H). rewrite E. cbn [bind].
  apply bind_ok_inv in H as (((z & b) & s1) & E1 & H). rewrite E1. cbn [bind].
  apply bind_ok_inv in H as (((rl & m) & j) & E2 & H). rewrite E2. cbn [bind]. cbv zeta in *.
  apply bind_ok_inv in H as (okm & E3 & H). rewrite E3. cbn [bind]. destruct (negb okm); [exact H|].
  apply bind_ok_inv in H as (url & E4 & H). rewrite E4. cbn [bind].
  apply bind_ok_inv in H as ((adm & t1) & E5 & H). rewrite E5. cbn [bind]. destruct (negb adm); [exact H|]. now apply rest_le in H.
Qed.

Local Transparent header_loop.
Lemma cstr_no_nul : forall b s, cstr b = Ok s -> no_nul s.
Proof.
  induction b as [|[c|] b IH]; intros s H; cbn [cstr] in H; try discriminate. destruct (ceq c NUL) eqn:E; [injection H as <-; constructor|].
  apply bind_ok_inv in H as (t & H1 & H). injection H as <-. constructor; [intros ->; discriminate E|now apply IH].
Qed.
Lemma to_int_bound z : to_int z < 2147483648.
Proof. unfold to_int. pose proof (Z.mod_pos_bound (z + 2 ^ 31) (2 ^ 32) ltac:(lia)). lia. Qed.
(** What any header section can set. *)
Definition sized (h : hstate) : Prop := no_nul (hs_boundary h) /\ hs_length h < 2147483648.
Lemma boundary_no_nul b x x' : no_nul x -> take_boundary b x = Ok x' -> no_nul x'.
Proof.
  intros Hx H. unfold take_boundary in H. apply bind_ok_inv in H as (m & _ & H). destruct m; [|congruence].
  apply bind_ok_inv in H as (s & _ & H). destruct (strcasestr s _); [|congruence].
  apply bind_ok_inv in H as (d & _ & H). unfold trim_str in H. apply bind_ok_inv in H as (d' & _ & H). exact (cstr_no_nul _ _ H).
Qed.
Lemma length_small b x x' : x < 2147483648 -> take_length b x = Ok x' -> x' < 2147483648.
Proof.
  intros Hx H. unfold take_length in H. apply bind_ok_inv in H as (m & _ & H). destruct m; [|congruence].
  apply bind_ok_inv in H as (s & _ & H). injection H as <-. unfold atoi. destruct (match _ with [] => _ | _ => _ end). cbv zeta. apply to_int_bound.
Qed.
Lemma header_sized : forall fuel n h h', sized h -> header_loop fuel n h = Ok h' -> sized h'.
Proof.
  induction fuel as [|k IH]; intros n h h' I H; cbn [header_loop] in H; (destruct (0 <? n); [|congruence]);
    apply bind_ok_inv in H as (e1 & _ & H); (destruct e1; [congruence|]);
    apply bind_ok_inv in H as (e2 & _ & H); (destruct e2; [congruence|]);
    apply bind_ok_inv in H as (h1 & H1 & H); apply bind_ok_inv in H as (((n', b'), s') & H2 & H); [discriminate|].
  apply IH in H; [exact H|]. clear H H2 IH. unfold header_line in H1. cbv zeta in H1. apply bind_ok_inv in H1 as (hs & _ & H1).
  apply bind_ok_inv in H1 as (ct & _ & H1). apply bind_ok_inv in H1 as (bd & B & H1). apply bind_ok_inv in H1 as (cl & C & H1).
  apply bind_ok_inv in H1 as ((ip, b1) & _ & H1). apply bind_ok_inv in H1 as (s1 & _ & H1). apply bind_ok_inv in H1 as (s2 & _ & H1).
  injection H1 as <-. destruct I as [I1 I2]. split; [exact (boundary_no_nul _ _ _ I1 B)|exact (length_small _ _ _ I2 C)].
Qed.
Local Opaque header_loop.

Lemma rest_same ok v f t1 r2 m url b s1 : (forall n, 0 < n < 2147483648 -> given ok n) -> rest_memory ok v f t1 r2 m url b s1 = accept_rest v f t1 r2 m url b s1.
Proof.
  intros G. Local Transparent accept_rest rest_memory. unfold rest_memory, accept_rest. Local Opaque accept_rest rest_memory.
  destruct (write_at _ _ _) as [b1|]; cbn [bind]; [|reflexivity]. destruct (get_line _ _ _) as [[[n b2] s2]|]; cbn [bind]; [|reflexivity].
  destruct (header_loop _ _ _) as [h|] eqn:E; cbn [bind]; [|reflexivity]. apply header_sized in E as [E1 E2]; [|split; [constructor|cbn; lia]].
  cbv zeta. destruct (get_path_and_query_string url) as [[p q]|]; cbn [bind]; [|reflexivity].
  destruct (startswith _ _) as [api|]; cbn [bind]; [|reflexivity]. destruct (negb api); [reflexivity|].
  destruct (cstr _) as [p'|]; cbn [bind]; [|reflexivity]. rewrite handle_same; auto. 
Qed.
Lemma memory_same ok v f t socket peer stream : (forall n, 0 < n < 2147483648 -> given ok n) ->
  accept_memory ok v f t socket peer stream = accept_request v f t socket peer stream.
Proof.
  intros G. rewrite memory_unfold, accept_unfold. destruct (new_request socket peer) as [r0|]; cbn [bind]; [|reflexivity].
  destruct (get_line _ _ _) as [[[z b] s1]|]; cbn [bind]; [|reflexivity]. destruct (parse_request_line b) as [[[rl m] j]|]; cbn [bind]; [|reflexivity].
  cbv zeta. destruct (startswithany _ _) as [okm|]; cbn [bind]; [|reflexivity]. destruct (negb okm); [reflexivity|].
  destruct (parse_url b j) as [url|]; cbn [bind]; [|reflexivity]. destruct (connection_add _ _ _ _ _) as [[adm t1]|]; cbn [bind]; [|reflexivity].
  destruct (negb adm); [reflexivity|]. now apply rest_same.
Qed.

(** An API request as C80 describes it. *)
Lemma api_memory ok v f t socket peer stream m u p q line x after t1 : api_asked v t socket peer stream m u p q line x after t1 ->
  exists r, accept_memory ok v f t socket peer stream
    = ('(calls, r', f') <- handle_api_request_a ok v f after r (td_length x) (td_boundary x);; Ok (finish (TApi calls) r' t1 f'))
  /\ accept_request v f t socket peer stream
    = ('(calls, r', f') <- handle_api_request v f after r (td_length x) (td_boundary x);; Ok (finish (TApi calls) r' t1 f'))
  /\ no_nul (td_boundary x) /\ td_length x < 2147483648.
Proof.
  intros (s1 & mount & A & Hp & Ha & Hc & Hs & Hf & Hu & Hm & Hapi).
  destruct (asks_parse _ _ _ _ _ A) as (b & G & Lb & P & U). destruct A as (_ & _ & (_ & Nm & _) & (_ & Nu & _) & _).
  destruct (methods_eq m Nm) as (okm & E & Hok). apply Hok in Ha. subst okm.
  assert (Nu' : no_nul (firstn 254 u)) by now apply no_nul_firstn. assert (Lu : len (firstn 254 u) <= 254) by (rewrite len_firstn; lia).
  destruct (line_in_A _ _ Lb) as (b1 & W & Lb1).
  destruct (line_of_exists 1024 ltac:(lia) s1) as (l & rest & Hl). pose proof Hl as (_ & Hle & _).
  assert (L1024 : len b1 = 1024) by (destruct Lb1 as (st & _ & ?); auto).
  pose proof (get_line_eq 1024 s1 l rest b1 Hl ltac:(lia)) as G2.
  destruct (header_loop_eq s1 _ x after Hs (length s1) (L "A") b1
    (mkH (cs l ++ skipn (S (length l)) b1) rest [] None [] (-1) peer (calloc 64)) (len l) G2) as (h & Eh & R & Aft); auto.
  { split; [reflexivity|]. split; [constructor|]. repeat (split; [reflexivity|]). exists (calloc 63).
    split; [reflexivity|]. split; [constructor|]. reflexivity. }
  pose proof (rep_stores _ _ R) as (_ & _ & _ & S4 & S5 & _ & _ & _).
  assert (Sz : sized h) by (eapply header_sized; [|exact Eh]; split; [constructor|cbn; lia]). destruct Sz as [Z1 Z2].
  destruct (api_eq _ Nu') as (api & Ea & Hap). apply Hap in Hapi as K. subst api.
  assert (Ep : from (cs (mount ++ p)) (len API_MOUNT) = cs p).
  { change (len API_MOUNT) with (Z.of_nat 4). apply from_cs_skip. unfold len in Hm. lia. }
  pose proof (url_parts_no_nul _ _ _ Nu' Hu) as Np. apply no_nul_app in Np as [_ Np].
  eexists. split; [|split].
  - rewrite memory_unfold. unfold new_request. rewrite fits_ok by lia. cbn [bind]. rewrite G. cbn [bind]. rewrite P. cbn [bind]. cbv zeta. rewrite E. cbn [bind negb].
    rewrite U. cbn [bind]. change (r_ip _) with peer. rewrite Hc. cbn [bind negb].
    Local Transparent rest_memory. unfold rest_memory. rewrite W. cbn [bind]. rewrite G2. cbn [bind]. change (r_ip _) with peer. change MAX_SESSION with 64. rewrite Eh. cbn [bind]. cbv zeta.
    rewrite (url_parts_eq _ _ _ Nu' Lu Hu). cbn [bind]. rewrite Ea. cbn [bind negb]. rewrite Ep, cstr_cs0 by exact Np. cbn [bind]. rewrite Aft, S4, S5. reflexivity.
  - rewrite accept_unfold. unfold new_request. rewrite fits_ok by lia. cbn [bind]. rewrite G. cbn [bind]. rewrite P. cbn [bind]. cbv zeta. rewrite E. cbn [bind negb].
    rewrite U. cbn [bind]. change (r_ip _) with peer. rewrite Hc. cbn [bind negb].
    Local Transparent accept_rest. unfold accept_rest. rewrite W. cbn [bind]. rewrite G2. cbn [bind]. change (r_ip _) with peer. change MAX_SESSION with 64. rewrite Eh. cbn [bind]. cbv zeta.
    rewrite (url_parts_eq _ _ _ Nu' Lu Hu). cbn [bind]. rewrite Ea. cbn [bind negb]. rewrite Ep, cstr_cs0 by exact Np. cbn [bind]. rewrite Aft, S4, S5. reflexivity.
  - rewrite <- S4, <- S5. auto.
Qed.

(** ** tmppart refused *)
Lemma none_delimits ok k e f tf bd body : no_nul bd -> bd <> [] -> delimits bd body ->
  multipart_loop_a ok k e f (map Some body ++ [Some NUL]) None tf bd (len body) 0 = UB NullDeref.
Proof.
  intros Hn He (a & b & c & Eb). assert (0 < len bd) by (destruct bd; [easy|]; cbn [len length]; unfold len; cbn; lia).
  assert (K : 0 <? len body = true).
  { apply Z.ltb_lt. subst body. rewrite !len_app. pose proof (len_nonneg _ a). pose proof (len_nonneg _ b). pose proof (len_nonneg _ c). lia. }
  assert (F1 : occurs_at bd body (len a)) by (exists a, (b ++ bd ++ c); auto).
  assert (F2 : occurs_at bd body (len a + len bd + len b)) by (exists (a ++ bd ++ b), c; split; [now rewrite Eb, <- !app_assoc|rewrite !len_app; lia]).
  pose proof (len_nonneg _ a). pose proof (len_nonneg _ b).
  destruct (text_find_after_spec body bd [] 0 Hn He ltac:(lia)) as (r & E & [(i & Hi & Oi & -> & M)|[_ M]]); [|elim (M (len a)); auto; lia].
  specialize (M (len a) H0 F1).
  destruct (text_find_after_spec body bd [] (i + len bd) Hn He ltac:(lia)) as (r2 & E2 & [(j & Hj & Oj & -> & _)|[_ M2]]); [|elim (M2 (len a + len bd + len b)); auto; lia].
  destruct k; cbn [multipart_loop_a]; rewrite K, E; cbn [bind]; replace (i + len bd <? 0) with false by lia; rewrite E2; cbn [bind];
    replace (j + len bd <? 0) with false by lia; reflexivity.
Qed.
Lemma none_plain ok k e f tf bd body tp : no_nul bd -> bd <> [] -> ~ delimits bd body ->
  multipart_loop_a ok k e f (map Some body ++ [Some NUL]) None tf bd (len body) 0 = Ok (tf, f)
  /\ multipart_loop k e f (map Some body ++ [Some NUL]) tp tf bd (len body) 0 = Ok (tf, f).
Proof.
  intros Hn He N.
  assert (K : exists r, text_find_after (map Some body ++ [Some NUL]) bd 0 (len body) = Ok r /\ (r = -1 \/ 0 <= r /\ text_find_after (map Some body ++ [Some NUL]) bd r (len body) = Ok (-1))).
  { destruct (text_find_after_spec body bd [] 0 Hn He ltac:(lia)) as (r & E & [(i & Hi & (a & b & Eb & La) & -> & M)|[-> _]]); [|eauto].
    exists (i + len bd). split; [exact E|]. right. split; [pose proof (len_nonneg _ bd); lia|].
    destruct (text_find_after_spec body bd [] (i + len bd) Hn He ltac:(pose proof (len_nonneg _ bd); lia)) as (r2 & E2 & [(j & Hj & (a2 & b2 & Eb2 & La2) & -> & _)|[-> _]]); [|exact E2].
    elim N. rewrite Eb in Eb2. rewrite app_assoc in Eb2. destruct (app_eq_app _ _ _ _ Eb2) as (l & [[X Y]|[X Y]]).
    - assert (l = []). { apply (f_equal (@len _)) in X. rewrite !len_app in X. destruct l; [reflexivity|]. rewrite len_cons in X. pose proof (len_nonneg _ l). lia. }
      subst l. exists a, [], b2. cbn [app] in *. now rewrite Eb, <- Y.
    - exists a, l, b2. now rewrite Eb, Y. }
  destruct K as (r & E & K). destruct k; cbn [multipart_loop_a multipart_loop]; (destruct (0 <? len body); [|auto]); rewrite E; cbn [bind];
    (destruct K as [->|[Hr K]]; [auto|]); replace (r <? 0) with false by lia; rewrite K; auto.
Qed.
Lemma handle_part ok v f s r n bd body : no_nul bd -> 2 <= len bd -> 0 < n -> fst (read_body (Z.to_nat n) s NUL) = body ->
  ok Form (n + 1) = true -> ok Part (n + 1) = false -> ok Fields (n + 1) = true ->
  (delimits bd body -> undefined (handle_api_request_a ok v f s r n bd))
  /\ (~ delimits bd body -> handle_api_request_a ok v f s r n bd = handle_api_request v f s r n bd).
Proof.
  intros Hb Lb Hn Eb G1 G2 G3. pose proof (body_len n s ltac:(lia)) as El. rewrite Eb in El.
  assert (He : bd <> []) by (intros ->; cbn in *; lia).
  Local Transparent handle_api_request_a handle_api_request. unfold handle_api_request_a, handle_api_request. cbv zeta. Local Opaque handle_api_request_a handle_api_request.
  replace (0 <? n) with true by lia. unfold ask at 1 2. rewrite G1. cbn [bind]. replace (2 <=? len bd) with true by lia.
  unfold multipart_parse_a, multipart_parse, ask. cbv zeta. rewrite G2, G3, Eb. cbn [bind]. split; intros D.
  - pose proof (none_delimits ok (Z.to_nat n) (v_mp v) f (calloc (n + 1)) bd body Hb He D) as K. rewrite El in K. rewrite K. eexists. reflexivity.
  - destruct (none_plain ok (Z.to_nat n) (v_mp v) f (calloc (n + 1)) bd body (calloc (n + 1)) Hb He D) as [K1 K2]. rewrite El in K1, K2. now rewrite K1, K2.
Qed.

Lemma body_read n s body : request_body n s body -> 0 < n -> fst (read_body (Z.to_nat n) s NUL) = body.
Proof.
  intros H Hn. destruct H as [n s H|n b rest H E|n s k H H0 E]; [lia| |].
  - rewrite read_body_enough by (rewrite app_length; unfold len in E; lia). cbn [fst]. rewrite firstn_app.
    replace (Z.to_nat n) with (length b) by (unfold len in E; lia). rewrite firstn_all, Nat.sub_diag. apply app_nil_r.
  - rewrite read_body_short by (unfold len in *; lia). cbn [fst]. do 2 f_equal. unfold len in *. lia.
Qed.
Lemma handle_plain ok v f s r n bd : len bd < 2 -> ok Form (n + 1) = true -> handle_api_request_a ok v f s r n bd = handle_api_request v f s r n bd.
Proof.
  intros H G. Local Transparent handle_api_request_a handle_api_request. unfold handle_api_request_a, handle_api_request. cbv zeta. Local Opaque handle_api_request_a handle_api_request.
  unfold ask. rewrite G. replace (2 <=? len bd) with false by lia. reflexivity.
Qed.

(** ** The short request *)
Lemma decimal_short d n : decimal d n -> 0 < n < 2 ^ 31 -> len d <= 10.
Proof.
  intros Hd Hn. destruct (decimal_len _ _ Hd) as [[-> ->]|[H _]]; [lia|]. destruct (Z.leb_spec (len d) 10) as [K|K]; [exact K|].
  pose proof (Z.pow_le_mono_r 10 10 (len d - 1) ltac:(lia) ltac:(lia)). lia.
Qed.
Lemma announcement_len d n : decimal d n -> 0 < n < 2 ^ 31 -> len (announcement d) <= 50.
Proof. intros Hd Hn. pose proof (decimal_short _ _ Hd Hn). unfold announcement. rewrite !len_app. change (len (L "POST /api HTTP/1.1")) with 18. change (len CRLF) with 2. change (len (L "Content-Length: ")) with 16. lia. Qed.
Lemma ci_self p : ci_equal p p.
Proof. induction p; constructor; auto. now left. Qed.
Lemma no_in_dec (c : ascii) s : existsb (ceq c) s = false -> ~ In c s.
Proof. intros H I. assert (existsb (ceq c) s = true) by (apply existsb_exists; exists c; split; [exact I|apply ceq_refl]). congruence. Qed.
Definition length_line (d : str) : str := L "Content-Length: " ++ d ++ CRLF.
Lemma digits_not (c : ascii) d : Forall (fun c => digit c = true) d -> digit c = false -> ~ In c d.
Proof. intros F N I. rewrite Forall_forall in F. specialize (F _ I). congruence. Qed.
Lemma digits_not_blank d : Forall (fun c => digit c = true) d -> Forall (fun c => ~ blank c) d.
Proof.
  intros F. eapply Forall_impl; [|exact F]. intros c Hc [<-|[<-|[<-|[<-|[<-|[<-|[]]]]]]]; discriminate Hc.
Qed.
Lemma length_line_tells d n x : decimal d n -> 0 < n < 2 ^ 31 -> td_length x = -1 -> 
  tells (length_line d) x (mkTold (td_fields x ++ [(L "Content-Length", d)]) (td_type x) (td_boundary x) n (td_ip x) (td_session x)).
Proof.
  intros (Hne & F & V & _) Hn Hx. pose proof (digits_not_blank _ F) as NB.
  assert (P : ci_prefix (L "Content-Length:") (length_line d)).
  { exists (L "Content-Length:"), (L " " ++ d ++ CRLF). split; [reflexivity|]. apply ci_self. }
  assert (Df : forall q, differ (L "Content-Length:") q = true -> ~ ci_prefix q (length_line d)) by (intros q Hq K; exact (ci_differ _ _ _ Hq P K)).
  assert (Ed : no_blank_edges d).
  { rewrite Forall_forall in NB. split; intros a b E; apply NB; subst d; [now left|apply in_or_app; right; now left]. }
  unfold tells. cbn [td_fields td_type td_boundary td_length td_ip td_session]. repeat match goal with |- _ /\ _ => split end.
  - right. exists (L "Content-Length", d). split; [|reflexivity]. exists (L "Content-Length"), (L " " ++ d ++ CRLF). split; [split; [reflexivity|]|split].
    + apply no_in_dec. reflexivity.
    + exists [], []. split; [reflexivity|]. split; [constructor|]. split; [constructor|]. split; intros a b E; apply (f_equal (@rev ascii)) in E as E'; [injection E as <- _|].
      * intros K. vm_compute in K. intuition discriminate.
      * rewrite rev_app_distr in E'. injection E' as <- _. intros K. vm_compute in K. intuition discriminate.
    + exists (L " "), CRLF. split; [reflexivity|]. split; [repeat constructor; vm_compute; tauto|]. split; [repeat constructor; vm_compute; tauto|exact Ed].
  - left. split; [apply Df; reflexivity|reflexivity].
  - left. split; [left; apply Df; reflexivity|reflexivity].
  - right. split; [exact P|]. exists (d ++ CRLF). split; [exists (L "Content-Length: "); split; reflexivity|].
    exists [], [], d, CRLF. split; [reflexivity|]. split; [constructor|]. split; [now left|]. split; [exact F|].
    split; [intros c t E; injection E as <- _; reflexivity|]. split; [intros _ ->; easy|]. split; [now destruct (list_eq_dec ascii_dec [] (L "-"))|lia].
  - left. split; [apply Df; reflexivity|reflexivity].
  - right. right. right. split; [intros [K|K]; revert K; apply Df; reflexivity|]. split; [apply Df; reflexivity|reflexivity].
Qed.
Lemma announcement_asked v t socket peer d n t1 : decimal d n -> 0 < n < 2 ^ 31 -> len peer <= 15 ->
  connection_add (v_limits v) t socket peer (L "/api") = Ok (true, t1) ->
  exists line x, api_asked v t socket peer (announcement d) (L "POST") (L "/api") [] [] line x [] t1 /\ td_length x = n /\ td_boundary x = [].
Proof.
  intros Hd Hn Hp Hc. pose proof (decimal_short _ _ Hd Hn) as Ld. pose proof Hd as (Hne & F & V & _).
  exists (L "POST /api HTTP/1.1" ++ CRLF). eexists. split; [|split; [|]].
  - exists (length_line d ++ CRLF), (L "/api"). split; [|split; [exact Hp|]].
    { split; [split; [|split; [vm_compute; discriminate|]]|split; [apply no_nul_dec_b; reflexivity|]].
      - unfold announcement, length_line. now rewrite <- !app_assoc.
      - left. exists (L "POST /api HTTP/1.1" ++ [CR]). split; [reflexivity|]. apply no_in_dec. reflexivity.
      - split; [|split; [|split; [vm_compute; discriminate|]]].
        + split; [easy|]. split; [apply no_nul_dec_b; reflexivity|]. repeat constructor; intros K; vm_compute in K; intuition discriminate.
        + split; [easy|]. split; [apply no_nul_dec_b; reflexivity|]. repeat constructor; intros K; vm_compute in K; intuition discriminate.
        + exists (L " "), SP, (L "HTTP/1.1" ++ CRLF). split; [reflexivity|]. split; [easy|]. split; [repeat constructor; vm_compute; tauto|vm_compute; tauto]. }
    split; [exists (L "POST"); split; [cbn; tauto|]; exists (L "POST"), []; split; [reflexivity|]; apply ci_self|].
    split; [exact Hc|]. split; [|split; [|split; [|split; [reflexivity|]]]].
    + assert (Nl : ~ In LF (L "Content-Length: " ++ d ++ [CR])).
      { intros K. apply in_app_or in K as [K|K]; [revert K; apply no_in_dec; reflexivity|]. apply in_app_or in K as [K|[K|[]]]; [|discriminate K]. revert K. now apply digits_not. }
      eapply sc_line with (l := length_line d) (rest := CRLF).
      * split; [reflexivity|]. split; [unfold length_line; rewrite !len_app; change (len CRLF) with 2; change (len (L "Content-Length: ")) with 16; lia|].
        left. exists (L "Content-Length: " ++ d ++ [CR]). split; [unfold length_line; now rewrite <- !app_assoc|exact Nl].
      * easy.
      * intros [K|K]; discriminate K.
      * unfold length_line. apply no_nul_app. split; [apply no_nul_dec_b; reflexivity|]. apply no_nul_app. split; [|apply no_nul_dec_b; reflexivity].
        eapply Forall_impl; [|exact F]. intros c Hc' ->. discriminate Hc'.
      * exact (length_line_tells d n (nothing_told peer) Hd Hn eq_refl).
      * eapply sc_blank with (l := CRLF); [|now right]. split; [reflexivity|]. split; [vm_compute; discriminate|]. left. exists [CR]. split; [reflexivity|]. intros [K|[]]. discriminate K.
    + unfold short_fields. cbn. repeat constructor; cbn [fst snd]; [vm_compute; discriminate|]. lia.
    + exists []. split; [|split; [vm_compute; discriminate|reflexivity]]. change (firstn 254 (L "/api")) with ([] ++ L "/api" ++ []).
      constructor; [constructor|easy|repeat constructor; intros K; vm_compute in K; intuition discriminate|discriminate|constructor; constructor].
    + exists (L "/api"), []. split; [reflexivity|]. apply ci_self.
  - reflexivity.
  - reflexivity.
Qed.

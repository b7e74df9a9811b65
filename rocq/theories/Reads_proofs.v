(** Reads_proofs.v - lemmas about failing reads. *)
From Verif Require Import Reads Lemmas StringUtils_proofs ConfParser_proofs WsRequest_proofs Log_proofs SpecReq SpecReads Spec.
Local Open Scope Z_scope.

(** ** Without failures *)
Lemma get_line_loop_map s : forall b i size,
  get_line_loop_r (map Got s) b i size = ('(n, b', s') <- get_line_loop s b i size;; Ok (n, b', map Got s')).
Proof.
  induction s as [|c s IH]; intros b i size; cbn [map get_line_loop_r get_line_loop]; destruct (i <? size - 1); try reflexivity.
  destruct (wr b i c) as [b'|u]; cbn [bind]; [|reflexivity]. destruct (ceq c LF); [reflexivity|apply IH].
Qed.
Lemma get_line_map s b size : get_line_r (map Got s) b size = ('(n, b', s') <- get_line s b size;; Ok (n, b', map Got s')).
Proof.
  unfold get_line_r, get_line. rewrite get_line_loop_map. destruct (get_line_loop s b 0 size) as [[[n b'] s']|u]; cbn [bind]; [|reflexivity].
  destruct (wr b' n NUL); reflexivity.
Qed.

Definition bare (h : hstate) (b : buf) : hstate :=
  mkH b [] (hs_headers h) (hs_content_type h) (hs_boundary h) (hs_length h) (hs_ip h) (hs_session h).

Lemma header_line_bare h : header_line (bare h (hs_buf h)) = (h' <- header_line h;; Ok (bare h' (hs_buf h'))).
Proof.
  unfold header_line, bare. cbn [hs_buf hs_headers hs_content_type hs_boundary hs_length hs_ip hs_session hs_stream].
  destruct (store_header _ _); [cbn [bind]|reflexivity]. destruct (take_content_type _ _); [cbn [bind]|reflexivity].
  destruct (take_boundary _ _); [cbn [bind]|reflexivity]. destruct (take_length _ _); [cbn [bind]|reflexivity].
  destruct (take_ip _ _) as [[ip b1]|]; [cbn [bind]|reflexivity]. destruct (take_session _ _); [cbn [bind]|reflexivity].
  destruct (take_cookie _ _); reflexivity.
Qed.
Lemma header_loop_map fuel : forall n h,
  header_loop_r fuel n (bare h (hs_buf h)) (map Got (hs_stream h))
    = (h' <- header_loop fuel n h;; Ok (bare h' (hs_buf h'), map Got (hs_stream h'))).
Proof.
  induction fuel as [|fuel IH]; intros n h; cbn [header_loop header_loop_r]; (destruct (0 <? n); [|reflexivity]);
    change (hs_buf (bare h (hs_buf h))) with (hs_buf h); rewrite header_line_bare;
    (destruct (strcmp_eq (cs [LF]) (hs_buf h)) as [e1|]; cbn [bind]; [|reflexivity]); (destruct e1; [reflexivity|]);
    (destruct (strcmp_eq (cs CRLF) (hs_buf h)) as [e2|]; cbn [bind]; [|reflexivity]); (destruct e2; [reflexivity|]);
    destruct (header_line h) as [h1|] eqn:Eh; cbn [bind]; try reflexivity;
    assert (St : hs_stream h1 = hs_stream h)
      by (clear - Eh; unfold header_line in Eh; repeat (apply bind_ok_inv in Eh as (? & _ & Eh); cbv beta iota zeta in Eh; try (match type of Eh with context [let '(_, _) := ?x in _] => destruct x end)); inversion Eh; reflexivity);
    change (hs_buf (bare h1 (hs_buf h1))) with (hs_buf h1); rewrite <- St, get_line_map;
    destruct (get_line (hs_stream h1) (hs_buf h1) 1024) as [[[n' b'] s']|]; cbn [bind]; try reflexivity.
  specialize (IH n' (mkH b' s' (hs_headers h1) (hs_content_type h1) (hs_boundary h1) (hs_length h1) (hs_ip h1) (hs_session h1))).
  exact IH.
Qed.
Lemma read_body_map k : forall s c, read_body_r k (map Got s) c = fst (read_body k s c).
Proof.
  induction k as [|k IH]; intros s c; [reflexivity|]. destruct s as [|x s]; cbn [map read_body_r read_body].
  - specialize (IH [] c). cbn [map] in IH. rewrite IH. now destruct (read_body k [] c).
  - rewrite IH. now destruct (read_body k s x).
Qed.
Lemma handle_map v f s r n b : handle_api_request_r v f (map Got s) r n b = handle_api_request v f s r n b.
Proof. unfold handle_api_request_r, handle_api_request. now rewrite read_body_map. Qed.

(** ** The part after the request line *)
Definition read_loop (k : nat) (g : list got) (h : hstate) (b : buf) : outcome (hstate * list got) :=
  '(n, b', g') <- get_line_r g b 1024;; header_loop_r k n (bare h b') g'.
Definition answer (v : wsenv) (f : fs) (t1 : table) (r2 : api_request) (method url : str) (h : hstate) (g3 : list got) : outcome result :=
  let r3 := set_session (set_ip (set_content_type (set_headers r2 (hs_headers h))
              (hs_content_type h)) (hs_ip h)) (hs_session h) in
  '(path, query) <- get_path_and_query_string url;;
  let r4 := set_query r3 query in
  api <- startswith (cs url) API_MOUNT;;
  if negb api then
    let r5 := set_path r4 path in
    if str_caseeqb method (L "GET") then
      r6 <- handle_static_routes v f r5;; Ok (finish TStatic r6 t1 f)
    else
      r6 <- bad_request r5;; Ok (finish TNotGet r6 t1 f)
  else
    p <- cstr (from (cs path) (len API_MOUNT));;
    let r5 := set_path r4 p in
    '(calls, r6, f') <- handle_api_request_r v f g3 r5 (hs_length h) (hs_boundary h);;
    Ok (finish (TApi calls) r6 t1 f').
Definition told_nothing (ip : str) : hstate := mkH [] [] [] None [] (-1) ip (calloc MAX_SESSION).
Definition begins (v : wsenv) (f : fs) (t : table) (socket : Z) (peer : str) (b : buf) (rest : table -> api_request -> str -> str -> outcome result) : outcome result :=
  r0 <- new_request socket peer;;
  '(rl, method, j) <- parse_request_line b;;
  let r1 := set_method (set_request_line r0 rl) method in
  ok_method <- startswithany (cs method) ALLOWED_HTTP_METHODS;;
  if negb ok_method then
    r2 <- bad_request r1;; Ok (finish TBadMethod r2 t f)
  else
  url <- parse_url b j;;
  let r2 := set_url r1 url in
  '(admitted, t1) <- connection_add (v_limits v) t socket (r_ip r2) url;;
  if negb admitted then
    r3 <- too_many_connections r2;; Ok (finish TTooMany r3 t1 f)
  else rest t1 r2 method url.
Definition follows (v : wsenv) (f : fs) (b : buf) (g1 : list got) (t1 : table) (r2 : api_request) (method url : str) : outcome result :=
  b1 <- write_at b 0 [Some "A"%char; Some NUL];;
  '(h, g3) <- read_loop (length g1) g1 (told_nothing (r_ip r2)) b1;;
  answer v f t1 r2 method url h g3.

Lemma bind_assoc A B C (x : outcome A) (f : A -> outcome B) (g : B -> outcome C) : bind (bind x f) g = bind x (fun a => bind (f a) g).
Proof. now destruct x. Qed.

Lemma reads_unfold v f t socket peer g :
  accept_reads v f t socket peer g
    = (r0 <- new_request socket peer;; '(_, b, g1) <- get_line_r g (calloc 1024) 1024;; begins v f t socket peer b (follows v f b g1)).
Proof.
  unfold accept_reads, begins, follows, answer, read_loop, told_nothing, bare.
  cbn [hs_headers hs_content_type hs_boundary hs_length hs_ip hs_session].
  destruct (new_request socket peer) as [r0|]; cbn [bind]; [|reflexivity].
  destruct (get_line_r g (calloc 1024) 1024) as [[[n b] g1]|]; cbn [bind]; [|reflexivity].
  destruct (parse_request_line b) as [[[rl m] j]|]; cbn [bind]; [|reflexivity].
  destruct (startswithany (cs m) ALLOWED_HTTP_METHODS) as [okm|]; cbn [bind]; [|reflexivity]. destruct (negb okm); [reflexivity|].
  destruct (parse_url b j) as [url|]; cbn [bind]; [|reflexivity].
  destruct (connection_add _ _ _ _ _) as [[adm t1]|]; cbn [bind]; [|reflexivity]. destruct (negb adm); [reflexivity|].
  destruct (write_at b 0 _) as [b1|]; cbn [bind]; [|reflexivity].
  destruct (get_line_r g1 b1 1024) as [[[n2 b2] g2]|]; cbn [bind]; reflexivity.
Qed.
Lemma begins_same v f t socket peer b k1 k2 : (forall t1 r2 m u, k1 t1 r2 m u = k2 t1 r2 m u) ->
  begins v f t socket peer b k1 = begins v f t socket peer b k2.
Proof.
  intros K. unfold begins. destruct (new_request socket peer) as [r0|]; cbn [bind]; [|reflexivity].
  destruct (parse_request_line b) as [[[rl m] j]|]; cbn [bind]; [|reflexivity].
  destruct (startswithany (cs m) ALLOWED_HTTP_METHODS) as [okm|]; cbn [bind]; [|reflexivity]. destruct (negb okm); [reflexivity|].
  destruct (parse_url b j) as [url|]; cbn [bind]; [|reflexivity].
  destruct (connection_add _ _ _ _ _) as [[adm t1]|]; cbn [bind]; [|reflexivity]. destruct (negb adm); [reflexivity|]. apply K.
Qed.

Lemma read_loop_map k s h b : read_loop k (map Got s) h b
  = ('(n, b2, s2) <- get_line s b 1024;;
     h' <- header_loop k n (mkH b2 s2 (hs_headers h) (hs_content_type h) (hs_boundary h) (hs_length h) (hs_ip h) (hs_session h));;
     Ok (bare h' (hs_buf h'), map Got (hs_stream h'))).
Proof.
  unfold read_loop. rewrite get_line_map. destruct (get_line s b 1024) as [[[n b2] s2]|]; cbn [bind]; [|reflexivity].
  exact (header_loop_map k n (mkH b2 s2 (hs_headers h) (hs_content_type h) (hs_boundary h) (hs_length h) (hs_ip h) (hs_session h))).
Qed.

Lemma reads_accept v f t socket peer s : accept_reads v f t socket peer (map Got s) = accept_request v f t socket peer s.
Proof.
  rewrite reads_unfold. unfold accept_request, begins, follows.
  destruct (new_request socket peer) as [r0|]; cbn [bind]; [|reflexivity]. rewrite get_line_map.
  destruct (get_line s (calloc 1024) 1024) as [[[n b] s1]|]; cbn [bind]; [|reflexivity].
  destruct (parse_request_line b) as [[[rl m] j]|]; cbn [bind]; [|reflexivity].
  destruct (startswithany (cs m) ALLOWED_HTTP_METHODS) as [okm|]; cbn [bind]; [|reflexivity]. destruct (negb okm); [reflexivity|].
  destruct (parse_url b j) as [url|]; cbn [bind]; [|reflexivity].
  destruct (connection_add _ _ _ _ _) as [[adm t1]|]; cbn [bind]; [|reflexivity]. destruct (negb adm); [reflexivity|].
  destruct (write_at b 0 _) as [b1|]; cbn [bind]; [|reflexivity]. rewrite map_length, read_loop_map.
  unfold told_nothing. cbn [hs_headers hs_content_type hs_boundary hs_length hs_ip hs_session].
  destruct (get_line s1 b1 1024) as [[[n2 b2] s2]|]; cbn [bind]; [|reflexivity].
  match goal with |- context [header_loop ?a ?b ?c] => destruct (header_loop a b c) as [h|] end; cbn [bind]; [|reflexivity].
  unfold answer, bare. cbn [hs_headers hs_content_type hs_boundary hs_length hs_ip hs_session]. rewrite ?handle_map.
  destruct (get_path_and_query_string url) as [[path query]|]; cbn [bind]; [|reflexivity].
  destruct (startswith (cs url) API_MOUNT) as [api|]; cbn [bind]; [|reflexivity]. destruct (negb api); [reflexivity|].
  destruct (cstr (from (cs path) (len API_MOUNT))) as [p|]; cbn [bind]; [|reflexivity]. now rewrite handle_map.
Qed.

(** ** Two lists of reads that are handled alike *)
Definition alike (o1 o2 : outcome (hstate * list got)) : Prop :=
  match o1, o2 with
  | Ok (h1, g1), Ok (h2, g2) => bare h1 [] = bare h2 [] /\ forall k, read_body_r k g1 NUL = read_body_r k g2 NUL
  | UB u1, UB u2 => u1 = u2
  | _, _ => False
  end.
Lemma answer_alike v f t1 r2 m u h1 g1 h2 g2 : bare h1 [] = bare h2 [] -> (forall k, read_body_r k g1 NUL = read_body_r k g2 NUL) ->
  answer v f t1 r2 m u h1 g1 = answer v f t1 r2 m u h2 g2.
Proof.
  intros B R. unfold bare in B. injection B as B1 B2 B3 B4 B5 B6. unfold answer, handle_api_request_r. rewrite B1, B2, B3, B4, B5, B6, R. reflexivity.
Qed.
Lemma bind_alike v f t1 r2 m u o1 o2 : alike o1 o2 ->
  ('(h, g3) <- o1;; answer v f t1 r2 m u h g3) = ('(h, g3) <- o2;; answer v f t1 r2 m u h g3).
Proof.
  destruct o1 as [[h1 g1]|u1], o2 as [[h2 g2]|u2]; cbn; intros H; try easy.
  - destruct H. now apply answer_alike.
  - now subst.
Qed.
Lemma alike_refl o : alike o o.
Proof. destruct o as [[h g]|u]; cbn; auto. Qed.

(** Getting a whole line does not depend on what follows. *)
Lemma whole_line_loop l' : forall b i size A, i + len l' + 1 <= size - 1 -> ~ In LF l' ->
  get_line_loop_r (map Got (l' ++ [LF]) ++ A) b i size
    = ('(n, b', _) <- get_line_loop (l' ++ [LF]) b i size;; Ok (n, b', A)).
Proof.
  induction l' as [|c l' IH]; intros b i size A Hi Hn; cbn [map app get_line_loop_r get_line_loop].
  - rewrite len_nil in Hi. replace (i <? size - 1) with true by lia. destruct (wr b i LF); reflexivity.
  - rewrite len_cons in Hi. pose proof (len_nonneg _ l'). replace (i <? size - 1) with true by lia.
    destruct (wr b i c) as [b'|]; cbn [bind]; [|reflexivity]. destruct (ceq_spec c LF) as [->|N]; [elim Hn; now left|].
    apply IH; [lia|]. intros I. apply Hn. now right.
Qed.
Lemma whole_line_get l b A : whole_line l -> get_line_r (map Got l ++ A) b 1024 = ('(n, b', _) <- get_line l b 1024;; Ok (n, b', A)).
Proof.
  intros (l' & -> & Hn & Hl). unfold get_line_r, get_line. rewrite len_app in Hl. change (len [LF]) with 1 in Hl.
  rewrite whole_line_loop by (auto; lia). destruct (get_line_loop (l' ++ [LF]) b 0 1024) as [[[n b'] s']|]; cbn [bind]; [|reflexivity].
  destruct (wr b' n NUL); reflexivity.
Qed.
Lemma whole_line_of l : whole_line l -> line_of 1024 l l [].
Proof. intros (l' & -> & Hn & Hl). split; [now rewrite app_nil_r|]. split; [lia|]. left. eauto. Qed.
Lemma get_whole l b A : whole_line l -> len b = 1024 ->
  get_line_r (map Got l ++ A) b 1024 = Ok (len l, cs l ++ skipn (S (length l)) b, A) /\ len (cs l ++ skipn (S (length l)) b) = 1024.
Proof.
  intros Hl Hb. pose proof Hl as (l' & _ & _ & Hle). rewrite whole_line_get, (get_line_eq 1024 l l []) by (auto using whole_line_of; lia).
  split; [reflexivity|]. unfold len in *. rewrite app_length, cs_length, skipn_length. lia.
Qed.

Lemma header_line_len h h1 : header_line h = Ok h1 -> len (hs_buf h1) = len (hs_buf h).
Proof.
  unfold header_line. intros E. do 4 (apply bind_ok_inv in E as (? & _ & E)). apply bind_ok_inv in E as ([ip b1] & Ei & E).
  apply bind_ok_inv in E as (? & _ & E). apply bind_ok_inv in E as (? & _ & E). inversion E; subst. cbn [hs_buf]. unfold take_ip in Ei.
  apply bind_ok_inv in Ei as (m & _ & Ei). destruct m; [|now inversion Ei].
  apply bind_ok_inv in Ei as (b' & Et & Ei). apply bind_ok_inv in Ei as (? & _ & Ei). apply bind_ok_inv in Ei as (? & _ & Ei). inversion Ei; subst.
  now apply trim_keeps_len.
Qed.

Lemma not_blank l st : whole_line l -> ~ blank_line l -> strcmp_eq (cs [LF]) (cs l ++ st) = Ok false /\ strcmp_eq (cs CRLF) (cs l ++ st) = Ok false.
Proof.
  intros (l' & -> & Hn & _) Hb. destruct l' as [|c l']; [elim Hb; now left|].
  assert (c <> LF) by (intros ->; apply Hn; now left). unfold CRLF, cs. cbn [map app strcmp_eq].
  rewrite (ceq_neq LF c) by auto. split; [reflexivity|]. destruct (ceq_spec CR c) as [<-|_]; [|reflexivity].
  change (ceq CR NUL) with false. cbv iota. destruct l' as [|d l']; [elim Hb; now right|].
  assert (d <> LF) by (intros ->; apply Hn; right; now left). cbn [map app strcmp_eq]. now rewrite (ceq_neq LF d) by auto.
Qed.
Lemma is_blank l st k h g : blank_line l -> header_loop_r k (len l) (bare h (cs l ++ st)) g = Ok (bare h (cs l ++ st), g).
Proof. intros [-> | ->]; destruct k; reflexivity. Qed.

Lemma read_lines_alike A B : length A = length B -> (forall k h b, len b = 1024 -> alike (read_loop k A h b) (read_loop k B h b)) ->
  forall ls, Forall (fun l => whole_line l /\ ~ blank_line l) ls -> forall k h b, len b = 1024 -> (length (concat ls) + length A <= k)%nat ->
  alike (read_loop k (map Got (concat ls) ++ A) h b) (read_loop k (map Got (concat ls) ++ B) h b).
Proof.
  intros HL H ls F. induction F as [|l ls [Hl Hbl] F IH]; intros k h b Hb Hk; [now apply H|].
  cbn [concat]. rewrite map_app, <- !app_assoc. unfold read_loop.
  destruct (get_whole l b (map Got (concat ls) ++ A) Hl Hb) as [-> Lb]. destruct (get_whole l b (map Got (concat ls) ++ B) Hl Hb) as [-> _]. cbn [bind].
  pose proof Hl as (l' & El & _).
  assert (P : (1 <= length l)%nat) by (rewrite El, app_length; cbn; lia).
  destruct k as [|k]; [cbn [concat] in Hk; rewrite app_length in Hk; lia|]. cbn [header_loop_r]. replace (0 <? len l) with true by (unfold len; lia).
  change (hs_buf (bare h ?b1)) with b1. destruct (not_blank l (skipn (S (length l)) b) Hl Hbl) as [B1 B2]. rewrite B1, B2. cbn [bind].
  set (b1 := cs l ++ _) in *. destruct (header_line (bare h b1)) as [h1|u] eqn:Eh; cbn [bind]; [|reflexivity].
  apply header_line_len in Eh. change (hs_buf (bare h b1)) with b1 in Eh.
  specialize (IH k h1 (hs_buf h1)). unfold read_loop, bare in IH. apply IH; [lia|]. cbn [concat] in Hk. rewrite app_length in Hk. lia.
Qed.

Lemma accept_alike v f t socket peer l ls A B : whole_line l -> Forall (fun l => whole_line l /\ ~ blank_line l) ls ->
  length A = length B -> (forall k h b, len b = 1024 -> alike (read_loop k A h b) (read_loop k B h b)) ->
  accept_reads v f t socket peer (map Got (l ++ concat ls) ++ A) = accept_reads v f t socket peer (map Got (l ++ concat ls) ++ B).
Proof.
  intros Hl F HL H. rewrite !reads_unfold. destruct (new_request socket peer) as [r0|]; cbn [bind]; [|reflexivity].
  rewrite !map_app, <- !app_assoc. assert (C1024 : len (calloc 1024) = 1024) by (rewrite len_calloc; lia).
  destruct (get_whole l (calloc 1024) (map Got (concat ls) ++ A) Hl C1024) as [-> Lb].
  destruct (get_whole l (calloc 1024) (map Got (concat ls) ++ B) Hl C1024) as [-> _]. cbn [bind].
  apply begins_same. intros t1 r2 m u. unfold follows.
  destruct (write_at _ 0 _) as [b1|] eqn:Ew; cbn [bind]; [|reflexivity]. apply write_at_len in Ew.
  rewrite !app_length, HL. apply bind_alike. apply read_lines_alike; auto.
  - unfold len in *. lia.
  - rewrite map_length, HL. lia.
Qed.

Lemma failed_is_blank g k h b : len b = 1024 -> alike (read_loop k (Failed :: g) h b) (read_loop k (Got LF :: g) h b).
Proof.
  intros Hb. unfold read_loop, get_line_r. cbn [get_line_loop_r]. replace (0 <? 1024 - 1) with true by reflexivity.
  destruct b as [|x [|y b]]; [discriminate Hb|discriminate Hb|].
  assert (W0 : forall c, wr (x :: y :: b) 0 c = Ok (Some c :: y :: b)) by (intros c; apply (wr_at [] x (y :: b) 0 c eq_refl)).
  rewrite !W0. cbn [bind]. replace (ceq LF LF) with true by reflexivity. cbn [bind]. change (0 + 1) with 1.
  rewrite !W0. change (Some LF :: y :: b) with ([Some LF] ++ y :: b). rewrite (wr_at [Some LF] y b 1 NUL eq_refl). cbn [bind app].
  change (header_loop_r k 1 (bare h (Some LF :: Some NUL :: b)) g) with (header_loop_r k (len [LF]) (bare h (cs [LF] ++ b)) g).
  rewrite is_blank by now left. destruct k; cbn; auto.
Qed.

Lemma body_alike g g' e : whole_line e -> blank_line e -> (forall k, read_body_r k g NUL = read_body_r k g' NUL) ->
  forall k h b, len b = 1024 -> alike (read_loop k (map Got e ++ g) h b) (read_loop k (map Got e ++ g') h b).
Proof.
  intros We Be R k h b Hb. unfold read_loop. destruct (get_whole e b g We Hb) as [-> _]. destruct (get_whole e b g' We Hb) as [-> _]. cbn [bind].
  rewrite !is_blank by auto. split; auto.
Qed.

(** The body, with failed reads replaced by the last byte. *)
Fixpoint fill (c : ascii) (g : list got) : str :=
  match g with [] => [] | Failed :: t => c :: fill c t | Got x :: t => x :: fill x t end.
Lemma fill_length g : forall c, length (fill c g) = length g.
Proof. induction g as [|[x|] g IH]; intros c; cbn; auto. Qed.
Lemma fill_body k : forall g c, read_body_r k g c = read_body_r k (map Got (fill c g)) c.
Proof. induction k as [|k IH]; intros g c; [reflexivity|]. destruct g as [|[x|] g]; cbn [fill map read_body_r]; f_equal; apply IH. Qed.
Definition last_from (c0 : ascii) (g : list got) (c : ascii) : Prop :=
  (exists a n, g = a ++ Got c :: repeat Failed n) \/ (c = c0 /\ exists n, g = repeat Failed n).
Lemma fill_last g : forall c0 i c, nth_error (fill c0 g) i = Some c -> last_from c0 (firstn (S i) g) c.
Proof.
  induction g as [|x g IH]; intros c0 i c H; [destruct i; discriminate H|]. destruct i as [|i].
  - destruct x as [x|]; cbn in H; injection H as <-; [left; exists [], 0%nat; reflexivity|right; split; [reflexivity|exists 1%nat; reflexivity]].
  - destruct x as [x|]; cbn in H; apply IH in H; rewrite firstn_cons; destruct H as [(a & n & ->)|(-> & n & ->)].
    + left. exists (Got x :: a), n. reflexivity.
    + left. exists [], n. reflexivity.
    + left. exists (Failed :: a), n. reflexivity.
    + right. split; [reflexivity|]. exists (S n). reflexivity.
Qed.
Lemma last_unique g : forall c d, last_got g c -> last_got g d -> c = d.
Proof.
  assert (N : forall n m (c d : ascii) a b, a ++ Got c :: repeat Failed n = b ++ Got d :: repeat Failed m -> c = d).
  { intros n. induction n as [|n IH]; intros m c d a b E.
    - destruct m as [|m].
      + apply app_inj_tail in E as [_ E]. congruence.
      + replace (repeat Failed (S m)) with (repeat Failed m ++ [Failed]) in E by (symmetry; apply repeat_cons).
        rewrite app_comm_cons, app_assoc in E. apply app_inj_tail in E as [_ E]. discriminate.
    - replace (repeat Failed (S n)) with (repeat Failed n ++ [Failed]) in E by (symmetry; apply repeat_cons).
      rewrite app_comm_cons, app_assoc in E. destruct m as [|m].
      + apply app_inj_tail in E as [_ E]. discriminate.
      + replace (repeat Failed (S m)) with (repeat Failed m ++ [Failed]) in E by (symmetry; apply repeat_cons).
        rewrite app_comm_cons, (app_assoc b) in E. apply app_inj_tail in E as [E _]. eapply IH. exact E. }
  assert (M : forall n a (c : ascii) m, a ++ Got c :: repeat Failed m <> repeat Failed n).
  { intros n a c m E. assert (I : In (Got c) (repeat Failed n)) by (rewrite <- E; apply in_or_app; right; now left). apply repeat_spec in I. discriminate. }
  intros c d [(a & n & ->)|(-> & n & ->)] [(b & m & E)|(-> & m & E)]; auto.
  - eapply N. exact E.
  - now apply M in E.
  - symmetry in E. now apply M in E.
Qed.
Lemma as_if_fill g s : as_if g s <-> s = fill NUL g.
Proof.
  split.
  - intros (Hl & H). apply nth_ext with (d := NUL) (d' := NUL); [now rewrite fill_length|]. intros i Hi.
    assert (I1 : nth_error s i = Some (nth i s NUL)) by now apply nth_error_nth'.
    assert (I2 : nth_error (fill NUL g) i = Some (nth i (fill NUL g) NUL)) by (apply nth_error_nth'; rewrite fill_length; lia).
    apply H in I1. apply fill_last in I2. eapply last_unique; eauto.
  - intros ->. split; [apply fill_length|]. intros i c H. now apply fill_last.
Qed.

(** ** Lines with failures *)
Lemma get_line_loop_got l : forall b i size g r, 0 <= i -> i + len l <= size - 1 -> g = map Got l ++ r ->
  ((exists l', l = l' ++ [LF] /\ ~ In LF l') \/ (~ In LF l /\ (i + len l = size - 1 \/ r = [] \/ exists t, r = Failed :: t))) ->
  get_line_loop_r g b i size
    = ('(n, b', _) <- get_line_loop l b i size;; Ok (n, b',
        match r with Failed :: t => if (i + len l <? size - 1) && negb (existsb (ceq LF) l) then t else r | _ => r end)).
Proof.
  induction l as [|c l IH]; intros b i size g r H0 Hi -> H.
  - cbn [map app]. rewrite len_nil, Z.add_0_r in *. cbn [existsb negb]. rewrite andb_true_r. destruct H as [([|? ?] & E & _)|[_ H]]; try discriminate E.
    destruct r as [|[c|] r]; cbn [get_line_loop_r get_line_loop]; destruct (Z.ltb_spec i (size - 1)); cbn [bind]; try reflexivity.
    exfalso. destruct H as [H|[H|(t & H)]]; [lia|discriminate|discriminate].
  - rewrite len_cons in *. pose proof (len_nonneg _ l). cbn [map app get_line_loop_r get_line_loop]. replace (i <? size - 1) with true by lia.
    destruct (wr b i c) as [b'|]; cbn [bind]; [|reflexivity]. cbn [existsb]. destruct (ceq_spec c LF) as [->|N].
    + rewrite ceq_refl. cbn [orb negb bind]. rewrite andb_false_r.
      assert (l = []).
      { destruct H as [(l' & E & N)|[N _]]; [|elim N; now left]. destruct l' as [|x l']; [injection E; auto|]. injection E as <- E. elim N. now left. }
      subst l. cbn [map app]. now destruct r as [|[|] r].
    + rewrite (ceq_neq LF c) by auto. cbn [orb]. rewrite (IH b' (i + 1) size (map Got l ++ r) r); auto; try lia.
      * replace (i + 1 + len l) with (i + (len l + 1)) by lia. reflexivity.
      * destruct H as [(l' & E & N')|[N' H]].
        -- left. destruct l' as [|x l']; [injection E; intros; subst; congruence|]. injection E as <- E. exists l'. split; auto. intros I. apply N'. now right.
        -- right. split; [intros I; apply N'; now right|]. destruct H as [H|H]; [left; lia|auto].
Qed.
Lemma in_lf l : existsb (ceq LF) l = true <-> In LF l.
Proof.
  rewrite existsb_exists. split.
  - intros (x & I & E). apply ceq_true in E. now subst.
  - intros I. exists LF. split; [exact I|reflexivity].
Qed.
Lemma get_line_got size g l rest b : 1 <= size -> line_got size g l rest -> len l + 1 <= len b ->
  get_line_r g b size = Ok (len l, cs l ++ skipn (S (length l)) b, rest).
Proof.
  intros H1 (r & E & Hl & H) Hb.
  assert (Hline : line_of size l l []).
  { split; [now rewrite app_nil_r|]. split; [lia|]. destruct H as [(l' & X & Y & _)|[(X & Y & _)|(X & Y & _)]]; eauto. }
  pose proof (get_line_eq size l l [] b Hline Hb) as G. unfold get_line in G. unfold get_line_r.
  rewrite (get_line_loop_got l b 0 size g r); auto; try lia.
  - destruct (get_line_loop l b 0 size) as [[[n b'] s']|]; cbn [bind] in *; [|discriminate G].
    destruct (wr b' n NUL) as [b''|]; cbn [bind] in *; [|discriminate G].
    assert (n = len l /\ b'' = cs l ++ skipn (S (length l)) b) as [-> ->] by (split; congruence). f_equal. f_equal.
    rewrite Z.add_0_l. destruct H as [(l' & X & Y & ->)|[(X & Y & ->)|(X & Y & H)]].
    + assert (B : existsb (ceq LF) l = true) by (apply in_lf; rewrite X; apply in_or_app; right; now left). rewrite B, andb_false_r. now destruct r as [|[|] r].
    + replace (len l <? size - 1) with false by lia. now destruct r as [|[|] r].
    + assert (B : existsb (ceq LF) l = false) by (destruct (existsb (ceq LF) l) eqn:B; [apply in_lf in B; contradiction|reflexivity]). rewrite B.
      replace (len l <? size - 1) with true by lia. destruct H as [[-> ->]| ->]; reflexivity.
  - destruct H as [(l' & X & Y & _)|[(X & Y & _)|(X & Y & H)]]; [left; eauto|right; split; [auto|left; lia]|right; split; [auto|]].
    right. destruct H as [[-> _]| ->]; [now left|right; eauto].
Qed.
Lemma line_got_exists size g : 1 <= size -> exists l rest, line_got size g l rest.
Proof.
  intros H1. revert size H1. induction g as [|x g IH]; intros size H1.
  - exists [], []. exists []. split; [reflexivity|]. rewrite len_nil. split; [lia|]. right. destruct (Z.eq_dec 0 (size - 1)); [left|right]; auto.
    split; [easy|]. split; [lia|]. left. auto.
  - destruct (Z.eq_dec size 1) as [->|N].
    + exists [], (x :: g). exists (x :: g). split; [reflexivity|]. split; [cbn; lia|]. right. left. auto.
    + destruct x as [c|].
      * destruct (ceq_spec c LF) as [->|Nc].
        -- exists [LF], g. exists g. split; [reflexivity|]. split; [cbn; lia|]. left. exists []. auto.
        -- destruct (IH (size - 1) ltac:(lia)) as (l & rest & r & E & Hl & H). exists (c :: l), rest, r. split; [now rewrite E|]. rewrite len_cons. split; [lia|].
           destruct H as [(l' & X & Y & ->)|[(X & Y & ->)|(X & Y & H)]].
           ++ left. exists (c :: l'). split; [now rewrite X|]. split; [intros [I|I]; auto|reflexivity].
           ++ right. left. split; [intros [I|I]; auto|]. split; [lia|reflexivity].
           ++ right. right. split; [intros [I|I]; auto|]. split; [lia|exact H].
      * exists [], g. exists (Failed :: g). split; [reflexivity|]. split; [rewrite len_nil; lia|]. right. right. split; [easy|]. split; [rewrite len_nil; lia|]. now right.
Qed.

(** The header section. *)
Lemma line_got_short l g r : line_got 1024 g l r -> l <> [] -> (length r < length g)%nat.
Proof.
  intros (r0 & -> & _ & H) N. rewrite app_length, map_length. assert (1 <= length l)%nat by (destruct l; [easy|cbn; lia]).
  destruct H as [(_ & _ & _ & ->)|[(_ & _ & ->)|(_ & _ & [[-> ->]| ->])]]; cbn [length]; lia.
Qed.
Lemma section_got_eq g x x' after : section_got g x x' after -> forall fuel l b h,
  line_in b l -> (length g <= fuel)%nat -> rep h x ->
  exists h', read_loop fuel g h b = Ok (h', after) /\ rep h' x'.
Proof.
  induction 1 as [g rest x Hl|g l0 rest x Hl Hb|g l0 rest x x1 x' after Hl Hne Hnb Hn T S IH]; intros fuel l b h Lb Hf R;
    pose proof Lb as (st & _ & L1024); pose proof Hl as (_ & _ & Hle & _); unfold read_loop; rewrite (get_line_got 1024 _ _ _ _ ltac:(lia) Hl) by lia; cbn [bind].
  - exists (bare h (cs [] ++ skipn 1 b)). split; [destruct fuel; reflexivity|]. exact R.
  - eexists. split; [apply is_blank; exact Hb|]. exact R.
  - pose proof (line_got_short _ _ _ Hl Hne) as Sh.
    assert (P : 0 < len l0) by (destruct l0; [easy|rewrite len_cons; lens; lia]).
    destruct fuel as [|fuel]; [lia|]. cbn [header_loop_r]. replace (0 <? len l0) with true by lia.
    change (hs_buf (bare h ?b1)) with b1.
    pose proof (line_in_next b l l0 Lb ltac:(lia)) as L1. destruct L1 as (st1 & E1 & L1').
    rewrite E1, !strcmp_lit by (auto; apply no_nul_dec_b; reflexivity). cbn [bind].
    assert (B1 : str_eqb [LF] l0 = false) by (apply str_eqb_neq; intros <-; apply Hnb; now left). rewrite B1.
    assert (B2 : str_eqb CRLF l0 = false) by (apply str_eqb_neq; intros <-; apply Hnb; now right). rewrite B2.
    destruct (header_line_eq (bare h (cs l0 ++ map Some st1)) l0 x x1) as (h1 & l1 & E & Lh & R1 & St); auto.
    { exists st1. rewrite E1 in L1'. auto. }
    rewrite E. cbn [bind]. destruct (IH fuel l1 (hs_buf h1) h1) as (h' & E' & R'); auto; [lia|]. exists h'. split; [|exact R'].
    unfold read_loop, bare in E'. exact E'.
Qed.

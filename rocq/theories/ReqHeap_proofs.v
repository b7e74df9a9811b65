(** ReqHeap_proofs.v - lemmas about the heap blocks of the request handling. *)
From Coq Require Import Permutation.
From Verif Require Import ReqHeap Lemmas StringUtils_proofs ConfParser_proofs HttpUtils_proofs WsRequest_proofs WsDispatch_proofs Router_proofs WsApi_proofs ConfHeap_proofs
  SpecHttp SpecConn SpecReq SpecRouter SpecDispatch SpecApi SpecHeap SpecReqHeap Spec.

(** ** Tactics *)
Definition block_dec (a b : nat * str) : {a = b} + {a <> b}.
Proof. decide equality; [apply (list_eq_dec ascii_dec)|apply Nat.eq_dec]. Defined.
Definition copies (l : list (nat * str)) (x : nat * str) : nat := count_occ block_dec l x.
Lemma copies_cons a l x : copies (a :: l) x = (copies [a] x + copies l x)%nat.
Proof. unfold copies. cbn. destruct (block_dec a x); lia. Qed.
Lemma copies_app l l' x : copies (l ++ l') x = (copies l x + copies l' x)%nat.
Proof. apply count_occ_app. Qed.
Lemma copies_perm l l' : (forall x, copies l x = copies l' x) -> Permutation l l'.
Proof. intros H. apply (Permutation_count_occ block_dec). exact H. Qed.
Ltac perm := apply copies_perm; let x := fresh "x" in intros x; cbn [app];
  repeat first [rewrite copies_app | match goal with |- context [copies (?a :: ?b :: ?l) x] => rewrite (copies_cons a (b :: l) x) end
    | match goal with |- context [copies (?a :: ?l) x] => lazymatch l with [] => fail | _ => rewrite (copies_cons a l x) end end]; lia.
(** The next allocation of the goal, in the heap described by [A]. *)
Ltac alloc A := match type of A with blocks_are ?h ?l => match goal with |- context [halloc h ?s] =>
  let h1 := fresh "h" in let E := fresh "E" in let B := fresh "A" in destruct (are_alloc h l s A) as (h1 & E & B); rewrite E; clear E A; rename B into A end end.
(** The next free. *)
Ltac free A n s l' := match type of A with blocks_are ?h ?l =>
  let h1 := fresh "h" in let E := fresh "E" in let B := fresh "A" in
  destruct (are_free h l' n s) as (h1 & E & B); [eapply are_perm; [exact A|perm]|]; rewrite E; cbn [bind]; clear E A; rename B into A end.

(** ** string_utils.c *)
Lemma are_alloc_all ts : forall h l, blocks_are h l -> exists h1 m, halloc_all h ts = (h1, map (fun x => PBlock (fst x)) m) /\ blocks_are h1 (m ++ l).
Proof.
  induction ts as [|t ts IH]; intros h l A; cbn [halloc_all]; [exists h, []; auto|].
  destruct (are_alloc h l [] A) as (h1 & E & A1). rewrite E. destruct (IH _ _ A1) as (h2 & m & E2 & A2). rewrite E2.
  exists h2, ((h_next h, []) :: m). split; [reflexivity|]. eapply are_perm; [exact A2|perm].
Qed.
Lemma list_free h self strs m s l : l_self strs = PBlock self -> l_strings strs = map (fun x => PBlock (fst x)) m -> blocks_are h (m ++ (self, s) :: l) ->
  exists h1, free_str_list_h h strs = Ok h1 /\ blocks_are h1 l.
Proof.
  intros E1 E2 A. unfold free_str_list_h. rewrite E1, E2. destruct (are_free_all _ _ _ A) as (h1 & E & A1). rewrite E. cbn [bind]. eapply are_free; eauto.
Qed.
Lemma split_h_eq h s d toks l : split s d = Ok toks -> blocks_are h l ->
  exists h1 strs self m, split_h h s d = Ok (h1, strs, toks) /\ l_self strs = PBlock self /\ l_strings strs = map (fun x => PBlock (fst x)) m
    /\ blocks_are h1 (m ++ (self, []) :: l).
Proof.
  intros H A. unfold split_h. rewrite H. cbn [bind]. alloc A. alloc A.
  destruct (are_alloc_all toks _ _ A) as (h3 & m & E & A3). rewrite E. change (hfree h3 PNull) with (Ok h3). cbn [bind].
  free A3 (h_next h) s (m ++ (h_next h0, []) :: l). eexists _, _, _, m. split; [reflexivity|]. split; [reflexivity|]. split; [reflexivity|]. exact A3.
Qed.
Lemma split_once_h_eq h b nv l : split_once b (L ":") = Ok nv -> blocks_are h l ->
  exists h1 strs self m, split_once_h h b = Ok (h1, strs, nv) /\ l_self strs = PBlock self /\ l_strings strs = map (fun x => PBlock (fst x)) m
    /\ blocks_are h1 (m ++ (self, []) :: l).
Proof.
  intros H A. unfold split_once_h. rewrite H. cbn [bind]. alloc A. alloc A. alloc A. alloc A.
  destruct (are_alloc_all (tl nv) _ _ A) as (h5 & m & E & A5). rewrite E. cbn [bind].
  free A5 (h_next h1) (@nil ascii) (m ++ [(h_next h2, []); (h_next h0, []); (h_next h, [])] ++ l).
  free A5 (h_next h2) (@nil ascii) (((h_next h0, []) :: m) ++ (h_next h, []) :: l).
  eexists _, _, _, ((h_next h0, []) :: m). split; [reflexivity|]. split; [reflexivity|]. split; [reflexivity|]. exact A5.
Qed.

(** ** http_utils.c, wayuu_log.c *)
Lemma strcmp_true : forall b name, no_nul name -> strcmp_eq b (cs name) = Ok true -> cstr b = Ok name.
Proof.
  induction b as [|[x|] b IH]; intros [|c name] Hn H; cbn [cs map app strcmp_eq] in H; try discriminate.
  - destruct (ceq x NUL) eqn:E; [|discriminate]. cbn [cstr]. now rewrite E.
  - apply no_nul_cons in Hn as [Hc Hn]. destruct (ceq x c) eqn:E; [|discriminate]. apply ceq_true in E. subst c. apply ceq_neq in Hc.
    rewrite Hc in H. cbn [cstr]. rewrite Hc. rewrite (IH name Hn H). reflexivity.
Qed.
Lemma strcmp_false b name : no_nul name -> strcmp_eq b (cs name) = Ok false -> cstr b <> Ok name.
Proof. intros Hn H E. rewrite (strcmp_cstr b name name E Hn) in H. rewrite str_eqb_refl in H. discriminate. Qed.

Definition no_header (hs : list header) (name : str) : Prop := Forall (fun y => cstr (h_name y) <> Ok name) hs.
Lemma given_empty_cons_other x hs name : cstr (h_name x) <> Ok name -> given_empty (x :: hs) name <-> given_empty hs name.
Proof.
  intros Hx. split.
  - intros (pre & y & post & E & F & En & Ev). destruct pre as [|z pre]; injection E as -> ->; [easy|]. inversion F; subst. exists pre, y, post. auto.
  - intros (pre & y & post & -> & F & En & Ev). exists (x :: pre), y, post. auto.
Qed.
Lemma given_empty_cons_same x hs name v : cstr (h_name x) = Ok name -> cstr (h_value x) = Ok v -> given_empty (x :: hs) name <-> v = [].
Proof.
  intros Hx Hv. split.
  - intros (pre & y & post & E & F & En & Ev). destruct pre as [|z pre]; injection E as <- E; [congruence|]. inversion F; subst. easy.
  - intros ->. exists [], x, hs. auto.
Qed.
Lemma get_header_h_eq name : no_nul name -> forall hs h l v, get_header_loop hs name = Ok v -> blocks_are h l ->
  (get_header_h h hs name = Ok (h, PLit []) /\ ~ given_empty hs name)
  \/ exists h1, get_header_h h hs name = Ok (h1, PBlock (h_next h)) /\ blocks_are h1 ((h_next h, v) :: l) /\ (given_empty hs name <-> v = []).
Proof.
  intros Hn. induction hs as [|x hs IH]; intros h l v H A; cbn [get_header_loop get_header_h] in *.
  - left. split; [reflexivity|]. intros (pre & y & post & E & _). destruct pre; discriminate.
  - destruct (strcmp_eq (h_name x) (cs name)) as [e|u] eqn:E; [|discriminate]. cbn [bind] in *. destruct e.
    + apply strcmp_true in E; auto. rewrite H. cbn [bind]. right. destruct (are_alloc h l v A) as (h1 & -> & A1). exists h1. split; [reflexivity|]. split; [exact A1|].
      eapply given_empty_cons_same; eauto.
    + apply strcmp_false in E; auto. pose proof (given_empty_cons_other x hs name E) as G. destruct (IH h l v H A) as [(E1 & N)|(h1 & E1 & A1 & N)]; [left; tauto|right]. exists h1. tauto.
Qed.
Lemma one_if_unique P n m : one_if P n -> one_if P m -> n = m.
Proof. intros [(? & ->)|(? & ->)] [(? & ->)|(? & ->)]; tauto. Qed.
Lemma given_empties_unique hs n m : given_empties hs n -> given_empties hs m -> n = m.
Proof.
  intros (a & b & A & B & ->) (a' & b' & A' & B' & ->). now rewrite (one_if_unique _ _ _ A A'), (one_if_unique _ _ _ B B').
Qed.
(** A logged header: what is left of its copy. *)
Lemma free_header hs name h1 p h l v : (get_header_h h hs name = Ok (h1, p)) -> no_nul name -> get_header_loop hs name = Ok v -> blocks_are h l ->
  exists own, blocks_are h1 (own ++ l) /\ forall h2 l2, blocks_are h2 (own ++ l2) ->
    exists h3 m, free_unless_empty h2 p = Ok h3 /\ blocks_are h3 (m ++ l2) /\ one_if (given_empty hs name) (length m).
Proof.
  intros E Hn H A. destruct (get_header_h_eq name Hn hs h l v H A) as [(E' & G)|(h1' & E' & A1 & G)]; rewrite E' in E; injection E as <- <-.
  - exists []. split; [exact A|]. intros h2 l2 A2. exists h2, []. split; [reflexivity|]. split; [exact A2|]. now right.
  - exists [(h_next h, v)]. split; [exact A1|]. intros h2 l2 A2. unfold free_unless_empty. rewrite (are_read h2 _ (h_next h) v A2) by now left. cbn [bind].
    destruct v as [|c v].
    + exists h2, [(h_next h, [])]. split; [reflexivity|]. split; [exact A2|]. left. split; [now apply G|reflexivity].
    + destruct (are_free h2 l2 (h_next h) (c :: v) A2) as (h3 & -> & A3). exists h3, []. split; [reflexivity|]. split; [exact A3|]. right. split; [|reflexivity]. rewrite G. discriminate.
Qed.
Lemma get_header_h_ok name hs h l v : no_nul name -> get_header_loop hs name = Ok v -> blocks_are h l -> exists h1 p, get_header_h h hs name = Ok (h1, p).
Proof. intros Hn H A. destruct (get_header_h_eq name Hn hs h l v H A) as [(E & _)|(h1 & E & _)]; eauto. Qed.
Definition empties_leaked (hs : list header) (m : list (nat * str)) : Prop := given_empties hs (length m).
Lemma log_access_h_eq r st r' h l : log_access r st = Ok r' -> blocks_are h l ->
  exists h1 m, log_access_h h r st = Ok (h1, r') /\ blocks_are h1 (m ++ l) /\ given_empties (r_headers r) (length m).
Proof.
  intros H A. pose proof H as H0. unfold log_access, http_get_header in H. apply bind_ok_inv in H as (v1 & G1 & H). apply bind_ok_inv in H as (v2 & G2 & _).
  assert (N1 : no_nul (L "Referer")) by (apply no_nul_L; reflexivity). assert (N2 : no_nul (L "User-Agent")) by (apply no_nul_L; reflexivity).
  unfold log_access_h. alloc A.
  destruct (get_header_h_ok _ _ _ _ _ N1 G1 A) as (h1 & p1 & E1). destruct (free_header _ _ _ _ _ _ _ E1 N1 G1 A) as (own1 & A1 & F1). rewrite E1. cbn [bind].
  destruct (get_header_h_ok _ _ _ _ _ N2 G2 A1) as (h2 & p2 & E2). destruct (free_header _ _ _ _ _ _ _ E2 N2 G2 A1) as (own2 & A2 & F2). rewrite E2. cbn [bind].
  rewrite H0. cbn [bind]. free A2 (h_next h) (@nil ascii) (own1 ++ own2 ++ l).
  destruct (F1 _ _ A2) as (h4 & m1 & -> & A4 & O1). cbn [bind].
  destruct (F2 h4 (m1 ++ l)) as (h5 & m2 & -> & A5 & O2). { eapply are_perm; [exact A4|perm]. } cbn [bind].
  exists h5, (m1 ++ m2). split; [reflexivity|]. split; [eapply are_perm; [exact A5|perm]|]. rewrite app_length. eexists _, _. eauto.
Qed.
Lemma log_headers r st r' : log_access r st = Ok r' -> forall r2, r_headers r2 = r_headers r -> exists r2', log_access r2 st = Ok r2'.
Proof. unfold log_access, http_get_header. intros H r2 ->. apply bind_ok_inv in H as (v1 & -> & H). apply bind_ok_inv in H as (v2 & -> & _). cbn [bind]. eauto. Qed.
Lemma send_status_logs r st msg r' : send_http_status r st msg = Ok r' ->
  (find_http_status_index st = -1 /\ r' = r) \/ (find_http_status_index st <> -1 /\ exists r4, log_access r4 st = Ok r' /\ r_headers r4 = r_headers r /\ r_log r4 = r_log r).
Proof.
  unfold send_http_status. intros H. destruct (Z.eqb_spec (find_http_status_index st) (-1)) as [E|E]; [left; split; congruence|]. right. split; [exact E|].
  apply bind_ok_inv in H as (b & _ & H). eexists. split; [exact H|]. split; reflexivity.
Qed.
Lemma status_h_eq r st msg r' h l : send_http_status r st msg = Ok r' -> find_http_status_index st <> -1 -> blocks_are h l ->
  exists h1 m, send_http_status_h h r st msg = Ok (h1, r') /\ blocks_are h1 (m ++ l) /\ given_empties (r_headers r) (length m).
Proof.
  intros H I A. unfold send_http_status_h. rewrite H. cbn [bind]. destruct (send_status_logs _ _ _ _ H) as [(C & _)|(_ & r4 & G & Hh & _)]; [easy|].
  replace (find_http_status_index st =? -1) with false by lia. destruct (log_headers _ _ _ G r) as (r2 & E2); [congruence|].
  destruct (log_access_h_eq _ _ _ _ _ E2 A) as (h1 & m & E & A1 & M). rewrite E. cbn [bind]. exists h1, m. auto.
Qed.
Lemma log_access_log r st r' : log_access r st = Ok r' -> length (r_log r') = S (length (r_log r)) /\ r_headers r' = r_headers r.
Proof.
  unfold log_access. intros H. apply bind_ok_inv in H as (v1 & _ & H). apply bind_ok_inv in H as (v2 & _ & H). inv H. cbn. rewrite app_length. cbn. split; [lia|reflexivity].
Qed.
Lemma status_headers r st msg r' : send_http_status r st msg = Ok r' -> r_headers r' = r_headers r.
Proof. intros H. destruct (send_status_logs _ _ _ _ H) as [(_ & ->)|(_ & r4 & G & Hh & _)]; [reflexivity|]. apply log_access_log in G as (_ & G). congruence. Qed.
Lemma mime_h_eq r st mime x h l : return_headers_with_mime r st mime = Ok x -> find_http_status_index st <> -1 -> blocks_are h l ->
  exists h1 b, headers_with_mime_h h r st mime = Ok (h1, x) /\ blocks_are h1 (b :: l).
Proof.
  intros H I A. unfold headers_with_mime_h. rewrite H. cbn [bind]. replace (find_http_status_index st =? -1) with false by lia. alloc A. eauto.
Qed.
Lemma print_keeps r d : r_headers (http_print r d) = r_headers r /\ r_log (http_print r d) = r_log r.
Proof. split; reflexivity. Qed.
Lemma return_headers_keeps r name n r1 : return_headers r name = Ok (n, r1) -> r_headers r1 = r_headers r /\ r_log r1 = r_log r.
Proof.
  unfold return_headers. intros H. apply bind_ok_inv in H as (a & _ & H). apply bind_ok_inv in H as (b & _ & H). apply bind_ok_inv in H as (s & _ & H).
  apply bind_ok_inv in H as ((n3 & r3) & E & H). inv H. destruct (0 <? len s); [apply bind_ok_inv in E as (c & _ & E)|]; inv E; split; reflexivity.
Qed.
Lemma return_file_keeps f r name n r1 : return_file f r name = Ok (n, r1) -> r_headers r1 = r_headers r /\ r_log r1 = r_log r.
Proof.
  unfold return_file. intros H. destruct (f name) as [[c|]|]; [destruct (int_max <? len c)|..]; inv H; split; reflexivity.
Qed.
Lemma direct_file_logs f r name st r' : direct_file f r name = Ok (st, r') ->
  (is_file f name = false /\ st = -1 /\ r' = r) \/ (is_file f name = true /\ st = 0 /\ exists r3, log_access r3 200 = Ok r' /\ r_headers r3 = r_headers r /\ r_log r3 = r_log r).
Proof.
  unfold direct_file. intros H. destruct (is_file f name); cbn [negb] in H; [right|left; inv H; auto].
  apply bind_ok_inv in H as ((l1 & r1) & H1 & H). apply bind_ok_inv in H as ((l2 & r2) & H2 & H). apply bind_ok_inv in H as (l & _ & H). apply bind_ok_inv in H as (r4 & H3 & H). inv H.
  split; [reflexivity|]. split; [reflexivity|]. eexists. split; [exact H3|]. apply return_headers_keeps in H1 as (? & ?). apply return_file_keeps in H2 as (? & ?). cbn. split; congruence.
Qed.
Lemma direct_file_h_eq f r name st r' h l : direct_file f r name = Ok (st, r') -> blocks_are h l ->
  exists h1 m k, direct_file_h h f r name = Ok (h1, (st, r')) /\ blocks_are h1 (m ++ l) /\ length (r_log r') = (k + length (r_log r))%nat
    /\ r_headers r' = r_headers r /\ (st = -1 /\ k = 0%nat /\ m = [] \/ st = 0 /\ k = 1%nat /\ given_empties (r_headers r) (length m)).
Proof.
  intros H A. unfold direct_file_h. rewrite H. cbn [bind]. destruct (direct_file_logs _ _ _ _ _ H) as [(-> & -> & ->)|(-> & -> & r3 & G & Hh & Hl)]; cbn [negb].
  - exists h, [], 0%nat. auto 10.
  - alloc A. free A (h_next h) (@nil ascii) l.
    assert (B : exists h4, match f name with Some (File _) => let '(h3, src) := halloc h1 [] in hfree h3 src | _ => Ok h1 end = Ok h4 /\ blocks_are h4 l).
    { destruct (f name) as [[c|]|]; eauto. alloc A. eapply are_free; eauto. }
    destruct B as (h4 & -> & A4). cbn [bind]. destruct (log_headers _ _ _ G r) as (r2 & E2); [congruence|].
    destruct (log_access_h_eq _ _ _ _ _ E2 A4) as (h5 & m & E & A5 & M). rewrite E. cbn [bind]. apply log_access_log in G as (G1 & G2).
    exists h5, m, 1%nat. split; [reflexivity|]. split; [exact A5|]. split; [rewrite G1, Hl; reflexivity|]. split; [congruence|]. right. auto.
Qed.
(** The two strings made from the URL, freed again. *)
Lemma pq_h_eq url p q h l : get_path_and_query_string url = Ok (p, q) -> no_nul url -> blocks_are h l ->
  exists h1 pq own, path_and_query_h h url = Ok (h1, pq, (p, q)) /\ blocks_are h1 (own ++ l)
    /\ forall h2 l2, blocks_are h2 (own ++ l2) -> exists h3, free_pq_h h2 pq = Ok h3 /\ blocks_are h3 l2.
Proof.
  intros H Hn A. unfold path_and_query_h. rewrite H. cbn [bind]. alloc A.
  pose proof H as H0. unfold get_path_and_query_string in H. apply bind_ok_inv in H as (toks & Hs & H).
  destruct (split_h_eq _ _ _ _ _ Hs A) as (h1 & strs & self & m & E & S1 & S2 & A1). rewrite E. cbn [bind]. clear A. alloc A1.
  assert (Q : (toks = [] \/ exists t, toks = [t]) /\ q = [] \/ 1 < len toks /\ q <> []).
  { destruct (tokens_exist (L "?") url) as (ts & T). rewrite (split_eq _ _ _ T Hn) in Hs. destruct (len ts <=? 50); [|discriminate]. injection Hs as <-.
    inversion T as [u F|a0 p0 r0 ts0 _ _ _ _ T0]; subst; [discriminate|]. cbn [map] in H. apply bind_ok_inv in H as (p1 & _ & H).
    inversion T0 as [u F|a1 q1 r1 ts1 _ Nq _ _ T1]; subst; cbn [map] in H; [inv H; left; split; [right; cbn; eauto|reflexivity]|].
    apply bind_ok_inv in H as (q2 & C & H). inv H. right. split; [cbn [map]; rewrite !len_cons; unfold len; lia|].
    pose proof (tokens_no_nul _ _ _ T Hn) as F. inversion F as [|? ? _ F1]; subst. inversion F1; subst.
    destruct (Z_le_gt_dec (len q1) 1022) as [Le|Gt]; [rewrite entry_readable in C by auto; congruence|rewrite entry_unreadable in C by (auto; lia); discriminate]. }
  destruct Q as [(Q & ->)|(Q & Qn)].
  - replace (1 <? len toks) with false by (destruct Q as [-> | (t & ->)]; reflexivity).
    destruct (list_free h2 self strs m [] ((h_next h1, p) :: (h_next h, []) :: l) S1 S2) as (h3 & -> & A3). { eapply are_perm; [exact A1|perm]. }
    cbn [bind]. eexists h3, _, [(h_next h1, p); (h_next h, [])]. split; [reflexivity|]. split; [exact A3|].
    intros h4 l2 A4. unfold free_pq_h. cbn [pq_path pq_query pq_self]. free A4 (h_next h1) p ((h_next h, []) :: l2). cbn [free_unless_empty hread bind].
    eapply are_free; eauto.
  - replace (1 <? len toks) with true by lia. alloc A1.
    destruct (list_free h3 self strs m [] ((h_next h2, q) :: (h_next h1, p) :: (h_next h, []) :: l) S1 S2) as (h4 & -> & A4). { eapply are_perm; [exact A1|perm]. }
    cbn [bind]. eexists h4, _, [(h_next h2, q); (h_next h1, p); (h_next h, [])]. split; [reflexivity|]. split; [exact A4|].
    intros h5 l2 A5. unfold free_pq_h. cbn [pq_path pq_query pq_self]. free A5 (h_next h1) p ((h_next h2, q) :: (h_next h, []) :: l2).
    unfold free_unless_empty. rewrite (are_read _ _ (h_next h2) q A5) by now left. cbn [bind]. destruct q as [|c q]; [easy|].
    free A5 (h_next h2) (c :: q) ((h_next h, []) :: l2). eapply are_free; eauto.
Qed.

(** ** router.c *)
(** The route that is found has a parameter, and the form is still empty. *)
Lemma extract_h_eq path prefix param s h l : router_extract_param path prefix param = Ok s -> blocks_are h l ->
  exists h1, extract_param_h h path prefix param = Ok (h1, PBlock (h_next (fst (halloc h []))), s) /\ blocks_are h1 ((h_next (fst (halloc h [])), s) :: l).
Proof.
  intros H A. unfold extract_param_h. rewrite H. cbn [bind]. alloc A. alloc A. cbn [fst].
  free A (h_next h) (@nil ascii) ((h_next h0, s) :: l). eauto.
Qed.
Definition param_selected (t : list route) (matcher : str) (form : buf) : Prop :=
  exists rt, selected t matcher rt /\ rt_type rt = MATCHER_TYPE_PARAM /\ cstr form = Ok [].
Lemma selected_cons rt t m x : selected (rt :: t) m x <-> (matches rt m /\ x = rt \/ ~ matches rt m /\ selected t m x).
Proof.
  split.
  - intros (a & b & E & M & N). destruct a as [|y a]; injection E as -> ->; [left; auto|]. inversion N; subst. right. split; [assumption|]. exists a, b. auto.
  - intros [(M & ->)|(N & a & b & -> & M & F)]; [exists [], t|exists (rt :: a), b]; auto.
Qed.
Lemma param_skip rt t m f : ~ matches rt m -> param_selected (rt :: t) m f <-> param_selected t m f.
Proof.
  intros N. unfold param_selected. split; intros (x & S & P); exists x; (split; [|exact P]).
  - apply selected_cons in S as [(M & _)|(_ & S)]; [easy|exact S].
  - apply selected_cons. auto.
Qed.
Lemma param_head rt t m f : matches rt m -> param_selected (rt :: t) m f <-> (rt_type rt = MATCHER_TYPE_PARAM /\ cstr f = Ok []).
Proof.
  intros N. unfold param_selected. split.
  - intros (x & S & P). apply selected_cons in S as [(_ & ->)|(C & _)]; [exact P|easy].
  - intros P. exists rt. split; [apply selected_cons; auto|exact P].
Qed.
Lemma one_if_iff P Q n : (P <-> Q) -> one_if P n -> one_if Q n.
Proof. unfold one_if. tauto. Qed.
Lemma route_loop_h_eq matcher r : forall t x h l, route_loop t matcher r = Ok x -> blocks_are h l ->
  exists h1 m, route_loop_h h t matcher r = Ok (h1, x) /\ blocks_are h1 (m ++ l) /\ r_headers (fst (fst x)) = r_headers r
    /\ one_if (param_selected t matcher (r_form r)) (length m).
Proof.
  induction t as [|rt t IH]; intros x h l H A; cbn [route_loop route_loop_h] in *.
  - inv H. exists h, []. cbn. repeat match goal with |- _ /\ _ => split end; auto. right. split; [|reflexivity].
    intros (y & (a & b & E & _) & _). destruct a; discriminate.
  - destruct (negb (rt_live rt)); [discriminate|].
    assert (Next : ~ matches rt matcher -> route_loop t matcher r = Ok x -> exists h1 m, route_loop_h h t matcher r = Ok (h1, x) /\ blocks_are h1 (m ++ l)
      /\ r_headers (fst (fst x)) = r_headers r /\ one_if (param_selected (rt :: t) matcher (r_form r)) (length m)).
    { intros N H1. destruct (IH x h l H1 A) as (h1 & m & E & A1 & Hh & O). exists h1, m. repeat match goal with |- _ /\ _ => split end; auto.
      eapply one_if_iff; [apply iff_sym, param_skip; exact N|exact O]. }
    assert (NM : str_eqb (rt_prefix rt) matcher = false -> (rt_type rt = MATCHER_TYPE_PARAM -> strstr matcher (rt_prefix rt) = None) -> ~ matches rt matcher).
    { intros E F. apply str_eqb_neq in E. unfold matches. destruct (rt_type rt); [exact E|]. intros (S & _). apply strstr_substring in S as (k & S). rewrite F in S by reflexivity. discriminate. }
    destruct (rt_type rt) eqn:T.
    + destruct (str_eqb (rt_prefix rt) matcher) eqn:E; [|apply Next; [apply NM; easy|exact H]]. inv H. exists h, []. cbn. repeat match goal with |- _ /\ _ => split end; auto.
      right. split; [|reflexivity]. rewrite param_head; [intros (C & _); congruence|]. unfold matches. rewrite T. now apply str_eqb_eq.
    + destruct (strstr matcher (rt_prefix rt)) eqn:S; [|destruct (str_eqb (rt_prefix rt) matcher) eqn:E].
      2:{ apply Next; [|exact H]. unfold matches. rewrite T. apply str_eqb_eq in E. tauto. }
      2:{ apply Next; [|exact H]. unfold matches. rewrite T. intros (Sb & _). apply strstr_substring in Sb as (k & Sb). congruence. }
      destruct (str_eqb (rt_prefix rt) matcher) eqn:E.
      { apply Next; [|exact H]. unfold matches. rewrite T. apply str_eqb_eq in E. tauto. }
      assert (M : matches rt matcher). { unfold matches. rewrite T. split; [apply strstr_substring; eauto|now apply str_eqb_neq]. }
      apply bind_ok_inv in H as (s & Hs & H). apply bind_ok_inv in H as (k & Hk & H). apply bind_ok_inv in H as (form & Hf & H). inv H. cbn [fst snd].
      destruct (extract_h_eq _ _ _ _ _ _ Hs A) as (h1 & E1 & A1). rewrite E1. cbn [bind]. rewrite Hk. cbn [bind].
      unfold strlen in Hk. apply bind_ok_inv in Hk as (fs & Hc & Hk). injection Hk as Hk. destruct (Z.eqb_spec k 0) as [K|K].
      * inv Hf. alloc A1. cbn [bind]. remember (h_next (fst (halloc h []))) as q. free A1 q s ((h_next h1, []) :: l).
        exists h2, [(h_next h1, [])]. cbn. repeat match goal with |- _ /\ _ => split end; auto.
        left. split; [|reflexivity]. rewrite param_head by exact M. split; [exact T|]. rewrite Hc. f_equal. destruct fs; [reflexivity|]. rewrite len_cons in K. unfold len in K. lia.
      * alloc A1. rewrite Hf. cbn [bind]. remember (h_next (fst (halloc h []))) as q. free A1 (h_next h1) (@nil ascii) ((q, s) :: l). free A1 q s l.
        exists h3, []. cbn. repeat match goal with |- _ /\ _ => split end; auto. right. split; [|reflexivity]. rewrite param_head by exact M.
        intros (_ & C). rewrite C in Hc. injection Hc as <-. apply K. now subst k.
Qed.
Lemma router_h_eq u a t r calls r' h l : balanced u -> router_handle_request a t r = Ok (calls, r') -> blocks_are h l ->
  exists h1 m p e, router_h u h a t r = Ok (h1, (calls, r')) /\ blocks_are h1 (m ++ l) /\ length m = (p + e)%nat
    /\ one_if (param_selected t (method_path r) (r_form r)) p /\ unrouted_empties calls r' e.
Proof.
  intros U H A. unfold router_handle_request in H. unfold router_h. apply bind_ok_inv in H as (mt & Em & H). rewrite Em. cbn [bind].
  assert (mt = method_path r) as ->. { unfold fits in Em. destruct (len _ + 1 <=? 255); [|discriminate]. now injection Em as <-. }
  apply bind_ok_inv in H as (((r1 & hd) & fl) & El & H). destruct (route_loop_h_eq _ _ _ _ _ _ El A) as (h1 & m & E & A1 & Hh & O). rewrite E. cbn [bind fst] in *.
  destruct hd as [k|].
  - assert (Fin : forall cl rr, cl <> [] -> exists h2 m p e, ' h2 <- u cl h1;; Ok (h2, (cl, rr)) = Ok (h2, (cl, rr : api_request)) /\ blocks_are h2 (m ++ l) /\ length m = (p + e)%nat
      /\ one_if (param_selected t (method_path r) (r_form r)) p /\ unrouted_empties cl rr e).
    { intros cl rr Ne. destruct (U cl h1 _ A1) as (h2 & -> & A2). cbn [bind]. exists h2, m, (length m), 0%nat. repeat match goal with |- _ /\ _ => split end; auto. now right. }
    destruct fl as [fl|]; [destruct (on_filter a fl r1) as [r2 pass]; destruct pass|]; injection H as <- <-; apply Fin; discriminate.
  - apply bind_ok_inv in H as (r2 & Hb & H). injection H as <- <-. unfold bad_request_h. destruct (status_h_eq _ _ _ _ _ _ Hb ltac:(discriminate) A1) as (h2 & m2 & -> & A2 & G).
    cbn [bind]. rewrite <- (status_headers _ _ _ _ Hb) in G. exists h2, (m2 ++ m), (length m), (length m2). split; [reflexivity|]. split; [eapply are_perm; [exact A2|perm]|].
    split; [rewrite app_length; lia|]. split; [exact O|]. left. auto.
Qed.

(** ** ws.c *)
(** The request with the form that handle_api_request reads. *)
Definition with_body (v : wsenv) (f : fs) (s : str) (r : api_request) (n : Z) (bd : str) : outcome (api_request * fs) :=
  if 0 <? n then
    let form := map Some (fst (read_body (Z.to_nat n) s NUL)) ++ [Some NUL] in
    if 2 <=? len bd then '(form', f') <- multipart_parse (v_mp v) f form bd n;; Ok (set_form r form', f')
    else Ok (set_form r form, f)
  else Ok (r, f).
Lemma api_unfold v f s r n bd : handle_api_request v f s r n bd =
  ('(r1, f1) <- with_body v f s r n bd;; '(calls, r2) <- router_handle_request (v_app v) (v_routes v) r1;; Ok (calls, r2, f1)).
Proof. reflexivity. Qed.
Lemma with_body_keeps v f s r n bd r1 f1 : with_body v f s r n bd = Ok (r1, f1) -> r_headers r1 = r_headers r /\ method_path r1 = method_path r.
Proof.
  unfold with_body. destruct (0 <? n); [|intros H; inv H; auto]. destruct (2 <=? len bd); intros H; [apply bind_ok_inv in H as ((fm & f') & _ & H)|]; inv H; auto.
Qed.
Local Opaque multipart_parse router_handle_request router_h read_body.
Lemma api_h_eq u v f s r n bd calls r' f' h l : balanced u -> handle_api_request v f s r n bd = Ok (calls, r', f') -> blocks_are h l ->
  exists h1 m b p e r1 f1, handle_api_h u h v f s r n bd = Ok (h1, (calls, r', f')) /\ blocks_are h1 (m ++ l) /\ length m = (b + p + e)%nat
    /\ one_if (0 < n) b /\ with_body v f s r n bd = Ok (r1, f1) /\ one_if (param_selected (v_routes v) (method_path r) (r_form r1)) p /\ unrouted_empties calls r' e.
Proof.
  intros U H A. rewrite api_unfold in H. apply bind_ok_inv in H as ((r1 & f1) & W & H). apply bind_ok_inv in H as ((c & r2) & R & H). injection H as -> -> ->.
  pose proof (with_body_keeps _ _ _ _ _ _ _ _ W) as (Hh & Hm). unfold handle_api_h. pose proof W as W0. unfold with_body in W.
  assert (X : exists h1 m, one_if (0 < n) (length m) /\ blocks_are h1 (m ++ l) /\
    (if 0 <? n then
       let body := fst (read_body (Z.to_nat n) s NUL) in let form := map Some body ++ [Some NUL] in let '(h1, _) := halloc h [] in
       if 2 <=? len bd then '(form', f') <- multipart_parse (v_mp v) f form bd n;; Ok (h1, (set_form r form', f'))
       else Ok (h1, (set_form r form, f))
     else Ok (h, (r, f))) = Ok (h1, (r1, f'))).
  { destruct (Z.ltb_spec 0 n) as [P|P].
    - cbv zeta in *. alloc A. exists h0, [(h_next h, [])]. split; [left; auto|]. split; [exact A|]. destruct (2 <=? len bd); [|now inv W].
      apply bind_ok_inv in W as ((fm & f2) & -> & W). now inv W.
    - inv W. exists h, []. split; [right; split; [lia|reflexivity]|]. auto. }
  destruct X as (h1 & m & O & A1 & X). cbv zeta in X |- *. rewrite X. clear X. cbn [bind].
  destruct (router_h_eq _ _ _ _ _ _ _ _ U R A1) as (h2 & m2 & p & e & -> & A2 & Lm & P & E). cbn [bind]. rewrite Hm in P.
  exists h2, (m2 ++ m), (length m), p, e, r1, f'. split; [reflexivity|]. split; [eapply are_perm; [exact A2|perm]|]. split; [rewrite app_length; lia|]. auto.
Qed.
Local Transparent multipart_parse router_handle_request router_h read_body.
Lemma new_path_eq h n s p l : blocks_are h ((n, s) :: l) -> exists h1 k, new_path h (PBlock n) p = Ok (h1, p) /\ blocks_are h1 ((k, p) :: l).
Proof. intros A. unfold new_path. free A n s l. alloc A. eauto. Qed.
Lemma set_path_keeps r p : r_headers (set_path r p) = r_headers r /\ r_log (set_path r p) = r_log r.
Proof. split; reflexivity. Qed.
Local Opaque direct_file direct_file_h.
Lemma static_h_eq v f r r' h n s l : handle_static_routes v f r = Ok r' -> blocks_are h ((n, s) :: l) ->
  exists h1 m k e, static_h h v f r (PBlock n) = Ok (h1, r') /\ blocks_are h1 (m ++ l) /\ length m = (1 + k * e)%nat
    /\ length (r_log r') = (k + length (r_log r))%nat /\ (k = 0%nat \/ k = 1%nat /\ given_empties (r_headers r) e) /\ r_headers r' = r_headers r.
Proof.
  intros H A. unfold handle_static_routes in H. unfold static_h. apply bind_ok_inv in H as (pl & -> & H). cbn [bind].
  apply bind_ok_inv in H as (p & Hp & H).
  assert (X : exists h1 k s1, (if str_eqb (r_path r) (L "/") || str_eqb (r_path r) (L "/index.html")
        then new_path h (PBlock n) (v_index v)
        else if str_eqb (r_path r) (L "/favicon.ico") then new_path h (PBlock n) (v_favicon v)
        else c <- rd (v_stk v) (pl - 1);;
          if ceq c "/" then s <- fits 1024 (r_path r ++ L "index.html");; new_path h (PBlock n) s else Ok (h, r_path r)) = Ok (h1, p) /\ blocks_are h1 ((k, s1) :: l)).
  { destruct (_ || _); [|destruct (str_eqb _ _)].
    - injection Hp as <-. destruct (new_path_eq h n s (v_index v) l A) as (h1 & k & E & A1). eauto.
    - injection Hp as <-. destruct (new_path_eq h n s (v_favicon v) l A) as (h1 & k & E & A1). eauto.
    - apply bind_ok_inv in Hp as (c & -> & Hp). cbn [bind]. destruct (ceq c "/"); [|injection Hp as <-; eauto].
      rewrite Hp. cbn [bind]. destruct (new_path_eq h n s p l A) as (h1 & k & E & A1). eauto. }
  destruct X as (h1 & k1 & s1 & -> & A1). cbn [bind]. apply bind_ok_inv in H as (file & -> & H). cbn [bind].
  apply bind_ok_inv in H as ((st & r2) & D & H).
  destruct (direct_file_h_eq _ _ _ _ _ _ _ D A1) as (h2 & m & k & -> & A2 & Lg & Hh & C). cbn [bind]. destruct (set_path_keeps r p) as (K1 & K2). rewrite K1 in *. rewrite K2 in *.
  destruct C as [(-> & -> & ->)|(-> & -> & G)].
  - change (-1 <? 0) with true in *. cbv iota in *. apply bind_ok_inv in H as (file' & -> & H). cbn [bind]. apply bind_ok_inv in H as ((st' & r3) & D' & H). injection H as <-.
    destruct (direct_file_h_eq _ _ _ _ _ _ _ D' A2) as (h3 & m' & k & -> & A3 & Lg' & Hh' & C). cbn [bind]. rewrite Hh in *.
    exists h3, (m' ++ [(k1, s1)]), k, (length m'). split; [reflexivity|]. split; [eapply are_perm; [exact A3|perm]|]. rewrite app_length. cbn [length].
    destruct C as [(-> & -> & ->)|(-> & -> & G)]; (split; [cbn; lia|]); (split; [lia|]); split; auto; congruence.
  - change (0 <? 0) with false in *. cbv iota in *. injection H as <-. exists h2, (m ++ [(k1, s1)]), 1%nat, (length m). split; [reflexivity|]. split; [eapply are_perm; [exact A2|perm]|].
    split; [rewrite app_length; cbn; lia|]. auto.
Qed.
Local Transparent direct_file direct_file_h.

Lemma seen_exists s : exists t, seen_as s t.
Proof.
  induction s as [|c s (t & Hn & H)]; [exists []; split; [easy|auto]|]. destruct (ceq c NUL) eqn:E.
  - apply ceq_true in E. subst c. exists []. split; [easy|]. right. exists s. reflexivity.
  - apply ceq_false in E. exists (c :: t). split; [apply no_nul_cons; auto|]. destruct H as [-> | (r & ->)]; [auto|]. right. exists r. reflexivity.
Qed.
Lemma seen_cs s t x : seen_as s t -> exists j, cs s ++ x = cs t ++ j.
Proof.
  intros (_ & [-> | (r & ->)]); [eauto|]. unfold cs. rewrite map_app. cbn [map]. exists (map Some r ++ [Some NUL] ++ x). rewrite <- !app_assoc. reflexivity.
Qed.
Local Opaque split_once startswith startswithany trim strncpy rtrim take_boundary strcpy.
Lemma header_line_h_eq x x' ip s h l : header_line x = Ok x' -> blocks_are h ((ip, s) :: l) ->
  exists h1 ip' s' m c, header_line_h h x (PBlock ip) = Ok (h1, x', PBlock ip') /\ blocks_are h1 ((ip', s') :: m ++ l)
    /\ startswith (hs_buf x) (L "Content-Type:") = Ok c /\ length m = if c : bool then 1%nat else 0%nat.
Proof.
  intros H A. pose proof H as H0. unfold header_line in H. apply bind_ok_inv in H as (hs & S & H). apply bind_ok_inv in H as (ct & T & H).
  apply bind_ok_inv in H as (bd & _ & H). apply bind_ok_inv in H as (cl & _ & H). apply bind_ok_inv in H as ((ip1 & b1) & I & _).
  unfold header_line_h.
  assert (X : exists h1, (if len (hs_headers x) <? HTTP_MAX_HEADERS then '(h0, l, _) <- split_once_h h (hs_buf x);; free_str_list_h h0 l else Ok h) = Ok h1 /\ blocks_are h1 ((ip, s) :: l)).
  { unfold store_header in S. destruct (len (hs_headers x) <? HTTP_MAX_HEADERS); [|eauto]. apply bind_ok_inv in S as (nv & Sp & _).
    destruct (split_once_h_eq _ _ _ _ Sp A) as (h1 & strs & self & m & -> & S1 & S2 & A1). cbn [bind]. eapply list_free; eauto. }
  destruct X as (h1 & -> & A1). cbn [bind]. unfold take_content_type in T. apply bind_ok_inv in T as (c & Ec & _). rewrite Ec. cbn [bind].
  unfold take_ip in I. apply bind_ok_inv in I as (d & Ed & _). rewrite Ed. cbn [bind].
  assert (Y : exists h2 m, (if c then fst (halloc h1 []) else h1) = h2 /\ blocks_are h2 ((ip, s) :: m ++ l) /\ length m = if c then 1%nat else 0%nat).
  { destruct c; [|exists h1, []; auto]. alloc A1. cbn [fst]. exists h0, [(h_next h1, [])]. split; [reflexivity|]. split; [eapply are_perm; [exact A1|perm]|reflexivity]. }
  destruct Y as (h2 & m & -> & A2 & Lm). cbv zeta. destruct d.
  - free A2 ip s (m ++ l). alloc A2. cbn [bind]. rewrite H0. cbn [bind]. eexists h3, _, [], m, c. auto.
  - cbn [bind]. rewrite H0. cbn [bind]. exists h2, ip, s, m, c. auto.
Qed.
Lemma get_line_line s b size n b' s' : 1 <= size -> get_line s b size = Ok (n, b', s') -> exists l, line_of size s l s' /\ n = len l /\ b' = cs l ++ skipn (S (length l)) b.
Proof.
  intros Hs H. destruct (line_of_exists size Hs s) as (l & rest & Hl). destruct (Z_lt_le_dec (len b) (len l + 1)) as [Lt|Le].
  - destruct (get_line_oob size s l rest b Hl Lt) as (u & E). congruence.
  - rewrite (get_line_eq size s l rest b Hl Le) in H. inv H. eauto.
Qed.
Local Opaque header_line header_line_h get_line.
Lemma header_loop_h_eq : forall fuel s b n x x' ip sip h l, get_line s b 1024 = Ok (n, hs_buf x, hs_stream x) -> header_loop fuel n x = Ok x' -> blocks_are h ((ip, sip) :: l) ->
  exists h1 ip' s' m, header_loop_h h fuel n x (PBlock ip) = Ok (h1, x', PBlock ip') /\ blocks_are h1 ((ip', s') :: m ++ l) /\ typed s (length m).
Proof.
  induction fuel as [|fuel IH]; intros s b n x x' ip sip h l G H A; destruct (get_line_line _ _ 1024 _ _ _ ltac:(lia) G) as (ln & Hl & Hn & Hb);
    cbn [header_loop header_loop_h] in *; (destruct (Z.ltb_spec 0 n) as [P|P]; [|inv H; exists h, ip, sip, []; split; [reflexivity|]; split; [exact A|];
      destruct ln; [eapply ty_end; eauto|exfalso; unfold len in P; cbn in P; lia]]);
    destruct (seen_exists ln) as (t & Ht); destruct (seen_cs ln t (skipn (S (length ln)) b) Ht) as (j & Ej); rewrite Ej in Hb;
    assert (Nt : no_nul t) by apply Ht;
    rewrite Hb, !strcmp_lit in H by (auto; apply no_nul_dec_b; reflexivity);
    rewrite Hb, !strcmp_lit by (auto; apply no_nul_dec_b; reflexivity); cbn [bind] in H |- *.
  - destruct (str_eqb [LF] t) eqn:B1; [|destruct (str_eqb CRLF t) eqn:B2; [|apply bind_ok_inv in H as (x1 & _ & H); apply bind_ok_inv in H as (((n1 & b1) & s1) & _ & H); discriminate]];
      injection H as <-; exists h, ip, sip, []; (split; [reflexivity|]); (split; [exact A|]); eapply ty_blank; eauto; [apply str_eqb_eq in B1; now left|apply str_eqb_eq in B2; now right].
  - assert (Hne : ln <> []) by (intros ->; cbn in Hn; lia).
    destruct (str_eqb [LF] t) eqn:B1; [injection H as <-; exists h, ip, sip, []; split; [reflexivity|]; split; [exact A|]; eapply ty_blank; eauto; apply str_eqb_eq in B1; now left|].
    destruct (str_eqb CRLF t) eqn:B2; [injection H as <-; exists h, ip, sip, []; split; [reflexivity|]; split; [exact A|]; eapply ty_blank; eauto; apply str_eqb_eq in B2; now right|].
    assert (NB : ~ blank_line t). { apply str_eqb_neq in B1, B2. intros [-> | ->]; congruence. }
    apply bind_ok_inv in H as (x1 & Hx & H). destruct (header_line_h_eq _ _ _ _ _ _ Hx A) as (h1 & ip1 & sip1 & m1 & c & E1 & A1 & Ec & Lc). rewrite E1. cbn [bind].
    apply bind_ok_inv in H as (((n1 & b1) & s1) & G1 & H). rewrite G1. cbn [bind].
    assert (St : hs_stream x1 = hs_stream x) by (eapply header_line_stream; eauto).
    destruct (IH (hs_stream x) (hs_buf x1) n1 (mkH b1 s1 (hs_headers x1) (hs_content_type x1) (hs_boundary x1) (hs_length x1) (hs_ip x1) (hs_session x1)) x' ip1 sip1 h1 (m1 ++ l))
      as (h2 & ip2 & sip2 & m2 & -> & A2 & T); auto; [rewrite <- St; exact G1|].
    exists h2, ip2, sip2, (m2 ++ m1). split; [reflexivity|]. split; [eapply are_perm; [exact A2|perm]|]. rewrite app_length, Lc.
    destruct (startswith_eq t j (L "Content-Type:")) as (c' & Ec' & Hc); [exact Nt|apply no_nul_dec_b; reflexivity|]. rewrite <- Hb, Ec in Ec'. injection Ec' as <-.
    destruct c.
    + rewrite Nat.add_1_r. eapply ty_type; eauto. now apply Hc.
    + rewrite Nat.add_0_r. eapply ty_other; eauto. intros C. apply Hc in C. discriminate.
Qed.

(** What follows the request line. *)
Definition accept_rest_h (u : list call -> heap -> outcome heap) (h4 : heap) (v : wsenv) (f : fs) (t1 : table) (r2 : api_request) (method url : str) (b : buf) (s1 : str)
  (req ip : ptr) : outcome (heap * result) :=
  b1 <- write_at b 0 [Some "A"%char; Some NUL];;
  '(n, b2, s2) <- get_line s1 b1 1024;;
  let '(h5, _) := halloc h4 [] in
  '(h6, x, ip') <- header_loop_h h5 (length s1) n
         (mkH b2 s2 [] None [] (-1) (r_ip r2) (calloc MAX_SESSION)) ip;;
  let r3 := set_session (set_ip (set_content_type (set_headers r2 (hs_headers x))
              (hs_content_type x)) (hs_ip x)) (hs_session x) in
  '(h7, pq, (path, query)) <- path_and_query_h h6 url;;
  let '(h8, _) := halloc h7 [] in
  let r4 := set_query r3 query in
  api <- startswith (cs url) API_MOUNT;;
  '(h9, res) <-
    (if negb api then
      let r5 := set_path r4 path in
      let '(h9, p) := halloc h8 path in
      if str_caseeqb method (L "GET") then
        '(ha, r6) <- static_h h9 v f r5 p;; Ok (ha, finish TStatic r6 t1 f)
      else
        '(ha, r6) <- bad_request_h h9 r5;; Ok (ha, finish TNotGet r6 t1 f)
    else
      p <- cstr (from (cs path) (len API_MOUNT));;
      let '(h9, _) := halloc h8 path in
      let r5 := set_path r4 p in
      '(ha, (calls, r6, f')) <- handle_api_h u h9 v f (hs_stream x) r5 (hs_length x) (hs_boundary x);;
      Ok (ha, finish (TApi calls) r6 t1 f'));;
  ha <- free_pq_h h9 pq;;
  hb <- hfree ha req;;
  Ok (hb, res).
Lemma accept_unfold_h u h v f t socket peer stream : accept_request_h u h v f t socket peer stream =
  (r0 <- new_request socket peer;;
  let '(h1, req) := halloc h [] in
  let '(h2, ip) := halloc h1 [] in
  '(_, b, s1) <- get_line stream (calloc 1024) 1024;;
  '(rl, method, j) <- parse_request_line b;;
  let '(h3, _) := halloc h2 [] in
  let r1 := set_method (set_request_line r0 rl) method in
  ok_method <- startswithany (cs method) ALLOWED_HTTP_METHODS;;
  if negb ok_method then
    '(h4, r2) <- bad_request_h h3 r1;;
    h5 <- hfree h4 req;; Ok (h5, finish TBadMethod r2 t f)
  else
  url <- parse_url b j;;
  let '(h4, _) := halloc h3 [] in
  let r2 := set_url r1 url in
  '(admitted, t1) <- connection_add (v_limits v) t socket (r_ip r2) url;;
  if negb admitted then
    '(h5, r3) <- too_many_h h4 r2;;
    h6 <- hfree h5 req;; Ok (h6, finish TTooMany r3 t1 f)
  else accept_rest_h u h4 v f t1 r2 method url b s1 req ip).
Proof. reflexivity. Qed.

Definition rest_leak (v : wsenv) (f : fs) (method url : str) (x : hstate) (res : result) (n : nat) : Prop :=
  match o_taken res with
  | TStatic | TNotGet => logged_empties (o_req res) n
  | TApi calls => exists r5 r1 f1 b p e, n = (b + p + e)%nat /\ one_if (0 < hs_length x) b
      /\ with_body v f (hs_stream x) r5 (hs_length x) (hs_boundary x) = Ok (r1, f1)
      /\ one_if (param_selected (v_routes v) (method_path r5) (r_form r1)) p /\ unrouted_empties calls (o_req res) e
      /\ r_form r5 = cs [] /\ exists path query q, get_path_and_query_string url = Ok (path, query) /\ cstr (from (cs path) (len API_MOUNT)) = Ok q /\ method_path r5 = method ++ L ":" ++ q
  | _ => False
  end.
Definition headers_read (b : buf) (s1 ip : str) (x : hstate) : Prop :=
  exists b1 k b2 s2, write_at b 0 [Some "A"%char; Some NUL] = Ok b1 /\ get_line s1 b1 1024 = Ok (k, b2, s2)
    /\ header_loop (length s1) k (mkH b2 s2 [] None [] (-1) ip (calloc MAX_SESSION)) = Ok x.
Lemma bad_h_eq r r' h l : bad_request r = Ok r' -> blocks_are h l ->
  exists h1 m, bad_request_h h r = Ok (h1, r') /\ blocks_are h1 (m ++ l) /\ given_empties (r_headers r') (length m) /\ length (r_log r') = S (length (r_log r)).
Proof.
  unfold bad_request, bad_request_h. intros H A. destruct (status_h_eq _ _ _ _ _ _ H ltac:(discriminate) A) as (h1 & m & E & A1 & G). exists h1, m.
  rewrite (status_headers _ _ _ _ H). split; [exact E|]. split; [exact A1|]. split; [exact G|].
  destruct (send_status_logs _ _ _ _ H) as [(D & _)|(_ & r4 & D & _ & D2)]; [discriminate|]. apply log_access_log in D as (D & _). now rewrite D, D2.
Qed.
Lemma too_many_h_eq r r' h l : too_many_connections r = Ok r' -> blocks_are h l ->
  exists h1 m, too_many_h h r = Ok (h1, r') /\ blocks_are h1 (m ++ l) /\ given_empties (r_headers r') (length m).
Proof.
  unfold too_many_connections, too_many_h. intros H A. destruct (status_h_eq _ _ _ _ _ _ H ltac:(discriminate) A) as (h1 & m & E & A1 & G). exists h1, m.
  rewrite (status_headers _ _ _ _ H). split; [exact E|]. split; [exact A1|exact G].
Qed.
Lemma finish_req k r t f : o_req (finish k r t f) = r.
Proof. reflexivity. Qed.
Lemma new_log r1 r2 k : (length (r_log r1) = k + length (r_log r2))%nat -> r_log r2 = [] -> length (r_log r1) = k.
Proof. intros -> ->. cbn. lia. Qed.
Local Opaque write_at get_line header_loop header_loop_h path_and_query_h get_path_and_query_string startswith static_h handle_static_routes bad_request bad_request_h
  handle_api_h handle_api_request free_pq_h finish.
Lemma accept_rest_h_eq u h v f t1 r2 method url b s1 req ip sip l res : balanced u -> accept_rest v f t1 r2 method url b s1 = Ok res -> no_nul url -> r_log r2 = [] -> r_form r2 = cs [] -> r_method r2 = method ->
  blocks_are h ((req, []) :: (ip, sip) :: l) ->
  exists h' lost c n x, accept_rest_h u h v f t1 r2 method url b s1 (PBlock req) (PBlock ip) = Ok (h', res) /\ blocks_are h' (lost ++ l)
    /\ typed s1 c /\ rest_leak v f method url x res n /\ length lost = (4 + c + n)%nat
    /\ headers_read b s1 (r_ip r2) x.
Proof.
  intros U H Hu Hlog Hform Hmeth A. unfold accept_rest in H. unfold accept_rest_h.
  apply bind_ok_inv in H as (b1 & W & H). rewrite W. cbn [bind]. apply bind_ok_inv in H as (((k & b2) & s2) & G & H). rewrite G. cbn [bind].
  apply bind_ok_inv in H as (x & X & H). alloc A.
  destruct (header_loop_h_eq (length s1) s1 b1 k (mkH b2 s2 [] None [] (-1) (r_ip r2) (calloc MAX_SESSION)) x ip sip h0 ((h_next h, []) :: (req, []) :: l)) as (h1 & ip' & sip' & m & E & A1 & Ty); auto.
  { eapply are_perm; [exact A|perm]. } rewrite E. cbn [bind]. clear E A.
  apply bind_ok_inv in H as ((path & query) & Q & H). destruct (pq_h_eq _ _ _ _ _ Q Hu A1) as (h2 & pq & own & E & A2 & Fr). rewrite E. cbn [bind]. clear E A1. alloc A2.
  apply bind_ok_inv in H as (api & Ea & H). rewrite Ea. cbn [bind].
  assert (Done : forall h5 m5 n, blocks_are h5 (m5 ++ (h_next h2, []) :: own ++ (ip', sip') :: m ++ (h_next h, []) :: (req, []) :: l) -> rest_leak v f method url x res n -> length m5 = (1 + n)%nat ->
    exists h' lost c n0 x0, (' ha <- free_pq_h h5 pq;; ' hb <- hfree ha (PBlock req);; Ok (hb, res)) = Ok (h', res) /\ blocks_are h' (lost ++ l)
    /\ typed s1 c /\ rest_leak v f method url x0 res n0 /\ length lost = (4 + c + n0)%nat
    /\ headers_read b s1 (r_ip r2) x0).
  { intros h5 m5 n A5 R Lm. destruct (Fr h5 (m5 ++ (h_next h2, []) :: (ip', sip') :: m ++ (h_next h, []) :: (req, []) :: l)) as (h6 & -> & A6). { eapply are_perm; [exact A5|perm]. }
    cbn [bind]. free A6 req (@nil ascii) ((m5 ++ (h_next h2, []) :: (ip', sip') :: m ++ [(h_next h, [])]) ++ l).
    eexists _, _, _, n, x. split; [reflexivity|]. split; [exact A6|]. split; [exact Ty|]. split; [exact R|]. split; [|eexists _, _, _, _; eauto].
    rewrite app_length. cbn [length]. rewrite app_length. cbn [length]. lia. }
  destruct api; cbn [negb] in H |- *.
  - apply bind_ok_inv in H as (p & Ep & H). rewrite Ep. cbn [bind]. alloc A2.
    apply bind_ok_inv in H as (((calls & r6) & f') & Ha & H).
    destruct (api_h_eq _ _ _ _ _ _ _ _ _ _ _ _ U Ha A2) as (h5 & m5 & b0 & p0 & e & r1 & f1 & -> & A5 & L5 & O1 & Wb & O2 & O3). cbn [bind]. injection H as <-.
    apply (Done h5 (m5 ++ [(h_next h3, path)]) (b0 + p0 + e)%nat).
    + eapply are_perm; [exact A5|perm].
    + unfold rest_leak. rewrite finish_taken, finish_req. eexists _, r1, f1, b0, p0, e. split; [reflexivity|]. split; [exact O1|]. split; [exact Wb|]. split; [exact O2|]. split; [exact O3|]. split; [exact Hform|].
      exists path, query, p. split; [exact Q|]. split; [exact Ep|]. unfold method_path. cbn. now rewrite Hmeth.
    + rewrite app_length. cbn. lia.
  - alloc A2. destruct (str_caseeqb method (L "GET")).
    + apply bind_ok_inv in H as (r6 & Hs & H). injection H as <-. destruct (static_h_eq _ _ _ _ _ _ _ _ Hs A2) as (h5 & m5 & k5 & e & -> & A5 & L5 & Lg & C & Hh). cbn [bind].
      apply (Done h5 m5 (k5 * e)%nat); auto. unfold rest_leak. rewrite finish_taken, finish_req. apply new_log in Lg; [|exact Hlog].
      destruct C as [-> | (-> & C)]; [left; split; [destruct (r_log r6); [reflexivity|discriminate]|lia]|right; split; [exact Lg|]]. rewrite Hh, Nat.mul_1_l. exact C.
    + apply bind_ok_inv in H as (r6 & Hs & H). injection H as <-. destruct (bad_h_eq _ _ _ _ Hs A2) as (h5 & m5 & E5 & A5 & C & Lg). rewrite E5. cbn [bind].
      apply (Done h5 (m5 ++ [(h_next h3, path)]) (length m5)); [eapply are_perm; [exact A5|perm]| |rewrite app_length; cbn; lia].
      unfold rest_leak. rewrite finish_taken, finish_req. right. split; [|exact C]. rewrite Lg. f_equal. now apply (f_equal (@length _)) in Hlog.
Qed.
Local Transparent write_at get_line header_loop header_loop_h path_and_query_h get_path_and_query_string startswith static_h handle_static_routes bad_request bad_request_h
  handle_api_h handle_api_request free_pq_h finish header_line header_line_h split_once startswithany trim strncpy rtrim take_boundary strcpy.
Lemma cstr_no_nul : forall b s, cstr b = Ok s -> no_nul s.
Proof.
  induction b as [|[c|] b IH]; intros s H; cbn [cstr] in H; try discriminate. destruct (ceq c NUL) eqn:E; [inv H; easy|].
  apply bind_ok_inv in H as (t & Ht & H). inv H. apply no_nul_cons. split; [now apply ceq_false|auto].
Qed.
Lemma parse_url_no_nul b j url : parse_url b j = Ok url -> no_nul url.
Proof.
  unfold parse_url. intros H. apply bind_ok_inv in H as (j' & _ & H). apply bind_ok_inv in H as (x & _ & H). apply bind_ok_inv in H as (ub & _ & H). now apply cstr_no_nul in H.
Qed.
Lemma no_given_empties n : given_empties [] n -> n = 0%nat.
Proof.
  assert (N : forall name, ~ given_empty [] name) by (intros name (pre & x & post & E & _); destruct pre; discriminate).
  intros (a & b & [(C & _)|(_ & ->)] & [(C' & _)|(_ & ->)] & ->); [exfalso; eapply N; eauto..|reflexivity].
Qed.
Lemma bad_headers r r' : bad_request r = Ok r' -> r_headers r' = r_headers r.
Proof. apply status_headers. Qed.
Lemma too_many_headers r r' : too_many_connections r = Ok r' -> r_headers r' = r_headers r.
Proof. apply status_headers. Qed.
Lemma new_request_headers socket peer r : new_request socket peer = Ok r -> r_headers r = [] /\ r_log r = [] /\ r_form r = cs [] /\ r_ip r = peer.
Proof.
  unfold new_request. intros H. apply bind_ok_inv in H as (ip & E & H). inv H. unfold fits in E. destruct (_ <=? _); [|discriminate]. injection E as ->. auto.
Qed.
Local Opaque new_request get_line parse_request_line startswithany bad_request bad_request_h too_many_connections too_many_h parse_url connection_add accept_rest accept_rest_h finish.
Definition exact_leak (v : wsenv) (f : fs) (peer stream : str) (res : result) (n : nat) : Prop :=
  match o_taken res with
  | TBadMethod => n = 2%nat
  | TTooMany => n = 3%nat
  | _ => exists line rest c x k n0 b rl method j url, get_line stream (calloc 1024) 1024 = Ok (n0, b, rest) /\ parse_request_line b = Ok (rl, method, j) /\ parse_url b j = Ok url
      /\ line_of 1024 stream line rest /\ typed rest c /\ rest_leak v f method url x res k /\ headers_read b rest peer x /\ n = (6 + c + k)%nat
  end.
Lemma accept_h_eq u h v f t socket peer stream res l : balanced u -> accept_request v f t socket peer stream = Ok res -> blocks_are h l ->
  exists h' lost, accept_request_h u h v f t socket peer stream = Ok (h', res) /\ blocks_are h' (lost ++ l) /\ exact_leak v f peer stream res (length lost).
Proof.
  intros U H A. rewrite accept_unfold in H. rewrite accept_unfold_h.
  apply bind_ok_inv in H as (r0 & N & H). rewrite N. cbn [bind]. apply new_request_headers in N as (Nh & Nl & Nf & Ni). alloc A. alloc A.
  apply bind_ok_inv in H as (((k & b) & s1) & G & H). rewrite G. cbn [bind]. destruct (get_line_line _ _ 1024 _ _ _ ltac:(lia) G) as (line & Hl & _ & _).
  apply bind_ok_inv in H as (((rl & method) & j) & P & H). rewrite P. cbn [bind]. alloc A.
  apply bind_ok_inv in H as (okm & M & H). rewrite M. cbn [bind]. clear M. destruct okm; cbn [negb] in H |- *.
  2:{ apply bind_ok_inv in H as (r2 & B & H). injection H as <-. destruct (bad_h_eq _ _ _ _ B A) as (h4 & m & -> & A4 & C & _). cbn [bind].
      rewrite (bad_headers _ _ B) in C. assert (m = []) as ->. { cbn in C. rewrite Nh in C. apply no_given_empties in C. now destruct m. }
      free A4 (h_next h) (@nil ascii) ([(h_next h1, []); (h_next h0, [])] ++ l). eexists _, _. split; [reflexivity|]. split; [exact A4|].
      unfold exact_leak. now rewrite finish_taken. }
  apply bind_ok_inv in H as (url & Pu & H). rewrite Pu. cbn [bind]. pose proof (parse_url_no_nul _ _ _ Pu) as Nu. alloc A.
  apply bind_ok_inv in H as ((adm & t1) & Ca & H). rewrite Ca. cbn [bind]. clear Ca. destruct adm; cbn [negb] in H |- *.
  2:{ apply bind_ok_inv in H as (r2 & B & H). injection H as <-. destruct (too_many_h_eq _ _ _ _ B A) as (h5 & m & -> & A5 & C). cbn [bind].
      rewrite (too_many_headers _ _ B) in C. assert (m = []) as ->. { cbn in C. rewrite Nh in C. apply no_given_empties in C. now destruct m. }
      free A5 (h_next h) (@nil ascii) ([(h_next h2, []); (h_next h1, []); (h_next h0, [])] ++ l). eexists _, _. split; [reflexivity|]. split; [exact A5|].
      unfold exact_leak. now rewrite finish_taken. }
  destruct (accept_rest_h_eq u h3 v f t1 (set_url (set_method (set_request_line r0 rl) method) url) method url b s1 (h_next h) (h_next h0) [] ((h_next h2, []) :: (h_next h1, []) :: l) res U H Nu)
    as (h' & lost & c & n & x & -> & A' & Ty & R & Ln & Hr).
  { cbn. exact Nl. } { cbn. exact Nf. } { reflexivity. } { eapply are_perm; [exact A|perm]. }
  exists h', (lost ++ [(h_next h2, []); (h_next h1, [])]). split; [reflexivity|]. split; [rewrite <- app_assoc; exact A'|].
  assert (X : exists line rest c x k n0 b rl method j url, get_line stream (calloc 1024) 1024 = Ok (n0, b, rest) /\ parse_request_line b = Ok (rl, method, j) /\ parse_url b j = Ok url
      /\ line_of 1024 stream line rest /\ typed rest c /\ rest_leak v f method url x res k /\ headers_read b rest peer x /\ length (lost ++ [(h_next h2, []); (h_next h1, [])]) = (6 + c + k)%nat).
  { exists line, s1, c, x, n, k, b, rl, method, j, url. split; [exact G|]. split; [exact P|]. split; [exact Pu|]. split; [exact Hl|]. split; [exact Ty|]. split; [exact R|].
    split; [|rewrite app_length; cbn; lia]. cbn in Hr. rewrite Ni in Hr. exact Hr. }
  unfold exact_leak. unfold rest_leak in R. destruct (o_taken res); try contradiction; exact X.
Qed.

Lemma accept_h_general u h v f t socket peer stream res l : balanced u -> accept_request v f t socket peer stream = Ok res -> blocks_are h l ->
  exists h' lost, accept_request_h u h v f t socket peer stream = Ok (h', res) /\ blocks_are h' (lost ++ l) /\ request_loses stream res (length lost).
Proof.
  intros U H A. destruct (accept_h_eq u h v f t socket peer stream res l U H A) as (h' & lost & E & A' & X). exists h', lost. split; [exact E|]. split; [exact A'|].
  unfold exact_leak, rest_leak in X. unfold request_loses.
  destruct (o_taken res) as [| | | |calls]; auto; destruct X as (line & rest & c & x & k & n0 & b & rl & method & j & url & _ & _ & _ & Hl & Ty & R & _ & ->).
  - exists line, rest, c, k. auto.
  - exists line, rest, c, k. auto.
  - destruct R as (r5 & r1 & f1 & b0 & p & e & -> & O1 & _ & O2 & O3 & _). exists line, rest, c, b0, p, e. split; [exact Hl|]. split; [exact Ty|].
    split; [destruct O1 as [(_ & ->)|(_ & ->)]; lia|]. split; [destruct O2 as [(_ & ->)|(_ & ->)]; lia|]. split; [exact O3|lia].
Qed.
Lemma cstr_seen s t : cstr (cs s) = Ok t <-> seen_as s t.
Proof.
  unfold cs. rewrite upto_nul_cstr. split.
  - intros H. injection H as <-. destruct (seen_exists s) as (t & Ht). now rewrite (upto_seen s t Ht).
  - intros Ht. now rewrite (upto_seen s t Ht).
Qed.
Lemma body_read n after body : request_body n after body -> 0 < n -> fst (read_body (Z.to_nat n) after NUL) = body.
Proof.
  intros B P. rewrite <- (request_body_eq _ _ _ B). replace (0 <? n) with true by lia. destruct (Nat.le_gt_cases (Z.to_nat n) (length after)) as [L|L].
  - rewrite read_body_enough by exact L. cbn. replace (Z.to_nat n - length after)%nat with 0%nat by lia. cbn. now rewrite app_nil_r.
  - rewrite read_body_short by lia. cbn. now rewrite firstn_all2 by lia.
Qed.
Local Transparent get_line.
Lemma api_loses_eq u h v f t socket peer stream m ur p q line x after t1 body res l :
  balanced u -> accept_request v f t socket peer stream = Ok res -> blocks_are h l ->
  api_asked v t socket peer stream m ur p q line x after t1 -> request_body (td_length x) after body -> len (td_boundary x) < 2 ->
  exists h' lost calls, accept_request_h u h v f t socket peer stream = Ok (h', res) /\ blocks_are h' (lost ++ l)
    /\ o_taken res = TApi calls /\ api_loses v stream m p x body calls (o_req res) (length lost).
Proof.
  intros U H A Q B Bd. destruct (accept_h_eq u h v f t socket peer stream res l U H A) as (h' & lost & E & A' & X).
  destruct (api_start v f t socket peer stream m ur p q line x after t1 body Q B Bd) as (r & _ & _ & _ & Ea). rewrite H in Ea. symmetry in Ea.
  apply bind_ok_inv in Ea as ((calls & r') & _ & Er). assert (Ht : o_taken res = TApi calls) by (now injection Er as <-). clear Er.
  exists h', lost, calls. split; [exact E|]. split; [exact A'|]. split; [exact Ht|]. unfold exact_leak, rest_leak in X. rewrite Ht in X.
  destruct X as (line' & rest & c & x' & k & n0 & b & rl & method & j & url & G & P & Pu & Hl & Ty & R & Hr & ->).
  destruct Q as (s1 & mount & Qa & Hp & _ & _ & Hs & Hf & Hu & Lm & Hapi).
  destruct (asks_parse _ _ _ _ _ Qa) as (b' & G' & Lb & P' & Pu'). rewrite G in G'. injection G' as -> -> ->. rewrite P in P'. injection P' as -> -> ->. rewrite Pu in Pu'. assert (Eu : url = firstn 254 ur) by congruence. clear Pu'. subst url.
  assert (Nf : no_nul (firstn 254 ur)). { apply no_nul_firstn. destruct Qa as (_ & _ & _ & (_ & Nu & _) & _). exact Nu. }
  destruct Hr as (b1 & k1 & b2 & s2 & W & G1 & Hh). destruct (line_in_A _ _ Lb) as (b1' & W' & Lb1). rewrite W in W'. injection W' as <-.
  destruct (header_loop_eq s1 _ x after Hs (length s1) (L "A") b1 (mkH b2 s2 [] None [] (-1) peer (calloc 64)) k1 G1) as (hx & Eh & Rep & Aft); auto.
  { split; [reflexivity|]. split; [constructor|]. repeat (split; [reflexivity|]). exists (calloc 63). split; [reflexivity|]. split; [constructor|]. reflexivity. }
  change MAX_SESSION with 64 in Hh. rewrite Eh in Hh. injection Hh as ->. destruct Rep as (_ & _ & _ & Rb & Rl & _).
  destruct R as (r5 & r1 & f1 & b0 & pf & e & -> & O1 & Wb & O2 & O3 & F5 & path & query & qq & Ep & Eq & Em). rewrite Rl, Rb, Aft in *.
  rewrite (url_parts_eq _ _ _ Nf ltac:(unfold len; rewrite firstn_length; lia) Hu) in Ep. injection Ep as <- <-.
  pose proof (url_parts_no_nul _ _ _ Nf Hu) as Np. apply no_nul_app in Np as [_ Np]. change (len API_MOUNT) with (Z.of_nat 4) in Eq.
  rewrite from_cs_skip, cstr_cs0 in Eq by (auto; unfold len in Lm; lia). injection Eq as <-.
  exists line', s1, c, b0, pf, e. split; [exact Hl|]. split; [exact Ty|]. split; [exact O1|]. split; [|split; [exact O3|lia]].
  eapply one_if_iff; [|exact O2]. unfold param_selected. rewrite Em.
  assert (Fm : cstr (r_form r1) = Ok [] <-> seen_as body []).
  { unfold with_body in Wb. destruct (Z.ltb_spec 0 (td_length x)) as [Lt|Ge].
    - replace (2 <=? len (td_boundary x)) with false in Wb by lia. injection Wb as <- _. cbn [r_form set_form]. rewrite (body_read _ _ _ B Lt). apply cstr_seen.
    - injection Wb as <- _. rewrite F5. assert (body = []) as ->. { rewrite <- (request_body_eq _ _ _ B). now replace (0 <? td_length x) with false by lia. } apply cstr_seen. }
  split; intros (rt & S & Pt & C); exists rt; (split; [exact S|split; [exact Pt|apply Fm; exact C]]).
Qed.

(** ** Leaving out the heap *)
Ltac step H x := let E := fresh "E" in apply bind_ok_inv in H as (x & E & H).
Lemma log_erase h r st h' r' : log_access_h h r st = Ok (h', r') -> log_access r st = Ok r'.
Proof.
  unfold log_access_h. destruct (halloc h []) as [h1 ts]. intros H. apply bind_ok_inv in H as ((h2 & p2) & _ & H). apply bind_ok_inv in H as ((h3 & p3) & _ & H).
  apply bind_ok_inv in H as (r2 & E & H). apply bind_ok_inv in H as (h4 & _ & H). apply bind_ok_inv in H as (h5 & _ & H). apply bind_ok_inv in H as (h6 & _ & H). inv H. exact E.
Qed.
Lemma status_erase h r st msg h' r' : send_http_status_h h r st msg = Ok (h', r') -> send_http_status r st msg = Ok r'.
Proof.
  unfold send_http_status_h. intros H. apply bind_ok_inv in H as (x & E & H). destruct (_ =? -1); [inv H; exact E|].
  apply bind_ok_inv in H as ((h1 & r1) & _ & H). inv H. exact E.
Qed.
Local Transparent bad_request bad_request_h too_many_connections too_many_h.
Lemma bad_erase h r h' r' : bad_request_h h r = Ok (h', r') -> bad_request r = Ok r'.
Proof. apply status_erase. Qed.
Lemma too_many_erase h r h' r' : too_many_h h r = Ok (h', r') -> too_many_connections r = Ok r'.
Proof. apply status_erase. Qed.
Lemma direct_erase h f r name h' x : direct_file_h h f r name = Ok (h', x) -> direct_file f r name = Ok x.
Proof.
  unfold direct_file_h. intros H. apply bind_ok_inv in H as (y & E & H). destruct (negb (is_file f name)); [inv H; exact E|].
  destruct (halloc h []) as [h1 ct]. apply bind_ok_inv in H as (h2 & _ & H). apply bind_ok_inv in H as (h3 & _ & H). apply bind_ok_inv in H as ((h4 & r4) & _ & H). inv H. exact E.
Qed.
Lemma pq_erase h url h' pq x : path_and_query_h h url = Ok (h', pq, x) -> get_path_and_query_string url = Ok x.
Proof.
  unfold path_and_query_h. intros H. apply bind_ok_inv in H as ((p & q) & E & H). destruct (halloc h []) as [h1 self].
  apply bind_ok_inv in H as (((h2 & l2) & toks) & _ & H). destruct (halloc h2 p) as [h3 pp]. destruct (if 1 <? len toks then halloc h3 q else (h3, PLit [])) as [h4 qq].
  apply bind_ok_inv in H as (h5 & _ & H). inv H. exact E.
Qed.
Lemma extract_erase h path prefix param h' qs s : extract_param_h h path prefix param = Ok (h', qs, s) -> router_extract_param path prefix param = Ok s.
Proof.
  unfold extract_param_h. intros H. apply bind_ok_inv in H as (s' & E & H). destruct (halloc h []) as [h1 t]. destruct (halloc h1 s') as [h2 q].
  apply bind_ok_inv in H as (h3 & _ & H). inv H. exact E.
Qed.
Lemma route_erase matcher r : forall t h h' x, route_loop_h h t matcher r = Ok (h', x) -> route_loop t matcher r = Ok x.
Proof.
  induction t as [|rt t IH]; intros h h' x H; cbn [route_loop route_loop_h] in *; [now inv H|]. destruct (negb (rt_live rt)); [discriminate|].
  destruct (rt_type rt); [destruct (str_eqb _ _); [now inv H|eauto]|]. destruct (strstr _ _); [|eauto]. destruct (str_eqb _ _); [eauto|].
  apply bind_ok_inv in H as (((h1 & qs) & s) & E & H). apply extract_erase in E. rewrite E. cbn [bind]. apply bind_ok_inv in H as (k & Ek & H). rewrite Ek. cbn [bind].
  apply bind_ok_inv in H as ((h2 & fm) & Ef & H). apply bind_ok_inv in H as (h3 & _ & H). inv H. destruct (k =? 0).
  - destruct (halloc h1 []) as [h4 q]. inv Ef. reflexivity.
  - destruct (halloc h1 []) as [h4 q]. apply bind_ok_inv in Ef as (fm' & -> & Ef). apply bind_ok_inv in Ef as (h5 & _ & Ef). inv Ef. reflexivity.
Qed.
Lemma router_erase u h a t r h' x : router_h u h a t r = Ok (h', x) -> router_handle_request a t r = Ok x.
Proof.
  unfold router_h, router_handle_request, reject_routing_request. intros H. apply bind_ok_inv in H as (m & -> & H). cbn [bind].
  apply bind_ok_inv in H as ((h1 & ((r1 & hd) & fl)) & E & H). apply route_erase in E. rewrite E. cbn [bind]. destruct hd as [k|].
  - destruct fl as [fl|]; [destruct (on_filter a fl r1) as [r2 pass]; destruct pass|]; apply bind_ok_inv in H as (h2 & _ & H); now inv H.
  - apply bind_ok_inv in H as ((h2 & r2) & Eb & H). apply bad_erase in Eb. rewrite Eb. now inv H.
Qed.
Local Opaque router_handle_request router_h multipart_parse read_body.
Lemma api_erase u h v f s r n bd h' x : handle_api_h u h v f s r n bd = Ok (h', x) -> handle_api_request v f s r n bd = Ok x.
Proof.
  unfold handle_api_h, handle_api_request. intros H. apply bind_ok_inv in H as ((h1 & (r1 & f1)) & E & H).
  assert (X : (if 0 <? n then let body := fst (read_body (Z.to_nat n) s NUL) in let form := map Some body ++ [Some NUL] in
     if 2 <=? len bd then '(form', f') <- multipart_parse (v_mp v) f form bd n;; Ok (set_form r form', f') else Ok (set_form r form, f)
     else Ok (r, f)) = Ok (r1, f1)).
  { destruct (0 <? n); [|now inv E]. cbv zeta in *. destruct (halloc h []) as [h2 b]. destruct (2 <=? len bd); [|now inv E].
    apply bind_ok_inv in E as ((fm & f2) & -> & E). now inv E. }
  cbv zeta in X |- *. rewrite X. cbn [bind]. apply bind_ok_inv in H as ((h2 & (calls & r2)) & E2 & H). apply router_erase in E2. rewrite E2. now inv H.
Qed.
Local Transparent router_handle_request router_h multipart_parse read_body.
Lemma new_path_erase h p s h' x : new_path h p s = Ok (h', x) -> x = s.
Proof. unfold new_path. intros H. apply bind_ok_inv in H as (h1 & _ & H). destruct (halloc h1 s). now inv H. Qed.
Local Opaque direct_file direct_file_h.
Lemma static_erase h v f r path h' r' : static_h h v f r path = Ok (h', r') -> handle_static_routes v f r = Ok r'.
Proof.
  unfold static_h, handle_static_routes. intros H. apply bind_ok_inv in H as (pl & -> & H). cbn [bind]. apply bind_ok_inv in H as ((h1 & p) & E & H).
  assert (X : (if str_eqb (r_path r) (L "/") || str_eqb (r_path r) (L "/index.html") then Ok (v_index v)
        else if str_eqb (r_path r) (L "/favicon.ico") then Ok (v_favicon v)
        else c <- rd (v_stk v) (pl - 1);; if ceq c "/" then fits 1024 (r_path r ++ L "index.html") else Ok (r_path r)) = Ok p).
  { destruct (_ || _); [apply new_path_erase in E; now subst p|]. destruct (str_eqb _ _); [apply new_path_erase in E; now subst p|].
    apply bind_ok_inv in E as (c & -> & E). cbn [bind]. destruct (ceq c "/"); [|now inv E]. apply bind_ok_inv in E as (s & -> & E). apply new_path_erase in E. now subst p. }
  rewrite X. cbn [bind]. apply bind_ok_inv in H as (file & -> & H). cbn [bind]. apply bind_ok_inv in H as ((h2 & (st & r2)) & D & H). apply direct_erase in D. rewrite D. cbn [bind].
  destruct (st <? 0); [|now inv H]. apply bind_ok_inv in H as (file' & -> & H). cbn [bind]. apply bind_ok_inv in H as ((h3 & (st' & r3)) & D' & H). apply direct_erase in D'. rewrite D'. now inv H.
Qed.
Local Transparent direct_file direct_file_h.
Lemma header_line_erase h x ip h' x' ip' : header_line_h h x ip = Ok (h', x', ip') -> header_line x = Ok x'.
Proof.
  unfold header_line_h. intros H. apply bind_ok_inv in H as (h1 & _ & H). apply bind_ok_inv in H as (m & _ & H). apply bind_ok_inv in H as (m' & _ & H).
  apply bind_ok_inv in H as ((h3 & ip3) & _ & H). apply bind_ok_inv in H as (x2 & E & H). inv H. exact E.
Qed.
Local Opaque header_line header_line_h get_line.
Lemma header_erase : forall fuel h n x ip h' x' ip', header_loop_h h fuel n x ip = Ok (h', x', ip') -> header_loop fuel n x = Ok x'.
Proof.
  induction fuel as [|fuel IH]; intros h n x ip h' x' ip' H; cbn [header_loop header_loop_h] in *; (destruct (0 <? n); [|now inv H]);
    apply bind_ok_inv in H as (e1 & -> & H); cbn [bind]; (destruct e1; [now inv H|]); apply bind_ok_inv in H as (e2 & -> & H); cbn [bind]; (destruct e2; [now inv H|]);
    apply bind_ok_inv in H as (((h1 & x1) & ip1) & E & H); apply header_line_erase in E; rewrite E; cbn [bind]; apply bind_ok_inv in H as (((n1 & b1) & s1) & -> & H); cbn [bind]; [discriminate|].
  eapply IH; eauto.
Qed.
Local Opaque write_at header_loop header_loop_h path_and_query_h get_path_and_query_string startswith static_h handle_static_routes bad_request bad_request_h
  handle_api_h handle_api_request free_pq_h finish too_many_connections too_many_h.
Local Transparent accept_rest accept_rest_h.
Lemma accept_rest_erase u h v f t1 r2 method url b s1 req ip h' res :
  accept_rest_h u h v f t1 r2 method url b s1 req ip = Ok (h', res) -> accept_rest v f t1 r2 method url b s1 = Ok res.
Proof.
  unfold accept_rest_h, accept_rest. intros H. apply bind_ok_inv in H as (b1 & -> & H). cbn [bind]. apply bind_ok_inv in H as (((n & b2) & s2) & -> & H). cbn [bind].
  destruct (halloc h []) as [h5 p5]. apply bind_ok_inv in H as (((h6 & x) & ip') & E & H). apply header_erase in E. rewrite E. cbn [bind].
  apply bind_ok_inv in H as (((h7 & pq) & (path & query)) & Ep & H). apply pq_erase in Ep. rewrite Ep. cbn [bind]. destruct (halloc h7 []) as [h8 p8].
  apply bind_ok_inv in H as (api & -> & H). cbn [bind]. apply bind_ok_inv in H as ((h9 & res') & R & H). apply bind_ok_inv in H as (ha & _ & H). apply bind_ok_inv in H as (hb & _ & H).
  inv H. destruct api; cbn [negb] in R |- *.
  - apply bind_ok_inv in R as (p & -> & R). cbn [bind]. destruct (halloc h8 path) as [h10 p10]. apply bind_ok_inv in R as ((h11 & ((calls & r6) & f')) & Ea & R).
    apply api_erase in Ea. rewrite Ea. now inv R.
  - destruct (halloc h8 path) as [h10 p10]. destruct (str_caseeqb method (L "GET")); apply bind_ok_inv in R as ((h11 & r6) & Ea & R); [apply static_erase in Ea|apply bad_erase in Ea]; rewrite Ea; now inv R.
Qed.
Local Opaque accept_rest accept_rest_h.
Lemma accept_erase u h v f t socket peer stream h' res : accept_request_h u h v f t socket peer stream = Ok (h', res) -> accept_request v f t socket peer stream = Ok res.
Proof.
  rewrite accept_unfold, accept_unfold_h. intros H. apply bind_ok_inv in H as (r0 & -> & H). cbn [bind]. destruct (halloc h []) as [h1 req]. destruct (halloc h1 []) as [h2 ip].
  apply bind_ok_inv in H as (((k & b) & s1) & -> & H). cbn [bind]. apply bind_ok_inv in H as (((rl & method) & j) & -> & H). cbn [bind]. destruct (halloc h2 []) as [h3 p3].
  apply bind_ok_inv in H as (okm & -> & H). cbn [bind]. destruct okm; cbn [negb] in H |- *.
  - apply bind_ok_inv in H as (url & -> & H). cbn [bind]. destruct (halloc h3 []) as [h4 p4]. apply bind_ok_inv in H as ((adm & t1) & -> & H). cbn [bind].
    destruct adm; cbn [negb] in H |- *; [eapply accept_rest_erase; eauto|].
    apply bind_ok_inv in H as ((h5 & r3) & E & H). apply too_many_erase in E. rewrite E. cbn [bind]. apply bind_ok_inv in H as (h6 & _ & H). now inv H.
  - apply bind_ok_inv in H as ((h5 & r3) & E & H). apply bad_erase in E. rewrite E. cbn [bind]. apply bind_ok_inv in H as (h6 & _ & H). now inv H.
Qed.
Lemma loses_some stream res n : request_loses stream res n -> (2 <= n)%nat.
Proof.
  unfold request_loses. destruct (o_taken res); try (intros ->; lia).
  - intros (? & ? & c & e & _ & _ & _ & ->). lia.
  - intros (? & ? & c & e & _ & _ & _ & ->). lia.
  - intros (? & ? & c & b & p & e & _ & _ & _ & _ & _ & ->). lia.
Qed.
Lemma accepted_eq u h sv peer stream h' l : balanced u -> accepted_h u h sv peer stream = Ok h' -> blocks_are h l ->
  exists lost, blocks_are h' (lost ++ l) /\ (1 + 2 * served (sv, peer, stream) <= length lost)%nat.
Proof.
  intros U H A. unfold accepted_h in H. apply bind_ok_inv in H as (ip & _ & H). destruct (are_alloc h l ip A) as (h1 & E & A1). rewrite E in H.
  destruct sv as [[[[v f] t] socket]|]; [|inv H; exists [(h_next h, ip)]; split; [exact A1|cbn; lia]].
  apply bind_ok_inv in H as ((h2 & res) & R & H). injection H as <-. pose proof (accept_erase _ _ _ _ _ _ _ _ _ _ R) as R'.
  destruct (accept_h_general _ _ _ _ _ _ _ _ _ _ U R' A1) as (h3 & lost & E3 & A3 & Lo). rewrite R in E3. injection E3 as <-. apply loses_some in Lo.
  exists (lost ++ [(h_next h, ip)]). split; [rewrite <- app_assoc; exact A3|]. rewrite app_length. cbn. lia.
Qed.
Lemma accepted_made u h peer stream l : balanced u -> blocks_are h l -> len peer <= 15 ->
  (exists h' b, accepted_h u h None peer stream = Ok h' /\ blocks_are h' (b :: l))
  /\ (forall v f t socket res, accept_request v f t socket peer stream = Ok res ->
      exists h' lost b, accepted_h u h (Some (v, f, t, socket)) peer stream = Ok h' /\ blocks_are h' (lost ++ b :: l) /\ request_loses stream res (length lost)).
Proof.
  intros U A P. unfold accepted_h. rewrite fits_ok by lia. cbn [bind]. destruct (are_alloc h l peer A) as (h1 & E & A1). rewrite E.
  split; [now exists h1, (h_next h, peer)|]. intros v f t socket res R.
  destruct (accept_h_general _ _ _ _ _ _ _ _ _ _ U R A1) as (h3 & lost & E3 & A3 & Lo). rewrite E3. now exists h3, lost, (h_next h, peer).
Qed.
Lemma accepted_all_eq u : balanced u -> forall cl h h' l, accepted_all u h cl = Ok h' -> blocks_are h l ->
  exists lost, blocks_are h' (lost ++ l) /\ (length cl + 2 * fold_right (fun c n => served c + n) 0 cl <= length lost)%nat.
Proof.
  intros U. induction cl as [|[[sv peer] stream] cl IH]; intros h h' l H A; cbn [accepted_all] in H; [inv H; exists []; split; [exact A|cbn; lia]|].
  apply bind_ok_inv in H as (h1 & E & H). destruct (accepted_eq _ _ _ _ _ _ _ U E A) as (lost & A1 & L1). destruct (IH _ _ _ H A1) as (lost2 & A2 & L2).
  exists (lost2 ++ lost). split; [rewrite <- app_assoc; exact A2|]. rewrite app_length. cbn [fold_right length]. lia.
Qed.

(** ** Other lemmas *)
Lemma typed_unique s n : typed s n -> forall m, typed s m -> n = m.
Proof.
  assert (SU : forall l t t', seen_as l t -> seen_as l t' -> t = t') by (intros l t t' A B; apply upto_seen in A, B; congruence).
  assert (Nil : forall t, seen_as [] t -> ~ blank_line t).
  { intros t (_ & [<- | (r & E)]) [C|C]; try discriminate; subst t; discriminate. }
  induction 1 as [s rest Hl|s l t rest Hl Ht Hb|s l t rest n Hl Hne Ht Hb Hc T IH|s l t rest n Hl Hne Ht Hb Hc T IH]; intros m M;
    inversion M as [s0 rest0 Hl0|s0 l0 t0 rest0 Hl0 Ht0 Hb0|s0 l0 t0 rest0 n0 Hl0 Hne0 Ht0 Hb0 Hc0 T0|s0 l0 t0 rest0 n0 Hl0 Hne0 Ht0 Hb0 Hc0 T0]; subst;
    destruct (line_of_unique _ _ _ _ _ _ Hl Hl0) as (El & Er); subst; try reflexivity; try congruence;
    try (exfalso; eapply Nil; eassumption); try (pose proof (SU _ _ _ Ht Ht0); subst; contradiction).
  - now apply IH.
  - f_equal. now apply IH.
Qed.
Lemma mime_leaks r st mime line x h l : supported st line -> return_headers_with_mime r st mime = Ok x -> blocks_are h l ->
  exists h1 b, headers_with_mime_h h r st mime = Ok (h1, x) /\ blocks_are h1 (b :: l).
Proof. intros S H. apply mime_h_eq; [exact H|]. destruct (supported_index _ _ S) as (I & _). exact I. Qed.
Lemma status_leaks r st line msg r' h l : supported st line -> send_http_status r st msg = Ok r' -> blocks_are h l ->
  exists h1 lost, send_http_status_h h r st msg = Ok (h1, r') /\ blocks_are h1 (lost ++ l) /\ given_empties (r_headers r) (length lost).
Proof. intros S H. apply status_h_eq; [exact H|]. destruct (supported_index _ _ S) as (I & _). exact I. Qed.
Lemma never_clean u h v f t socket peer stream h' res l :
  balanced u -> blocks_are h l -> accept_request_h u h v f t socket peer stream = Ok (h', res) -> ~ blocks_are h' l.
Proof.
  intros U A H C. pose proof (accept_erase _ _ _ _ _ _ _ _ _ _ H) as R. destruct (accept_h_general _ _ _ _ _ _ _ _ _ _ U R A) as (h2 & lost & E & A2 & Lo).
  rewrite H in E. injection E as <-. apply loses_some in Lo. destruct A2 as (P2 & _), C as (P & _). apply Permutation_length in P, P2. rewrite app_length in P2. lia.
Qed.

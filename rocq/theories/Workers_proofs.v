(** Workers_proofs.v - lemmas for C95. *)
From Verif Require Import Workers Lemmas StringUtils_proofs WsMultipart_proofs HttpUtils_proofs WsConn_proofs WsRequest_proofs
  WsDispatch_proofs Races_proofs Tame_proofs Effects_proofs SpecJson SpecHttp SpecConn SpecReq SpecDispatch SpecLog SpecEffects SpecWorkers Spec.
From Coq Require Import Permutation.

(** ** accept_request is its parts *)
Local Opaque send_http_status bad_request too_many_connections startswithany startswith get_line parse_request_line parse_url
  connection_add finish handle_static_routes handle_api_request header_loop get_path_and_query_string cstr write_at.
Tactic Notation "both" simple_intropattern(p) := match goal with |- bind ?x _ = bind (bind ?x _) _ => destruct x as [p|]; cbn [bind]; [|reflexivity] end.
Lemma rest_serve q f t1 h : accept_rest (q_env q) f t1 (hd_req h) (hd_method h) (hd_url h) (hd_buf h) (hd_rest h)
  = ('(k, r, f') <- serve q f h;; Ok (finish k r t1 f')).
Proof.
  unfold accept_rest, serve. both b1. both [[n b2] s2]. both hl. cbv zeta. both [path query]. both api. destruct api; cbn [negb].
  - both p. both [[calls r6] f']. reflexivity.
  - destruct (str_caseeqb (hd_method h) (L "GET")); both r6; reflexivity.
Qed.
Local Opaque accept_rest serve.
Lemma accept_cut q f t : accept_request (q_env q) f t (q_socket q) (q_peer q) (q_stream q)
  = (x <- read_head q;;
     match x with
     | inl r => Ok (finish TBadMethod r t f)
     | inr h =>
       '(ok, t1) <- connection_add (v_limits (q_env q)) t (q_socket q) (r_ip (hd_req h)) (hd_url h);;
       if negb ok then r <- too_many_connections (hd_req h);; Ok (finish TTooMany r t1 f)
       else '(k, r, f') <- serve q f h;; Ok (finish k r t1 f')
     end).
Proof.
  rewrite accept_unfold. unfold read_head. both r0. both [[n b] s1]. both [[rl m] j]. cbv zeta. both okm. destruct okm; cbn [negb].
  - both url. cbn [hd_req hd_url]. destruct (connection_add _ _ _ _ _) as [[ok t1]|]; cbn [bind]; [|reflexivity]. destruct ok; cbn [negb]; [|reflexivity].
    exact (rest_serve q f t1 (mkHead (set_url (set_method (set_request_line r0 rl) m) url) m url b s1)).
  - both r2. reflexivity.
Qed.
Lemma head_told q h : read_head q = Ok (inr h) -> r_sent (hd_req h) = [] /\ r_log (hd_req h) = [] /\ r_headers (hd_req h) = []
  /\ r_url (hd_req h) = hd_url h /\ no_nul (hd_url h) /\ r_socket (hd_req h) = q_socket q.
Proof.
  unfold read_head. intros H. apply bind_ok_inv in H as (r0 & E0 & H). apply bind_ok_inv in H as ([[n b] s1] & _ & H).
  apply bind_ok_inv in H as ([[rl m] j] & _ & H). cbv zeta in H. apply bind_ok_inv in H as (ok & _ & H). destruct ok; cbn [negb] in H.
  2:{ apply bind_ok_inv in H as (r2 & _ & H). discriminate H. }
  apply bind_ok_inv in H as (url & Eu & H). apply parsed_url_one in Eu as [_ Nu]. unfold new_request in E0. apply bind_ok_inv in E0 as (ip & _ & E0).
  injection E0 as <-. injection H as <-. cbn. repeat split; auto.
Qed.
Lemma bad_told q r : read_head q = Ok (inl r) -> r_socket r = q_socket q.
Proof.
  unfold read_head. intros H. apply bind_ok_inv in H as (r0 & E0 & H). apply bind_ok_inv in H as ([[n b] s1] & _ & H).
  apply bind_ok_inv in H as ([[rl m] j] & _ & H). cbv zeta in H. apply bind_ok_inv in H as (ok & _ & H). destruct ok; cbn [negb] in H.
  { apply bind_ok_inv in H as (r2 & _ & H). discriminate H. }
  apply bind_ok_inv in H as (r2 & Eb & H). injection H as <-. apply bad_request_socket in Eb. rewrite Eb. unfold new_request in E0. apply bind_ok_inv in E0 as (ip & _ & E0).
  injection E0 as <-. reflexivity.
Qed.
Local Transparent send_http_status too_many_connections.
Lemma many_ok r : r_headers r = [] -> exists r', too_many_connections r = Ok r' /\ r_url r' = r_url r /\ r_socket r' = r_socket r.
Proof.
  intros Hh. unfold too_many_connections, send_http_status. change (find_http_status_index 429 =? -1) with false. cbv iota.
  change (negb (str_eqb [] [])) with false. cbv iota. match goal with |- context [fits 1024 ?x] => let y := eval vm_compute in (fits 1024 x) in replace (fits 1024 x) with y by (vm_compute; reflexivity) end.
  cbn [bind]. cbv zeta. unfold log_access, http_get_header. cbn [r_headers set_response_length http_print]. rewrite Hh. cbn. eexists. repeat split; reflexivity.
Qed.
Local Opaque send_http_status too_many_connections.
Lemma serve_no_files q f h k r f' : mp_md5_size (v_mp (q_env q)) <= 128 -> serve q f h = Ok (k, r, f') -> f' = f.
Proof.
  intros Hm E. pose proof (rest_serve q f [] h) as A. rewrite E in A. cbn [bind] in A.
  symmetry. change f' with (o_fs (finish k r [] f')). eapply (rest_files (v_mp (q_env q)) eq); [reflexivity|congruence| |reflexivity|exact A].
  intros g tf fl sf td ds al tf' g' E'. destruct (save_small (v_mp (q_env q)) g tf fl sf td ds al Hm) as (u & U). congruence.
Qed.
Lemma serve_kind q f h k r f' : serve q f h = Ok (k, r, f') -> k <> TBadMethod /\ k <> TTooMany.
Proof.
  Local Transparent serve. unfold serve. intros E. apply bind_ok_inv in E as (b1 & _ & E). apply bind_ok_inv in E as ([[n b2] s2] & _ & E).
  apply bind_ok_inv in E as (hl & _ & E). cbv zeta in E. apply bind_ok_inv in E as ([path query] & _ & E). apply bind_ok_inv in E as (api & _ & E).
  destruct api; cbn [negb] in E.
  - apply bind_ok_inv in E as (p & _ & E). apply bind_ok_inv in E as ([[calls r6] f6] & _ & E). assert (k = TApi calls) as -> by congruence. split; discriminate.
  - destruct (str_caseeqb _ _); apply bind_ok_inv in E as (r6 & _ & E); [assert (k = TStatic) as -> by congruence|assert (k = TNotGet) as -> by congruence]; split; discriminate.
Qed.
Local Opaque serve.
Lemma serve_socket q f h k r f' : keeps_socket (v_app (q_env q)) -> serve q f h = Ok (k, r, f') -> r_socket r = r_socket (hd_req h).
Proof.
  intros K E. pose proof (rest_serve q f [] h) as A. rewrite E in A. cbn [bind] in A. apply accept_rest_socket in A as (k' & r6 & f6 & X & S6); [|exact K].
  rewrite <- S6. assert (o_req (finish k r [] f') = o_req (finish k' r6 [] f6)) as Y by congruence. Local Transparent finish. cbn in Y. Local Opaque finish. congruence.
Qed.

(** ** The invariant *)
Definition sound (q : incoming) : Prop := mp_md5_size (v_mp (q_env q)) <= 128 /\ Forall (fun r => no_nul (l_path r)) (v_limits (q_env q)).
Definition fine (f : fs) (q : incoming) (k : route_taken) (r : api_request) : Prop :=
  (exists res, alone f q = Ok res /\ o_taken res = k /\ o_req res = r) \/ refused k r.
Definition could (q : incoming) (h : reqhead) : Prop :=
  connection_validate (v_limits (q_env q)) empty_table (r_ip (hd_req h)) (hd_url h) = Ok true.
Definition stage_ok (f : fs) (qs : list incoming) (s : stage) : Prop :=
  match s with
  | SIdle => True
  | SRead q => In q qs
  | SCheck q h | SRefused q h => In q qs /\ read_head q = Ok (inr h)
  | SSearch q h => In q qs /\ read_head q = Ok (inr h) /\ could q h
  | SClaim q h i => In q qs /\ read_head q = Ok (inr h) /\ could q h /\ (i < 1024)%nat
  | SServe q h => In q qs /\ read_head q = Ok (inr h) /\ could q h
                  /\ fits HTTP_MAX_PATH (hd_url h) = Ok (hd_url h) /\ fits HTTP_MAX_IP (r_ip (hd_req h)) = Ok (r_ip (hd_req h))
  | SClosed q k r => fine f q k r
  end.
Definition working (s : stage) : list incoming :=
  match s with
  | SIdle => []
  | SRead q | SCheck q _ | SSearch q _ | SClaim q _ _ | SRefused q _ | SServe q _ | SClosed q _ _ => [q]
  end.
Definition pinv (f : fs) (qs : list incoming) (p : pool) : Prop :=
  w_fs p = f /\ Forall ok_path (occupied (w_table p)) /\ length (w_table p) = 1024%nat
  /\ Forall (stage_ok f qs) (w_threads p)
  /\ Forall (fun a => fine f (fst (fst a)) (snd (fst a)) (snd a)) (w_answers p)
  /\ Permutation qs (answered p ++ flat_map working (w_threads p) ++ w_queue p).
Lemma threads_split (l : list stage) k s : nth_error l k = Some s -> exists a b, l = a ++ s :: b /\ forall s', set_nth l k s' = a ++ s' :: b.
Proof. intros H. apply nth_error_split in H as (a & b & -> & <-). exists a, b. split; [reflexivity|]. intros. apply set_nth_eq. Qed.
Lemma occupied_empty : occupied empty_table = [].
Proof. unfold empty_table, occupied. induction (Z.to_nat WS_MAX_CONNECTIONS); [reflexivity|]. cbn [repeat filter]. exact IHn. Qed.
Lemma overb_mono rules open ip path : overb rules open ip path = false -> overb rules [] ip path = false.
Proof.
  induction rules as [|r rs IH]; [reflexivity|]. cbn [overb]. destruct (l_path r); [reflexivity|]. intros H. apply orb_false_iff in H as [H1 H2]. rewrite (IH H2), orb_false_r.
  destruct (onb _ path); [|reflexivity]. cbn [andb] in *. apply orb_false_iff in H1 as [H1 H3]. apply Z.ltb_ge in H1, H3. cbn [filter]. rewrite len_nil.
  apply orb_false_iff. rewrite !Z.ltb_ge. pose proof (len_nonneg conn). split; eapply Z.le_trans; try eassumption; auto.
Qed.
Lemma validate_mono rules t ip path : Forall (fun r => no_nul (l_path r)) rules -> Forall ok_path (occupied t) -> no_nul path ->
  connection_validate rules t ip path = Ok true -> connection_validate rules empty_table ip path = Ok true.
Proof.
  intros Hr Ht Hp H. rewrite validate_eq in * by (auto; rewrite ?occupied_empty; auto). rewrite occupied_empty. injection H as H. apply negb_true_iff in H. apply overb_mono in H. now rewrite H.
Qed.
Local Transparent connection_add.
Lemma add_empty rules s ip path : connection_validate rules empty_table ip path = Ok true ->
  exists t, connection_add rules empty_table s ip path = (p <- fits HTTP_MAX_PATH path;; i <- fits HTTP_MAX_IP ip;; Ok (true, mkConn s p i :: t)).
Proof.
  intros H. unfold connection_add. rewrite H. cbn [bind]. unfold empty_table. change (Z.to_nat WS_MAX_CONNECTIONS) with (S 1023). cbn [repeat claim_slot c_socket free_slot]. change (0 =? 0) with true. cbv iota. eauto.
Qed.
Local Opaque connection_add empty_table.
Lemma fits_same n s x : fits n s = Ok x -> x = s.
Proof. unfold fits. destruct (len s + 1 <=? n); [|discriminate]. congruence. Qed.
Lemma free_index_lt t i : free_index t = Some i -> (i < length t)%nat.
Proof.
  revert i. induction t as [|c t IH]; intros i H; cbn [free_index] in H; [discriminate|]. destruct (_ =? 0); [injection H as <-; cbn; lia|].
  destruct (free_index t) as [j|]; [|discriminate]. injection H as <-. specialize (IH j eq_refl). cbn. lia.
Qed.
Lemma occupied_mid a c b : occupied (a ++ c :: b) = occupied a ++ (if c_socket c =? 0 then [] else [c]) ++ occupied b.
Proof. rewrite occupied_app, occupied_cons. now destruct (c_socket c =? 0). Qed.
Lemma table_split (t : table) i : (i < length t)%nat -> exists a x b, t = a ++ x :: b /\ forall y, set_nth t i y = a ++ y :: b.
Proof.
  intros H. destruct (nth_error t i) as [x|] eqn:N; [|apply nth_error_None in N; lia]. apply nth_error_split in N as (a & b & -> & <-). exists a, x, b. split; [reflexivity|]. intros y. apply set_nth_eq.
Qed.
Lemma del_ok t s : Forall ok_path (occupied t) -> Forall ok_path (occupied (connection_del t s)).
Proof.
  induction t as [|c t IH]; [auto|]. cbn [connection_del]. rewrite occupied_cons. intros H. destruct (c_socket c =? s).
  - rewrite occupied_cons. cbn. destruct (c_socket c =? 0); [auto|]. now inversion H.
  - rewrite occupied_cons. destruct (c_socket c =? 0); [auto|]. inversion H; subst. constructor; auto.
Qed.
Lemma del_length t s : length (connection_del t s) = length t.
Proof. induction t as [|c t IH]; [reflexivity|]. cbn [connection_del]. destruct (_ =? _); cbn; auto. Qed.
Lemma perm_stage qs x a s b q s' : Permutation qs (x ++ flat_map working (a ++ s :: b) ++ q) -> working s' = working s -> Permutation qs (x ++ flat_map working (a ++ s' :: b) ++ q).
Proof. intros P E. now rewrite flat_map_app in *; cbn [flat_map] in *; rewrite E. Qed.

Lemma alone_cut f q : alone f q = (x <- read_head q;;
     match x with
     | inl r => Ok (finish TBadMethod r empty_table f)
     | inr h =>
       '(ok, t1) <- connection_add (v_limits (q_env q)) empty_table (q_socket q) (r_ip (hd_req h)) (hd_url h);;
       if negb ok then r <- too_many_connections (hd_req h);; Ok (finish TTooMany r t1 f)
       else '(k, r, f') <- serve q f h;; Ok (finish k r t1 f')
     end).
Proof. apply accept_cut. Qed.
Local Opaque read_head alone.
Lemma pinv_step f qs p k : Forall sound qs -> pinv f qs p ->
  match wstep p k with
  | Some (Ok p') => pinv f qs p'
  | Some (UB u) => exists q, In q qs /\ alone f q = UB u
  | None => True
  end.
Proof.
  intros Hq (Hf & Ht & Lt & Hs & Ha & Hp). unfold wstep. destruct (nth_error (w_threads p) k) as [s|] eqn:N; [|exact I].
  destruct (threads_split _ _ _ N) as (a & b & E & SN). rewrite E in Hs, Hp. apply Forall_app in Hs as [Hsa Hs]. inversion Hs as [|? ? Hk Hsb]; subst.
  assert (TH : forall s', stage_ok (w_fs p) qs s' -> Forall (stage_ok (w_fs p) qs) (a ++ s' :: b)) by (intros s' H; apply Forall_app; split; [auto|constructor; auto]).
  assert (AT : forall s', stage_ok (w_fs p) qs s' -> working s' = working s -> pinv (w_fs p) qs (at_stage p k s')).
  { intros s' H1 H2. unfold pinv, at_stage. cbn [w_fs w_table w_threads w_answers w_queue]. rewrite SN. repeat (split; [auto|]). exact (perm_stage _ _ _ _ _ _ _ Hp H2). }
  assert (SQ : forall q, In q qs -> sound q) by (rewrite Forall_forall in Hq; exact Hq).
  destruct s as [|q|q h|q h|q h i|q h|q h|q kd r]; cbn [stage_ok working] in Hk, AT.
  - destruct (w_queue p) as [|q rest] eqn:Q; [exact I|]. unfold pinv. cbn [w_fs w_table w_threads w_answers w_queue]. rewrite SN.
    assert (Iq : In q qs). { apply (Permutation_in q (Permutation_sym Hp)), in_or_app. right. apply in_or_app. right. now left. }
    repeat (split; [auto|]). unfold answered in *. cbn [w_answers]. rewrite flat_map_app in *. cbn [flat_map working app] in *.
    eapply perm_trans; [exact Hp|]. rewrite <- !app_assoc. apply Permutation_app_head, Permutation_app_head. cbn [app]. apply Permutation_sym, Permutation_middle.
  - pose proof (alone_cut (w_fs p) q) as AL. destruct (read_head q) as [[r|h]|u] eqn:R; cbn [bind] in *.
    + apply AT; [|reflexivity]. left. eexists. split; [exact AL|]. split; reflexivity.
    + apply AT; [|reflexivity]. cbn. auto.
    + eauto.
  - destruct Hk as (Iq & R). destruct (head_told _ _ R) as (_ & _ & _ & _ & Nu & _). destruct (SQ q Iq) as [_ Sr].
    pose proof (validate_eq (v_limits (q_env q)) (w_table p) (r_ip (hd_req h)) (hd_url h) Sr Ht Nu) as V. rewrite V. cbn [bind]. apply AT; [|now destruct (negb _)].
    destruct (negb _) eqn:O; cbn; [|auto]. split; [exact Iq|]. split; [exact R|]. eapply validate_mono; eauto.
  - destruct Hk as (Iq & R & C). destruct (free_index (w_table p)) as [i|] eqn:FI; (apply AT; [|reflexivity]); cbn; auto. apply free_index_lt in FI. rewrite Lt in FI. auto.
  - destruct Hk as (Iq & R & C & Hi). destruct (head_told _ _ R) as (_ & _ & _ & _ & Nu & _).
    pose proof (alone_cut (w_fs p) q) as AL. rewrite R in AL. cbn [bind] in AL. destruct (add_empty _ (q_socket q) _ _ C) as (tt & AE). rewrite AE in AL.
    destruct (fits HTTP_MAX_PATH (hd_url h)) as [pa|u] eqn:F1; cbn [bind] in *; [|eauto]. destruct (fits HTTP_MAX_IP _) as [ip|u] eqn:F2; cbn [bind] in *; [|eauto].
    pose proof (fits_same _ _ _ F1); pose proof (fits_same _ _ _ F2). subst pa ip. unfold pinv. cbn [w_fs w_table w_threads w_answers w_queue]. rewrite SN.
    destruct (table_split (w_table p) i) as (x & y & z & Et & ST); [lia|]. rewrite ST. split; [auto|]. split.
    { rewrite Et in Ht. rewrite occupied_mid in *. apply Forall_app in Ht as [H1 H2]. apply Forall_app in H2 as [_ H2]. apply Forall_app. split; [auto|]. apply Forall_app. split; [|auto].
      cbn [c_socket]. destruct (_ =? 0); constructor; auto. }
    split. { rewrite Et in Lt. rewrite app_length in *. cbn in *. lia. }
    split. { apply TH. cbn. auto. } split; [auto|]. exact (perm_stage _ _ _ _ _ _ (SServe q h) Hp eq_refl).
  - destruct Hk as (Iq & R). destruct (head_told _ _ R) as (S0 & L0 & Hh & _). destruct (many_ok _ Hh) as (r' & M & _). rewrite M. cbn [bind]. apply AT; [|reflexivity].
    right. destruct (many_sent _ _ M) as [M1 M2]. rewrite S0 in M1. rewrite L0 in M2. split; [reflexivity|]. split; [exact M1|exact M2].
  - destruct Hk as (Iq & R & C & F1 & F2). pose proof (alone_cut (w_fs p) q) as AL. rewrite R in AL. cbn [bind] in AL. destruct (add_empty _ (q_socket q) _ _ C) as (tt & AE).
    rewrite AE, F1 in AL. cbn [bind] in AL. rewrite F2 in AL. cbn [bind negb] in AL. destruct (serve q (w_fs p) h) as [[[kd r] f']|u] eqn:SV; cbn [bind] in *; [|eauto].
    pose proof (serve_no_files _ _ _ _ _ _ (proj1 (SQ q Iq)) SV) as ->. unfold pinv. cbn [w_fs w_table w_threads w_answers w_queue]. rewrite SN.
    split; [auto|]. split; [auto|]. split; [auto|]. split. { apply TH. left. eexists. split; [exact AL|]. split; reflexivity. } split; [auto|]. exact (perm_stage _ _ _ _ _ _ (SClosed q kd r) Hp eq_refl).
  - unfold pinv. cbn [w_fs w_table w_threads w_answers w_queue]. rewrite SN. split; [auto|]. split; [now apply del_ok|]. split; [now rewrite del_length|]. split; [apply TH; exact I|].
    split; [apply Forall_app; split; [auto|constructor; auto]|]. unfold answered in *. cbn [w_answers]. rewrite map_app, flat_map_app in *. cbn [map fst flat_map working app] in *.
    eapply perm_trans; [exact Hp|]. rewrite <- !app_assoc. apply Permutation_app_head. cbn [app]. apply Permutation_sym, Permutation_middle.
Qed.
Lemma pinv_run f qs sched : Forall sound qs -> forall p, pinv f qs p ->
  match wrun p sched with
  | Some (Ok p') => pinv f qs p'
  | Some (UB u) => exists q, In q qs /\ alone f q = UB u
  | None => True
  end.
Proof.
  intros Hq. unfold wrun. induction sched as [|k l IH]; intros p Hp; cbn [run_with]; [exact Hp|].
  pose proof (pinv_step f qs p k Hq Hp) as S. destruct (wstep p k) as [[p'|u]|]; [exact (IH p' S)|exact S|exact I].
Qed.
Lemma working_idle n : flat_map working (repeat SIdle n) = [].
Proof. induction n; auto. Qed.
Local Transparent empty_table.
Lemma pinv_start f qs n : pinv f qs (pool_start f qs n).
Proof.
  unfold pinv, pool_start. cbn [w_fs w_table w_threads w_answers w_queue]. split; [reflexivity|]. split; [rewrite occupied_empty; constructor|]. split; [unfold empty_table; apply repeat_length|].
  split. { apply Forall_forall. intros s H. apply repeat_spec in H. now subst. } split; [constructor|]. unfold answered. cbn. now rewrite working_idle.
Qed.
Local Opaque empty_table.

(** ** The table does not fill up *)
Definition claimed (s : stage) : list Z :=
  match s with
  | SServe q _ => [q_socket q]
  | SClosed _ TBadMethod _ | SClosed _ TTooMany _ => []
  | SClosed _ _ r => [r_socket r]
  | _ => []
  end.
Definition cnt (l : list Z) (z : Z) : nat := count_occ Z.eq_dec l z.
Lemma cnt_app a b z : cnt (a ++ b) z = (cnt a z + cnt b z)%nat.
Proof. apply count_occ_app. Qed.
Definition owns (p : pool) : Prop := forall z, (cnt (map c_socket (occupied (w_table p))) z <= cnt (flat_map claimed (w_threads p)) z)%nat.
Lemma cnt_le a : forall b, (forall z, (cnt a z <= cnt b z)%nat) -> (length a <= length b)%nat.
Proof.
  induction a as [|x a IH]; intros b H; [cbn; lia|]. assert (I : In x b). { apply (count_occ_In Z.eq_dec). specialize (H x). unfold cnt in H. rewrite count_occ_cons_eq in H by reflexivity. lia. }
  apply in_split in I as (b1 & b2 & ->). rewrite app_length. cbn [length]. rewrite Nat.add_succ_r. apply le_n_S. rewrite <- app_length. apply IH. intros z. specialize (H z). rewrite cnt_app in *.
  unfold cnt in *. cbn [count_occ] in H. destruct (Z.eq_dec x z); lia.
Qed.
Lemma cnt_zero t : cnt (map c_socket (occupied t)) 0 = 0%nat.
Proof.
  unfold cnt. apply count_occ_not_In. intros H. apply in_map_iff in H as (c & E & H). apply filter_In in H as [_ H]. rewrite E in H. discriminate H.
Qed.
Lemma del_cnt t s z : (cnt (map c_socket (occupied (connection_del t s))) z <= cnt (map c_socket (occupied t)) z)%nat
  /\ (cnt (map c_socket (occupied (connection_del t s))) s <= cnt (map c_socket (occupied t)) s - 1)%nat.
Proof.
  assert (A : forall t, (cnt (map c_socket (occupied (connection_del t s))) z <= cnt (map c_socket (occupied t)) z)%nat).
  { clear. induction t as [|c t IH]; [cbn; lia|]. cbn [connection_del]. destruct (Z.eqb_spec (c_socket c) s) as [E|E]; rewrite !occupied_cons.
    - change (c_socket free_slot =? 0) with true. cbv iota. destruct (c_socket c =? 0); [lia|]. unfold cnt. cbn [map count_occ]. destruct (Z.eq_dec _ _); lia.
    - destruct (c_socket c =? 0); [exact IH|]. unfold cnt in *. cbn [map count_occ]. destruct (Z.eq_dec _ _); lia. }
  split; [apply A|]. destruct (Z.eq_dec s 0) as [->|Ns]; [rewrite cnt_zero; lia|]. clear A z. induction t as [|c t IH]; [cbn; lia|].
  cbn [connection_del]. destruct (Z.eqb_spec (c_socket c) s) as [E|E]; rewrite !occupied_cons.
  - change (c_socket free_slot =? 0) with true. cbv iota. rewrite (proj2 (Z.eqb_neq _ _)) by congruence. unfold cnt. cbn [map count_occ]. destruct (Z.eq_dec (c_socket c) s); [lia|congruence].
  - destruct (c_socket c =? 0); [exact IH|]. unfold cnt in *. cbn [map count_occ]. destruct (Z.eq_dec (c_socket c) s); [congruence|exact IH].
Qed.
Lemma put_cnt a x c b z : (cnt (map c_socket (occupied (a ++ c :: b))) z <= cnt (map c_socket (occupied (a ++ x :: b))) z + cnt [c_socket c] z)%nat.
Proof.
  rewrite !occupied_mid, !map_app, !cnt_app. destruct (c_socket c =? 0), (c_socket x =? 0); cbn [map cnt count_occ]; unfold cnt; cbn [count_occ]; lia.
Qed.
Lemma owns_step f qs p k p' : Forall sound qs -> Forall (fun q => keeps_socket (v_app (q_env q))) qs -> pinv f qs p -> owns p -> wstep p k = Some (Ok p') -> owns p'.
Proof.
  intros Hq Hk (Hf & Ht & Lt & Hs & _) O E. unfold wstep in E. destruct (nth_error (w_threads p) k) as [s|] eqn:N; [|discriminate].
  destruct (threads_split _ _ _ N) as (a & b & Et & SN). pose proof O as O1. unfold owns in O. rewrite Et in O.
  assert (Hs' : stage_ok f qs s) by (rewrite Forall_forall in Hs; apply Hs; eapply nth_error_In; eauto).
  assert (Q : forall s', claimed s' = claimed s -> owns (at_stage p k s')).
  { intros s' C z. unfold at_stage. cbn [w_table w_threads]. rewrite SN. specialize (O z). rewrite flat_map_app in *. cbn [flat_map] in *. now rewrite C. }
  destruct s as [|q|q h|q h|q h i|q h|q h|q kd r].
  - destruct (w_queue p) as [|q rest]; [discriminate|]. injection E as <-. intros z. cbn [w_table w_threads]. rewrite SN. specialize (O z). rewrite flat_map_app in *. exact O.
  - destruct (read_head q) as [[r|h]|]; cbn [bind] in E; inversion E; apply Q; reflexivity.
  - destruct (connection_validate _ _ _ _) as [ok|]; cbn [bind] in E; inversion E. apply Q. now destruct ok.
  - inversion E. apply Q. now destruct (free_index _).
  - destruct (fits HTTP_MAX_PATH (hd_url h)) as [pa|u] eqn:F1; cbn [bind] in *; [|discriminate]. destruct (fits HTTP_MAX_IP _) as [ip|u] eqn:F2; cbn [bind] in *; [|discriminate].
    inversion E. intros z. cbn [w_table w_threads]. rewrite SN. destruct Hs' as (_ & _ & _ & Hi). destruct (table_split (w_table p) i) as (x & y & w & Ew & ST); [lia|]. rewrite ST.
    pose proof (put_cnt x y (mkConn (q_socket q) pa ip) w z) as P. rewrite <- Ew in P. specialize (O z). rewrite flat_map_app in *. cbn [flat_map claimed c_socket] in *. rewrite !cnt_app in *.
    unfold cnt at 3 in O. cbn [count_occ] in O. lia.
  - destruct (too_many_connections _) as [r|]; cbn [bind] in E; inversion E. apply Q. reflexivity.
  - destruct (serve q (w_fs p) h) as [[[kd r] f']|u] eqn:SV; cbn [bind] in E; inversion E. intros z. cbn [w_table w_threads]. rewrite SN. specialize (O z). rewrite flat_map_app in *. cbn [flat_map] in *.
    destruct Hs' as (Iq & R & _). destruct (serve_kind _ _ _ _ _ _ SV) as [K1 K2]. rewrite Forall_forall in Hk. pose proof (serve_socket _ _ _ _ _ _ (Hk q Iq) SV) as K3.
    destruct (head_told _ _ R) as (_ & _ & _ & _ & _ & K4). replace (claimed (SClosed q kd r)) with (claimed (SServe q h)); [exact O|]. cbn. rewrite K3, K4. destruct kd; congruence.
  - inversion E. intros z. cbn [w_table w_threads]. rewrite SN. specialize (O z). rewrite flat_map_app in *. cbn [flat_map] in *. rewrite !cnt_app in *.
    destruct (del_cnt (w_table p) (r_socket r) z) as [D1 D2].
    assert (C : (cnt (claimed (SClosed q kd r)) z = 0 \/ z = r_socket r /\ cnt (claimed (SClosed q kd r)) z = 1)%nat).
    { destruct kd; cbn; auto; destruct (Z.eq_dec (r_socket r) z); auto. }
    change (cnt (claimed SIdle) z) with 0%nat. destruct C as [C|[-> C]]; lia.
Qed.
Lemma claimed_le l : (length (flat_map claimed l) <= length l)%nat.
Proof. induction l as [|s l IH]; [cbn; lia|]. cbn [flat_map]. rewrite app_length. cbn [length]. assert (length (claimed s) <= 1)%nat by (destruct s; cbn; try lia; destruct k; cbn; lia). lia. Qed.
Lemma full_occupied t : free_index t = None -> length (occupied t) = length t.
Proof.
  induction t as [|c t IH]; [reflexivity|]. cbn [free_index]. rewrite occupied_cons. destruct (c_socket c =? 0); [discriminate|]. destruct (free_index t); [discriminate|]. intros _. cbn. now rewrite IH.
Qed.
Lemma room p k q h : owns p -> length (w_table p) = 1024%nat -> (length (w_threads p) <= 1024)%nat -> nth_error (w_threads p) k = Some (SSearch q h) -> free_index (w_table p) <> None.
Proof.
  intros O Lt Ln N F. apply full_occupied in F. destruct (threads_split _ _ _ N) as (a & b & Et & _). unfold owns in O. rewrite Et in *. apply cnt_le in O. rewrite map_length in O.
  rewrite flat_map_app, app_length in O. cbn [flat_map claimed app] in O. rewrite app_length in Ln. cbn [length] in Ln. pose proof (claimed_le a). pose proof (claimed_le b). lia.
Qed.

(** ** Refusals have a rule *)
Definition ruled (q : incoming) (url : str) : Prop := exists rule, in_force (v_limits (q_env q)) rule /\ ci_prefix (l_path rule) url.
Definition stage_ruled (s : stage) : Prop :=
  match s with
  | SRefused q h => ruled q (hd_url h)
  | SClosed q TTooMany r => ruled q (r_url r)
  | _ => True
  end.
Definition all_ruled (p : pool) : Prop := Forall stage_ruled (w_threads p)
  /\ Forall (fun a => snd (fst a) = TTooMany -> ruled (fst (fst a)) (r_url (snd a))) (w_answers p).
Lemma over_ruled q open ip url : Forall (fun r => no_nul (l_path r)) (v_limits (q_env q)) -> Forall ok_path open -> no_nul url -> overb (v_limits (q_env q)) open ip url = true -> ruled q url.
Proof. intros H1 H2 H3 H. apply overb_iff in H as (r & n & m & I & P & _); auto. exists r. auto. Qed.
Lemma set_length (l : list stage) k s s' : nth_error l k = Some s -> length (set_nth l k s') = length l.
Proof. intros H. destruct (threads_split _ _ _ H) as (a & b & -> & ->). rewrite !app_length. reflexivity. Qed.
Lemma step_length p k p' : wstep p k = Some (Ok p') -> length (w_threads p') = length (w_threads p).
Proof.
  unfold wstep. intros E. destruct (nth_error (w_threads p) k) as [s|] eqn:N; [|discriminate]. pose proof (fun s' => set_length _ _ _ s' N) as SL. destruct s as [|q|q h|q h|q h i|q h|q h|q kd r].
  - destruct (w_queue p); inversion E. apply SL.
  - destruct (read_head q) as [x|]; cbn [bind] in E; inversion E. apply SL.
  - destruct (connection_validate _ _ _ _) as [ok|]; cbn [bind] in E; inversion E. apply SL.
  - inversion E. apply SL.
  - destruct (fits HTTP_MAX_PATH (hd_url h)); cbn [bind] in E; [|discriminate]. destruct (fits HTTP_MAX_IP _); cbn [bind] in E; inversion E. apply SL.
  - destruct (too_many_connections _) as [r|]; cbn [bind] in E; inversion E. apply SL.
  - destruct (serve q (w_fs p) h) as [[[kd r] f']|u]; cbn [bind] in E; inversion E. apply SL.
  - inversion E. apply SL.
Qed.
Lemma ruled_step f qs p k p' : Forall sound qs -> pinv f qs p -> owns p -> (length (w_threads p) <= 1024)%nat -> all_ruled p -> wstep p k = Some (Ok p') -> all_ruled p'.
Proof.
  intros Hq (Hf & Ht & Lt & Hs & _) O Ln (R1 & R2) E. unfold wstep in E. destruct (nth_error (w_threads p) k) as [s|] eqn:N; [|discriminate].
  destruct (threads_split _ _ _ N) as (a & b & Et & SN).
  assert (Hs' : stage_ok f qs s) by (rewrite Forall_forall in Hs; apply Hs; eapply nth_error_In; eauto).
  assert (Rs : stage_ruled s) by (rewrite Forall_forall in R1; apply R1; eapply nth_error_In; eauto).
  assert (TH : forall s', stage_ruled s' -> Forall stage_ruled (set_nth (w_threads p) k s')).
  { intros s' H. rewrite SN. rewrite Et in R1. apply Forall_app in R1 as [A B]. inversion B; subst. apply Forall_app. split; [auto|constructor; auto]. }
  assert (Q : forall s', stage_ruled s' -> all_ruled (at_stage p k s')) by (intros s' H; split; [now apply TH|exact R2]).
  assert (SQ : forall q, In q qs -> sound q) by (rewrite Forall_forall in Hq; exact Hq).
  destruct s as [|q|q h|q h|q h i|q h|q h|q kd r].
  - destruct (w_queue p); inversion E. split; [now apply TH|exact R2].
  - destruct (read_head q) as [[r|h]|]; cbn [bind] in E; inversion E; apply Q; exact I.
  - destruct Hs' as (Iq & R). destruct (head_told _ _ R) as (_ & _ & _ & _ & Nu & _). destruct (SQ q Iq) as [_ Sr].
    rewrite (validate_eq _ _ _ _ Sr Ht Nu) in E. cbn [bind] in E. inversion E. apply Q. destruct (overb _ _ _ _) eqn:OV; cbn [negb stage_ruled]; [|exact I]. eapply over_ruled; eauto.
  - destruct (free_index (w_table p)) eqn:FI; [inversion E; apply Q; exact I|]. now elim (room p k q h).
  - destruct (fits HTTP_MAX_PATH (hd_url h)); cbn [bind] in E; [|discriminate]. destruct (fits HTTP_MAX_IP _); cbn [bind] in E; inversion E. split; [now apply TH|exact R2].
  - destruct Hs' as (Iq & R). destruct (head_told _ _ R) as (_ & _ & Hh & U & _ & _). destruct (many_ok _ Hh) as (r & M & U' & _). rewrite M in E. cbn [bind] in E. inversion E. apply Q. cbn. cbn in Rs. now rewrite U', U.
  - destruct (serve q (w_fs p) h) as [[[kd r] f']|u] eqn:SV; cbn [bind] in E; inversion E. split; [|exact R2]. apply TH. destruct (serve_kind _ _ _ _ _ _ SV) as [_ K]. cbn. now destruct kd.
  - inversion E. split; [now apply TH|]. cbn [w_answers]. apply Forall_app. split; [exact R2|]. constructor; [|constructor]. cbn. intros ->. exact Rs.
Qed.
Lemma ruled_run f qs sched : Forall sound qs -> Forall (fun q => keeps_socket (v_app (q_env q))) qs -> forall p p', pinv f qs p -> owns p -> (length (w_threads p) <= 1024)%nat -> all_ruled p ->
  wrun p sched = Some (Ok p') -> all_ruled p'.
Proof.
  intros Hq Hk. unfold wrun. induction sched as [|k l IH]; intros p p' Hp O Ln R E; cbn [run_with] in E; [now inversion E; subst|].
  pose proof (pinv_step f qs p k Hq Hp) as S. destruct (wstep p k) as [[p1|u]|] eqn:E1; try discriminate.
  refine (IH p1 p' S (owns_step f qs p k p1 Hq Hk Hp O E1) _ (ruled_step f qs p k p1 Hq Hp O Ln R E1) E). now rewrite (step_length _ _ _ E1).
Qed.
Local Transparent empty_table.
Lemma start_more f qs n : owns (pool_start f qs n) /\ all_ruled (pool_start f qs n) /\ length (w_threads (pool_start f qs n)) = n.
Proof.
  unfold pool_start. split; [|split; [split; [|constructor]|apply repeat_length]].
  - intros z. cbn [w_table w_threads]. rewrite occupied_empty. cbn. lia.
  - apply Forall_forall. intros s H. apply repeat_spec in H. now subst.
Qed.
Local Opaque empty_table.

(** ** Every schedule ends *)
Definition spot (s : stage) : Z :=
  match s with SIdle => 0 | SRead _ => 6 | SCheck _ _ => 5 | SSearch _ _ => 4 | SClaim _ _ _ => 3 | SRefused _ _ => 2 | SServe _ _ => 2 | SClosed _ _ _ => 1 end.
Fixpoint ssum (l : list stage) : Z := match l with [] => 0 | s :: r => spot s + ssum r end.
Lemma ssum_app a b : ssum (a ++ b) = ssum a + ssum b.
Proof. induction a as [|w a IH]; cbn [app ssum]; [reflexivity|]. rewrite IH. lia. Qed.
Lemma ssum_nonneg l : 0 <= ssum l.
Proof. induction l as [|w l IH]; [cbn; lia|]. cbn [ssum]. destruct w; cbn [spot]; lia. Qed.
Definition left_to_do (p : pool) : Z := ssum (w_threads p) + 7 * len (w_queue p).
Lemma left_step p k p' : wstep p k = Some (Ok p') -> left_to_do p' + 1 <= left_to_do p.
Proof.
  unfold wstep, left_to_do. intros E. destruct (nth_error (w_threads p) k) as [s|] eqn:N; [|discriminate]. destruct (threads_split _ _ _ N) as (a & b & Et & SN).
  rewrite Et. rewrite ssum_app. cbn [ssum].
  assert (Q : forall s', ssum (set_nth (w_threads p) k s') = ssum a + (spot s' + ssum b)) by (intros s'; rewrite SN, ssum_app; reflexivity).
  destruct s as [|q|q h|q h|q h i|q h|q h|q kd r]; cbn [spot].
  - destruct (w_queue p) as [|q rest] eqn:W; inversion E. cbn [w_threads w_queue]. rewrite Q, len_cons. cbn [spot]. lia.
  - destruct (read_head q) as [x|]; cbn [bind] in E; inversion E. cbn [at_stage w_threads w_queue]. rewrite Q. destruct x; cbn [spot]; lia.
  - destruct (connection_validate _ _ _ _) as [ok|]; cbn [bind] in E; inversion E. cbn [at_stage w_threads w_queue]. rewrite Q. destruct ok; cbn [spot]; lia.
  - inversion E. cbn [at_stage w_threads w_queue]. rewrite Q. destruct (free_index _); cbn [spot]; lia.
  - destruct (fits HTTP_MAX_PATH (hd_url h)); cbn [bind] in E; [|discriminate]. destruct (fits HTTP_MAX_IP _); cbn [bind] in E; inversion E. cbn [w_threads w_queue]. rewrite Q. cbn [spot]. lia.
  - destruct (too_many_connections _) as [r|]; cbn [bind] in E; inversion E. cbn [at_stage w_threads w_queue]. rewrite Q. cbn [spot]. lia.
  - destruct (serve q (w_fs p) h) as [[[kd r] f']|u]; cbn [bind] in E; inversion E. cbn [w_threads w_queue]. rewrite Q. cbn [spot]. lia.
  - inversion E. cbn [w_threads w_queue]. rewrite Q. cbn [spot]. lia.
Qed.
Lemma left_run sched : forall p p', wrun p sched = Some (Ok p') -> left_to_do p' + len sched <= left_to_do p.
Proof.
  unfold wrun. induction sched as [|k l IH]; intros p p' E; cbn [run_with] in E; [inversion E; subst; rewrite len_nil; lia|].
  destruct (wstep p k) as [[p1|u]|] eqn:E1; try discriminate. apply left_step in E1. apply IH in E. rewrite len_cons. lia.
Qed.
Lemma left_start f qs n : left_to_do (pool_start f qs n) = 7 * len qs.
Proof. unfold left_to_do, pool_start. cbn [w_threads w_queue]. assert (ssum (repeat SIdle n) = 0) as -> by (induction n; cbn; auto). reflexivity. Qed.
Lemma queue_step p k p' : wstep p k = Some (Ok p') -> exists a, w_queue p = a ++ w_queue p'.
Proof.
  intros E. unfold wstep in E. destruct (nth_error (w_threads p) k) as [[|q|q h|q h|q h i|q h|q h|q kd r]|]; [| | | | | | | |discriminate].
  - destruct (w_queue p) as [|q rest]; inversion E. now exists [q].
  - destruct (read_head q) as [x|]; cbn [bind] in E; inversion E. now exists [].
  - destruct (connection_validate _ _ _ _) as [ok|]; cbn [bind] in E; inversion E. now exists [].
  - inversion E. now exists [].
  - destruct (fits HTTP_MAX_PATH (hd_url h)); cbn [bind] in E; [|discriminate]. destruct (fits HTTP_MAX_IP _); cbn [bind] in E; inversion E. now exists [].
  - destruct (too_many_connections _) as [r|]; cbn [bind] in E; inversion E. now exists [].
  - destruct (serve q (w_fs p) h) as [[[kd r] f']|u]; cbn [bind] in E; inversion E. now exists [].
  - inversion E. now exists [].
Qed.
Lemma queue_run sched : forall p p', wrun p sched = Some (Ok p') -> exists a, w_queue p = a ++ w_queue p'.
Proof.
  unfold wrun. induction sched as [|k l IH]; intros p p' E; cbn [run_with] in E; [inversion E; now exists []|].
  destruct (wstep p k) as [[p1|u]|] eqn:E1; try discriminate. destruct (queue_step _ _ _ E1) as (a & A). destruct (IH _ _ E) as (b & B). exists (a ++ b). now rewrite A, B, app_assoc.
Qed.
Lemma at_rest p : (forall k, wstep p k = None) -> w_threads p <> [] -> w_queue p = [] /\ Forall (fun s => s = SIdle) (w_threads p).
Proof.
  intros H N.
  assert (A : Forall (fun s => s = SIdle) (w_threads p)).
  { apply Forall_forall. intros s I. apply In_nth_error in I as (k & Hk). specialize (H k). unfold wstep in H. rewrite Hk in H. destruct s; try discriminate H. reflexivity. }
  split; [|exact A]. destruct (w_threads p) as [|s l] eqn:W; [congruence|]. inversion A; subst. specialize (H 0%nat). unfold wstep in H. rewrite W in H. cbn [nth_error] in H.
  destruct (w_queue p); [reflexivity|discriminate].
Qed.
Lemma run_length sched : forall p p', wrun p sched = Some (Ok p') -> length (w_threads p') = length (w_threads p).
Proof.
  unfold wrun. induction sched as [|k l IH]; intros p p' E; cbn [run_with] in E; [now inversion E; subst|].
  destruct (wstep p k) as [[p1|u]|] eqn:E1; try discriminate. apply step_length in E1. apply IH in E. congruence.
Qed.
Lemma idle_work p : Forall (fun s => s = SIdle) (w_threads p) -> in_work p = [].
Proof. unfold in_work. induction 1 as [|s l -> _ IH]; [reflexivity|exact IH]. Qed.

(** Mutex_proofs.v - lemmas for C105. *)
From Verif Require Import Mutex Lemmas StringUtils_proofs WsConn_proofs Races_proofs Workers_proofs Properties_Workers
  SpecConn SpecDispatch SpecWorkers SpecMutex Spec.
From Coq Require Import Permutation.

(** ** What a step touches *)
Lemma put_set (t : list conn) i c : set_nth t i c = put t i c.
Proof. reflexivity. Qed.
Lemma put_cons x (t : list conn) i c : put (x :: t) (S i) c = x :: put t i c.
Proof. reflexivity. Qed.
Lemma put_same (t : list conn) i c : (i < length t)%nat -> nth_error (put t i c) i = Some c.
Proof. revert i. induction t as [|x t IH]; intros [|i] H; cbn [length] in H; try lia; [reflexivity|]. rewrite put_cons. cbn. apply IH. lia. Qed.
Lemma put_other (t : list conn) i j c : (i < length t)%nat -> i <> j -> nth_error (put t i c) j = nth_error t j.
Proof.
  revert i j. induction t as [|x t IH]; intros [|i] [|j] H N; cbn [length] in H; try lia; try reflexivity. rewrite put_cons. cbn. apply IH; lia.
Qed.
Lemma put_comm (t : list conn) i j c d : (i < length t)%nat -> (j < length t)%nat -> i <> j -> put (put t j d) i c = put (put t i c) j d.
Proof.
  revert i j. induction t as [|x t IH]; intros [|i] [|j] H1 H2 N; cbn [length] in H1, H2; try lia; try reflexivity. rewrite !put_cons. f_equal. apply IH; lia.
Qed.
Lemma del_changes t s i : nth_error (connection_del t s) i <> nth_error t i -> Forall (fun c => c_socket c <> s) (firstn i t) /\ exists c, nth_error t i = Some c /\ c_socket c = s.
Proof.
  revert i. induction t as [|x t IH]; intros i H; [now destruct i|]. cbn [connection_del] in H. destruct (Z.eqb_spec (c_socket x) s) as [E|E].
  - destruct i as [|i]; [|now elim H]. split; [constructor|]. exists x. auto.
  - destruct i as [|i]; [now elim H|]. cbn [nth_error] in *. destruct (IH i H) as [A B]. split; [constructor; auto|exact B].
Qed.
Lemma del_hits t s i c : Forall (fun c => c_socket c <> s) (firstn i t) -> nth_error t i = Some c -> c_socket c = s -> connection_del t s = put t i free_slot.
Proof.
  revert i. induction t as [|x t IH]; intros [|i] F N E; try discriminate.
  - injection N as ->. cbn [connection_del]. rewrite E, Z.eqb_refl. reflexivity.
  - cbn [firstn] in F. inversion F; subst. cbn [connection_del]. rewrite (proj2 (Z.eqb_neq _ _)) by assumption. rewrite put_cons. f_equal. now apply IH.
Qed.
Lemma del_apart t s i c : ~ Forall (fun c => c_socket c <> s) (firstn i t) -> (i < length t)%nat -> connection_del (put t i c) s = put (connection_del t s) i c.
Proof.
  revert i. induction t as [|x t IH]; intros [|i] F H; cbn [length] in H; try lia; [elim F; constructor|]. rewrite put_cons. cbn [connection_del]. destruct (Z.eqb_spec (c_socket x) s) as [E|E]; [reflexivity|].
  rewrite put_cons. f_equal. apply IH; [|lia]. intros X. apply F. constructor; auto.
Qed.
Lemma free_apart t i c : ~ Forall (fun c => c_socket c <> 0) (firstn i t) -> (i < length t)%nat -> free_index (put t i c) = free_index t.
Proof.
  revert i. induction t as [|x t IH]; intros [|i] F H; cbn [length] in H; try lia; [elim F; constructor|]. rewrite put_cons. cbn [free_index]. destruct (Z.eqb_spec (c_socket x) 0) as [E|E]; [reflexivity|].
  f_equal. apply IH; [|lia]. intros X. apply F. constructor; auto.
Qed.
Lemma free_put t i c : Forall (fun c => c_socket c <> 0) (firstn i t) -> (i < length t)%nat -> c_socket c = 0 -> free_index (put t i c) = Some i.
Proof.
  intros F H E. unfold put. rewrite (free_index_eq _ _ _ F E). f_equal. rewrite firstn_length. lia.
Qed.
Lemma free_taken t i c : c_socket c <> 0 -> (i < length t)%nat -> free_index (put t i c) <> Some i.
Proof.
  intros E. revert i. induction t as [|x t IH]; intros [|i] H; cbn [length] in H; try lia.
  - change (put (x :: t) 0 c) with (c :: t). cbn [free_index]. rewrite (proj2 (Z.eqb_neq _ _)) by exact E. destruct (free_index t); discriminate.
  - rewrite put_cons. cbn [free_index]. destruct (_ =? 0); [discriminate|]. specialize (IH i ltac:(lia)). destruct (free_index (put t i c)); [|discriminate]. cbn. congruence.
Qed.
Lemma no_rule rules t ip path : Forall (fun r => no_nul (l_path r)) rules -> no_nul path -> ~ (exists r, in_force rules r /\ ci_prefix (l_path r) path) -> connection_validate rules t ip path = Ok true.
Proof.
  intros H Np N. induction rules as [|r rs IH]; [reflexivity|]. cbn [connection_validate]. inversion H; subst. destruct (l_path r) as [|c p] eqn:E; [reflexivity|].
  rewrite (startswith_onb (c :: p) path) by (auto; congruence). cbn [bind]. destruct (onb (c :: p) path) eqn:O.
  - exfalso. apply N. exists r. split; [constructor; congruence|]. apply onb_iff in O; congruence.
  - apply IH; auto. intros (r' & I & P). apply N. exists r'. split; [constructor; [congruence|exact I]|exact P].
Qed.
Definition shifted (x : option (outcome pool)) (i : nat) (c : conn) : option (outcome pool) :=
  match x with Some (Ok p') => Some (Ok (with_slot p' i c)) | x => x end.
Lemma reads_all f qs p k s i c : Forall sound qs -> pinv f qs p -> nth_error (w_threads p) k = Some s -> (i < length (w_table p))%nat ->
  ~ reads (w_table p) s i -> ~ writes (w_table p) s i -> wstep (with_slot p i c) k = shifted (wstep p k) i c.
Proof.
  intros Hq (_ & _ & Lt & Hs & _) N Hi R W. unfold wstep, with_slot. cbn [w_queue w_threads w_table w_fs w_answers]. rewrite N.
  assert (Hs' : stage_ok f qs s) by (rewrite Forall_forall in Hs; apply Hs; eapply nth_error_In; eauto). unfold reads, writes in *.
  destruct s as [|q|q h|q h|q h j|q h|q h|q kd r].
  - now destruct (w_queue p).
  - now destruct (read_head q).
  - destruct Hs' as (Iq & Rh). destruct (head_told _ _ Rh) as (_ & _ & _ & _ & Nu & _). rewrite Forall_forall in Hq. destruct (Hq q Iq) as [_ Sr].
    rewrite !no_rule; auto; intros X; apply R; auto.
  - rewrite free_apart by auto. reflexivity.
  - destruct Hs' as (_ & _ & _ & Hj). destruct (fits HTTP_MAX_PATH _); [|reflexivity]. cbn [bind]. destruct (fits HTTP_MAX_IP _); [|reflexivity]. cbn [bind shifted]. unfold with_slot. cbn [w_queue w_threads w_table w_fs w_answers].
    rewrite !put_set, put_comm by (auto; lia). reflexivity.
  - now destruct (too_many_connections _).
  - now destruct (serve _ _ _) as [[[? ?] ?]|].
  - cbn [shifted]. unfold with_slot. cbn [w_queue w_threads w_table w_fs w_answers]. rewrite del_apart by auto. reflexivity.
Qed.
Lemma writes_all f qs p k p' i : Forall sound qs -> pinv f qs p -> wstep p k = Some (Ok p') -> nth_error (w_table p') i <> nth_error (w_table p) i ->
  exists s, nth_error (w_threads p) k = Some s /\ writes (w_table p) s i.
Proof.
  intros Hq (_ & _ & Lt & Hs & _) E D. unfold wstep in E. destruct (nth_error (w_threads p) k) as [s|] eqn:N; [|discriminate]. exists s. split; [reflexivity|].
  assert (Hs' : stage_ok f qs s) by (rewrite Forall_forall in Hs; apply Hs; eapply nth_error_In; eauto).
  destruct s as [|q|q h|q h|q h j|q h|q h|q kd r].
  - destruct (w_queue p); inversion E; subst. now elim D.
  - destruct (read_head q); cbn [bind] in E; inversion E; subst. now elim D.
  - destruct (connection_validate _ _ _ _); cbn [bind] in E; inversion E; subst. now elim D.
  - inversion E; subst. now elim D.
  - destruct Hs' as (_ & _ & _ & Hj). destruct (fits HTTP_MAX_PATH _); cbn [bind] in E; [|discriminate]. destruct (fits HTTP_MAX_IP _); cbn [bind] in E; [|discriminate]. inversion E; subst. cbn [w_table] in D. cbn [writes].
    destruct (Nat.eq_dec j i) as [|Ni]; [auto|]. rewrite put_set, put_other in D by (auto; lia). now elim D.
  - destruct (too_many_connections _); cbn [bind] in E; inversion E; subst. now elim D.
  - destruct (serve _ _ _) as [[[? ?] ?]|]; cbn [bind] in E; inversion E; subst. now elim D.
  - inversion E; subst. cbn [w_table] in D. exact (del_changes _ _ _ D).
Qed.
Lemma writes_real f qs p k p' s i : Forall sound qs -> pinv f qs p -> nth_error (w_threads p) k = Some s -> writes (w_table p) s i -> wstep p k = Some (Ok p') ->
  nth_error (w_table p') i = Some match s with SClaim q h _ => mkConn (q_socket q) (hd_url h) (r_ip (hd_req h)) | _ => free_slot end.
Proof.
  intros Hq (_ & _ & Lt & Hs & _) N W E. unfold wstep in E. rewrite N in E. assert (Hs' : stage_ok f qs s) by (rewrite Forall_forall in Hs; apply Hs; eapply nth_error_In; eauto).
  destruct s as [|q|q h|q h|q h j|q h|q h|q kd r]; try contradiction.
  - cbn in W. subst j. destruct Hs' as (_ & _ & _ & Hj). destruct (fits HTTP_MAX_PATH _) eqn:F1; cbn [bind] in E; [|discriminate]. destruct (fits HTTP_MAX_IP _) eqn:F2; cbn [bind] in E; [|discriminate].
    inversion E; subst. cbn [w_table]. rewrite put_set, put_same by lia. now rewrite (fits_same _ _ _ F1), (fits_same _ _ _ F2).
  - destruct W as (F & c & Nc & Ec). inversion E; subst. cbn [w_table]. rewrite (del_hits _ _ _ _ F Nc Ec). apply put_same. apply nth_error_Some. congruence.
Qed.
Lemma set_inj (l : list stage) k s s1 s2 : nth_error l k = Some s -> set_nth l k s1 = set_nth l k s2 -> s1 = s2.
Proof. intros N E. destruct (threads_split _ _ _ N) as (a & b & _ & X). rewrite !X in E. apply app_inv_head in E. congruence. Qed.
Lemma reads_real p k s i : nth_error (w_threads p) k = Some s -> match s with SCheck _ _ => False | _ => True end -> reads (w_table p) s i ->
  exists c, wstep (with_slot p i c) k <> shifted (wstep p k) i c.
Proof.
  intros N C [Hi R]. unfold wstep, with_slot. cbn [w_queue w_threads w_table w_fs w_answers]. rewrite N. destruct s as [|q|q h|q h|q h j|q h|q h|q kd r]; try contradiction.
  - cbn [shifted]. destruct (free_index (w_table p)) as [j|] eqn:F.
    + destruct (Nat.eq_dec j i) as [->|Nj].
      * exists (mkConn 1 [] []). intros X. assert (T := free_taken (w_table p) i (mkConn 1 [] []) ltac:(discriminate) Hi). destruct (free_index (put _ _ _)) as [j|]; injection X as X; apply (set_inj _ _ _ _ _ N) in X; congruence.
      * exists free_slot. rewrite free_put by auto. intros X. injection X as X. apply (set_inj _ _ _ _ _ N) in X. congruence.
    + exists free_slot. rewrite free_put by auto. intros X. injection X as X. apply (set_inj _ _ _ _ _ N) in X. congruence.
  - exists (mkConn (r_socket r) (L "x") []). cbn [shifted]. unfold with_slot. cbn [w_queue w_threads w_table w_fs w_answers]. intros X. injection X as X.
    set (c := mkConn (r_socket r) (L "x") []). change (connection_del (put (w_table p) i c) (r_socket r) = put (connection_del (w_table p) (r_socket r)) i c) in X.
    assert (P : nth_error (connection_del (put (w_table p) i c) (r_socket r)) i = Some free_slot).
    { assert (Le : (i < length (put (w_table p) i c))%nat) by (unfold put; rewrite app_length, firstn_length; cbn [length]; lia).
      rewrite (del_hits _ _ i c); [apply put_same; exact Le| |now apply put_same|reflexivity]. unfold put. rewrite firstn_app, firstn_firstn, firstn_length, Nat.min_id, Nat.min_l, Nat.sub_diag by lia. cbn [firstn]. now rewrite app_nil_r. }
    rewrite X in P. rewrite put_same in P by (rewrite del_length; exact Hi). discriminate P.
Qed.

(** ** Any two requests *)
Local Opaque alone empty_table read_head serve.
Lemma free_empty : free_index empty_table = Some 0%nat.
Proof. Local Transparent empty_table. unfold empty_table. change (Z.to_nat WS_MAX_CONNECTIONS) with (S 1023). reflexivity. Qed.
Lemma empty_length : length empty_table = 1024%nat.
Proof. unfold empty_table. apply repeat_length. Qed.
Local Opaque empty_table.
Lemma alone_kinds f q res : alone f q = Ok res ->
  (exists r, read_head q = Ok (inl r) /\ o_taken res = TBadMethod)
  \/ (exists h, read_head q = Ok (inr h) /\ could q h /\ o_taken res <> TBadMethod /\ o_taken res <> TTooMany)
  \/ (exists h r, read_head q = Ok (inr h) /\ connection_validate (v_limits (q_env q)) empty_table (r_ip (hd_req h)) (hd_url h) = Ok false /\ too_many_connections (hd_req h) = Ok r /\ o_taken res = TTooMany).
Proof.
  intros A. rewrite alone_cut in A. destruct (read_head q) as [[r|h]|u] eqn:R; cbn [bind] in A; [|right|discriminate].
  - left. exists r. injection A as <-. auto.
  - destruct (connection_validate (v_limits (q_env q)) empty_table (r_ip (hd_req h)) (hd_url h)) as [[|]|u] eqn:E.
    + left. exists h. split; [reflexivity|]. split; [exact E|]. destruct (add_empty _ (q_socket q) _ _ E) as (tt & AE). rewrite AE in A.
      destruct (fits HTTP_MAX_PATH _); cbn [bind] in A; [|discriminate]. destruct (fits HTTP_MAX_IP _); cbn [bind negb] in A; [|discriminate].
      destruct (serve q f h) as [[[k r] f']|] eqn:S; cbn [bind] in A; [|discriminate]. injection A as <-. exact (serve_kind _ _ _ _ _ _ S).
    + right. unfold connection_add in A. rewrite E in A. cbn [bind negb] in A. destruct (too_many_connections (hd_req h)) as [r|] eqn:T; cbn [bind] in A; [|discriminate]. exists h, r. injection A as <-. auto.
    + unfold connection_add in A. rewrite E in A. discriminate.
Qed.
Lemma served_head f q : served f q -> exists h, read_head q = Ok (inr h) /\ could q h.
Proof.
  intros (res & A & N1 & N2). apply alone_kinds in A as [(r & _ & E)|[(h & R & C & _)|(h & r & _ & _ & _ & E)]]; [contradiction|eauto|contradiction].
Qed.
Lemma any_two f q1 q2 rest n : (2 <= n)%nat -> served f q1 -> ~ undefined (alone f q2) -> exists sched p, wrun (pool_start f (q1 :: q2 :: rest) n) sched = Some (Ok p) /\ racing p.
Proof.
  intros Hn S1 S2. destruct (served_head f q1 S1) as (h1 & R1 & C1). destruct (alone f q2) as [res|u] eqn:A; [|elim S2; now exists u].
  destruct n as [|[|n]]; try lia. unfold pool_start. cbn [repeat]. set (th := repeat SIdle n).
  assert (St : wrun (mkPool (q1 :: q2 :: rest) (SIdle :: SIdle :: th) empty_table f []) [0; 0; 0; 0; 1; 1]%nat
    = match read_head q2 with
      | Ok x => Some (Ok (mkPool rest (SClaim q1 h1 0 :: match x with inl r => SClosed q2 TBadMethod r | inr h => SCheck q2 h end :: th) empty_table f []))
      | UB u => Some (UB u)
      end).
  { unfold wrun. cbn [run_with wstep w_threads nth_error w_queue]. unfold set_nth at 1. cbn [firstn skipn app]. cbn [run_with wstep w_threads nth_error]. rewrite R1. cbn [bind]. unfold at_stage, set_nth. cbn [w_queue w_threads w_table w_fs w_answers firstn skipn app].
    cbn [run_with wstep w_threads nth_error w_table]. rewrite C1. cbn [bind]. unfold at_stage, set_nth. cbn [w_queue w_threads w_table w_fs w_answers firstn skipn app]. cbn [run_with wstep w_threads nth_error w_table]. rewrite free_empty.
    unfold at_stage, set_nth. cbn [w_queue w_threads w_table w_fs w_answers firstn skipn app]. cbn [run_with wstep w_threads nth_error w_queue]. unfold set_nth. cbn [w_queue w_threads w_table w_fs w_answers firstn skipn app].
    cbn [run_with wstep w_threads nth_error]. destruct (read_head q2) as [x|u]; reflexivity. }
  assert (Fin : forall s2 more, wrun (mkPool (q1 :: q2 :: rest) (SIdle :: SIdle :: th) empty_table f []) ([0; 0; 0; 0; 1; 1]%nat ++ more) = Some (Ok (mkPool rest (SClaim q1 h1 0 :: s2 :: th) empty_table f [])) ->
    reads empty_table s2 0 \/ writes empty_table s2 0 -> exists sched p, wrun (mkPool (q1 :: q2 :: rest) (SIdle :: SIdle :: th) empty_table f []) sched = Some (Ok p) /\ racing p).
  { intros s2 more E X. eexists _, _. split; [exact E|]. exists 0%nat, 1%nat, (SClaim q1 h1 0), s2. split; [discriminate|]. split; [reflexivity|]. split; [reflexivity|]. exists 0%nat. split; [reflexivity|exact X]. }
  assert (Go : forall more, wrun (mkPool (q1 :: q2 :: rest) (SIdle :: SIdle :: th) empty_table f []) ([0; 0; 0; 0; 1; 1]%nat ++ more)
    = match read_head q2 with
      | Ok x => wrun (mkPool rest (SClaim q1 h1 0 :: match x with inl r => SClosed q2 TBadMethod r | inr h => SCheck q2 h end :: th) empty_table f []) more
      | UB u => Some (UB u)
      end).
  { intros more. assert (X : forall a b p, wrun p (a ++ b) = match wrun p a with Some (Ok p') => wrun p' b | x => x end).
    { unfold wrun. induction a as [|k l IH]; intros b p; cbn [app run_with]; [reflexivity|]. destruct (wstep p k) as [[p1|u]|]; auto. }
    rewrite X, St. now destruct (read_head q2). }
  assert (Z0 : (0 < length empty_table)%nat) by (rewrite empty_length; lia).
  apply alone_kinds in A as [(r & R2 & _)|[(h & R2 & C2 & _)|(h & r & R2 & V2 & M2 & _)]].
  - apply (Fin (SClosed q2 TBadMethod r) []); [rewrite Go, R2; reflexivity|]. left. split; [exact Z0|constructor].
  - apply (Fin (SSearch q2 h) [1%nat]); [|left; split; [exact Z0|constructor]]. rewrite Go, R2. unfold wrun. cbn [run_with wstep w_threads nth_error w_table]. rewrite C2. reflexivity.
  - apply (Fin (SClosed q2 TTooMany r) [1; 1]%nat); [|left; split; [exact Z0|constructor]]. rewrite Go, R2. unfold wrun. cbn [run_with wstep w_threads nth_error w_table]. rewrite V2. cbn [bind]. unfold at_stage, set_nth. cbn [w_queue w_threads w_table w_fs w_answers firstn skipn app].
    cbn [run_with wstep w_threads nth_error w_table]. rewrite M2. reflexivity.
Qed.

(** ** With the mutex *)
Lemma set_other (l : list stage) k j s s' : nth_error l k = Some s -> j <> k -> nth_error (set_nth l k s') j = nth_error l j.
Proof.
  intros N D. apply nth_error_split in N as (a & b & -> & <-). rewrite set_nth_eq. destruct (Nat.lt_ge_cases j (length a)) as [H|H].
  - now rewrite !nth_error_app1.
  - rewrite !nth_error_app2 by lia. destruct (j - length a)%nat eqn:E; [lia|reflexivity].
Qed.
Lemma set_here (l : list stage) k s s' : nth_error l k = Some s -> nth_error (set_nth l k s') k = Some s'.
Proof. intros N. apply nth_error_split in N as (a & b & -> & <-). rewrite set_nth_eq. apply nth_mid. Qed.
Lemma lock_sim sched : forall x, match lrun x sched with
  | Some (Ok x') => exists sched', wrun (l_pool x) sched' = Some (Ok (l_pool x'))
  | Some (UB u) => exists sched', wrun (l_pool x) sched' = Some (UB u)
  | None => True
  end.
Proof.
  induction sched as [|k l IH]; intros x; cbn [lrun]; [now exists []|].
  assert (S : match lstep x k with
    | Some (Ok x1) => l_pool x1 = l_pool x \/ wstep (l_pool x) k = Some (Ok (l_pool x1))
    | Some (UB u) => wstep (l_pool x) k = Some (UB u)
    | None => True end).
  { unfold lstep. destruct (nth_error _ _) as [s|]; [|exact I].
    assert (G : match match wstep (l_pool x) k with None => None | Some o => Some (p <- o;; Ok (mkLocked p (l_owner x))) end with
      | Some (Ok x1) => l_pool x1 = l_pool x \/ wstep (l_pool x) k = Some (Ok (l_pool x1)) | Some (UB u) => wstep (l_pool x) k = Some (UB u) | None => True end)
      by (destruct (wstep (l_pool x) k) as [[p|u]|]; cbn [bind]; auto).
    destruct (l_owner x) as [j|]; [destruct (Nat.eqb j k)|]; destruct (guarded s); auto. }
  destruct (lstep x k) as [[x1|u]|]; [|now exists [k]; unfold wrun; cbn [run_with]; rewrite S|exact I].
  specialize (IH x1). destruct (lrun x1 l) as [[x2|u]|]; [| |exact I]; destruct IH as (sc & E); (destruct S as [S|S]; [exists sc; now rewrite <- S|exists (k :: sc); unfold wrun; cbn [run_with]; now rewrite S]).
Qed.
Lemma owner_only x k s : about_to x k s -> guarded s = true -> l_owner x = Some k.
Proof.
  intros (N & E & D) G. unfold lstep in *. rewrite N, G in *. destruct (l_owner x) as [j|].
  - destruct (Nat.eqb_spec j k) as [Ej|Nj]; [congruence|]. now elim E.
  - exfalso. eapply D; reflexivity.
Qed.
Lemma touching_guarded t s i : reads t s i \/ writes t s i -> guarded s = true.
Proof. unfold reads, writes. destruct s; cbn; auto; intros [[_ X]|X]; contradiction. Qed.
Lemma no_race x : ~ racing_locked x.
Proof.
  intros (j & k & s & s' & D & A & B & i & W & R). apply D. pose proof (owner_only _ _ _ A (touching_guarded _ _ _ (or_intror W))). pose proof (owner_only _ _ _ B (touching_guarded _ _ _ R)). congruence.
Qed.

Definition in_section (s : stage) : bool := match s with SSearch _ _ | SClaim _ _ _ => true | _ => false end.
Definition sec_ok (rules : list limit) (t : list conn) (s : stage) : Prop :=
  match s with
  | SSearch q h => overb rules (occupied t) (r_ip (hd_req h)) (hd_url h) = false
  | SClaim q h i => overb rules (occupied t) (r_ip (hd_req h)) (hd_url h) = false /\ free_index t = Some i
  | _ => True
  end.
Definition closed_ok (qs : list incoming) (s : stage) : Prop := match s with SClosed q _ r => r_socket r = q_socket q | _ => True end.
Definition closed (s : stage) : list Z :=
  match s with
  | SClosed _ TBadMethod _ | SClosed _ TTooMany _ => []
  | SClosed _ _ r => [r_socket r]
  | _ => []
  end.
Definition serving_of (s : stage) : list conn := match s with SServe q h => [mkConn (q_socket q) (hd_url h) (r_ip (hd_req h))] | _ => [] end.
Definition accounted (rules : list limit) (p : pool) : Prop :=
  exists evs answers open closing, history rules evs answers open /\ tracks (w_table p) open
    /\ Permutation open (flat_map serving_of (w_threads p) ++ closing) /\ Permutation (map c_socket closing) (flat_map closed (w_threads p)).
Definition linv (f : fs) (rules : list limit) (qs : list incoming) (x : locked) : Prop :=
  pinv f qs (l_pool x)
  /\ (forall k s, nth_error (w_threads (l_pool x)) k = Some s -> in_section s = true -> l_owner x = Some k)
  /\ Forall (sec_ok rules (w_table (l_pool x))) (w_threads (l_pool x)) /\ Forall (closed_ok qs) (w_threads (l_pool x))
  /\ accounted rules (l_pool x).
Lemma claim_at t s ip path i : free_index t = Some i -> claim_slot t s ip path = (p <- fits HTTP_MAX_PATH path;; j <- fits HTTP_MAX_IP ip;; Ok (true, set_nth t i (mkConn s p j))).
Proof.
  revert i. induction t as [|c t IH]; intros i F; [discriminate|]. cbn [free_index claim_slot] in *. destruct (c_socket c =? 0); [injection F as <-; reflexivity|].
  destruct (free_index t) as [j|]; [|discriminate]. injection F as <-. rewrite (IH j eq_refl). destruct (fits HTTP_MAX_PATH path); [|reflexivity]. cbn [bind]. destruct (fits HTTP_MAX_IP ip); reflexivity.
Qed.
Lemma free_in t i : free_index t = Some i -> exists c, In c t /\ c_socket c = 0.
Proof.
  revert i. induction t as [|c t IH]; intros i F; [discriminate|]. cbn [free_index] in F. destruct (Z.eqb_spec (c_socket c) 0) as [E|E]; [exists c; split; [now left|exact E]|].
  destruct (free_index t) as [j|]; [|discriminate]. destruct (IH j eq_refl) as (d & I & X). exists d. split; [now right|exact X].
Qed.
Lemma head_ip q h : read_head q = Ok (inr h) -> r_ip (hd_req h) = q_peer q.
Proof.
  Local Transparent read_head. unfold read_head. intros H. apply bind_ok_inv in H as (r0 & E0 & H). apply bind_ok_inv in H as ([[n b] s1] & _ & H).
  apply bind_ok_inv in H as ([[rl m] j] & _ & H). cbv zeta in H. apply bind_ok_inv in H as (ok & _ & H). destruct ok; cbn [negb] in H.
  2:{ apply bind_ok_inv in H as (r2 & _ & H). discriminate H. }
  apply bind_ok_inv in H as (url & Eu & H). unfold new_request in E0. apply bind_ok_inv in E0 as (ip & F & E0). injection E0 as <-. injection H as <-. cbn. now apply fits_same in F.
  Local Opaque read_head.
Qed.
Lemma fits_len n s x : fits n s = Ok x -> len s + 1 <= n.
Proof. unfold fits. destruct (Z.leb_spec (len s + 1) n); [auto|discriminate]. Qed.
(** The sockets of the other threads. *)
Lemma sockets_of qs l : Forall (closed_ok qs) l -> incl (map c_socket (flat_map serving_of l) ++ flat_map closed l) (map q_socket (flat_map working l)).
Proof.
  induction 1 as [|s l C _ IH]; [intros z Hz; exact Hz|]. intros z Hz. cbn [flat_map] in *. rewrite map_app in *. rewrite !in_app_iff in Hz. rewrite in_app_iff.
  destruct Hz as [[Hz|Hz]|[Hz|Hz]]; [|right; apply IH, in_or_app; auto| |right; apply IH, in_or_app; auto]; left.
  - destruct s; try contradiction. exact Hz.
  - destruct s as [| | | | | | |q k r]; try contradiction. cbn in C. destruct k; try contradiction; destruct Hz as [<-|[]]; left; auto.
Qed.
Lemma not_open qs a s b q open closing : NoDup (map q_socket (flat_map working (a ++ s :: b))) -> Forall (closed_ok qs) (a ++ b) -> working s = [q] -> serving_of s = [] -> closed s = [] ->
  Permutation open (flat_map serving_of (a ++ s :: b) ++ closing) -> Permutation (map c_socket closing) (flat_map closed (a ++ s :: b)) ->
  ~ In (q_socket q) (map c_socket open).
Proof.
  intros ND C W S0 C0 P1 P2 I. apply (Permutation_in _ (Permutation_map c_socket P1)) in I. rewrite map_app, in_app_iff in I.
  assert (J : In (q_socket q) (map c_socket (flat_map serving_of (a ++ b)) ++ flat_map closed (a ++ b))).
  { rewrite flat_map_app in *. cbn [flat_map] in *. rewrite S0 in I. apply in_or_app. destruct I as [I|I]; [left; exact I|right]. apply (Permutation_in _ P2) in I. rewrite flat_map_app in *. cbn [flat_map] in I. now rewrite C0 in I. }
  apply (sockets_of qs _ C) in J. rewrite flat_map_app in ND, J. cbn [flat_map] in ND. rewrite W, !map_app in *. cbn [map app] in ND. apply NoDup_remove_2 in ND. contradiction.
Qed.
Lemma server_sound rules qs : one_server rules qs -> Forall sound qs.
Proof.
  intros (H & R & _). eapply Forall_impl; [|exact H]. intros q (M & _ & V & _). split; [lia|]. now rewrite V.
Qed.
Lemma nodup_right (a b : list Z) : NoDup (a ++ b) -> NoDup b.
Proof. induction a as [|x a IH]; [auto|]. cbn. intros H. apply NoDup_cons_iff in H as [_ H]. auto. Qed.
Lemma nodup_left (a b : list Z) : NoDup (a ++ b) -> NoDup a.
Proof. intros H. apply (nodup_right b). eapply Permutation_NoDup; [apply Permutation_app_comm|exact H]. Qed.
Lemma sub_sockets f qs p : NoDup (map q_socket qs) -> pinv f qs p -> NoDup (map q_socket (flat_map working (w_threads p))).
Proof.
  intros ND (_ & _ & _ & _ & _ & P). apply (Permutation_NoDup (Permutation_map q_socket P)) in ND. rewrite !map_app in ND.
  apply nodup_right, nodup_left in ND. exact ND.
Qed.
Lemma sub_in f qs p s q : pinv f qs p -> In s (w_threads p) -> working s = [q] -> In q qs.
Proof.
  intros (_ & _ & _ & _ & _ & P) I W. apply (Permutation_in _ (Permutation_sym P)). apply in_or_app. right. apply in_or_app. left. apply in_flat_map. exists s. rewrite W. split; [exact I|now left].
Qed.
Lemma flat_mid {A B} (g : A -> list B) a s b : Permutation (flat_map g (a ++ s :: b)) (g s ++ flat_map g (a ++ b)).
Proof. rewrite !flat_map_app. cbn [flat_map]. apply Permutation_app_swap_app. Qed.
Lemma acct_same rules q1 q2 a s s' b t f1 f2 w1 w2 : accounted rules (mkPool q1 (a ++ s :: b) t f1 w1) -> serving_of s' = serving_of s -> closed s' = closed s -> accounted rules (mkPool q2 (a ++ s' :: b) t f2 w2).
Proof.
  intros (evs & ans & open & closing & H & T & P1 & P2) E1 E2. exists evs, ans, open, closing. cbn [w_table w_threads] in *. rewrite !flat_map_app in *. cbn [flat_map] in *. rewrite E1, E2. auto.
Qed.
Lemma acct_claim rules qs q1 q2 a s b t f1 f2 w1 w2 q h i : Forall (fun r => no_nul (l_path r)) rules -> accounted rules (mkPool q1 (a ++ s :: b) t f1 w1) -> s = SClaim q h i ->
  NoDup (map q_socket (flat_map working (a ++ s :: b))) -> Forall (closed_ok qs) (a ++ b) -> read_head q = Ok (inr h) -> 0 < q_socket q -> no_nul (q_peer q) ->
  sec_ok rules t s -> len (hd_url h) <= 511 -> len (r_ip (hd_req h)) <= 15 ->
  accounted rules (mkPool q2 (a ++ SServe q h :: b) (set_nth t i (mkConn (q_socket q) (hd_url h) (r_ip (hd_req h)))) f2 w2).
Proof.
  intros Hr (evs & ans & open & closing & H & T & P1 & P2) -> ND C Rh S0 Np [So Fi] L1 L2. cbn [w_table w_threads] in *.
  destruct (head_told _ _ Rh) as (_ & _ & _ & _ & Nu & _). assert (Ni : no_nul (r_ip (hd_req h))) by (rewrite (head_ip _ _ Rh); exact Np).
  assert (NI : ~ In (q_socket q) (map c_socket open)) by (eapply not_open; eauto; reflexivity).
  pose proof (tracks_paths _ _ T) as Op. destruct T as (T1 & T2 & T3 & T4 & T5 & T6).
  assert (NO : ~ over_limit rules open (r_ip (hd_req h)) (hd_url h)).
  { rewrite <- overb_iff by auto. rewrite <- (overb_perm _ _ _ _ _ T2). congruence. }
  assert (Lo : len open < 1024).
  { destruct (free_in _ _ Fi) as (c & I & E). pose proof (free_room _ _ I E) as F. rewrite (Permutation_len _ _ T2) in F. lia. }
  assert (T : tracks t open) by (unfold tracks; auto 10).
  destruct (add_tracks rules t open (q_socket q) (r_ip (hd_req h)) (hd_url h) Hr T S0 NI Nu L1 L2) as [_ K]. destruct (K NO Lo) as (ta & tb & _ & _ & A & T').
  assert (St : ta ++ mkConn (q_socket q) (hd_url h) (r_ip (hd_req h)) :: tb = set_nth t i (mkConn (q_socket q) (hd_url h) (r_ip (hd_req h)))).
  { unfold connection_add in A. rewrite validate_eq in A by auto. rewrite So in A. cbn [negb bind] in A. rewrite (claim_at _ _ _ _ _ Fi) in A.
    unfold fits in A. change HTTP_MAX_PATH with 512 in A. change HTTP_MAX_IP with 16 in A. rewrite (proj2 (Z.leb_le _ _)) in A by lia. cbn [bind] in A. rewrite (proj2 (Z.leb_le _ _)) in A by lia. cbn [bind] in A. congruence. }
  rewrite St in T'. exists (evs ++ [Open (q_socket q) (r_ip (hd_req h)) (hd_url h)]), (ans ++ [true]), (mkConn (q_socket q) (hd_url h) (r_ip (hd_req h)) :: open), closing. cbn [w_table w_threads].
  split; [eapply hi_next; [exact H|auto 10|constructor; auto]|]. split; [exact T'|]. split.
  - rewrite flat_mid in P1 |- *. cbn [serving_of app] in *. now constructor.
  - rewrite flat_mid in P2 |- *. exact P2.
Qed.
Lemma acct_serve rules q1 q2 a b t f1 f2 w1 w2 q h k r : accounted rules (mkPool q1 (a ++ SServe q h :: b) t f1 w1) -> r_socket r = q_socket q -> k <> TBadMethod -> k <> TTooMany -> accounted rules (mkPool q2 (a ++ SClosed q k r :: b) t f2 w2).
Proof.
  intros (evs & ans & open & closing & H & T & P1 & P2) E N1 N2. exists evs, ans, open, (mkConn (q_socket q) (hd_url h) (r_ip (hd_req h)) :: closing). cbn [w_table w_threads] in *.
  split; [exact H|]. split; [exact T|]. split.
  - rewrite flat_mid in P1 |- *. cbn [serving_of app] in *. rewrite P1. apply Permutation_middle.
  - rewrite flat_mid in P2 |- *. assert (X : closed (SClosed q k r) = [q_socket q]) by (rewrite <- E; destruct k; try contradiction; reflexivity). rewrite X. cbn [map c_socket app closed] in *. now constructor.
Qed.
Lemma acct_close rules qs q1 q2 a b t f1 f2 w1 w2 q k r : accounted rules (mkPool q1 (a ++ SClosed q k r :: b) t f1 w1) -> r_socket r = q_socket q -> 0 < q_socket q ->
  NoDup (map q_socket (flat_map working (a ++ SClosed q k r :: b))) -> Forall (closed_ok qs) (a ++ b) ->
  accounted rules (mkPool q2 (a ++ SIdle :: b) (connection_del t (r_socket r)) f2 w2).
Proof.
  intros (evs & ans & open & closing & H & T & P1 & P2) E S0 ND C. cbn [w_table w_threads] in *. rewrite E.
  destruct (closed (SClosed q k r)) as [|z l] eqn:K.
  - assert (NI : ~ In (q_socket q) (map c_socket open)) by (eapply not_open; eauto; reflexivity).
    rewrite (proj1 (del_tracks _ _ _ T S0) NI). exists evs, ans, open, closing. cbn [w_table w_threads]. rewrite !flat_map_app in *. cbn [flat_map] in *. rewrite K in P2. auto.
  - assert (X : z :: l = [q_socket q]) by (rewrite <- K, <- E; revert K; clear; destruct k; cbn; intros; congruence). injection X as -> ->.
    rewrite flat_mid in P1. rewrite flat_mid in P2. rewrite K in P2. cbn [serving_of app] in *.
    assert (I : In (q_socket q) (map c_socket closing)) by (apply (Permutation_in _ (Permutation_sym P2)); now left).
    apply in_map_iff in I as (c & Ec & I). apply in_split in I as (c1 & c2 & ->).
    assert (J : In c open) by (apply (Permutation_in _ (Permutation_sym P1)); apply in_or_app; right; apply in_or_app; right; now left).
    apply in_split in J as (o1 & o2 & ->). pose proof (proj2 (del_tracks _ _ _ T S0) _ _ _ eq_refl Ec) as T'.
    exists (evs ++ [Close (q_socket q)]), (ans ++ [true]), (o1 ++ o2), (c1 ++ c2). cbn [w_table w_threads].
    split. { eapply hi_next; [exact H|exact S0|]. destruct c as [z pa ip]. cbn in Ec. subst z. constructor. }
    split; [exact T'|]. split.
    + rewrite flat_mid. cbn [serving_of app]. rewrite app_assoc in P1. apply Permutation_app_inv in P1. now rewrite <- app_assoc in P1.
    + rewrite flat_mid. cbn [closed app]. rewrite map_app in P2. cbn [map] in P2. rewrite Ec in P2. rewrite map_app. apply (Permutation_app_inv _ _ [] _ _ P2).
Qed.
Local Opaque connection_validate too_many_connections connection_del fits.
Lemma linv_go f rules qs x k s p' : one_server rules qs -> linv f rules qs x -> nth_error (w_threads (l_pool x)) k = Some s -> (guarded s = true -> l_owner x = Some k) ->
  wstep (l_pool x) k = Some (Ok p') -> linv f rules qs (mkLocked p' (l_owner x)).
Proof.
  intros Ho (I1 & I2 & I3 & I4 & I5) N G E. pose proof (server_sound _ _ Ho) as Hs. destruct Ho as (Hq & Hr & ND). destruct x as [p o]. cbn [l_pool l_owner] in *.
  assert (I1' : pinv f qs p') by (pose proof (pinv_step f qs p k Hs I1) as X; now rewrite E in X).
  destruct (threads_split _ _ _ N) as (a & b & Et & SN).
  assert (Is : In s (w_threads p)) by (eapply nth_error_In; eauto).
  assert (Hk : stage_ok f qs s) by (destruct I1 as (_ & _ & _ & X & _); rewrite Forall_forall in X; auto).
  assert (Op : Forall ok_path (occupied (w_table p))) by apply I1.
  pose proof (sub_sockets _ _ _ ND I1) as NDw. assert (HQ : forall q, working s = [q] -> In q qs) by (intros q; exact (sub_in _ _ _ _ _ I1 Is)).
  rewrite Forall_forall in Hq.
  (* the parts that do not depend on the table *)
  assert (J2 : forall s', (in_section s' = true -> o = Some k) -> forall j s0, nth_error (a ++ s' :: b) j = Some s0 -> in_section s0 = true -> o = Some j).
  { intros s' Hs' j s0 Nj Sj. rewrite <- SN in Nj. destruct (Nat.eq_dec j k) as [->|Dj].
    - rewrite (set_here _ _ _ _ N) in Nj. injection Nj as <-. auto.
    - rewrite (set_other _ _ _ _ _ N Dj) in Nj. eauto. }
  assert (J3 : forall t s', (t = w_table p \/ o = Some k) -> sec_ok rules t s' -> Forall (sec_ok rules t) (a ++ s' :: b)).
  { intros t s' [->|Ok'] Hs'.
    - rewrite Et in I3. apply Forall_app in I3 as [F1 F2]. inversion F2; subst. apply Forall_app. auto.
    - apply Forall_forall. intros s0 I0. apply In_nth_error in I0 as (j & Nj). rewrite <- SN in Nj. destruct (Nat.eq_dec j k) as [->|Dj].
      + rewrite (set_here _ _ _ _ N) in Nj. injection Nj as <-. auto.
      + rewrite (set_other _ _ _ _ _ N Dj) in Nj. pose proof (I2 _ _ Nj) as X. destruct s0; try exact I; specialize (X eq_refl); congruence. }
  assert (J4 : forall s', closed_ok qs s' -> Forall (closed_ok qs) (a ++ s' :: b)).
  { intros s' Hs'. rewrite Et in I4. apply Forall_app in I4 as [F1 F2]. inversion F2; subst. apply Forall_app. auto. }
  assert (J4' : Forall (closed_ok qs) (a ++ b)).
  { rewrite Et in I4. apply Forall_app in I4 as [F1 F2]. inversion F2; subst. apply Forall_app. auto. }
  assert (I4s : closed_ok qs s) by (rewrite Forall_forall in I4; auto). assert (I3s : sec_ok rules (w_table p) s) by (rewrite Forall_forall in I3; auto).
  assert (J5 : accounted rules (mkPool (w_queue p) (a ++ s :: b) (w_table p) (w_fs p) (w_answers p))) by (rewrite <- Et; destruct p; exact I5).
  rewrite Et in NDw. unfold wstep in E. rewrite N in E. unfold linv. cbn [l_pool l_owner]. split; [exact I1'|]. clear I1' I2 I3 I4 I5 Is.
  destruct s as [|q|q h|q h|q h i|q h|q h|q kd r].
  - destruct (w_queue p) as [|q rest]; [discriminate|]. injection E as <-. cbn [w_threads w_table]. rewrite SN. split; [apply J2; discriminate|]. split; [apply J3; [now left|exact I]|]. split; [apply J4; exact I|]. eapply acct_same; [exact J5|reflexivity|reflexivity].
  - destruct (read_head q) as [y|u] eqn:R; cbn [bind] in E; [|discriminate]. injection E as <-. unfold at_stage. cbn [w_threads w_table]. rewrite SN.
    split; [apply J2; destruct y; discriminate|]. split; [apply J3; [now left|now destruct y]|]. split; [apply J4; destruct y; [exact (bad_told _ _ R)|exact I]|]. eapply acct_same; [exact J5|now destruct y|now destruct y].
  - destruct Hk as (Iq & Rh). destruct (head_told _ _ Rh) as (_ & _ & _ & _ & Nu & _). destruct (Hq q Iq) as (_ & _ & V & _). rewrite V, validate_eq in E by auto. cbn [bind] in E. injection E as <-. unfold at_stage. cbn [w_threads w_table]. rewrite SN.
    specialize (G eq_refl). split; [apply J2; auto|]. split; [apply J3; [now left|]; destruct (overb _ _ _ _) eqn:O; [exact I|exact O]|]. split; [apply J4; now destruct (overb _ _ _ _)|]. eapply acct_same; [exact J5|now destruct (overb _ _ _ _)|now destruct (overb _ _ _ _)].
  - specialize (G eq_refl). injection E as <-. unfold at_stage. cbn [w_threads w_table]. rewrite SN. split; [apply J2; auto|]. split; [apply J3; [now left|]; destruct (free_index (w_table p)) as [i|] eqn:F; [split; [exact I3s|exact F]|exact I]|].
    split; [apply J4; now destruct (free_index _)|]. eapply acct_same; [exact J5|now destruct (free_index _)|now destruct (free_index _)].
  - specialize (G eq_refl). destruct (fits HTTP_MAX_PATH (hd_url h)) as [pa|] eqn:F1; cbn [bind] in E; [|discriminate]. destruct (fits HTTP_MAX_IP (r_ip (hd_req h))) as [ip|] eqn:F2; cbn [bind] in E; [|discriminate]. injection E as <-. cbn [w_threads w_table]. rewrite SN.
    split; [apply J2; discriminate|]. split; [apply J3; [now right|exact I]|]. split; [apply J4; exact I|]. destruct Hk as (Iq & Rh & _). destruct (Hq q Iq) as (_ & _ & _ & S0 & Np).
    pose proof (fits_len _ _ _ F1) as L1. pose proof (fits_len _ _ _ F2) as L2. change HTTP_MAX_PATH with 512 in L1. change HTTP_MAX_IP with 16 in L2.
    assert (L1' : len (hd_url h) <= 511) by lia. assert (L2' : len (r_ip (hd_req h)) <= 15) by lia.
    apply fits_same in F1, F2. subst pa ip. eapply (acct_claim rules qs); eauto.
  - destruct Hk as (Iq & Rh). destruct (head_told _ _ Rh) as (_ & _ & Hh & _ & _ & Hso). destruct (many_ok _ Hh) as (r & Em & _ & Es). rewrite Em in E. cbn [bind] in E. injection E as <-. unfold at_stage. cbn [w_threads w_table]. rewrite SN.
    split; [apply J2; discriminate|]. split; [apply J3; [now left|exact I]|]. split; [apply J4; cbn; congruence|]. eapply acct_same; [exact J5|reflexivity|reflexivity].
  - destruct Hk as (Iq & Rh & _). destruct (Hq q Iq) as (_ & Ks & _). destruct (head_told _ _ Rh) as (_ & _ & _ & _ & _ & Hso).
    destruct (serve q (w_fs p) h) as [[[k' r] g]|] eqn:S; cbn [bind] in E; [|discriminate]. injection E as <-. cbn [w_threads w_table]. rewrite SN. pose proof (serve_socket _ _ _ _ _ _ Ks S) as Es. destruct (serve_kind _ _ _ _ _ _ S) as [K1 K2].
    split; [apply J2; discriminate|]. split; [apply J3; [now left|exact I]|]. split; [apply J4; cbn; congruence|]. eapply acct_serve; [exact J5|congruence|exact K1|exact K2].
  - specialize (G eq_refl). injection E as <-. cbn [w_threads w_table]. rewrite SN. split; [apply J2; discriminate|]. split; [apply J3; [now right|exact I]|]. split; [apply J4; exact I|].
    destruct (Hq q (HQ q eq_refl)) as (_ & _ & _ & S0 & _). eapply (acct_close rules qs); eauto.
Qed.
Lemma linv_step f rules qs x k x' : one_server rules qs -> linv f rules qs x -> lstep x k = Some (Ok x') -> linv f rules qs x'.
Proof.
  intros Ho H E. unfold lstep in E. destruct (nth_error (w_threads (l_pool x)) k) as [s|] eqn:N; [|discriminate].
  assert (GO : (guarded s = true -> l_owner x = Some k) -> match wstep (l_pool x) k with None => None | Some o => Some (p <- o;; Ok (mkLocked p (l_owner x))) end = Some (Ok x') -> linv f rules qs x').
  { intros G X. destruct (wstep (l_pool x) k) as [[p|u]|] eqn:W; cbn [bind] in X; try discriminate. injection X as <-. eapply linv_go; eauto. }
  destruct (l_owner x) as [j|] eqn:O.
  - destruct (Nat.eqb_spec j k) as [Ej|Ej]; destruct (guarded s) eqn:Gs; [apply GO in E; auto; congruence| |discriminate|apply GO in E; auto; discriminate].
    injection E as <-. subst j. destruct H as (I1 & I2 & I3 & I4 & I5). unfold linv. cbn [l_pool l_owner]. split; [exact I1|]. split; [|auto].
    intros j s0 Nj Sj. pose proof (I2 _ _ Nj Sj) as X. rewrite O in X. injection X as ->. assert (s0 = s) by congruence. subst s0. destruct s; discriminate.
  - destruct (guarded s) eqn:Gs; [|apply GO in E; auto; discriminate]. injection E as <-. destruct H as (I1 & I2 & I3 & I4 & I5). unfold linv. cbn [l_pool l_owner]. split; [exact I1|]. split; [|auto].
    intros j s0 Nj Sj. pose proof (I2 _ _ Nj Sj) as X. congruence.
Qed.
Lemma linv_run f rules qs sched : one_server rules qs -> forall x x', linv f rules qs x -> lrun x sched = Some (Ok x') -> linv f rules qs x'.
Proof.
  intros Ho. induction sched as [|k l IH]; intros x x' H E; cbn [lrun] in E; [now injection E as <-|]. destruct (lstep x k) as [[x1|u]|] eqn:S; try discriminate. eapply IH; [|exact E]. eapply linv_step; eauto.
Qed.
Lemma flat_idle {B} (g : stage -> list B) n : g SIdle = [] -> flat_map g (repeat SIdle n) = [].
Proof. intros H. induction n; [reflexivity|]. cbn [repeat flat_map]. now rewrite H. Qed.
Lemma linv_start f rules qs n : linv f rules qs (locked_start f qs n).
Proof.
  unfold linv, locked_start. cbn [l_pool l_owner]. split; [apply pinv_start|]. unfold pool_start. cbn [w_threads w_table].
  split. { intros k s N S. apply nth_error_In, repeat_spec in N. subst. discriminate. }
  split. { apply Forall_forall. intros s H. apply repeat_spec in H. now subst. }
  split. { apply Forall_forall. intros s H. apply repeat_spec in H. now subst. }
  exists [], [], [], []. cbn [w_threads w_table]. rewrite !flat_idle by reflexivity. split; [constructor|]. split; [apply tracks_empty|]. split; constructor.
Qed.

(** ** Every schedule with the mutex ends *)
Definition lspot (s : stage) : Z :=
  match s with SIdle => 0 | SRead _ => 10 | SCheck _ _ => 9 | SSearch _ _ => 8 | SClaim _ _ _ => 7 | SRefused _ _ => 4 | SServe _ _ => 4 | SClosed _ _ _ => 3 end.
Fixpoint lsum (l : list stage) : Z := match l with [] => 0 | s :: r => lspot s + lsum r end.
Lemma lsum_app a b : lsum (a ++ b) = lsum a + lsum b.
Proof. induction a as [|w a IH]; cbn [app lsum]; [reflexivity|]. rewrite IH. lia. Qed.
Lemma lsum_nonneg l : 0 <= lsum l.
Proof. induction l as [|w l IH]; [cbn; lia|]. cbn [lsum]. destruct w; cbn [lspot]; lia. Qed.
Definition adj (s : stage) : Z := if guarded s then -1 else 1.
Definition owed (x : locked) : Z :=
  match l_owner x with None => 0 | Some k => match nth_error (w_threads (l_pool x)) k with Some s => adj s | None => 0 end end.
Definition lleft (x : locked) : Z := lsum (w_threads (l_pool x)) + 11 * len (w_queue (l_pool x)) + owed x.
Lemma lleft_nonneg x : 0 <= lleft x.
Proof.
  unfold lleft, owed. pose proof (len_nonneg _ (w_queue (l_pool x))). pose proof (lsum_nonneg (w_threads (l_pool x))). destruct (l_owner x) as [k|]; [|lia].
  destruct (nth_error (w_threads (l_pool x)) k) as [s|] eqn:N; [|lia]. destruct (threads_split _ _ _ N) as (a & b & E & _). rewrite E, lsum_app in *. cbn [lsum] in *.
  pose proof (lsum_nonneg a). pose proof (lsum_nonneg b). destruct s; cbn [lspot] in *; unfold adj; cbn [guarded]; lia.
Qed.
Lemma moves p k p' s : nth_error (w_threads p) k = Some s -> wstep p k = Some (Ok p') -> exists s', w_threads p' = set_nth (w_threads p) k s'
  /\ lspot s' + 11 * len (w_queue p') + 1 <= lspot s + 11 * len (w_queue p)
  /\ (guarded s = true -> lspot s' + adj s' + 11 * len (w_queue p') + 1 <= lspot s + adj s + 11 * len (w_queue p)).
Proof.
  intros N E. unfold wstep in E. rewrite N in E. unfold adj.
  destruct s as [|q|q h|q h|q h i|q h|q h|q kd r].
  - destruct (w_queue p) as [|q rest] eqn:W; inversion E. cbn [w_threads w_queue]. rewrite len_cons. exists (SRead q). cbn [lspot guarded]. split; [reflexivity|]. split; [lia|discriminate].
  - destruct (read_head q) as [x|]; cbn [bind] in E; inversion E. cbn [at_stage w_threads w_queue]. eexists. split; [reflexivity|]. destruct x; cbn [lspot guarded]; (split; [lia|discriminate]).
  - destruct (connection_validate _ _ _ _) as [ok|]; cbn [bind] in E; inversion E. cbn [at_stage w_threads w_queue]. eexists. split; [reflexivity|]. destruct ok; cbn [lspot guarded]; lia.
  - inversion E. cbn [at_stage w_threads w_queue]. eexists. split; [reflexivity|]. destruct (free_index _); cbn [lspot guarded]; lia.
  - destruct (fits HTTP_MAX_PATH (hd_url h)); cbn [bind] in E; [|discriminate]. destruct (fits HTTP_MAX_IP _); cbn [bind] in E; inversion E. cbn [w_threads w_queue]. eexists. split; [reflexivity|]. cbn [lspot guarded]. lia.
  - destruct (too_many_connections _) as [r|]; cbn [bind] in E; inversion E. cbn [at_stage w_threads w_queue]. eexists. split; [reflexivity|]. cbn [lspot guarded]. split; [lia|discriminate].
  - destruct (serve q (w_fs p) h) as [[[kd r] f']|u]; cbn [bind] in E; inversion E. cbn [w_threads w_queue]. eexists. split; [reflexivity|]. cbn [lspot guarded]. split; [lia|discriminate].
  - inversion E. cbn [w_threads w_queue]. eexists. split; [reflexivity|]. cbn [lspot guarded]. lia.
Qed.
Lemma lleft_step x k x' : lstep x k = Some (Ok x') -> lleft x' + 1 <= lleft x.
Proof.
  unfold lstep. intros E. destruct (nth_error (w_threads (l_pool x)) k) as [s|] eqn:N; [|discriminate].
  assert (GO : (l_owner x = Some k -> guarded s = true) -> match wstep (l_pool x) k with None => None | Some o => Some (p <- o;; Ok (mkLocked p (l_owner x))) end = Some (Ok x') -> lleft x' + 1 <= lleft x).
  { intros G X. destruct (wstep (l_pool x) k) as [[p|u]|] eqn:W; cbn [bind] in X; try discriminate. injection X as <-. destruct (moves _ _ _ _ N W) as (s' & T & M1 & M2).
    unfold lleft, owed. cbn [l_pool l_owner]. destruct (threads_split _ _ _ N) as (a & b & Et & SN). rewrite T. assert (S1 : lsum (set_nth (w_threads (l_pool x)) k s') = lsum (w_threads (l_pool x)) + lspot s' - lspot s) by (rewrite SN, Et, !lsum_app; cbn [lsum]; lia).
    rewrite S1. destruct (l_owner x) as [j|]; [|lia]. destruct (Nat.eq_dec j k) as [->|Dj].
    - rewrite (set_here _ _ _ _ N), N. specialize (M2 (G eq_refl)). lia.
    - rewrite (set_other _ _ _ _ _ N Dj). lia. }
  destruct (l_owner x) as [j|] eqn:O.
  - destruct (Nat.eqb_spec j k) as [Ej|Ej]; destruct (guarded s) eqn:Gs; [apply GO in E; auto| |discriminate|apply GO in E; auto; congruence].
    injection E as <-. unfold lleft, owed. cbn [l_pool l_owner]. subst j. rewrite O, N. unfold adj. rewrite Gs. lia.
  - destruct (guarded s) eqn:Gs; [|apply GO in E; auto; discriminate]. injection E as <-. unfold lleft, owed. cbn [l_pool l_owner]. rewrite O, N. unfold adj. rewrite Gs. lia.
Qed.
Lemma lleft_run sched : forall x x', lrun x sched = Some (Ok x') -> lleft x' + len sched <= lleft x.
Proof.
  induction sched as [|k l IH]; intros x x' E; cbn [lrun] in E; [injection E as <-; rewrite len_nil; lia|].
  destruct (lstep x k) as [[x1|u]|] eqn:E1; try discriminate. apply lleft_step in E1. apply IH in E. rewrite len_cons. lia.
Qed.
Lemma lleft_start f qs n : lleft (locked_start f qs n) = 11 * len qs.
Proof. unfold lleft, owed, locked_start, pool_start. cbn [l_pool l_owner w_threads w_queue]. assert (lsum (repeat SIdle n) = 0) as -> by (induction n; cbn; auto). lia. Qed.
Definition owner_there (x : locked) : Prop := forall k, l_owner x = Some k -> nth_error (w_threads (l_pool x)) k <> None.
Lemma there_step x k x' : owner_there x -> lstep x k = Some (Ok x') -> owner_there x'.
Proof.
  unfold lstep. intros H E. destruct (nth_error (w_threads (l_pool x)) k) as [s|] eqn:N; [|discriminate].
  assert (GO : match wstep (l_pool x) k with None => None | Some o => Some (p <- o;; Ok (mkLocked p (l_owner x))) end = Some (Ok x') -> owner_there x').
  { intros X. destruct (wstep (l_pool x) k) as [[p|u]|] eqn:W; cbn [bind] in X; try discriminate. injection X as <-. intros j O. cbn [l_pool l_owner] in *. apply nth_error_Some. rewrite (step_length _ _ _ W). apply nth_error_Some. auto. }
  destruct (l_owner x) as [j|] eqn:O.
  - destruct (Nat.eqb j k); destruct (guarded s); try discriminate; try (now apply GO). injection E as <-. intros i Hi. discriminate.
  - destruct (guarded s); [|now apply GO]. injection E as <-. intros i Hi. cbn [l_pool l_owner] in *. injection Hi as <-. congruence.
Qed.
Lemma there_run sched : forall x x', owner_there x -> lrun x sched = Some (Ok x') -> owner_there x'.
Proof.
  induction sched as [|k l IH]; intros x x' H E; cbn [lrun] in E; [now injection E as <-|].
  destruct (lstep x k) as [[x1|u]|] eqn:E1; try discriminate. eapply IH; [|exact E]. eapply there_step; eauto.
Qed.
Lemma lock_rest x : owner_there x -> (forall k, lstep x k = None) -> l_owner x = None /\ forall k, wstep (l_pool x) k = None.
Proof.
  intros H S. assert (G : forall k s, nth_error (w_threads (l_pool x)) k = Some s -> guarded s = true -> wstep (l_pool x) k <> None).
  { intros k s N Gs. unfold wstep. rewrite N. destruct s; discriminate. }
  assert (O : l_owner x = None).
  { destruct (l_owner x) as [j|] eqn:O; [|reflexivity]. exfalso. specialize (H j O). specialize (S j). unfold lstep in S. rewrite O, Nat.eqb_refl in S. destruct (nth_error (w_threads (l_pool x)) j) as [s|] eqn:N; [|now elim H].
    destruct (guarded s) eqn:Gs; [|discriminate]. apply (G _ _ N Gs). destruct (wstep (l_pool x) j); [discriminate|reflexivity]. }
  split; [exact O|]. intros k. specialize (S k). unfold lstep in S. rewrite O in S. destruct (nth_error (w_threads (l_pool x)) k) as [s|] eqn:N.
  - destruct (guarded s); [discriminate|]. destruct (wstep (l_pool x) k); [discriminate|reflexivity].
  - unfold wstep. now rewrite N.
Qed.

(** ** The limits with the mutex *)
Lemma filter_sub {A} (g : A -> bool) l m o : Permutation o (l ++ m) -> len (filter g l) <= len (filter g o).
Proof.
  intros P. rewrite (Permutation_len _ _ (filter_Permutation g _ _ P)), filter_len_app. pose proof (len_nonneg _ (filter g m)). lia.
Qed.
Lemma lock_bounds f rules qs x r : one_server rules qs -> linv f rules qs x -> in_force rules r ->
  (forall n, counts (on (l_path r)) (in_service (l_pool x)) n -> n <= Z.max 0 (l_max r + 1))
  /\ (forall ip n, counts (on_from (l_path r) ip) (in_service (l_pool x)) n -> n <= Z.max 0 (l_max_ip r + 1)).
Proof.
  intros (_ & Hr & _) (_ & _ & _ & _ & evs & ans & open & closing & H & T & P1 & _) F. destruct (history_bounds _ _ _ _ _ Hr H F) as [B1 B2].
  assert (Nr : no_nul (l_path r)) by (clear - Hr F; induction F; inversion Hr; auto).
  assert (Pa : Forall ok_path (in_service (l_pool x))).
  { destruct T as (_ & _ & _ & _ & _ & Pa). apply (Permutation_Forall P1) in Pa. now apply Forall_app in Pa as [Pa _]. }
  rewrite Forall_forall in Pa. split.
  - intros n C. rewrite (counts_filter (on (l_path r)) (fun c => onb (l_path r) (c_path c))) in C by (intros c Hc; apply onb_iff; auto; now apply Pa). subst n. etransitivity; [|exact B1]. exact (filter_sub _ _ _ _ P1).
  - intros ip n C. rewrite (counts_filter (on_from (l_path r) ip) (fun c => onb (l_path r) (c_path c) && str_eqb ip (c_ip c))) in C.
    + subst n. etransitivity; [|exact (B2 ip)]. exact (filter_sub _ _ _ _ P1).
    + intros c Hc. rewrite andb_true_iff, str_eqb_eq, onb_iff by (auto; now apply Pa). unfold on_from, on. split; intros [A B]; auto.
Qed.
Lemma lock_kept f rules qs x c : linv f rules qs x -> In c (in_service (l_pool x)) -> In c (w_table (l_pool x)) /\ c_socket c <> 0.
Proof.
  intros (_ & _ & _ & _ & evs & ans & open & closing & H & T & P1 & _) I. destruct T as (_ & P & _).
  assert (J : In c (occupied (w_table (l_pool x)))). { apply (Permutation_in _ (Permutation_sym P)), (Permutation_in _ (Permutation_sym P1)), in_or_app. now left. }
  unfold occupied in J. apply filter_In in J as [J K]. split; [exact J|]. now apply negb_true_iff, Z.eqb_neq in K.
Qed.

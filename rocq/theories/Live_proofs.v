(** Live_proofs.v - lemmas for C94. *)
From Verif Require Import Base Queue Lemmas Queue_proofs SpecQueue SpecLive.

(** ** Every step uses something up *)
Definition wpot (w : wpc) : Z :=
  match w with WBlocked => 0 | WLocked => 1 | WWantLock => 2 | WWoken => 2 | WRunning _ => 3 | WTaken _ => 4 end.
Fixpoint wsum (l : list wpc) : Z := match l with [] => 0 | w :: r => wpot w + wsum r end.
Definition apot (a : apc) : Z :=
  match a with AAccept => 0 | ASignal => 3 | AUnlock => 4 | ALocked _ => 9 | AWantLock _ => 10 end.
Definition pot (s : sys) : Z := wsum (s_workers s) + 4 * q_size (s_queue s) + apot (s_acc s).
Definition gives (a : action) : Z := match a with DoAccept _ true => 11 | DoAccept _ false => 1 | DoSpurious _ => 3 | _ => 0 end.
Lemma wsum_app a b : wsum (a ++ b) = wsum a + wsum b.
Proof. induction a as [|w a IH]; cbn [app wsum]; [reflexivity|]. rewrite IH. lia. Qed.
Lemma wsum_set l k w w' : nth_error l k = Some w -> wsum (set_w l k w') = wsum l - wpot w + wpot w'.
Proof. intros H. apply nth_error_split in H as (a & b & -> & <-). rewrite set_w_eq, !wsum_app. cbn [wsum]. lia. Qed.
Lemma wsum_nonneg l : 0 <= wsum l.
Proof. induction l as [|w l IH]; [cbn; lia|]. cbn [wsum]. destruct w; cbn [wpot]; lia. Qed.

Lemma pot_step cap n sched st s a s' : inv cap n sched st s -> step s a = Some (Ok s') -> pot s' + 1 <= pot s + gives a.
Proof.
  intros (l & Q & _) E.
  assert (Hs : q_size (s_queue s) = len l) by (destruct Q as (_ & _ & _ & _ & (X & _)); exact X). unfold pot.
  destruct a as [v [] | | | | k | k | k | k | k | k | k]; cbn [step gives] in *.
  - destruct (s_acc s); try discriminate. inversion E; subst s'; cbn [s_workers s_queue s_acc apot wpot with_acc with_worker]. lia.
  - destruct (s_acc s); try discriminate. inversion E; subst s'; cbn [s_workers s_queue s_acc apot wpot with_acc with_worker]. lia.
  - destruct (s_acc s); try discriminate. destruct (s_mutex s); try discriminate. inversion E; subst s'; cbn [s_workers s_queue s_acc apot wpot with_acc with_worker]. lia.
  - destruct (s_acc s); try discriminate. destruct (push_ok _ _ s0 Q) as [P1 P2].
    destruct (Z.eq_dec (len l) (q_capacity (s_queue s))) as [F|F].
    + rewrite (P1 F) in E. cbn [bind] in E. inversion E; subst s'; cbn [s_workers s_queue s_acc apot wpot with_acc with_worker]. lia.
    + destruct P2 as (q' & E' & Q' & _); [destruct Q as (_ & _ & _ & _ & (_ & X & _)); lia|]. rewrite E' in E. cbn [bind] in E. inversion E; subst s'; cbn [s_workers s_queue s_acc apot wpot with_acc with_worker].
      destruct Q' as (_ & _ & _ & _ & (X & _)). rewrite X, len_app, len_cons, len_nil. lia.
  - destruct (s_acc s); try discriminate. inversion E; subst s'; cbn [s_workers s_queue s_acc apot wpot with_acc with_worker]. lia.
  - destruct (s_acc s); try discriminate. destruct (nth_error (s_workers s) k) as [w|] eqn:N.
    + destruct w; try (destruct (no_blocked _); [|discriminate]); inversion E; subst s'; cbn [s_workers s_queue s_acc apot wpot with_acc with_worker]; try lia. rewrite (wsum_set _ _ _ _ N). cbn [s_workers s_queue s_acc apot wpot with_acc with_worker]. lia.
    + destruct (no_blocked _); [|discriminate]. inversion E; subst s'; cbn [s_workers s_queue s_acc apot wpot with_acc with_worker]. lia.
  - destruct (nth_error (s_workers s) k) as [w|] eqn:N; try discriminate. destruct w; try discriminate. destruct (s_mutex s); try discriminate.
    inversion E; subst s'; cbn [s_workers s_queue s_acc apot wpot with_acc with_worker]. rewrite (wsum_set _ _ _ _ N). cbn [s_workers s_queue s_acc apot wpot with_acc with_worker]. lia.
  - destruct (nth_error (s_workers s) k) as [w|] eqn:N; try discriminate. destruct w; try discriminate. destruct (Z.eqb_spec (q_size (s_queue s)) 0) as [Z0|Z0].
    + inversion E; subst s'; cbn [s_workers s_queue s_acc apot wpot with_acc with_worker]. rewrite (wsum_set _ _ _ _ N). cbn [s_workers s_queue s_acc apot wpot with_acc with_worker]. lia.
    + destruct l as [|v l]; [rewrite Hs in Z0; now elim Z0|]. destruct (pop_ok _ _ _ Q) as (q' & E' & Q' & _). rewrite E' in E. cbn [bind] in E. inversion E; subst s'; cbn [s_workers s_queue s_acc apot wpot with_acc with_worker].
      destruct Q' as (_ & _ & _ & _ & (X & _)). rewrite (wsum_set _ _ _ _ N), X, Hs, len_cons. cbn [s_workers s_queue s_acc apot wpot with_acc with_worker]. lia.
  - destruct (nth_error (s_workers s) k) as [w|] eqn:N; try discriminate. destruct w; try discriminate. inversion E; subst s'; cbn [s_workers s_queue s_acc apot wpot with_acc with_worker]. rewrite (wsum_set _ _ _ _ N). cbn [s_workers s_queue s_acc apot wpot with_acc with_worker]. lia.
  - destruct (nth_error (s_workers s) k) as [w|] eqn:N; try discriminate. destruct w; try discriminate. inversion E; subst s'; cbn [s_workers s_queue s_acc apot wpot with_acc with_worker]. rewrite (wsum_set _ _ _ _ N). cbn [s_workers s_queue s_acc apot wpot with_acc with_worker]. lia.
  - destruct (nth_error (s_workers s) k) as [w|] eqn:N; try discriminate. destruct w; try discriminate. destruct (s_mutex s); try discriminate.
    inversion E; subst s'; cbn [s_workers s_queue s_acc apot wpot with_acc with_worker]. rewrite (wsum_set _ _ _ _ N). cbn [s_workers s_queue s_acc apot wpot with_acc with_worker]. lia.
  - destruct (nth_error (s_workers s) k) as [w|] eqn:N; try discriminate. destruct w; try discriminate. inversion E; subst s'; cbn [s_workers s_queue s_acc apot wpot with_acc with_worker]. rewrite (wsum_set _ _ _ _ N). cbn [s_workers s_queue s_acc apot wpot with_acc with_worker]. lia.
Qed.
Fixpoint given (sched : list action) : Z := match sched with [] => 0 | a :: r => gives a + given r end.
Lemma pot_run cap n sched2 : forall sched1 st s s', inv cap n sched1 st s -> run s sched2 = Some (Ok s') -> pot s' + len sched2 <= pot s + given sched2.
Proof.
  induction sched2 as [|a l IH]; intros sched1 st s s' I R; cbn [run] in R; [inversion R; subst; cbn; lia|].
  pose proof (inv_step _ _ _ _ _ a I) as H. destruct (step s a) as [[s1|]|] eqn:E; try discriminate.
  apply (pot_step _ _ _ _ _ _ _ I) in E. apply (IH _ _ _ _ H) in R. rewrite len_cons. cbn [given]. lia.
Qed.
Lemma given_eq sched : given sched = 11 * len (arrivals sched) + len (rejected sched) + 3 * spurious sched.
Proof.
  unfold spurious. induction sched as [|a l IH]; [reflexivity|]. cbn [given]. rewrite IH.
  destruct a as [v [] | | | | k | k | k | k | k | k | k]; cbn [gives arrivals rejected flat_map filter app]; rewrite ?len_cons; unfold arrivals, rejected; lia.
Qed.
Lemma pot_init cap n : pot (init cap n) = 2 * Z.of_nat n.
Proof.
  unfold pot, init. cbn [s_workers s_queue s_acc apot ws_create_queue q_size]. induction n as [|n IH]; [reflexivity|]. cbn [repeat wsum wpot] in *. lia.
Qed.
Lemma pot_nonneg cap n sched st s : inv cap n sched st s -> 0 <= pot s.
Proof.
  intros (l & Q & _). destruct Q as (_ & _ & _ & _ & (X & _)). unfold pot. rewrite X. pose proof (wsum_nonneg (s_workers s)). pose proof (len_nonneg _ l). destruct (s_acc s); cbn [apot]; lia.
Qed.

(** ** When no thread can go on *)
Lemma stuck_settled cap n sched st s : inv cap n sched st s -> owner_exists s -> (0 < n)%nat -> (forall a, own a -> step s a = None) -> settled s.
Proof.
  intros (l & Q & Hc & Hn & M & _ & _ & _ & _ & Hw) O Pn St. pose proof M as [M1 M2].
  assert (Hm : s_mutex s = None).
  { destruct (s_mutex s) as [[|k]|] eqn:Em; [| |reflexivity]; exfalso.
    - pose proof (proj2 M1 eq_refl) as K. destruct (s_acc s) eqn:A; try discriminate K.
      + pose proof (St DoPush I) as E. cbn [step] in E. rewrite A in E. discriminate E.
      + pose proof (St DoUnlockA I) as E. cbn [step] in E. rewrite A in E. discriminate E.
    - pose proof (O k Em) as Hk. apply nth_error_Some in Hk. destruct (nth_error (s_workers s) k) as [w|] eqn:N; [|now elim Hk].
      pose proof (proj2 (M2 _ _ N) eq_refl) as K. destruct w; try discriminate K.
      + pose proof (St (DoCheck k) I) as E. cbn [step] in E. rewrite N in E. destruct (_ =? 0); discriminate E.
      + pose proof (St (DoUnlockW k) I) as E. cbn [step] in E. rewrite N in E. discriminate E. }
  assert (B : Forall (fun w => w = WBlocked) (s_workers s)).
  { apply Forall_forall. intros w Hi. apply In_nth_error in Hi as (k & N). destruct w; [| |reflexivity| | |]; exfalso.
    - pose proof (St (DoLockW k) I) as E. cbn [step] in E. rewrite N, Hm in E. discriminate E.
    - pose proof (proj1 (M2 _ _ N) eq_refl). congruence.
    - pose proof (St (DoRelock k) I) as E. cbn [step] in E. rewrite N, Hm in E. discriminate E.
    - pose proof (proj1 (M2 _ _ N) eq_refl). congruence.
    - pose proof (St (DoFinish k) I) as E. cbn [step] in E. rewrite N in E. discriminate E. }
  assert (W : exists rest, s_workers s = WBlocked :: rest).
  { destruct (s_workers s) as [|w t]; [cbn in Hn; lia|]. inversion B; subst. eauto. }
  assert (A : s_acc s = AAccept).
  { destruct (s_acc s) eqn:A; [reflexivity| | | |]; exfalso.
    - pose proof (St DoLockA I) as E. cbn [step] in E. rewrite A, Hm in E. discriminate E.
    - pose proof (proj1 M1 eq_refl). congruence.
    - pose proof (proj1 M1 eq_refl). congruence.
    - destruct W as (rest & W). pose proof (St (DoSignal 0) I) as E. cbn [step] in E. rewrite A, W in E. discriminate E. }
  split; [exact A|]. split; [|split; [exact Hm|exact B]].
  assert (In WBlocked (s_workers s)) as Hin by (destruct W as (rest & ->); now left). specialize (Hw Hin). unfold about_to_signal in Hw. rewrite A in Hw.
  assert (awakes (s_workers s) = 0).
  { clear - B. induction B as [|w t -> _ IH]; [reflexivity|]. rewrite awakes_cons, IH. reflexivity. }
  destruct Q as (_ & _ & _ & _ & (X & _)). pose proof (len_nonneg _ l). lia.
Qed.
Lemma step_dec s : (exists a s', own a /\ step s a = Some (Ok s')) \/ (exists a u, own a /\ step s a = Some (UB u)) \/ forall a, own a -> step s a = None.
Proof.
  set (acts := [DoLockA; DoPush; DoUnlockA] ++ flat_map (fun k => [DoSignal k; DoLockW k; DoCheck k; DoUnlockW k; DoRelock k; DoFinish k]) (seq 0 (S (length (s_workers s))))).
  destruct (existsb (fun a => match step s a with None => false | _ => true end) acts) eqn:X.
  - apply existsb_exists in X as (a & Ha & Ea). assert (own a).
    { unfold acts in Ha. apply in_app_or in Ha as [Ha|Ha]; [cbn in Ha; intuition (subst; exact I)|]. apply in_flat_map in Ha as (k & _ & Ha). cbn in Ha. intuition (subst; exact I). }
    destruct (step s a) as [[s'|u]|] eqn:E; [left; eauto|right; left; eauto|discriminate].
  - right. right. intros a Oa.
    assert (K : forall b, In b acts -> step s b = None).
    { intros b Hb. destruct (step s b) eqn:E; [|reflexivity]. exfalso. assert (existsb (fun a => match step s a with None => false | _ => true end) acts = true); [|congruence].
      apply existsb_exists. exists b. rewrite E. auto. }
    assert (G : forall k b, (k < S (length (s_workers s)))%nat -> In b [DoSignal k; DoLockW k; DoCheck k; DoUnlockW k; DoRelock k; DoFinish k] -> step s b = None).
    { intros k b Hk Hb. apply K. unfold acts. apply in_or_app. right. apply in_flat_map. exists k. split; [apply in_seq; lia|exact Hb]. }
    assert (T : forall k, (k < S (length (s_workers s)))%nat \/ nth_error (s_workers s) k = None).
    { intros k. destruct (nth_error (s_workers s) k) eqn:N; [|auto]. left. assert (nth_error (s_workers s) k <> None) by congruence. apply nth_error_Some in H. lia. }
    destruct a as [v b | | | | k | k | k | k | k | k | k]; try (now elim Oa); try (apply K; unfold acts; cbn; tauto);
      (destruct (T k) as [Hk|Hk]; [apply (G k); [exact Hk|cbn; tauto]|]); cbn [step]; rewrite Hk; try reflexivity.
    (* a signal to nobody *)
    pose proof (G (length (s_workers s)) (DoSignal (length (s_workers s))) ltac:(lia) ltac:(cbn; tauto)) as E. cbn [step] in E.
    rewrite (proj2 (nth_error_None _ _)) in E by lia. exact E.
Qed.
Lemma settles cap n : forall k sched st s, inv cap n sched st s -> owner_exists s -> (0 < n)%nat -> pot s <= Z.of_nat k ->
  exists more s', Forall own more /\ run s more = Some (Ok s') /\ settled s'.
Proof.
  induction k as [|k IH]; intros sched st s Hi O Pn Hp; destruct (step_dec s) as [(a & s1 & Oa & E)|[(a & u & Oa & E)|St]];
    try (exists [], s; split; [constructor|]; split; [reflexivity|]; now apply (stuck_settled cap n sched st));
    pose proof (inv_step _ _ _ _ _ a Hi) as St; rewrite E in St; try contradiction;
    pose proof (pot_step _ _ _ _ _ _ _ Hi E) as P; assert (G : gives a = 0) by (destruct a as [v [] | | | | | | | | | | ]; cbn in Oa; easy || reflexivity).
  - pose proof (pot_nonneg _ _ _ _ _ St). lia.
  - destruct (IH _ _ _ St (owner_step _ _ _ O E) Pn ltac:(lia)) as (more & s' & F & R & Se). exists (a :: more), s'. split; [now constructor|]. split; [|exact Se].
    cbn [run]. now rewrite E.
Qed.

(** ** Handlers that do not return *)
Definition all_running (l : list wpc) : Prop := Forall (fun w => exists v, w = WRunning v) l.
Lemma running_nth l k w : all_running l -> nth_error l k = Some w -> exists v, w = WRunning v.
Proof. intros F N. apply nth_error_In in N. unfold all_running in F. rewrite Forall_forall in F. auto. Qed.
Lemma running_step s a s' : all_running (s_workers s) -> own_but_finish a -> step s a = Some (Ok s') -> s_workers s' = s_workers s.
Proof.
  intros F O E. destruct a as [v [] | | | | k | k | k | k | k | k | k]; cbn [step own_but_finish] in *; try contradiction;
    try (destruct (nth_error (s_workers s) k) as [w|] eqn:N; try discriminate; try (destruct (running_nth _ _ _ F N) as (v & ->); discriminate)).
  - destruct (s_acc s); try discriminate. inversion E; reflexivity.
  - destruct (s_acc s); try discriminate. inversion E; reflexivity.
  - destruct (s_acc s); try discriminate. destruct (s_mutex s); try discriminate. inversion E; reflexivity.
  - destruct (s_acc s); try discriminate. destruct (push _ _) as [[b q]|]; cbn [bind] in E; inversion E; reflexivity.
  - destruct (s_acc s); try discriminate. inversion E; reflexivity.
  - destruct (s_acc s); try discriminate. destruct (running_nth _ _ _ F N) as (v & ->). destruct (no_blocked _); inversion E; reflexivity.
  - destruct (s_acc s); try discriminate. destruct (no_blocked _); inversion E; reflexivity.
Qed.
Lemma running_run sched : forall s s', all_running (s_workers s) -> Forall own_but_finish sched -> run s sched = Some (Ok s') ->
  s_workers s' = s_workers s /\ started s sched = [].
Proof.
  induction sched as [|a l IH]; intros s s' F O R; cbn [run started] in *; [inversion R; auto|]. inversion O; subst.
  destruct (step s a) as [[s1|]|] eqn:E; try discriminate. apply running_step in E; auto. rewrite E, entered_same. cbn [app].
  destruct (IH s1 s') as [H3 H4]; auto; [now rewrite E|]. split; [congruence|exact H4].
Qed.
(** One connection from accept() to its handler, worker [k] being on its way to the queue. *)
Definition deliver (v : Z) (k : nat) : list action :=
  [DoAccept v true; DoLockA; DoPush; DoUnlockA; DoSignal k; DoLockW k; DoCheck k; DoUnlockW k].
Definition busy (vs : list Z) (n : nat) (s : sys) : Prop :=
  qok (s_queue s) [] /\ s_mutex s = None /\ s_acc s = AAccept /\ g_dropped s = [] /\ s_workers s = map WRunning vs ++ repeat WWantLock n.
Lemma no_blocked_busy vs n : no_blocked (map WRunning vs ++ repeat WWantLock n) = true.
Proof. unfold no_blocked. rewrite forallb_app. induction vs; cbn; [induction n; cbn; auto|auto]. Qed.
Local Ltac red_sys := cbn [bind run step with_acc with_worker s_workers s_mutex s_queue s_acc g_pushed g_taken g_dropped g_denied].
Lemma deliver_busy vs n s v : busy vs (S n) s -> exists s', run s (deliver v (length vs)) = Some (Ok s') /\ busy (vs ++ [v]) n s'.
Proof.
  intros (Q & Hm & Ha & Hd & Hw). destruct s as [q mu ac ws gp gt gd gn]. cbn in *. subst mu ac ws gd.
  assert (N : nth_error (map WRunning vs ++ WWantLock :: repeat WWantLock n) (length vs) = Some WWantLock) by (rewrite nth_error_app2, map_length, Nat.sub_diag by (rewrite map_length; lia); reflexivity).
  destruct (push_ok _ _ v Q) as [_ P]. destruct P as (q1 & E1 & Q1 & _); [destruct Q; cbn; lia|]. destruct (pop_ok _ _ _ Q1) as (q2 & E2 & Q2 & _).
  assert (Sz : q_size q1 = 1) by (destruct Q1 as (_ & _ & _ & _ & (X & _)); exact X).
  assert (SW : forall w, set_w (map WRunning vs ++ WWantLock :: repeat WWantLock n) (length vs) w = map WRunning vs ++ w :: repeat WWantLock n) by (intros w; rewrite <- (map_length WRunning vs); apply set_w_eq).
  assert (SW' : forall w w', set_w (map WRunning vs ++ w' :: repeat WWantLock n) (length vs) w = map WRunning vs ++ w :: repeat WWantLock n) by (intros w w'; rewrite <- (map_length WRunning vs); apply set_w_eq).
  assert (NN : forall w, nth_error (map WRunning vs ++ w :: repeat WWantLock n) (length vs) = Some w) by (intros w; rewrite nth_error_app2, map_length, Nat.sub_diag by (rewrite map_length; lia); reflexivity).
  pose proof (no_blocked_busy vs (S n)) as NB. cbn [repeat] in *.
  unfold deliver. red_sys. rewrite E1. red_sys. rewrite N, NB. red_sys. rewrite N. red_sys. rewrite SW, NN, Sz. cbn [Z.eqb]. rewrite E2.
  red_sys. rewrite !SW', NN. eexists. split; [reflexivity|]. split; [exact Q2|]. split; [reflexivity|]. split; [reflexivity|]. split; [reflexivity|].
  cbn [with_worker s_workers]. now rewrite SW', map_app, <- app_assoc.
Qed.
Lemma run_app s a b s' : run s a = Some (Ok s') -> run s (a ++ b) = run s' b.
Proof.
  revert s. induction a as [|x a IH]; intros s R; cbn [app run] in *; [now inversion R|]. destruct (step s x) as [[s1|]|]; try discriminate. auto.
Qed.
Lemma fill cap n : 0 < cap -> forall m vs s, length vs = m -> (m <= n)%nat -> busy [] n s ->
  exists sched s', run s sched = Some (Ok s') /\ arrivals sched = vs /\ rejected sched = [] /\ busy vs (n - m) s'.
Proof.
  intros Hc. induction m as [|m IH]; intros vs s Lv Hm B.
  - destruct vs; [|discriminate]. exists [], s. rewrite Nat.sub_0_r. auto.
  - destruct (exists_last (l := vs)) as (vs' & v & ->); [now destruct vs|]. rewrite app_length in Lv. cbn in Lv.
    destruct (IH vs' s ltac:(lia) ltac:(lia) B) as (sched & s1 & R & A & J & B1). replace (n - m)%nat with (S (n - S m)) in B1 by lia.
    destruct (deliver_busy _ _ _ v B1) as (s2 & R2 & B2). exists (sched ++ deliver v (length vs')), s2. rewrite (run_app _ _ _ _ R). split; [exact R2|].
    rewrite arrivals_app, rejected_app, A, J. auto.
Qed.
Lemma silent cap n clients : 0 < cap -> length clients = n ->
  exists sched s, run (init cap n) sched = Some (Ok s) /\ arrivals sched = clients /\ rejected sched = []
    /\ g_dropped s = [] /\ q_size (s_queue s) = 0
    /\ forall more s', Forall own_but_finish more -> run s more = Some (Ok s') -> started s more = [].
Proof.
  intros Hc Hn. pose proof (inv_init cap n Hc) as (l & Q & _ & _ & _ & T & _).
  assert (l = []) as -> by (destruct l; [reflexivity|discriminate T]).
  destruct (fill cap n Hc n clients (init cap n) Hn (le_n _)) as (sched & s & R & A & J & (Q' & Hm & Ha & Hd & Hw)).
  { repeat split; auto; apply Q. }
  exists sched, s. split; [exact R|]. split; [exact A|]. split; [exact J|].
  assert (F : all_running (s_workers s)).
  { rewrite Hw, Nat.sub_diag. cbn [repeat]. rewrite app_nil_r. apply Forall_forall. intros w Hi. apply in_map_iff in Hi as (v & <- & _). eauto. }
  split; [exact Hd|]. split; [destruct Q' as (_ & _ & _ & _ & (X & _)); exact X|]. intros more s' O Rm. exact (proj2 (running_run _ _ _ F O Rm)).
Qed.
Lemma settled_rest s a : settled s -> own a -> step s a = None.
Proof.
  intros (A & Qz & Hm & B) O.
  assert (K : forall k w, nth_error (s_workers s) k = Some w -> w = WBlocked) by (intros k w N; apply nth_error_In in N; rewrite Forall_forall in B; auto).
  destruct a as [v b | | | | k | k | k | k | k | k | k]; try (now elim O); cbn [step]; rewrite ?A; try reflexivity;
    (destruct (nth_error (s_workers s) k) as [w|] eqn:N; [rewrite (K _ _ N)|]; reflexivity).
Qed.
Lemma settled_merge cap n sched st s : inv cap n sched st s -> settled s -> merge (arrivals sched) st (g_dropped s).
Proof.
  intros (l & Q & _ & _ & _ & T1 & T2 & (m & Mm & Am) & _) (A & Qz & _ & B).
  assert (l = []) as -> by (destruct l; [reflexivity|]; destruct Q as (_ & _ & _ & _ & (X & _)); rewrite X, len_cons in Qz; pose proof (len_nonneg _ l); lia).
  rewrite transits_none in T2 by (eapply Forall_impl; [|exact B]; intros w ->; reflexivity). unfold in_hand in Am. rewrite A in Am.
  rewrite !app_nil_r in *. congruence.
Qed.

(** Queue_proofs.v - invariants of the work queue. *)
From Verif Require Import Base Queue Lemmas SpecQueue.

(** ** Lists of workers *)
Lemma set_w_eq a x b w : set_w (a ++ x :: b) (length a) w = a ++ w :: b.
Proof.
  unfold set_w. rewrite firstn_app, Nat.sub_diag, firstn_O, app_nil_r, firstn_all. f_equal. cbn [app]. f_equal.
  rewrite skipn_app. rewrite skipn_all2 by lia. replace (S (length a) - length a)%nat with 1%nat by lia. reflexivity.
Qed.
Lemma entered_same l : entered l l = [].
Proof. induction l as [|[] l IH]; cbn; auto. Qed.
Lemma entered_one a x y b : entered (a ++ x :: b) (a ++ y :: b)
  = match x, y with WRunning _, _ => [] | _, WRunning v => [v] | _, _ => [] end.
Proof.
  induction a as [|[] a IH]; cbn [app entered]; try (rewrite IH; reflexivity). rewrite entered_same. apply app_nil_r.
Qed.

(** ** The ring *)
Definition next_rear (q : queue) : Z := if q_rear q + 1 =? q_capacity q then 0 else q_rear q + 1.
Definition qok (q : queue) (l : list Z) : Prop :=
  0 < q_capacity q /\ len (q_elements q) = q_capacity q /\ 0 <= q_front q < q_capacity q
  /\ next_rear q = (q_front q + q_size q) mod q_capacity q /\ holds q l.
Lemma elem_set_ok l i v : 0 <= i < len l -> exists e, elem_set l i v = Ok e /\ len e = len l
  /\ forall j, 0 <= j < len l -> nth_error e (Z.to_nat j) = if j =? i then Some (Some v) else nth_error l (Z.to_nat j).
Proof.
  intros H. unfold elem_set. rewrite (proj2 (Z.leb_le 0 i)), (proj2 (Z.ltb_lt i (len l))) by lia. cbn [andb].
  eexists. split; [reflexivity|]. unfold len in *. assert (Hf : length (firstn (Z.to_nat i) l) = Z.to_nat i) by (rewrite firstn_length; lia). split.
  - rewrite !app_length, skipn_length, Hf. cbn [length]. lia.
  - intros j Hj. destruct (Z.eqb_spec j i) as [->|N].
    + rewrite nth_error_app2 by lia. rewrite Hf, Nat.sub_diag. reflexivity.
    + destruct (Z_lt_le_dec j i).
      * rewrite nth_error_app1 by lia. rewrite <- (firstn_skipn (Z.to_nat i) l) at 2. rewrite nth_error_app1 by lia. reflexivity.
      * rewrite nth_error_app2 by lia. rewrite Hf. cbn [app].
        replace (Z.to_nat j - Z.to_nat i)%nat with (S (Z.to_nat j - S (Z.to_nat i))) by lia. cbn [nth_error].
        rewrite <- (firstn_skipn (S (Z.to_nat i)) l) at 2.
        assert (Hs : length (firstn (S (Z.to_nat i)) l) = S (Z.to_nat i)) by (rewrite firstn_length; lia).
        rewrite nth_error_app2 by lia. now rewrite Hs.
Qed.
Lemma mod_inj a i j c : 0 < c -> 0 <= i < c -> 0 <= j < c -> (a + i) mod c = (a + j) mod c -> i = j.
Proof.
  intros Hc Hi Hj E. rewrite (Z.add_mod a i), (Z.add_mod a j) in E by lia. rewrite (Z.mod_small i), (Z.mod_small j) in E by lia.
  pose proof (Z.mod_pos_bound a c Hc). set (x := a mod c) in *.
  assert (G : forall y, 0 <= y < c -> (x + y) mod c = if x + y <? c then x + y else x + y - c).
  { intros y Hy. destruct (Z.ltb_spec (x + y) c); [now apply Z.mod_small; lia|].
    replace (x + y) with ((x + y - c) + 1 * c) at 1 by lia. rewrite Z.mod_add by lia. apply Z.mod_small. lia. }
  rewrite !G in E by lia. destruct (Z.ltb_spec (x + i) c), (Z.ltb_spec (x + j) c); lia.
Qed.
Lemma push_ok q l v : qok q l ->
  (len l = q_capacity q -> push q v = Ok (false, q))
  /\ (len l < q_capacity q -> exists q', push q v = Ok (true, q') /\ qok q' (l ++ [v]) /\ q_capacity q' = q_capacity q).
Proof.
  intros (Hc & Le & Hf & Hr & (Hs & Hl & Hh)). split; intros HL; unfold push.
  - rewrite Hs, HL, Z.eqb_refl. reflexivity.
  - rewrite Hs. replace (len l =? q_capacity q) with false by lia. cbn [negb]. fold (next_rear q).
    assert (Hn : 0 <= next_rear q < q_capacity q). { rewrite Hr. apply Z.mod_pos_bound. lia. }
    destruct (elem_set_ok (q_elements q) (next_rear q) v) as (e & E & Le' & Ne); [lia|]. rewrite E. cbn [bind].
    eexists. split; [reflexivity|]. split; [|reflexivity]. unfold qok, holds, next_rear. cbn.
    fold (next_rear q). split; [lia|]. split; [lia|]. split; [lia|]. split.
    + rewrite Hr, Hs. rewrite Z.add_assoc. destruct (Z.eqb_spec ((q_front q + len l) mod q_capacity q + 1) (q_capacity q)) as [X|X].
      * rewrite <- (Z.add_mod_idemp_l _ 1) by lia. rewrite X. now rewrite Z.mod_same by lia.
      * rewrite <- (Z.add_mod_idemp_l _ 1) by lia. symmetry. apply Z.mod_small.
        pose proof (Z.mod_pos_bound (q_front q + len l) (q_capacity q) Hc). lia.
    + rewrite len_app, len_cons, len_nil. split; [lia|]. split; [lia|]. intros i Hi.
      pose proof (Z.mod_pos_bound (q_front q + i) (q_capacity q) Hc).
      rewrite Ne by lia. rewrite Hr, Hs. destruct (Z.eqb_spec ((q_front q + i) mod q_capacity q) ((q_front q + len l) mod q_capacity q)) as [X|X].
      * assert (i = len l) by (apply (mod_inj (q_front q) i (len l) (q_capacity q)); auto; pose proof (len_nonneg _ l); lia). subst i. f_equal. unfold len. rewrite Nat2Z.id.
        rewrite nth_error_app2 by lia. now rewrite Nat.sub_diag.
      * assert (i <> len l) by (intros ->; apply X; reflexivity).
        rewrite Hh by lia. f_equal. rewrite nth_error_app1; [reflexivity|]. unfold len in *. lia.
Qed.
Lemma pop_ok q v l : qok q (v :: l) ->
  exists q', pop q = Ok (v, q') /\ qok q' l /\ q_capacity q' = q_capacity q.
Proof.
  intros (Hc & Le & Hf & Hr & (Hs & Hl & Hh)). rewrite len_cons in *. pose proof (len_nonneg _ l) as P. unfold pop, elem_get.
  rewrite (proj2 (Z.leb_le 0 _)), (proj2 (Z.ltb_lt _ _)) by lia. cbn [andb].
  pose proof (Hh 0) as H0. rewrite Z.add_0_r, Z.mod_small in H0 by lia. rewrite H0 by lia. cbn [nth_error Z.to_nat bind].
  rewrite Hs. replace (len l + 1 =? 0) with false by lia. cbn [negb]. eexists. split; [reflexivity|]. split; [|reflexivity].
  assert (G : (if q_front q + 1 =? q_capacity q then 0 else q_front q + 1) = (q_front q + 1) mod q_capacity q).
  { destruct (Z.eqb_spec (q_front q + 1) (q_capacity q)) as [->|X]; [now rewrite Z.mod_same by lia|]. rewrite Z.mod_small; lia. }
  rewrite G. unfold qok, holds, next_rear. cbn. fold (next_rear q). split; [lia|]. split; [lia|]. split; [apply Z.mod_pos_bound; lia|].
  split.
  - rewrite Hr, Hs. rewrite Z.add_mod_idemp_l by lia. f_equal. lia.
  - split; [lia|]. split; [lia|]. intros i Hi. specialize (Hh (i + 1)). rewrite Z.add_mod_idemp_l by lia.
    replace (q_front q + 1 + i) with (q_front q + (i + 1)) by lia. rewrite Hh by lia. f_equal.
    replace (Z.to_nat (i + 1)) with (S (Z.to_nat i)) by lia. reflexivity.
Qed.
Lemma create_ok n : 0 < n -> qok (ws_create_queue n) [].
Proof.
  intros H. unfold qok, holds, next_rear, ws_create_queue. cbn. split; [lia|]. split.
  { unfold len. rewrite repeat_length. lia. }
  split; [lia|]. split; [|split; [reflexivity|split; [cbn; lia|intros i Hi; cbn in Hi; lia]]].
  destruct n; reflexivity || lia.
Qed.

(** ** The invariant *)
Definition worker_holds (w : wpc) : bool := match w with WLocked | WTaken _ => true | _ => false end.
Definition acc_holds (a : apc) : bool := match a with ALocked _ | AUnlock => true | _ => false end.
(** Who holds the mutex. *)
Definition mutex_ok (s : sys) : Prop :=
  (acc_holds (s_acc s) = true <-> s_mutex s = Some ByAcceptor)
  /\ forall k w, nth_error (s_workers s) k = Some w -> (worker_holds w = true <-> s_mutex s = Some (ByWorker k)).
Definition awakes (l : list wpc) : Z := len (filter (fun w => match w with WWantLock | WLocked | WWoken => true | _ => false end) l).
Definition transits (l : list wpc) : list Z := flat_map (fun w => match w with WTaken v => [v] | _ => [] end) l.
Arguments transits : simpl never.
Arguments awakes : simpl never.
Definition inv (cap : Z) (n : nat) (sched : list action) (st : list Z) (s : sys) : Prop :=
  exists l, qok (s_queue s) l /\ q_capacity (s_queue s) = cap /\ length (s_workers s) = n
    /\ mutex_ok s /\ g_taken s ++ l = g_pushed s /\ g_taken s = st ++ transits (s_workers s)
    /\ (exists m, merge m (g_pushed s) (g_dropped s) /\ arrivals sched = m ++ in_hand s)
    /\ g_denied s = rejected sched
    /\ (In WBlocked (s_workers s) -> len l <= awakes (s_workers s) + about_to_signal s).

Lemma transits_app a b : transits (a ++ b) = transits a ++ transits b.
Proof. apply flat_map_app. Qed.
Lemma transits_none a : Forall (fun w => worker_holds w = false) a -> transits a = [].
Proof. induction 1 as [|w a Hw _ IH]; [reflexivity|]. unfold transits in *. cbn. rewrite IH. destruct w; try reflexivity; discriminate. Qed.
Lemma awakes_app a b : awakes (a ++ b) = awakes a + awakes b.
Proof. unfold awakes. now rewrite filter_app, len_app. Qed.
Lemma awakes_cons w b : awakes (w :: b) = match w with WWantLock | WLocked | WWoken => 1 | _ => 0 end + awakes b.
Proof. unfold awakes. cbn [filter]. destruct w; rewrite ?len_cons; lia. Qed.
Lemma awakes_nonneg a : 0 <= awakes a.
Proof. apply len_nonneg. Qed.
Lemma arrivals_app a b : arrivals (a ++ b) = arrivals a ++ arrivals b.
Proof. apply flat_map_app. Qed.
Lemma rejected_app a b : rejected (a ++ b) = rejected a ++ rejected b.
Proof. apply flat_map_app. Qed.
Lemma no_blocked_spec l : no_blocked l = true -> ~ In WBlocked l.
Proof. unfold no_blocked. rewrite forallb_forall. intros H I. apply H in I. discriminate. Qed.
Lemma nth_swap {A} (a : list A) x y b j : nth_error (a ++ y :: b) j = if (j =? length a)%nat then Some y else nth_error (a ++ x :: b) j.
Proof.
  destruct (Nat.eqb_spec j (length a)) as [->|N].
  - rewrite nth_error_app2, Nat.sub_diag by lia. reflexivity.
  - destruct (le_lt_dec (length a) j).
    + rewrite !nth_error_app2 by lia. destruct (j - length a)%nat eqn:D; [lia|reflexivity].
    + now rewrite !nth_error_app1 by lia.
Qed.
Lemma holder_alone s a w b : mutex_ok s -> s_workers s = a ++ w :: b -> worker_holds w = true ->
  s_mutex s = Some (ByWorker (length a)) /\ transits a = [] /\ transits b = [].
Proof.
  intros [_ M] E Hw.
  assert (Hm : s_mutex s = Some (ByWorker (length a))).
  { apply (M (length a) w); auto. rewrite E, nth_error_app2, Nat.sub_diag by lia. reflexivity. }
  split; auto.
  assert (F : forall j w', nth_error (s_workers s) j = Some w' -> j <> length a -> worker_holds w' = false).
  { intros j w' Hj N. apply not_true_is_false. intros X. apply (M _ _ Hj) in X. congruence. }
  split; apply transits_none, Forall_forall; intros w' I; apply In_nth_error in I as (j & Hj).
  - apply (F j); [rewrite E, nth_error_app1; auto; apply nth_error_Some; congruence|].
    assert (j < length a)%nat by (apply nth_error_Some; congruence). lia.
  - apply (F (length a + S j)%nat); [|lia]. rewrite E, nth_error_app2 by lia. now replace (length a + S j - length a)%nat with (S j) by lia.
Qed.
(** Changing one worker. *)
Lemma mutex_same s s' a w w' b : mutex_ok s -> s_workers s = a ++ w :: b -> s_workers s' = a ++ w' :: b ->
  worker_holds w' = worker_holds w -> acc_holds (s_acc s') = acc_holds (s_acc s) -> s_mutex s' = s_mutex s -> mutex_ok s'.
Proof.
  intros [M1 M2] E E' Hw Ha Hm. split; [now rewrite Ha, Hm|]. intros j x. rewrite E', Hm, (nth_swap a w w').
  rewrite E in M2. destruct (Nat.eqb_spec j (length a)) as [->|N]; [|apply M2].
  intros X. inversion X; subst x. rewrite Hw. apply M2. rewrite nth_error_app2, Nat.sub_diag by lia. reflexivity.
Qed.
Lemma mutex_take s s' a w w' b : mutex_ok s -> s_workers s = a ++ w :: b -> s_workers s' = a ++ w' :: b ->
  s_mutex s = None -> worker_holds w' = true -> s_acc s' = s_acc s -> s_mutex s' = Some (ByWorker (length a)) -> mutex_ok s'.
Proof.
  intros [M1 M2] E E' Hn Hw Ha Hm. rewrite Hn in *. split.
  - rewrite Ha, Hm, M1. split; discriminate.
  - intros j x. rewrite E', Hm, (nth_swap a w w'). destruct (Nat.eqb_spec j (length a)) as [->|N].
    + intros X. inversion X; subst x. now rewrite Hw.
    + intros X. rewrite <- E in X. rewrite (M2 _ _ X). split; [discriminate|congruence].
Qed.
Lemma mutex_release s s' a w w' b : mutex_ok s -> s_workers s = a ++ w :: b -> s_workers s' = a ++ w' :: b ->
  worker_holds w = true -> worker_holds w' = false -> s_acc s' = s_acc s -> s_mutex s' = None -> mutex_ok s'.
Proof.
  intros M E E' Hw Hw' Ha Hm. destruct (holder_alone _ _ _ _ M E Hw) as (Hh & _). destruct M as [M1 M2]. rewrite Hh in *. split.
  - rewrite Ha, Hm, M1. split; discriminate.
  - intros j x. rewrite E', Hm, (nth_swap a w w'). destruct (Nat.eqb_spec j (length a)) as [->|N].
    + intros X. inversion X; subst x. rewrite Hw'. split; discriminate.
    + intros X. rewrite <- E in X. rewrite (M2 _ _ X). split; congruence.
Qed.

Lemma inv_init cap n : 0 < cap -> inv cap n [] [] (init cap n).
Proof.
  intros H. exists []. cbn. split; [now apply create_ok|]. split; [reflexivity|]. split; [apply repeat_length|].
  split. { split; cbn; [split; discriminate|]. intros k w X. apply nth_error_In, repeat_spec in X. subst. split; discriminate. }
  split; [reflexivity|]. split.
  { rewrite transits_none; [reflexivity|]. apply Forall_forall. intros w Hw. apply repeat_spec in Hw. now subst. }
  split; [exists []; split; [constructor|reflexivity]|].
  split; [reflexivity|]. intros I. apply repeat_spec in I. discriminate.
Qed.

(** Steps of the acceptor that leave the queue and the workers alone. *)
Lemma inv_step cap n sched st s a : inv cap n sched st s ->
  match step s a with
  | None => True
  | Some (UB _) => False
  | Some (Ok s') => inv cap n (sched ++ [a]) (st ++ entered (s_workers s) (s_workers s')) s'
  end.
Proof.
  intros (l & Q & Hcap & Hn & M & Ht & Hst & (m & Hm & Ha) & Hd & Hw).
  assert (Ws : forall k w, nth_error (s_workers s) k = Some w -> exists x y, s_workers s = x ++ w :: y /\ length x = k).
  { intros k w. apply nth_error_split. }
  assert (Adj : forall k x w y w', s_workers s = x ++ w :: y -> length x = k ->
     set_w (s_workers s) k w' = x ++ w' :: y /\ entered (s_workers s) (x ++ w' :: y)
        = match w, w' with WRunning _, _ => [] | _, WRunning v => [v] | _, _ => [] end
     /\ length (x ++ w' :: y) = n).
  { intros k x w y w' E <-. rewrite E in *. rewrite set_w_eq, entered_one. rewrite app_length in *. cbn [length] in *. auto. }
  (* actions other than accept *)
  assert (AR : arrivals [a] = [] -> arrivals (sched ++ [a]) = m ++ in_hand s).
  { intros X. now rewrite arrivals_app, X, app_nil_r. }
  assert (RJ : rejected [a] = [] -> g_denied s = rejected (sched ++ [a])).
  { intros X. now rewrite rejected_app, X, app_nil_r. }
  destruct a as [v [] | | | | k | k | k | k | k | k | k]; cbn [step].
  - (* accept, allowed *) destruct (s_acc s) eqn:A; auto. exists l. unfold with_acc. cbn. rewrite entered_same, app_nil_r.
    repeat (split; [assumption|]). split; [unfold mutex_ok in *; cbn; rewrite A in M; exact M|]. repeat (split; [assumption|]).
    split; [|split; [now apply RJ|]].
    + exists m. split; auto. unfold in_hand in *. rewrite A in Ha. cbn. rewrite arrivals_app, Ha, app_nil_r. reflexivity.
    + intros I. specialize (Hw I). unfold about_to_signal in *. rewrite A in Hw. exact Hw.
  - (* accept, denied *) destruct (s_acc s) eqn:A; auto. exists l. cbn. rewrite entered_same, app_nil_r.
    repeat (split; [assumption|]). split; [unfold mutex_ok in *; cbn; rewrite A in M; exact M|]. repeat (split; [assumption|]).
    split; [|split].
    + exists m. split; auto. rewrite (AR eq_refl). unfold in_hand in *. now rewrite A.
    + rewrite rejected_app, Hd. reflexivity.
    + intros I. specialize (Hw I). unfold about_to_signal in *. rewrite A in Hw. exact Hw.
  - (* lock by acceptor *) destruct (s_acc s) eqn:A; auto. destruct (s_mutex s) eqn:MM; auto. exists l. unfold with_acc. cbn. rewrite entered_same, app_nil_r.
    repeat (split; [assumption|]). split.
    { destruct M as [_ M]. split; cbn; [tauto|]. intros k w X. rewrite (M k w X), MM. split; discriminate. }
    repeat (split; [assumption|]). split; [|split; [now apply RJ|]].
    + exists m. split; auto. rewrite (AR eq_refl). unfold in_hand in *. now rewrite A.
    + intros I. specialize (Hw I). unfold about_to_signal in *. rewrite A in Hw. exact Hw.
  - (* push *) destruct (s_acc s) eqn:A; auto. destruct (push_ok _ _ s0 Q) as [P1 P2].
    assert (HL : len l <= q_capacity (s_queue s)) by (destruct Q as (_ & _ & _ & _ & (_ & X & _)); exact X).
    destruct (Z.eq_dec (len l) (q_capacity (s_queue s))) as [Fu|Fu].
    + rewrite (P1 Fu). cbn [bind]. exists l. cbn. rewrite entered_same, app_nil_r. repeat (split; [assumption|]).
      split; [unfold mutex_ok in *; cbn; rewrite A in M; exact M|]. repeat (split; [assumption|]). split; [|split; [now apply RJ|]].
      * exists (m ++ [s0]). split; [now apply m_right|]. rewrite (AR eq_refl). unfold in_hand in *. rewrite A. cbn. now rewrite app_nil_r.
      * intros I. specialize (Hw I). unfold about_to_signal in *. rewrite A in Hw. cbn [s_acc s_workers]. lia.
    + destruct P2 as (q' & E & Q' & C'); [lia|]. rewrite E. cbn [bind]. exists (l ++ [s0]). cbn. rewrite entered_same, app_nil_r.
      split; [assumption|]. split; [congruence|]. split; [assumption|].
      split; [unfold mutex_ok in *; cbn; rewrite A in M; exact M|]. split; [rewrite app_assoc; now rewrite Ht|]. split; [assumption|].
      split; [|split; [now apply RJ|]].
      * exists (m ++ [s0]). split; [now apply m_left|]. rewrite (AR eq_refl). unfold in_hand in *. rewrite A. cbn. now rewrite app_nil_r.
      * intros I. specialize (Hw I). unfold about_to_signal in *. rewrite A in Hw. cbn [s_acc s_workers]. rewrite len_app, len_cons, len_nil. lia.
  - (* unlock by acceptor *) destruct (s_acc s) eqn:A; auto. exists l. unfold with_acc. cbn. rewrite entered_same, app_nil_r.
    repeat (split; [assumption|]). split.
    { destruct M as [M1 M2]. rewrite A in M1. assert (X : s_mutex s = Some ByAcceptor) by now apply M1.
      split; cbn; [split; discriminate|]. intros k w Y. rewrite (M2 k w Y), X. split; discriminate. }
    repeat (split; [assumption|]). split; [|split; [now apply RJ|]].
    + exists m. split; auto. rewrite (AR eq_refl). unfold in_hand in *. now rewrite A.
    + intros I. specialize (Hw I). unfold about_to_signal in *. rewrite A in Hw. exact Hw.
  - (* signal *) destruct (s_acc s) eqn:A; auto.
    assert (Ha' : arrivals (sched ++ [DoSignal k]) = m ++ []) by (rewrite (AR eq_refl); unfold in_hand; now rewrite A).
    assert (No : no_blocked (s_workers s) = true -> inv cap n (sched ++ [DoSignal k]) (st ++ entered (s_workers s) (s_workers s)) (with_acc s (s_mutex s) AAccept)).
    { intros NB. exists l. unfold with_acc. cbn. rewrite entered_same, app_nil_r. repeat (split; [assumption|]).
      split; [unfold mutex_ok in *; cbn; rewrite A in M; exact M|]. repeat (split; [assumption|]). split; [eauto|]. split; [now apply RJ|].
      intros I. now apply no_blocked_spec in NB. }
    destruct (nth_error (s_workers s) k) as [[]|] eqn:N;
      try (destruct (no_blocked (s_workers s)); auto; unfold with_acc in *; cbn; auto; fail).
    destruct (Ws _ _ N) as (x & y & E & Hk). destruct (Adj _ _ _ _ WWoken E Hk) as (S1 & S2 & S3). rewrite S1. exists l. cbn. rewrite S2, app_nil_r.
    split; [assumption|]. split; [assumption|]. split; [assumption|]. split; [apply (mutex_same s _ x WBlocked WWoken y); auto; cbn; now rewrite A|].
    split; [assumption|]. split. { rewrite Hst, E, !transits_app. reflexivity. } split; [eauto|]. split; [now apply RJ|].
    intros I. rewrite E in Hw. rewrite awakes_app, awakes_cons in *. unfold about_to_signal in *. rewrite A in Hw. cbn [s_acc s_workers].
    specialize (Hw ltac:(apply in_or_app; right; now left)). lia.
  - (* lock by worker *) destruct (nth_error (s_workers s) k) as [[]|] eqn:N; auto. destruct (s_mutex s) eqn:MM; auto.
    destruct (Ws _ _ N) as (x & y & E & Hk). destruct (Adj _ _ _ _ WLocked E Hk) as (S1 & S2 & S3). unfold with_worker. rewrite S1. exists l. cbn. rewrite S2, app_nil_r.
    split; [assumption|]. split; [assumption|]. split; [assumption|]. split; [eapply mutex_take; eauto; cbn; now subst|].
    split; [assumption|]. split. { rewrite Hst, E, !transits_app. reflexivity. } split; [eauto|]. split; [now apply RJ|].
    intros I. rewrite E in Hw. rewrite awakes_app, awakes_cons in *. apply Hw.
    apply in_app_or in I as [I|[I|I]]; [apply in_or_app; auto|discriminate|apply in_or_app; right; now right].
  - (* check *) destruct (nth_error (s_workers s) k) as [[]|] eqn:N; auto. destruct (Ws _ _ N) as (x & y & E & Hk).
    destruct (holder_alone s x WLocked y M E eq_refl) as (Hh & Tx & Ty).
    assert (Hs : q_size (s_queue s) = len l) by (destruct Q as (_ & _ & _ & _ & (X & _)); exact X).
    destruct (Z.eqb_spec (q_size (s_queue s)) 0) as [Z0|Z0].
    + destruct (Adj _ _ _ _ WBlocked E Hk) as (S1 & S2 & S3). unfold with_worker. rewrite S1. exists l. cbn. rewrite S2, app_nil_r.
      split; [assumption|]. split; [assumption|]. split; [assumption|]. split; [apply (mutex_release s _ x WLocked WBlocked y); auto|].
      split; [assumption|]. split. { rewrite Hst, E, !transits_app. reflexivity. } split; [eauto|]. split; [now apply RJ|].
      intros _. pose proof (awakes_nonneg (x ++ WBlocked :: y)). unfold about_to_signal. cbn [s_acc s_workers]. destruct (s_acc s); lia.
    + destruct l as [|v l]; [rewrite len_nil in Hs; congruence|]. destruct (pop_ok _ _ _ Q) as (q' & EP & Q' & C'). rewrite EP. cbn [bind].
      destruct (Adj _ _ _ _ (WTaken v) E Hk) as (S1 & S2 & S3). rewrite S1. exists l. cbn. rewrite S2, app_nil_r.
      split; [assumption|]. split; [congruence|]. split; [assumption|]. split; [apply (mutex_same s _ x WLocked (WTaken v) y); auto|].
      split; [rewrite <- app_assoc; exact Ht|]. split.
      { rewrite Hst, E, !transits_app. change (transits (WLocked :: y)) with (transits y). change (transits (WTaken v :: y)) with (v :: transits y).
        rewrite Tx, Ty. cbn. now rewrite app_nil_r. }
      split; [eauto|]. split; [now apply RJ|]. intros I. rewrite E in Hw. rewrite awakes_app, awakes_cons in *.
      assert (I' : In WBlocked (x ++ WLocked :: y)).
      { apply in_app_or in I as [I|[I|I]]; [apply in_or_app; auto|discriminate|apply in_or_app; right; now right]. }
      specialize (Hw I'). rewrite len_cons in Hw. unfold about_to_signal in *. cbn [s_acc s_workers]. lia.
  - (* unlock by worker *) destruct (nth_error (s_workers s) k) as [[]|] eqn:N; auto. destruct (Ws _ _ N) as (x & y & E & Hk).
    destruct (holder_alone s x (WTaken s0) y M E eq_refl) as (Hh & Tx & Ty).
    destruct (Adj _ _ _ _ (WRunning s0) E Hk) as (S1 & S2 & S3). unfold with_worker. rewrite S1. exists l. cbn. rewrite S2.
    split; [assumption|]. split; [assumption|]. split; [assumption|]. split; [apply (mutex_release s _ x (WTaken s0) (WRunning s0) y); auto|].
    split; [assumption|]. split.
    { rewrite Hst, E, !transits_app. change (transits (WRunning s0 :: y)) with (transits y). change (transits (WTaken s0 :: y)) with (s0 :: transits y).
      rewrite Tx, Ty. cbn. now rewrite app_nil_r. }
    split; [eauto|]. split; [now apply RJ|]. intros I. rewrite E in Hw. rewrite awakes_app, awakes_cons in *. apply Hw.
    apply in_app_or in I as [I|[I|I]]; [apply in_or_app; auto|discriminate|apply in_or_app; right; now right].
  - (* spurious wake-up *) destruct (nth_error (s_workers s) k) as [[]|] eqn:N; auto. destruct (Ws _ _ N) as (x & y & E & Hk).
    destruct (Adj _ _ _ _ WWoken E Hk) as (S1 & S2 & S3). unfold with_worker. rewrite S1. exists l. cbn. rewrite S2, app_nil_r.
    split; [assumption|]. split; [assumption|]. split; [assumption|]. split; [apply (mutex_same s _ x WBlocked WWoken y); auto|].
    split; [assumption|]. split. { rewrite Hst, E, !transits_app. reflexivity. } split; [eauto|]. split; [now apply RJ|].
    intros I. rewrite E in Hw. rewrite awakes_app, awakes_cons in *. unfold about_to_signal in *. cbn [s_acc s_workers].
    specialize (Hw ltac:(apply in_or_app; right; now left)). lia.
  - (* relock *) destruct (nth_error (s_workers s) k) as [[]|] eqn:N; auto. destruct (s_mutex s) eqn:MM; auto.
    destruct (Ws _ _ N) as (x & y & E & Hk). destruct (Adj _ _ _ _ WLocked E Hk) as (S1 & S2 & S3). unfold with_worker. rewrite S1. exists l. cbn. rewrite S2, app_nil_r.
    split; [assumption|]. split; [assumption|]. split; [assumption|]. split; [eapply mutex_take; eauto; cbn; now subst|].
    split; [assumption|]. split. { rewrite Hst, E, !transits_app. reflexivity. } split; [eauto|]. split; [now apply RJ|].
    intros I. rewrite E in Hw. rewrite awakes_app, awakes_cons in *. apply Hw.
    apply in_app_or in I as [I|[I|I]]; [apply in_or_app; auto|discriminate|apply in_or_app; right; now right].
  - (* finish *) destruct (nth_error (s_workers s) k) as [[]|] eqn:N; auto. destruct (Ws _ _ N) as (x & y & E & Hk).
    destruct (Adj _ _ _ _ WWantLock E Hk) as (S1 & S2 & S3). unfold with_worker. rewrite S1. exists l. cbn. rewrite S2, app_nil_r.
    split; [assumption|]. split; [assumption|]. split; [assumption|]. split; [apply (mutex_same s _ x (WRunning s0) WWantLock y); auto|].
    split; [assumption|]. split. { rewrite Hst, E, !transits_app. reflexivity. } split; [eauto|]. split; [now apply RJ|].
    intros I. rewrite E in Hw. rewrite awakes_app, awakes_cons in *. unfold about_to_signal in *. cbn [s_acc s_workers].
    assert (I' : In WBlocked (x ++ WRunning s0 :: y)).
    { apply in_app_or in I as [I|[I|I]]; [apply in_or_app; auto|discriminate|apply in_or_app; right; now right]. }
    specialize (Hw I'). lia.
Qed.
Lemma inv_run cap n sched2 : forall sched1 st s, inv cap n sched1 st s ->
  match run s sched2 with
  | None => True
  | Some (UB _) => False
  | Some (Ok s') => inv cap n (sched1 ++ sched2) (st ++ started s sched2) s'
  end.
Proof.
  induction sched2 as [|a sched2 IH]; intros sched1 st s I.
  - cbn. now rewrite !app_nil_r.
  - cbn [run started]. pose proof (inv_step _ _ _ _ _ a I) as H. destruct (step s a) as [[s'|u]|]; auto.
    specialize (IH _ _ _ H). destruct (run s' sched2) as [[s''|]|]; auto. rewrite <- !app_assoc in IH. exact IH.
Qed.

(** ** Progress *)
Definition internal (a : action) : Prop :=
  match a with DoAccept _ _ | DoFinish _ | DoSpurious _ => False | _ => True end.
Definition progress (s : sys) : Prop :=
  exists sched s', Forall internal sched /\ run s sched = Some (Ok s') /\ started s sched <> [].
Lemma progress_step s a s1 : step s a = Some (Ok s1) -> internal a -> progress s1 -> progress s.
Proof.
  intros E I (sched & s' & F & R & S). exists (a :: sched), s'. split; [now constructor|].
  cbn [run started]. rewrite E. split; auto. intros X. apply app_eq_nil in X as [_ X]. auto.
Qed.
Lemma nth_set k l w w' : nth_error l k = Some w -> nth_error (set_w l k w') k = Some w'.
Proof.
  intros H. apply nth_error_split in H as (a & b & -> & <-). rewrite set_w_eq, nth_error_app2, Nat.sub_diag by lia. reflexivity.
Qed.
Lemma progress_taken s k v : nth_error (s_workers s) k = Some (WTaken v) -> progress s.
Proof.
  intros H. exists [DoUnlockW k]. eexists. split; [constructor; [exact I|constructor]|]. cbn [run started step]. rewrite H.
  split; [reflexivity|]. cbn. apply nth_error_split in H as (a & b & -> & <-). rewrite set_w_eq, entered_one. discriminate.
Qed.
Lemma progress_locked cap n sched st s k : inv cap n sched st s -> q_size (s_queue s) <> 0 ->
  nth_error (s_workers s) k = Some WLocked -> progress s.
Proof.
  intros Hi Hz H. pose proof (inv_step _ _ _ _ _ (DoCheck k) Hi) as St. cbn [step] in St. rewrite H in St.
  apply Z.eqb_neq in Hz. rewrite Hz in St. destruct (pop (s_queue s)) as [[v q]|] eqn:P; cbn [bind] in St; [|destruct St].
  eapply (progress_step s (DoCheck k)); [|exact I|].
  - cbn [step]. rewrite H, Hz, P. reflexivity.
  - apply (progress_taken _ k v). cbn. eapply nth_set; eauto.
Qed.
Lemma progress_free cap n sched st s : inv cap n sched st s -> 0 < q_size (s_queue s) -> s_mutex s = None ->
  (exists w, In w (s_workers s) /\ forall v, w <> WRunning v) -> progress s.
Proof.
  intros Hi Hz Hm (w & Hin & Hw).
  assert (G : forall s1 sched1 st1 k, inv cap n sched1 st1 s1 -> 0 < q_size (s_queue s1) -> s_mutex s1 = None ->
     nth_error (s_workers s1) k = Some WWantLock \/ nth_error (s_workers s1) k = Some WWoken -> progress s1).
  { clear. intros s sched st k Hi Hz Hm [H|H].
    - pose proof (inv_step _ _ _ _ _ (DoLockW k) Hi) as St. cbn [step] in St. rewrite H, Hm in St.
      eapply (progress_step s (DoLockW k)); [cbn [step]; rewrite H, Hm; reflexivity|exact I|].
      eapply progress_locked; [exact St|cbn; lia|cbn; eapply nth_set; eauto].
    - pose proof (inv_step _ _ _ _ _ (DoRelock k) Hi) as St. cbn [step] in St. rewrite H, Hm in St.
      eapply (progress_step s (DoRelock k)); [cbn [step]; rewrite H, Hm; reflexivity|exact I|].
      eapply progress_locked; [exact St|cbn; lia|cbn; eapply nth_set; eauto]. }
  destruct Hi as (l & Q & Hcap & Hn & M & Ht & Hst & Hm' & Hd & Hb) eqn:EHi. clear EHi.
  assert (Hi' : inv cap n sched st s) by (exists l; repeat (split; [assumption|]); assumption).
  assert (NH : forall x, In x (s_workers s) -> worker_holds x = false).
  { intros x Hx. apply In_nth_error in Hx as (j & Hj). apply not_true_is_false. intros X. destruct M as [_ M]. apply (M _ _ Hj) in X. congruence. }
  assert (NA : acc_holds (s_acc s) = false).
  { apply not_true_is_false. intros X. destruct M as [M _]. apply M in X. congruence. }
  assert (D : (exists x, In x (s_workers s) /\ (x = WWantLock \/ x = WWoken)) \/ awakes (s_workers s) = 0).
  { clear - NH. induction (s_workers s) as [|x t IH]; [right; reflexivity|]. destruct IH as [(y & Hy & Hy')|E].
    - intros z Hz. apply NH. now right.
    - left. exists y. split; auto. now right.
    - specialize (NH x (or_introl eq_refl)). destruct x; cbn in NH; try discriminate;
        try (left; eexists; split; [now left|auto]; fail); right; rewrite awakes_cons, E; reflexivity. }
  destruct D as [(x & Hx & Hx')|D].
  - apply In_nth_error in Hx as (k & Hk). apply (G s sched st k Hi'); auto. destruct Hx' as [-> | ->]; auto.
  - assert (w = WBlocked).
    { specialize (NH w Hin). destruct w; cbn in NH; try discriminate; auto; exfalso.
      - apply in_split in Hin as (a & b & E). rewrite E, awakes_app, awakes_cons in D. pose proof (awakes_nonneg a). pose proof (awakes_nonneg b). lia.
      - apply in_split in Hin as (a & b & E). rewrite E, awakes_app, awakes_cons in D. pose proof (awakes_nonneg a). pose proof (awakes_nonneg b). lia.
      - now apply (Hw s0). }
    subst w. specialize (Hb Hin). rewrite D in Hb. assert (Hs : q_size (s_queue s) = len l) by (destruct Q as (_ & _ & _ & _ & (X & _)); exact X).
    unfold about_to_signal in Hb. destruct (s_acc s) eqn:A; try lia; [discriminate|].
    apply In_nth_error in Hin as (k & Hk).
    pose proof (inv_step _ _ _ _ _ (DoSignal k) Hi') as St. cbn [step] in St. rewrite A, Hk in St.
    eapply (progress_step s (DoSignal k)); [cbn [step]; rewrite A, Hk; reflexivity|exact I|].
    eapply (G _ _ _ k); [exact St|cbn; lia|cbn; auto|]. right. cbn. eapply nth_set; eauto.
Qed.
(** The owner of the mutex exists. *)
Definition owner_exists (s : sys) : Prop := forall k, s_mutex s = Some (ByWorker k) -> (k < length (s_workers s))%nat.
Lemma set_w_length l k w x : nth_error l k = Some x -> length (set_w l k w) = length l.
Proof. intros H. apply nth_error_split in H as (a & b & -> & <-). rewrite set_w_eq, !app_length. reflexivity. Qed.
Lemma owner_step s a s' : owner_exists s -> step s a = Some (Ok s') -> owner_exists s'.
Proof.
  intros O E. assert (B : forall k w, nth_error (s_workers s) k = Some w -> (k < length (s_workers s))%nat).
  { intros k w H. apply nth_error_Some. congruence. }
  unfold owner_exists in *.
  destruct a as [v [] | | | | k | k | k | k | k | k | k]; cbn [step] in E;
    repeat match type of E with
    | context [match ?x with _ => _ end] => destruct x eqn:?; try discriminate
    end;
    repeat match type of E with
    | Some (bind ?x _) = _ => destruct x as [[? ?]|] eqn:?; cbn [bind] in E; try discriminate
    end;
    inversion E; subst s'; cbn; intros j Hj; try discriminate; auto;
    try (inversion Hj; subst); erewrite set_w_length by eauto; eauto.
Qed.
Lemma owner_run sched : forall s s', owner_exists s -> run s sched = Some (Ok s') -> owner_exists s'.
Proof.
  induction sched as [|a sched IH]; intros s s' O R; cbn [run] in R; [now inversion R; subst|].
  destruct (step s a) as [[s1|]|] eqn:E; try discriminate. eapply IH; [|exact R]. eapply owner_step; eauto.
Qed.
Lemma owner_init cap n : owner_exists (init cap n).
Proof. intros k H. discriminate. Qed.
Lemma progress_ok cap n sched st s : inv cap n sched st s -> owner_exists s -> 0 < q_size (s_queue s) ->
  (exists w, In w (s_workers s) /\ forall v, w <> WRunning v) -> progress s.
Proof.
  intros Hi O Hz Hw.
  assert (Hi' := Hi). destruct Hi' as (l & Q & _ & _ & [M1 M2] & _).
  assert (U : forall s sched st, inv cap n sched st s -> 0 < q_size (s_queue s) ->
    (exists w, In w (s_workers s) /\ forall v, w <> WRunning v) -> s_acc s = AUnlock -> progress s).
  { clear. intros s sched st Hi Hz Hw A. pose proof (inv_step _ _ _ _ _ DoUnlockA Hi) as St. cbn [step] in St. rewrite A in St.
    eapply (progress_step s DoUnlockA); [cbn [step]; rewrite A; reflexivity|exact I|].
    eapply progress_free; [exact St|cbn; lia|reflexivity|exact Hw]. }
  destruct (s_mutex s) as [[|k]|] eqn:Hm.
  - assert (A : acc_holds (s_acc s) = true) by now apply M1. destruct (s_acc s) eqn:A'; try discriminate.
    + pose proof (inv_step _ _ _ _ _ DoPush Hi) as St. cbn [step] in St. rewrite A' in St.
      destruct (push_ok _ _ s0 Q) as [P1 P2].
      assert (HL : len l <= q_capacity (s_queue s)) by (destruct Q as (_ & _ & _ & _ & (_ & X & _)); exact X).
      assert (Hs : q_size (s_queue s) = len l) by (destruct Q as (_ & _ & _ & _ & (X & _)); exact X).
      destruct (Z.eq_dec (len l) (q_capacity (s_queue s))) as [Fu|Fu].
      * rewrite (P1 Fu) in St. cbn [bind] in St.
        eapply (progress_step s DoPush); [cbn [step]; rewrite A', (P1 Fu); reflexivity|exact I|].
        eapply U; [exact St|cbn; lia|exact Hw|reflexivity].
      * destruct P2 as (q' & E & Q' & _); [lia|]. rewrite E in St. cbn [bind] in St.
        eapply (progress_step s DoPush); [cbn [step]; rewrite A', E; reflexivity|exact I|].
        eapply U; [exact St| |exact Hw|reflexivity]. cbn. destruct Q' as (_ & _ & _ & _ & (X & _)). rewrite X, len_app, len_cons, len_nil. lia.
    + eapply U; eauto.
  - destruct (nth_error (s_workers s) k) as [w|] eqn:N.
    + assert (worker_holds w = true) by (now apply (M2 _ _ N)). destruct w; try discriminate.
      * eapply progress_locked; eauto. lia.
      * eapply progress_taken; eauto.
    + exfalso. apply nth_error_None in N. specialize (O _ Hm). lia.
  - eapply progress_free; eauto.
Qed.

(** Calendar_proofs.v - the calendar of Time.v counts days correctly. *)
From Coq Require Import Znumtheory.
From Verif Require Import Time Lemmas SpecTime Spec.

Ltac inv H := inversion H; subst; clear H.

(** ** The calendar *)
Definition date_of (n : Z) : date := let '(y, m, d) := civil n in mkDate y m d.
(** Within an era. *)
Definition in_era (doe : Z) : Z * Z * Z :=
  let yoe := (doe - doe / 1460 + doe / 36524 - doe / 146096) / 365 in
  let doy := doe - (365 * yoe + yoe / 4 - yoe / 100) in
  let mp := (5 * doy + 2) / 153 in
  let d := doy - (153 * mp + 2) / 5 + 1 in
  let m := if mp <? 10 then mp + 3 else mp - 9 in
  (yoe + (if m <=? 2 then 1 else 0), m, d).
Lemma civil_era : forall n, civil n = let '(y, m, d) := in_era ((n + 719468) mod 146097) in (y + (n + 719468) / 146097 * 400, m, d).
Proof. intros n. unfold civil, in_era. cbv zeta. f_equal. f_equal. lia. Qed.

Definition leapb (y : Z) : bool := (y mod 4 =? 0) && (negb (y mod 100 =? 0) || (y mod 400 =? 0)).
Lemma leapb_iff : forall y, leapb y = true <-> leap y.
Proof.
  intros y. unfold leapb, leap. rewrite andb_true_iff, orb_true_iff, negb_true_iff, !Z.eqb_eq, Z.eqb_neq.
  rewrite !Z.mod_divide by lia. tauto.
Qed.
Definition mlen (y m : Z) : Z :=
  if m =? 2 then if leapb y then 29 else 28
  else if (m =? 4) || (m =? 6) || (m =? 9) || (m =? 11) then 30 else 31.
Lemma mlen_length : forall y m, 1 <= m <= 12 -> month_length y m (mlen y m).
Proof.
  intros y m H. unfold mlen. destruct (Z.eqb_spec m 2) as [->|N].
  - destruct (leapb y) eqn:E; [apply ml_29; now apply leapb_iff|apply ml_28]. rewrite <- leapb_iff, E. discriminate.
  - destruct (Z.eqb_spec m 4), (Z.eqb_spec m 6), (Z.eqb_spec m 9), (Z.eqb_spec m 11); cbn [orb]; try (apply ml_30; cbn; lia).
    apply ml_31. cbn. lia.
Qed.
Lemma month_length_fun : forall y m n n', month_length y m n -> month_length y m n' -> n = n'.
Proof. intros y m n n' H H'. inv H; inv H'; cbn in *; try tauto; lia. Qed.
Lemma month_length_range : forall y m n, month_length y m n -> 1 <= m <= 12 /\ 28 <= n <= 31.
Proof. intros y m n H. inv H; cbn in *; lia. Qed.

Definition next_ok (a b : Z * Z * Z) : bool :=
  let '(y, m, d) := a in
  let '(y', m', d') := b in
  (1 <=? m) && (m <=? 12) && (1 <=? d)
  && if d <? mlen y m then (y' =? y) && (m' =? m) && (d' =? d + 1)
     else (d =? mlen y m) && (d' =? 1)
          && if m <? 12 then (y' =? y) && (m' =? m + 1) else (y' =? y + 1) && (m' =? 1).
Lemma leapb_shift : forall y k, leapb (y + k * 400) = leapb y.
Proof.
  intros y k. unfold leapb. replace ((y + k * 400) mod 400) with (y mod 400) by (now rewrite Z.mod_add by lia).
  replace (y + k * 400) with (y + k * 100 * 4) by lia. rewrite Z.mod_add by lia.
  replace (y + k * 100 * 4) with (y + k * 4 * 100) by lia. now rewrite Z.mod_add by lia.
Qed.
Lemma next_ok_tomorrow : forall y m d y' m' d' k, next_ok (y, m, d) (y', m', d') = true ->
  tomorrow (mkDate (y + k * 400) m d) (mkDate (y' + k * 400) m' d').
Proof.
  intros y m d y' m' d' k H. unfold next_ok in H. rewrite !andb_true_iff, !Z.leb_le in H. destruct H as [[[H1 H2] H3] H].
  assert (M : mlen (y + k * 400) m = mlen y m) by (unfold mlen; now rewrite leapb_shift).
  destruct (Z.ltb_spec d (mlen y m)).
  - rewrite !andb_true_iff, !Z.eqb_eq in H. destruct H as [[-> ->] ->].
    eapply to_day; [apply mlen_length; lia|]. lia.
  - rewrite !andb_true_iff, !Z.eqb_eq in H. destruct H as [[E1 ->] H]. destruct (Z.ltb_spec m 12).
    + rewrite !andb_true_iff, !Z.eqb_eq in H. destruct H as [-> ->]. subst d. rewrite <- M. apply to_month; [apply mlen_length; lia|lia].
    + rewrite !andb_true_iff, !Z.eqb_eq in H. destruct H as [-> ->]. assert (m = 12) by lia. subst m d.
      change (mlen y 12) with 31. replace (y + 1 + k * 400) with (y + k * 400 + 1) by lia. apply to_year.
Qed.
(** Every day of an era is followed by the next. *)
Fixpoint chain (n : nat) (d : Z) (here : Z * Z * Z) : bool :=
  match n with
  | O => true
  | S k => let there := in_era (d + 1) in next_ok here there && chain k (d + 1) there
  end.
Lemma chain_at : forall n d x, chain n d (in_era d) = true -> d <= x < d + Z.of_nat n -> next_ok (in_era x) (in_era (x + 1)) = true.
Proof.
  induction n as [|n IH]; intros d x H Hx; [lia|]. cbn [chain] in H. apply andb_true_iff in H as [H0 H].
  destruct (Z.eq_dec x d) as [->|N]; [exact H0|]. apply (IH (d + 1) x H). lia.
Qed.
Lemma era_steps : chain (Z.to_nat 146096) 0 (in_era 0) = true.
Proof. vm_compute. reflexivity. Qed.
Lemma era_last : next_ok (in_era 146096) (let '(y, m, x) := in_era 0 in (y + 400, m, x)) = true.
Proof. vm_compute. reflexivity. Qed.

Lemma date_next : forall n, tomorrow (date_of n) (date_of (n + 1)).
Proof.
  intros n. unfold date_of. rewrite !civil_era.
  set (z := n + 719468). replace (n + 1 + 719468) with (z + 1) by lia.
  pose proof (Z.mod_pos_bound z 146097 eq_refl) as B.
  destruct (Z.eq_dec (z mod 146097) 146096) as [E|N].
  - assert (E1 : (z + 1) mod 146097 = 0 /\ (z + 1) / 146097 = z / 146097 + 1).
    { pose proof (Z.div_mod z 146097). assert (X : z + 1 = (z / 146097 + 1) * 146097) by lia. rewrite X, Z.mod_mul, Z.div_mul by lia. lia. }
    pose proof era_last as S. destruct E1 as [-> ->]. rewrite E. destruct (in_era 146096) as [[y m] d]. destruct (in_era 0) as [[y' m'] d'].
    replace (y' + (z / 146097 + 1) * 400) with (y' + 400 + z / 146097 * 400) by lia. now apply next_ok_tomorrow.
  - assert (E1 : (z + 1) mod 146097 = z mod 146097 + 1 /\ (z + 1) / 146097 = z / 146097).
    { pose proof (Z.div_mod z 146097). assert (X : z + 1 = z mod 146097 + 1 + z / 146097 * 146097) by lia.
      rewrite X at 1 2. rewrite Z.mod_add, Z.div_add by lia. rewrite Z.mod_small, Z.div_small by lia. lia. }
    assert (S : next_ok (in_era (z mod 146097)) (in_era (z mod 146097 + 1)) = true) by (apply (chain_at _ 0 _ era_steps); rewrite Z2Nat.id; lia).
    destruct E1 as [-> ->]. destruct (in_era (z mod 146097)) as [[y m] d]. destruct (in_era (z mod 146097 + 1)) as [[y' m'] d'].
    now apply next_ok_tomorrow.
Qed.
Lemma date_epoch : date_of 0 = mkDate 1970 1 1.
Proof. reflexivity. Qed.

Lemma tomorrow_fun : forall x y y', tomorrow x y -> tomorrow x y' -> y = y'.
Proof.
  intros x y y' H H'. inv H; inv H'; try reflexivity;
    repeat match goal with A : month_length ?y ?m ?n, B : month_length ?y ?m ?n' |- _ => pose proof (month_length_fun _ _ _ _ A B); clear B; subst end; try lia.
  all: assert (X : month_length y0 12 31) by (apply ml_31; cbn; tauto); match goal with A : month_length _ 12 ?n, B : _ < ?n |- _ => pose proof (month_length_fun _ _ _ _ X A) | A : month_length _ 12 ?n, B : _ <= _ < ?n |- _ => pose proof (month_length_fun _ _ _ _ A X); subst end; lia.
Qed.
Lemma tomorrow_inj : forall x x' y, tomorrow x y -> tomorrow x' y -> x = x'.
Proof.
  intros x x' y H H'. inv H; inv H';
    repeat match goal with A : month_length _ _ _ |- _ => pose proof (month_length_range _ _ _ A); revert A end; intros; try lia.
  - f_equal. lia.
  - assert (m = m0) by lia. subst m0. f_equal. eapply month_length_fun; eauto.
  - f_equal. lia.
Qed.
Lemma on_day_date : forall n x, on_day n x -> x = date_of n.
Proof.
  intros n x H. induction H as [|n x y H IH T|n x y H IH T].
  - symmetry. apply date_epoch.
  - subst x. eapply tomorrow_fun; [exact T|apply date_next].
  - subst y. eapply tomorrow_inj; [exact T|]. pose proof (date_next (n - 1)) as X. now replace (n - 1 + 1) with n in X by lia.
Qed.
Lemma date_on_day : forall n, on_day n (date_of n).
Proof.
  assert (P : forall k, on_day (Z.of_nat k) (date_of (Z.of_nat k))).
  { induction k as [|k IH]; [change (Z.of_nat 0) with 0; rewrite date_epoch; constructor|]. rewrite Nat2Z.inj_succ. unfold Z.succ. eapply od_after; [exact IH|apply date_next]. }
  assert (M : forall k, on_day (- Z.of_nat k) (date_of (- Z.of_nat k))).
  { induction k as [|k IH]; [change (- Z.of_nat 0) with 0; rewrite date_epoch; constructor|]. replace (- Z.of_nat (S k)) with (- Z.of_nat k - 1) by lia.
    eapply od_before; [exact IH|]. pose proof (date_next (- Z.of_nat k - 1)) as X. now replace (- Z.of_nat k - 1 + 1) with (- Z.of_nat k) in X by lia. }
  intros n. destruct (Z_le_dec 0 n); [specialize (P (Z.to_nat n))|specialize (M (Z.to_nat (- n)))]; rewrite Z2Nat.id in * by lia; auto.
  now rewrite Z.opp_involutive in M.
Qed.
Lemma on_day_unique : forall n x y, on_day n x -> on_day n y -> x = y.
Proof. intros n x y H H'. now rewrite (on_day_date _ _ H), (on_day_date _ _ H'). Qed.

Definition rank (x : date) : Z := d_year x * 500 + d_month x * 35 + d_day x.
Lemma tomorrow_rank : forall x y, tomorrow x y -> rank x < rank y.
Proof.
  intros x y H. unfold rank. inv H; cbn [d_year d_month d_day]; try lia.
  match goal with A : month_length _ _ _ |- _ => pose proof (month_length_range _ _ _ A) end. lia.
Qed.
Lemma rank_lt : forall n k, n < k -> rank (date_of n) < rank (date_of k).
Proof.
  intros n k H. replace k with (n + 1 + Z.of_nat (Z.to_nat (k - n - 1))) by lia. generalize (Z.to_nat (k - n - 1)) as j.
  induction j as [|j IH].
  - rewrite Z.add_0_r. apply tomorrow_rank, date_next.
  - eapply Z.lt_trans; [exact IH|]. replace (n + 1 + Z.of_nat (S j)) with (n + 1 + Z.of_nat j + 1) by lia. apply tomorrow_rank, date_next.
Qed.
Lemma on_day_inj : forall n k x, on_day n x -> on_day k x -> n = k.
Proof.
  intros n k x H H'. apply on_day_date in H, H'. destruct (Z.lt_total n k) as [L|[L|L]]; auto; apply rank_lt in L; congruence || (rewrite <- H, <- H' in L; lia).
Qed.
Lemma tomorrow_range : forall x y, tomorrow x y -> 1 <= d_month x <= 12 /\ 1 <= d_day x <= 31.
Proof.
  intros x y T. inv T; cbn [d_month d_day];
    try match goal with A : month_length _ _ _ |- _ => pose proof (month_length_range _ _ _ A) end; lia.
Qed.
Lemma date_range : forall n, 1 <= d_month (date_of n) <= 12 /\ 1 <= d_day (date_of n) <= 31.
Proof. intros n. exact (tomorrow_range _ _ (date_next n)). Qed.
(** The year of a day. *)
Lemma rank_year : forall x y, 1 <= d_month x <= 12 -> 1 <= d_day x <= 31 -> 1 <= d_month y <= 12 -> 1 <= d_day y <= 31 ->
  rank x <= rank y -> d_year x <= d_year y.
Proof. unfold rank. lia. Qed.
Lemma year_le : forall n k, n <= k -> d_year (date_of n) <= d_year (date_of k).
Proof.
  intros n k H. destruct (Z.eq_dec n k) as [->|N]; [lia|]. pose proof (rank_lt n k).
  destruct (date_range n), (date_range k). apply rank_year; auto. lia.
Qed.

(** Time_proofs.v - proofs about Time.v. *)
From Verif Require Import Time Lemmas JsonUtils_proofs HttpUtils_proofs Log_proofs Calendar_proofs SpecJson SpecHttp SpecTime Spec.

(** ** gmtime *)
Lemma clock_at : forall t, clock t (date_of (t / 86400)) (t mod 86400 / 3600) (t mod 86400 / 60 mod 60) (t mod 86400 mod 60).
Proof.
  intros t. exists (t / 86400). split; [apply date_on_day|].
  pose proof (Z.div_mod t 86400). pose proof (Z.mod_pos_bound t 86400). set (s := t mod 86400) in *.
  pose proof (Z.div_mod s 60). pose proof (Z.mod_pos_bound s 60). pose proof (Z.div_mod (s / 60) 60). pose proof (Z.mod_pos_bound (s / 60) 60).
  rewrite Z.div_div in H3 by lia. change (60 * 60) with 3600 in H3. lia.
Qed.
Lemma clock_eq : forall t x h m s, clock t x h m s ->
  x = date_of (t / 86400) /\ h = t mod 86400 / 3600 /\ m = t mod 86400 / 60 mod 60 /\ s = t mod 86400 mod 60.
Proof.
  intros t x h m s (n & D & -> & Hh & Hm & Hs).
  assert (E : (n * 86400 + h * 3600 + m * 60 + s) / 86400 = n /\ (n * 86400 + h * 3600 + m * 60 + s) mod 86400 = h * 3600 + m * 60 + s).
  { split; symmetry; [apply Z.div_unique with (r := h * 3600 + m * 60 + s)|apply Z.mod_unique with (q := n)]; lia. }
  destruct E as [-> ->]. split; [now apply on_day_date|].
  assert (E : (h * 3600 + m * 60 + s) / 60 = h * 60 + m) by (symmetry; apply Z.div_unique with (r := s); lia). rewrite E.
  split; [apply Z.div_unique with (r := m * 60 + s); lia|]. split; [apply Z.mod_unique with (q := h); lia|].
  apply Z.mod_unique with (q := h * 60 + m); lia.
Qed.
Lemma clock_unique : forall t x h m s x' h' m' s', clock t x h m s -> clock t x' h' m' s' -> x = x' /\ h = h' /\ m = m' /\ s = s'.
Proof. intros t x h m s x' h' m' s' H H'. apply clock_eq in H, H'. intuition congruence. Qed.
Lemma clock_inj : forall t t' x h m s, clock t x h m s -> clock t' x h m s -> t = t'.
Proof. intros t t' x h m s (n & D & -> & _) (n' & D' & -> & _). now rewrite (on_day_inj _ _ _ D D'). Qed.
Lemma date_of_civil : forall n, civil n = (d_year (date_of n), d_month (date_of n), d_day (date_of n)).
Proof. intros n. unfold date_of. destruct (civil n) as [[y m] d]. reflexivity. Qed.
Lemma gmtime_eq : forall t x h m s, clock t x h m s ->
  gmtime t = if (- 2 ^ 31 <=? d_year x - 1900) && (d_year x - 1900 <? 2 ^ 31)
             then Some (mkTm s m h (d_day x) (d_month x - 1) (d_year x - 1900)) else None.
Proof. intros t x h m s H. apply clock_eq in H as (-> & -> & -> & ->). unfold gmtime. now rewrite date_of_civil. Qed.
Lemma clock_range : forall t x h m s, clock t x h m s -> 1 <= d_month x <= 12 /\ 1 <= d_day x <= 31.
Proof. intros t x h m s H. apply clock_eq in H as (-> & _). apply date_range. Qed.
Lemma epoch_year : forall t x h m s, 0 <= t -> clock t x h m s -> 1970 <= d_year x.
Proof.
  intros t x h m s Ht H. apply clock_eq in H as (-> & _). change 1970 with (d_year (date_of 0)). apply year_le. now apply Z.div_pos.
Qed.
Definition last_second : Z := 67768036191676799.
Lemma year_small : forall t x h m s, clock t x h m s -> (d_year x - 1900 < 2 ^ 31 <-> t <= last_second).
Proof.
  intros t x h m s H. apply clock_eq in H as (-> & _).
  split; intros L.
  - destruct (Z_le_dec t last_second) as [|N]; [auto|exfalso].
    assert (X : d_year (date_of ((last_second + 1) / 86400)) <= d_year (date_of (t / 86400))) by (apply year_le, Z.div_le_mono; lia).
    assert (Y : d_year (date_of ((last_second + 1) / 86400)) = 2147485548) by (vm_compute; reflexivity). lia.
  - assert (X : d_year (date_of (t / 86400)) <= d_year (date_of (last_second / 86400))) by (apply year_le, Z.div_le_mono; lia).
    assert (Y : d_year (date_of (last_second / 86400)) = 2147485547) by (vm_compute; reflexivity). lia.
Qed.

(** ** Texts *)
Fixpoint upto (n : nat) : list Z := match n with O => [] | S k => upto k ++ [Z.of_nat k] end.
Lemma upto_in : forall n z, 0 <= z < Z.of_nat n -> In z (upto n).
Proof.
  induction n as [|n IH]; intros z H; [lia|]. cbn [upto]. apply in_or_app. destruct (Z.eq_dec z (Z.of_nat n)) as [->|N]; [right; now left|left].
  apply IH. lia.
Qed.
Definition is_two (s : str) (n : Z) : bool :=
  match s with [a; b] => digit a && digit b && (n =? 10 * (code a - 48) + (code b - 48)) | _ => false end.
Lemma two_all : forallb (fun z => is_two (two z) z) (upto 100) = true.
Proof. vm_compute. reflexivity. Qed.
Lemma two_ok : forall z, 0 <= z < 100 -> two_digits (two z) z.
Proof.
  intros z H. pose proof (proj1 (forallb_forall _ _) two_all z (upto_in 100 z H)) as X. cbv beta in X. unfold is_two in X.
  destruct (two z) as [|a [|b [|c l]]] eqn:E; try discriminate. rewrite !andb_true_iff, Z.eqb_eq in X. destruct X as [[X1 X2] X3].
  unfold digit in X1, X2. rewrite andb_true_iff, !Z.leb_le in X1, X2. exists a, b, (code a - 48), (code b - 48). unfold digit_of. repeat split; lia.
Qed.
Definition three (n : Z) : str := (if n <? 100 then L "0" else []) ++ two n.
Definition is_three (s : str) (n : Z) : bool :=
  match s with [a; b; c] => digit a && digit b && digit c && (n =? 100 * (code a - 48) + 10 * (code b - 48) + (code c - 48)) | _ => false end.
Lemma three_all : forallb (fun z => is_three (three z) z) (upto 1000) = true.
Proof. vm_compute. reflexivity. Qed.
Lemma thousandths_text : forall n, 0 <= n -> thousandths (dec_nat (n / 1000) ++ L "." ++ three (n mod 1000)) n.
Proof.
  intros n H. pose proof (Z.mod_pos_bound n 1000 eq_refl) as B.
  pose proof (proj1 (forallb_forall _ _) three_all _ (upto_in 1000 _ B)) as X. cbv beta in X. unfold is_three in X.
  destruct (three (n mod 1000)) as [|a [|b [|c [|d l]]]] eqn:E; try discriminate. rewrite !andb_true_iff, Z.eqb_eq in X. destruct X as [[[X1 X2] X3] X4].
  unfold digit in X1, X2, X3. rewrite andb_true_iff, !Z.leb_le in X1, X2, X3.
  exists (dec_nat (n / 1000)), a, b, c, (code a - 48), (code b - 48), (code c - 48). split; [reflexivity|].
  split; [apply dec_nat_decimal, Z.div_pos; lia|]. unfold digit_of. repeat split; lia.
Qed.
Definition names : list Z := [1; 2; 3; 4; 5; 6; 7; 8; 9; 10; 11; 12].
Lemma month_name_ok : forall m, 1 <= m <= 12 -> month_text m (month_name (m - 1)).
Proof.
  intros m H. assert (I : In m names) by (unfold names; cbn; lia). unfold names in I. unfold month_text.
  repeat (destruct I as [<-|I]; [cbn; tauto|]). destruct I.
Qed.
Lemma month_text_len : forall m s, month_text m s -> length s = 3%nat /\ Forall (fun c => c <> LF) s.
Proof.
  intros m s H. unfold month_text in H. cbn [In] in H.
  repeat (destruct H as [H|H]; [injection H as <- <-; split; [reflexivity|repeat constructor; discriminate]|]). destruct H.
Qed.
Lemma month_text_inj : forall m m' s, month_text m s -> month_text m' s -> m = m'.
Proof.
  intros m m' s H H'. unfold month_text in H. cbn [In] in H.
  repeat (destruct H as [H|H]; [injection H as <- <-; unfold month_text in H'; cbn [In] in H';
    repeat (destruct H' as [H'|H']; [first [now injection H' as <- |discriminate H']|]); destruct H'|]). destruct H.
Qed.
Lemma digit_of_fun : forall c n n', digit_of c n -> digit_of c n' -> n = n'.
Proof. unfold digit_of. intros. lia. Qed.
Lemma two_digits_fun : forall s n n', two_digits s n -> two_digits s n' -> n = n'.
Proof.
  intros s n n' (a & b & x & y & -> & A & B & ->) (a' & b' & x' & y' & E & A' & B' & ->). injection E as <- <-.
  now rewrite (digit_of_fun _ _ _ A A'), (digit_of_fun _ _ _ B B').
Qed.
Lemma digit_of_inj : forall c c' n, digit_of c n -> digit_of c' n -> c = c'.
Proof. unfold digit_of. intros c c' n [_ H] [_ H']. apply code_inj. congruence. Qed.
Lemma two_digits_inj : forall s s' n, two_digits s n -> two_digits s' n -> s = s'.
Proof.
  intros s s' n (a & b & x & y & -> & A & B & ->) (a' & b' & x' & y' & -> & A' & B' & E).
  assert (x' = x /\ y' = y) as [-> ->] by (unfold digit_of in *; lia).
  now rewrite (digit_of_inj _ _ _ A A'), (digit_of_inj _ _ _ B B').
Qed.

Lemma two_len : forall s n, two_digits s n -> len s = 2.
Proof. intros s n (a & b & x & y & -> & _). reflexivity. Qed.
Lemma dec_bound : forall n, 0 <= n <= 2147485547 -> len (dec n) <= 10.
Proof.
  intros n H. unfold dec. replace (n <? 0) with false by lia. destruct (dec_nat_spec n ltac:(lia)) as (_ & _ & _ & S). apply S; [lia|].
  change (10 ^ 10) with 10000000000. lia.
Qed.
Lemma month_len : forall m s, month_text m s -> len s = 3.
Proof. intros m s H. unfold len. now rewrite (proj1 (month_text_len _ _ H)). Qed.

Lemma format_eq : forall t x h m s, clock t x h m s -> 0 <= d_year x < 2 ^ 31 + 1900 ->
  format_timestamp t = Ok (two (d_day x) ++ L "-" ++ two (d_month x) ++ L "-" ++ two (d_year x mod 100) ++ L " " ++ two h ++ L ":" ++ two m ++ L ":" ++ two s)
  /\ format_ts_common_log t = Ok (two (d_day x) ++ L "/" ++ month_name (d_month x - 1) ++ L "/" ++ dec (d_year x) ++ L ":" ++ two h ++ L ":" ++ two m ++ L ":" ++ two s ++ L " +0000").
Proof.
  intros t x h m s C Y. unfold format_timestamp, format_ts_common_log. rewrite (gmtime_eq _ _ _ _ _ C).
  change (2 ^ 31) with 2147483648 in *. replace (- (2147483648) <=? d_year x - 1900) with true by lia. replace (d_year x - 1900 <? 2147483648) with true by lia. cbn [andb].
  destruct (clock_range _ _ _ _ _ C) as [M D]. destruct C as (n & _ & _ & Hh & Hm & Hs).
  unfold stamp_of, common_of. cbn [tm_sec tm_min tm_hour tm_mday tm_mon tm_year].
  replace (d_month x - 1 + 1) with (d_month x) by lia. replace (d_year x - 1900 + 1900) with (d_year x) by lia.
  assert (E : (d_year x - 1900) mod 100 = d_year x mod 100) by (replace (d_year x - 1900) with (d_year x + (-19) * 100) by lia; now rewrite Z.mod_add by lia). rewrite E.
  pose proof (Z.mod_pos_bound (d_year x) 100 eq_refl).
  pose proof (two_len _ _ (two_ok (d_day x) ltac:(lia))). pose proof (two_len _ _ (two_ok (d_month x) ltac:(lia))).
  pose proof (two_len _ _ (two_ok (d_year x mod 100) ltac:(lia))). pose proof (two_len _ _ (two_ok h ltac:(lia))).
  pose proof (two_len _ _ (two_ok m ltac:(lia))). pose proof (two_len _ _ (two_ok s ltac:(lia))).
  pose proof (dec_bound (d_year x) ltac:(lia)). pose proof (month_len _ _ (month_name_ok (d_month x) M)).
  change (L " " ++ L "+0000") with (L " +0000").
  unfold strftime64. rewrite !len_app. change (len (L "-")) with 1. change (len (L " ")) with 1. change (len (L ":")) with 1. change (len (L "/")) with 1. change (len (L " +0000")) with 6.
  split; match goal with |- (if ?b then _ else _) = _ => replace b with true by lia end; reflexivity.
Qed.
Lemma stamp_ok : forall t x h m s, clock t x h m s -> 0 <= d_year x < 2 ^ 31 + 1900 ->
  exists txt, format_timestamp t = Ok txt /\ stamp_text x h m s txt /\ len txt = 17.
Proof.
  intros t x h m s C Y. rewrite (proj1 (format_eq _ _ _ _ _ C Y)). eexists. split; [reflexivity|].
  destruct (clock_range _ _ _ _ _ C) as [M D]. destruct C as (n & _ & _ & Hh & Hm & Hs). pose proof (Z.mod_pos_bound (d_year x) 100 eq_refl).
  assert (S : stamp_text x h m s (two (d_day x) ++ L "-" ++ two (d_month x) ++ L "-" ++ two (d_year x mod 100) ++ L " " ++ two h ++ L ":" ++ two m ++ L ":" ++ two s)).
  { exists (two (d_day x)), (two (d_month x)), (two (d_year x mod 100)), (two h), (two m), (two s).
    do 6 (split; [apply two_ok; lia|]). reflexivity. }
  split; [exact S|]. destruct S as (a & b & c & d & e & f & A & B & C & E & F & G & ->).
  rewrite !len_app, (two_len _ _ A), (two_len _ _ B), (two_len _ _ C), (two_len _ _ E), (two_len _ _ F), (two_len _ _ G). reflexivity.
Qed.
Lemma common_ok : forall t x h m s, clock t x h m s -> 0 <= d_year x < 2 ^ 31 + 1900 ->
  exists txt, format_ts_common_log t = Ok txt /\ common_text x h m s txt.
Proof.
  intros t x h m s C Y. rewrite (proj2 (format_eq _ _ _ _ _ C Y)). eexists. split; [reflexivity|].
  destruct (clock_range _ _ _ _ _ C) as [M D]. destruct C as (n & _ & _ & Hh & Hm & Hs).
  exists (two (d_day x)), (month_name (d_month x - 1)), (dec (d_year x)), (two h), (two m), (two s).
  split; [apply two_ok; lia|]. split; [now apply month_name_ok|]. split; [rewrite <- dec_nat_dec by lia; apply dec_nat_decimal; lia|].
  do 3 (split; [apply two_ok; lia|]). reflexivity.
Qed.
Lemma stamp_text_fun : forall x h m s x' h' m' s' txt, stamp_text x h m s txt -> stamp_text x' h' m' s' txt ->
  d_day x = d_day x' /\ d_month x = d_month x' /\ d_year x mod 100 = d_year x' mod 100 /\ h = h' /\ m = m' /\ s = s'.
Proof.
  intros x h m s x' h' m' s' txt (a & b & c & d & e & f & A & B & C & D & E & F & ->) (a' & b' & c' & d' & e' & f' & A' & B' & C' & D' & E' & F' & H).
  assert (X : forall u v n k (r r' : str), two_digits u n -> two_digits v k -> u ++ r = v ++ r' -> n = k /\ r = r').
  { intros u v n k r r' U V Q. pose proof U as U'. destruct U as (? & ? & ? & ? & -> & _). pose proof V as V'. destruct V as (? & ? & ? & ? & -> & _).
    injection Q as -> -> ->. split; [eapply two_digits_fun; eauto|reflexivity]. }
  apply X with (1 := A) (2 := A') in H as [-> H]. apply app_inv_head in H.
  apply X with (1 := B) (2 := B') in H as [-> H]. apply app_inv_head in H.
  apply X with (1 := C) (2 := C') in H as [-> H]. apply app_inv_head in H.
  apply X with (1 := D) (2 := D') in H as [-> H]. apply app_inv_head in H.
  apply X with (1 := E) (2 := E') in H as [-> H]. apply app_inv_head in H. subst f'.
  rewrite (two_digits_fun _ _ _ F F'). tauto.
Qed.
Lemma stamp_text_same : forall x h m s x' h' m' s' txt txt', stamp_text x h m s txt -> stamp_text x' h' m' s' txt' ->
  d_day x = d_day x' -> d_month x = d_month x' -> d_year x mod 100 = d_year x' mod 100 -> h = h' -> m = m' -> s = s' -> txt = txt'.
Proof.
  intros x h m s x' h' m' s' txt txt' (a & b & c & d & e & f & A & B & C & D & E & F & ->) (a' & b' & c' & d' & e' & f' & A' & B' & C' & D' & E' & F' & ->) E1 E2 E3 -> -> ->.
  rewrite E1 in A. rewrite E2 in B. rewrite E3 in C.
  now rewrite (two_digits_inj _ _ _ A A'), (two_digits_inj _ _ _ B B'), (two_digits_inj _ _ _ C C'), (two_digits_inj _ _ _ D D'), (two_digits_inj _ _ _ E E'), (two_digits_inj _ _ _ F F').
Qed.
Lemma decimal_value : forall d n n', decimal d n -> decimal d n' -> n = n'.
Proof. intros d n n' (_ & _ & <- & _) (_ & _ & <- & _). reflexivity. Qed.
Lemma decimal_no : forall d n c, decimal d n -> digit c = false -> ~ In c d.
Proof. intros d n c (_ & F & _) N I. rewrite Forall_forall in F. apply F in I. congruence. Qed.
Lemma common_text_fun : forall x h m s x' h' m' s' txt, common_text x h m s txt -> common_text x' h' m' s' txt ->
  x = x' /\ h = h' /\ m = m' /\ s = s'.
Proof.
  intros [y mo d] h m s [y' mo' d'] h' m' s' txt (a & b & c & e & f & g & A & B & C & D & E & F & ->) (a' & b' & c' & e' & f' & g' & A' & B' & C' & D' & E' & F' & H).
  cbn [d_year d_month d_day] in *.
  assert (X : forall u v n k (r r' : str), two_digits u n -> two_digits v k -> u ++ r = v ++ r' -> n = k /\ r = r').
  { intros u v n k r r' U V Q. pose proof U as U'. destruct U as (? & ? & ? & ? & -> & _). pose proof V as V'. destruct V as (? & ? & ? & ? & -> & _).
    injection Q as -> -> ->. split; [eapply two_digits_fun; eauto|reflexivity]. }
  apply X with (1 := A) (2 := A') in H as [-> H]. apply app_inv_head in H.
  assert (Z : b = b' /\ L "/" ++ c ++ L ":" ++ e ++ L ":" ++ f ++ L ":" ++ g ++ L " +0000" = L "/" ++ c' ++ L ":" ++ e' ++ L ":" ++ f' ++ L ":" ++ g' ++ L " +0000").
  { destruct (month_text_len _ _ B) as [L1 _], (month_text_len _ _ B') as [L2 _]. apply app_eq_len in H; [exact H|congruence]. }
  destruct Z as [-> Z]. rewrite (month_text_inj _ _ _ B B'). apply app_inv_head in Z.
  match type of Z with c ++ L ":" ++ ?r = c' ++ L ":" ++ ?r' => change (c ++ ":"%char :: r = c' ++ ":"%char :: r') in Z end.
  apply cut_unique in Z as [-> Z]; [|now apply (decimal_no _ _ _ C)|now apply (decimal_no _ _ _ C')].
  rewrite (decimal_value _ _ _ C C').
  apply X with (1 := D) (2 := D') in Z as [-> Z]. apply app_inv_head in Z.
  apply X with (1 := E) (2 := E') in Z as [-> Z]. apply app_inv_head in Z.
  apply X with (1 := F) (2 := F') in Z as [-> Z]. tauto.
Qed.
Lemma two_one_line : forall s n, two_digits s n -> ~ In LF s.
Proof.
  intros s n (a & b & x & y & -> & [Rx A] & [Ry B] & _) [I|[I|[]]]; subst; change (code LF) with 10 in *; lia.
Qed.
Lemma one_line_app : forall a b : str, ~ In LF a -> ~ In LF b -> ~ In LF (a ++ b).
Proof. intros a b H H' I. apply in_app_or in I. tauto. Qed.
Lemma stamp_one_line : forall x h m s txt, stamp_text x h m s txt -> ~ In LF txt.
Proof.
  intros x h m s txt (a & b & c & d & e & f & A & B & C & D & E & F & ->).
  repeat apply one_line_app; eauto using two_one_line; cbn; intuition discriminate.
Qed.
Lemma common_one_line : forall x h m s txt, common_text x h m s txt -> ~ In LF txt.
Proof.
  intros x h m s txt (a & b & c & d & e & f & A & B & C & D & E & F & ->).
  assert (N : ~ In LF b). { destruct (month_text_len _ _ B) as [_ X]. rewrite Forall_forall in X. intros I. now apply X in I. }
  repeat apply one_line_app; eauto using two_one_line; try (now apply (decimal_no _ _ _ C)); cbn; intuition discriminate.
Qed.
Lemma common_len : forall x h m s txt, common_text x h m s txt -> 0 <= d_year x < 10000 -> len txt <= 26.
Proof.
  intros x h m s txt (a & b & c & d & e & f & A & B & C & D & E & F & ->) Y.
  rewrite !len_app, (two_len _ _ A), (month_len _ _ B), (two_len _ _ D), (two_len _ _ E), (two_len _ _ F).
  rewrite (decimal_unique c _ _ C (dec_nat_decimal _ (proj1 Y))).
  destruct (dec_nat_spec (d_year x) (proj1 Y)) as (_ & _ & _ & S). specialize (S 4 ltac:(lia)). change (10 ^ 4) with 10000 in S.
  change (len (L "/")) with 1. change (len (L ":")) with 1. change (len (L " +0000")) with 6. lia.
Qed.
Lemma format_undefined : forall t, 0 <= t -> (undefined (format_timestamp t) <-> last_second < t) /\ (undefined (format_ts_common_log t) <-> last_second < t).
Proof.
  intros t Ht. pose proof (clock_at t) as C. set (x := date_of (t / 86400)) in *.
  pose proof (epoch_year _ _ _ _ _ Ht C). pose proof (year_small _ _ _ _ _ C) as Y.
  destruct (Z_le_dec t last_second) as [L|N].
  - apply Y in L as L'. destruct (format_eq _ _ _ _ _ C ltac:(lia)) as [-> ->].
    split; (split; [intros [u U]; discriminate|lia]).
  - assert (E : gmtime t = None).
    { rewrite (gmtime_eq _ _ _ _ _ C). replace (d_year x - 1900 <? 2 ^ 31) with false by lia. now rewrite andb_false_r. }
    unfold format_timestamp, format_ts_common_log. rewrite E. split; (split; [lia|intros _; now exists NullDeref]).
Qed.

(** ** Doubles *)
Lemma nearest_is : forall p q n, 0 < q -> 2 * Z.abs (p - n * q) < q -> nearest p q = n.
Proof.
  intros p q n Q H. unfold nearest. pose proof (Z.div_mod p q ltac:(lia)) as E. pose proof (Z.mod_pos_bound p q Q) as B.
  set (d := p / q) in *. set (r := p mod q) in *.
  destruct (Z_le_dec 0 (p - n * q)).
  - assert (d = n /\ r = p - n * q) as [-> ->].
    { assert (X : (n - d) * q = r - (p - n * q)) by lia. assert (n - d = 0) by nia. split; nia. }
    replace (2 * (p - n * q) <? q) with true by lia. reflexivity.
  - assert (d = n - 1 /\ r = p - n * q + q) as [-> ->].
    { assert (X : (n - 1 - d) * q = r - (p - n * q + q)) by nia. assert (n - 1 - d = 0) by nia. split; nia. }
    replace (2 * (p - n * q + q) <? q) with false by lia. replace (q <? 2 * (p - n * q + q)) with true by lia. lia.
Qed.
Lemma nearest_err : forall p q, 0 < q -> 2 * Z.abs (p - nearest p q * q) <= q.
Proof.
  intros p q Q. unfold nearest. pose proof (Z.div_mod p q ltac:(lia)) as E. pose proof (Z.mod_pos_bound p q Q) as B.
  set (d := p / q) in *. set (r := p mod q) in *.
  destruct (Z.ltb_spec (2 * r) q); [nia|]. destruct (Z.ltb_spec q (2 * r)); [nia|]. destruct (Z.even d); nia.
Qed.
Lemma nearest_scale : forall p q c, 0 < q -> 0 < c -> nearest (p * c) (q * c) = nearest p q.
Proof.
  intros p q c Q C. unfold nearest. rewrite Z.div_mul_cancel_r, Zmult_mod_distr_r by lia. set (r := p mod q).
  replace (2 * (r * c) <? q * c) with (2 * r <? q) by (destruct (Z.ltb_spec (2 * r) q), (Z.ltb_spec (2 * (r * c)) (q * c)); auto; nia).
  replace (q * c <? 2 * (r * c)) with (q <? 2 * r) by (destruct (Z.ltb_spec q (2 * r)), (Z.ltb_spec (q * c) (2 * (r * c))); auto; nia).
  reflexivity.
Qed.
Lemma nearest_one : forall p, nearest p 1 = p.
Proof. intros p. apply nearest_is; lia. Qed.
Lemma ltb_scale : forall a b c, 0 < c -> (a * c <? b * c) = (a <? b).
Proof. intros a b c C. destruct (Z.ltb_spec a b), (Z.ltb_spec (a * c) (b * c)); auto; nia. Qed.
Lemma round_scale : forall p q j, 0 < p -> 0 < q -> 0 <= j -> round_double (p * 2 ^ j) (q * 2 ^ j) = round_double p q.
Proof.
  intros p q j P Q J. assert (C : 0 < 2 ^ j) by (apply Z.pow_pos_nonneg; lia). unfold round_double.
  replace (p * 2 ^ j =? 0) with false by (symmetry; apply Z.eqb_neq; nia). replace (p =? 0) with false by lia.
  rewrite !Z.log2_mul_pow2 by lia. replace (j + Z.log2 p - (j + Z.log2 q)) with (Z.log2 p - Z.log2 q) by lia.
  set (k := Z.log2 p - Z.log2 q).
  replace (q * 2 ^ j * 2 ^ k) with (q * 2 ^ k * 2 ^ j) by lia. replace (p * 2 ^ j * 2 ^ (- k)) with (p * 2 ^ (- k) * 2 ^ j) by lia.
  rewrite !ltb_scale by auto. cbv zeta. set (e := (if if 0 <=? k then p <? q * 2 ^ k else p * 2 ^ (- k) <? q then k - 1 else k) - 52).
  f_equal. destruct (Z.leb_spec 0 e).
  - replace (q * 2 ^ j * 2 ^ e) with (q * 2 ^ e * 2 ^ j) by lia. apply nearest_scale; auto. apply Z.mul_pos_pos; auto. apply Z.pow_pos_nonneg; lia.
  - replace (p * 2 ^ j * 2 ^ (- e)) with (p * 2 ^ (- e) * 2 ^ j) by lia. now apply nearest_scale.
Qed.
Lemma round_int : forall n, 0 < n < 2 ^ 53 -> round_double n 1 = mkDouble (n * 2 ^ (52 - Z.log2 n)) (Z.log2 n - 52).
Proof.
  intros n H. unfold round_double. replace (n =? 0) with false by lia. change (Z.log2 1) with 0. rewrite Z.sub_0_r.
  pose proof (Z.log2_nonneg n). pose proof (Z.log2_spec n (proj1 H)) as S. replace (0 <=? Z.log2 n) with true by lia.
  rewrite Z.mul_1_l. replace (n <? 2 ^ Z.log2 n) with false by lia. cbv zeta.
  assert (Z.log2 n < 53) by (apply Z.log2_lt_pow2; lia).
  destruct (Z.leb_spec 0 (Z.log2 n - 52)).
  - replace (Z.log2 n) with 52 by lia. change (1 * 2 ^ (52 - 52)) with 1. rewrite nearest_one. change (2 ^ (52 - 52)) with 1. f_equal. lia.
  - rewrite nearest_one. now replace (- (Z.log2 n - 52)) with (52 - Z.log2 n) by lia.
Qed.
Lemma div_int : forall n q, 0 < n < 2 ^ 53 -> 0 < q -> div_double (round_double n 1) q = round_double n q.
Proof.
  intros n q H Q. rewrite (round_int n H). unfold div_double. cbn [d_num d_exp].
  assert (Z.log2 n < 53) by (apply Z.log2_lt_pow2; lia).
  destruct (Z.leb_spec 0 (Z.log2 n - 52)).
  - replace (Z.log2 n) with 52 by lia. change (2 ^ (52 - 52)) with 1. now rewrite !Z.mul_1_r.
  - replace (- (Z.log2 n - 52)) with (52 - Z.log2 n) by lia. apply round_scale; lia.
Qed.
Definition limit_ms : Z := 8796093022208000.
Lemma print_exact : forall n, 0 <= n < limit_ms -> print_f3 (round_double n 1000) = dec_nat (n / 1000) ++ L "." ++ three (n mod 1000).
Proof.
  intros n H. unfold limit_ms in H. destruct (Z.eq_dec n 0) as [->|N]; [reflexivity|]. unfold round_double.
  replace (n =? 0) with false by lia. change (Z.log2 1000) with 9. set (k := Z.log2 n - 9).
  pose proof (Z.log2_spec n ltac:(lia)) as S. pose proof (Z.log2_nonneg n).
  assert (Z.log2 n < 53) by (apply Z.log2_lt_pow2; [lia|]; change (2 ^ 53) with 9007199254740992; lia).
  set (below := if 0 <=? k then n <? 1000 * 2 ^ k else n * 2 ^ (- k) <? 1000). cbv zeta.
  assert (E : (if below then k - 1 else k) <= 42).
  { unfold below. destruct (Z.leb_spec 0 k).
    - destruct (Z.ltb_spec n (1000 * 2 ^ k)); [lia|]. destruct (Z_le_dec k 42); [auto|]. assert (2 ^ 43 <= 2 ^ k) by (apply Z.pow_le_mono_r; lia).
      change (2 ^ 43) with 8796093022208 in *. lia.
    - destruct (n * 2 ^ (- k) <? 1000); lia. }
  set (e := (if below then k - 1 else k) - 52) in *. assert (He : e <= -10) by lia.
  replace (0 <=? e) with false by lia. unfold print_f3. cbn [d_num d_exp]. replace (0 <=? e) with false by lia.
  assert (P : 1024 <= 2 ^ (- e)) by (change 1024 with (2 ^ 10); apply Z.pow_le_mono_r; lia).
  pose proof (nearest_err (n * 2 ^ (- e)) 1000 ltac:(lia)) as R.
  rewrite (nearest_is (nearest (n * 2 ^ (- e)) 1000 * 1000) (2 ^ (- e)) n) by lia. reflexivity.
Qed.
Lemma exact_time : forall start now, start <= now -> now - start < limit_ms ->
  thousandths (print_f3 (response_time start now)) (now - start).
Proof.
  intros start now H Hl. unfold response_time. unfold limit_ms in Hl. rewrite Z.mod_small by (change (2 ^ 64) with 18446744073709551616; lia).
  destruct (Z.eq_dec (now - start) 0) as [->|N].
  - exists (L "0"), "0"%char, "0"%char, "0"%char, 0, 0, 0. split; [reflexivity|]. unfold digit_of. split; [|repeat split; lia].
    apply (dec_nat_decimal 0). lia.
  - rewrite div_int by (try change (2 ^ 53) with 9007199254740992; lia). rewrite print_exact by (unfold limit_ms; lia).
    apply thousandths_text. lia.
Qed.
Lemma step_back : forall start now, now < start <= now + 1024 -> print_f3 (response_time start now) = L "18446744073709552.000".
Proof.
  intros start now H. unfold response_time.
  assert (E : (now - start) mod 2 ^ 64 = 2 ^ 64 - (start - now)) by (symmetry; apply Z.mod_unique with (q := -1); change (2 ^ 64) with 18446744073709551616; lia).
  rewrite E. set (k := start - now). assert (K : 1 <= k <= 1024) by lia. clearbody k. clear - K. unfold round_double.
  change (2 ^ 64) with 18446744073709551616. replace (18446744073709551616 - k =? 0) with false by lia.
  assert (G : Z.log2 (18446744073709551616 - k) = 63) by (apply Z.log2_unique; [lia|]; change (2 ^ 63) with 9223372036854775808; change (2 ^ Z.succ 63) with 18446744073709551616; lia).
  rewrite G. change (63 - Z.log2 1) with 63. change (0 <=? 63) with true. cbv iota zeta. change (1 * 2 ^ 63) with 9223372036854775808.
  replace (18446744073709551616 - k <? 9223372036854775808) with false by lia. change (63 - 52) with 11. change (0 <=? 11) with true. cbv iota. change (1 * 2 ^ 11) with 2048.
  assert (M : nearest (18446744073709551616 - k) 2048 = 9007199254740992).
  { destruct (Z.eq_dec k 1024) as [->|]; [reflexivity|]. apply nearest_is; lia. }
  rewrite M. vm_compute. reflexivity.
Qed.
Lemma step_back_far : forall start now, now < start -> start - now <= 2 ^ 63 ->
  exists n, thousandths (print_f3 (response_time start now)) n /\ 9 * 10 ^ 18 <= n.
Proof.
  intros start now H Hl. change (2 ^ 63) with 9223372036854775808 in Hl. unfold response_time.
  assert (E : (now - start) mod 2 ^ 64 = 2 ^ 64 - (start - now)) by (symmetry; apply Z.mod_unique with (q := -1); change (2 ^ 64) with 18446744073709551616; lia).
  rewrite E. set (k := start - now) in *. assert (K : 1 <= k <= 9223372036854775808) by lia. clearbody k. clear - K.
  change (2 ^ 64) with 18446744073709551616. set (n := 18446744073709551616 - k). assert (N : 9223372036854775808 <= n < 18446744073709551616) by lia. clearbody n. clear K k.
  assert (X : exists m, round_double n 1 = mkDouble m 11 /\ 4503599627370496 <= m <= 9007199254740992).
  { unfold round_double. replace (n =? 0) with false by lia.
    assert (G : Z.log2 n = 63) by (apply Z.log2_unique; [lia|]; change (2 ^ 63) with 9223372036854775808; change (2 ^ Z.succ 63) with 18446744073709551616; lia).
    rewrite G. change (63 - Z.log2 1) with 63. change (0 <=? 63) with true. cbv iota zeta. change (1 * 2 ^ 63) with 9223372036854775808.
    replace (n <? 9223372036854775808) with false by lia. change (63 - 52) with 11. change (0 <=? 11) with true. cbv iota. change (1 * 2 ^ 11) with 2048.
    eexists. split; [reflexivity|]. pose proof (nearest_err n 2048 ltac:(lia)). lia. }
  destruct X as (m & -> & M). unfold div_double. cbn [d_num d_exp]. change (0 <=? 11) with true. cbv iota. change (2 ^ 11) with 2048.
  set (p := m * 2048). assert (P : 9223372036854775808 <= p <= 18446744073709551616) by lia. clearbody p. clear - P.
  unfold round_double. replace (p =? 0) with false by lia. change (Z.log2 1000) with 9.
  assert (G : 63 <= Z.log2 p <= 64).
  { split; [change 63 with (Z.log2 9223372036854775808)|change 64 with (Z.log2 18446744073709551616)]; apply Z.log2_le_mono; lia. }
  set (k := Z.log2 p - 9). set (below := if 0 <=? k then p <? 1000 * 2 ^ k else p * 2 ^ (- k) <? 1000). cbv zeta.
  set (e := (if below then k - 1 else k) - 52). assert (He : 0 <= e <= 3) by (unfold e; destruct below; lia). clearbody e.
  replace (0 <=? e) with true by lia. unfold print_f3. cbn [d_num d_exp]. replace (0 <=? e) with true by lia.
  set (m := nearest p (1000 * 2 ^ e)). assert (Q : 1 <= 2 ^ e <= 8).
  { split; [change 1 with (2 ^ 0)|change 8 with (2 ^ 3)]; apply Z.pow_le_mono_r; lia. }
  pose proof (nearest_err p (1000 * 2 ^ e) ltac:(lia)) as R. fold m in R.
  exists (m * 2 ^ e * 1000). change (10 ^ 18) with 1000000000000000000. split; [|lia]. apply thousandths_text. lia.
Qed.
Lemma nearest_rounded p q : 0 < q -> rounded p q (nearest p q).
Proof.
  intros Q. unfold nearest, rounded. pose proof (Z.div_mod p q ltac:(lia)) as E. pose proof (Z.mod_pos_bound p q Q) as B.
  set (n := p / q) in *. set (r := p mod q) in *. destruct (Z.ltb_spec (2 * r) q) as [G|G].
  - replace (p - n * q) with r by lia. split; lia.
  - destruct (Z.ltb_spec q (2 * r)) as [G'|G'].
    + replace (p - (n + 1) * q) with (r - q) by lia. split; lia.
    + destruct (Z.even n) eqn:Ev.
      * replace (p - n * q) with r by lia. split; [lia|]. intros _. now apply Z.even_spec.
      * replace (p - (n + 1) * q) with (r - q) by lia. split; [lia|]. intros _. apply Z.even_spec. replace (n + 1) with (Z.succ n) by lia. rewrite Z.even_succ, <- Z.negb_even, Ev. reflexivity.
Qed.
Lemma rounded_range p q n a b : 0 < q -> a * q <= p -> p <= b * q -> rounded p q n -> a <= n <= b.
Proof. intros Q A B (H & _). split; nia. Qed.
Lemma scale_log p q : 0 < p -> 0 < q -> let k := Z.log2 p - Z.log2 q in
  exists u w, (0 <= k -> u = 2 ^ k /\ w = 1) /\ (k < 0 -> u = 1 /\ w = 2 ^ (- k)) /\ q * u < 2 * (p * w) /\ p * w < 2 * (q * u).
Proof.
  intros P Q k. pose proof (Z.log2_spec p P) as (P1 & P2). pose proof (Z.log2_spec q Q) as (Q1 & Q2).
  pose proof (Z.log2_nonneg p) as Np. pose proof (Z.log2_nonneg q) as Nq. rewrite Z.pow_succ_r in P2, Q2 by lia.
  destruct (Z_le_dec 0 k) as [K|K].
  - exists (2 ^ k), 1. split; [auto|]. split; [lia|]. assert (E : 2 ^ Z.log2 p = 2 ^ Z.log2 q * 2 ^ k) by (rewrite <- Z.pow_add_r by lia; f_equal; lia).
    assert (0 < 2 ^ k) by (apply Z.pow_pos_nonneg; lia). nia.
  - exists 1, (2 ^ (- k)). split; [lia|]. split; [auto|]. assert (E : 2 ^ Z.log2 q = 2 ^ Z.log2 p * 2 ^ (- k)) by (rewrite <- Z.pow_add_r by lia; f_equal; lia).
    assert (0 < 2 ^ (- k)) by (apply Z.pow_pos_nonneg; lia). nia.
Qed.
Lemma scale_exact p q : 0 < p -> 0 < q -> forall k j, k = Z.log2 p - Z.log2 q ->
  j = (if (if 0 <=? k then p <? q * 2 ^ k else p * 2 ^ (- k) <? q) then k - 1 else k) ->
  exists u w, (0 <= j -> u = 2 ^ j /\ w = 1) /\ (j < 0 -> u = 1 /\ w = 2 ^ (- j)) /\ q * u <= p * w < 2 * (q * u).
Proof.
  intros P Q k j Ek Ej. destruct (scale_log p q P Q) as (u & w & U1 & U2 & H1 & H2). rewrite <- Ek in U1, U2. clear Ek.
  assert (B : (if 0 <=? k then p <? q * 2 ^ k else p * 2 ^ (- k) <? q) = (p * w <? q * u)).
  { destruct (Z.leb_spec 0 k); [destruct U1 as (-> & ->)|destruct U2 as (-> & ->)]; try lia; now rewrite Z.mul_1_r. }
  rewrite B in Ej. destruct (Z.ltb_spec (p * w) (q * u)) as [G|G]; subst j.
  - destruct (Z_le_dec 1 k) as [K|K].
    + destruct U1 as (-> & ->); [lia|]. exists (2 ^ (k - 1)), 1. split; [auto|]. split; [lia|].
      replace (2 ^ k) with (2 * 2 ^ (k - 1)) in * by (rewrite <- Z.pow_succ_r by lia; f_equal; lia). lia.
    + assert (X : u = 1 /\ 2 ^ (- (k - 1)) = 2 * w).
      { replace (- (k - 1)) with (Z.succ (- k)) by lia. rewrite Z.pow_succ_r by lia. destruct (Z.eq_dec k 0) as [->|]; [destruct U1 as (-> & ->); [lia|auto]|]. destruct U2 as (-> & ->); [lia|auto]. }
      destruct X as (-> & X). exists 1, (2 * w). split; [lia|]. split; [auto|]. lia.
  - exists u, w. split; [auto|]. split; [auto|]. lia.
Qed.
Lemma round_double_nearest p q : 0 < p -> 0 < q -> nearest_double p q (d_num (round_double p q)) (d_exp (round_double p q)).
Proof.
  intros P Q. unfold round_double. replace (p =? 0) with false by lia. cbv zeta.
  remember (Z.log2 p - Z.log2 q) as k eqn:Ek. remember (if _ : bool then k - 1 else k) as j eqn:Ej.
  destruct (scale_exact p q P Q k j Ek Ej) as (u & w & U1 & U2 & H). clear Ej Ek k.
  destruct (Z.leb_spec 0 (j - 52)) as [G|G].
  - destruct U1 as (-> & ->); [lia|]. assert (D : 0 < q * 2 ^ (j - 52)) by (apply Z.mul_pos_pos; [lia|]; apply Z.pow_pos_nonneg; lia).
    pose proof (nearest_rounded p _ D) as R. split; [|split; cbn [d_num d_exp]; [auto|lia]]. cbn [d_num].
    apply (rounded_range p (q * 2 ^ (j - 52))); auto; change (2 ^ 53) with (2 * 2 ^ 52);
      replace (2 ^ j) with (2 ^ 52 * 2 ^ (j - 52)) in H by (rewrite <- Z.pow_add_r by lia; f_equal; lia); lia.
  - pose proof (nearest_rounded (p * 2 ^ (- (j - 52))) q Q) as R. split; [|split; cbn [d_num d_exp]; [lia|auto]]. cbn [d_num].
    apply (rounded_range (p * 2 ^ (- (j - 52))) q); auto; change (2 ^ 53) with (2 * 2 ^ 52).
    + destruct (Z_le_dec 0 j) as [J|J].
      * destruct U1 as (-> & ->); [lia|]. replace (2 ^ 52) with (2 ^ j * 2 ^ (- (j - 52))) by (rewrite <- Z.pow_add_r by lia; f_equal; lia).
        assert (0 < 2 ^ (- (j - 52))) by (apply Z.pow_pos_nonneg; lia). nia.
      * destruct U2 as (-> & ->); [lia|]. replace (2 ^ (- (j - 52))) with (2 ^ 52 * 2 ^ (- j)) by (rewrite <- Z.pow_add_r by lia; f_equal; lia). lia.
    + destruct (Z_le_dec 0 j) as [J|J].
      * destruct U1 as (-> & ->); [lia|]. replace (2 ^ 52) with (2 ^ j * 2 ^ (- (j - 52))) by (rewrite <- Z.pow_add_r by lia; f_equal; lia).
        assert (0 < 2 ^ (- (j - 52))) by (apply Z.pow_pos_nonneg; lia). nia.
      * destruct U2 as (-> & ->); [lia|]. replace (2 ^ (- (j - 52))) with (2 ^ 52 * 2 ^ (- j)) by (rewrite <- Z.pow_add_r by lia; f_equal; lia). lia.
Qed.
Lemma print_rounded x : 0 <= d_num x -> exists n, thousandths (print_f3 x) n
  /\ (0 <= d_exp x -> n = d_num x * 2 ^ d_exp x * 1000) /\ (d_exp x < 0 -> rounded (d_num x * 1000) (2 ^ (- d_exp x)) n).
Proof.
  intros H. unfold print_f3. destruct (Z.leb_spec 0 (d_exp x)) as [G|G].
  - eexists. split; [apply thousandths_text|split; [auto|lia]]. assert (0 < 2 ^ d_exp x) by (apply Z.pow_pos_nonneg; lia). nia.
  - assert (D : 0 < 2 ^ (- d_exp x)) by (apply Z.pow_pos_nonneg; lia). pose proof (nearest_rounded (d_num x * 1000) _ D) as R.
    eexists. split; [apply thousandths_text|split; [lia|auto]]. destruct R as (R & _). nia.
Qed.
Lemma millis_eq : forall sec usec, 0 <= sec < 18446744073709551 -> 0 <= usec < 1000000 -> epoch_millis sec usec = (sec * 1000000 + usec) / 1000.
Proof.
  intros sec usec S U. unfold epoch_millis. change (2 ^ 64) with 18446744073709551616. rewrite (Z.mod_small sec), (Z.mod_small usec) by lia.
  assert (usec / 1000 < 1000) by (apply Z.div_lt_upper_bound; lia). pose proof (Z.div_pos usec 1000).
  rewrite Z.mod_small by lia. replace (sec * 1000000 + usec) with (usec + sec * 1000 * 1000) by lia. rewrite Z.div_add by lia. lia.
Qed.

(** ** gmtime's shared result *)
Lemma put_len : forall A (l : list A) k x, (k < length l)%nat -> length (put l k x) = length l.
Proof. intros A l k x H. unfold put. rewrite app_length, firstn_length. cbn [length]. rewrite skipn_length. lia. Qed.
Lemma put_same : forall A (l : list A) k x, (k < length l)%nat -> nth_error (put l k x) k = Some x.
Proof. intros A l k x H. unfold put. rewrite nth_error_app2; rewrite firstn_length; [|lia]. now replace (k - Nat.min k (length l))%nat with 0%nat by lia. Qed.
Lemma put_other : forall A (l : list A) k x j, (k < length l)%nat -> j <> k -> nth_error (put l k x) j = nth_error l j.
Proof.
  intros A l k x j H N. unfold put. destruct (Nat.lt_ge_cases j k) as [L|G].
  - rewrite nth_error_app1 by (rewrite firstn_length; lia). rewrite <- (firstn_skipn k l) at 2. now rewrite nth_error_app1 by (rewrite firstn_length; lia).
  - rewrite nth_error_app2; rewrite firstn_length; [|lia]. rewrite Nat.min_l by lia. destruct (j - k)%nat as [|i] eqn:E; [lia|]. cbn [nth_error].
    rewrite <- (firstn_skipn (S k) l) at 2. rewrite nth_error_app2; rewrite firstn_length; [|lia]. f_equal. lia.
Qed.

Definition from_some (times : list tm) (i : nat) (v : Z) : Prop := exists x, In x times /\ nth_error (fields x) i = Some v.
Record ginv (times : list tm) (s : gstate) : Prop := {
  gi_len : length (g_shared s) = 6%nat;
  gi_fields : forall c, In c (g_calls s) -> exists x, In x times /\ g_fields c = fields x;
  gi_count : forall c, In c (g_calls s) -> length (g_seen c) = (g_pc c - 6)%nat;
  gi_seen : forall c i v, In c (g_calls s) -> nth_error (g_seen c) i = Some v -> from_some times i v;
  gi_shared : forall c i v, In c (g_calls s) -> (i < g_pc c)%nat -> nth_error (g_shared s) i = Some v -> from_some times i v }.
Lemma in_put : forall A (l : list A) k (x y : A), In y (put l k x) -> y = x \/ In y l.
Proof.
  intros A l k x y H. unfold put in H. apply in_app_or in H as [H|[H|H]]; auto; right.
  - rewrite <- (firstn_skipn k l). apply in_or_app. now left.
  - rewrite <- (firstn_skipn (S k) l). apply in_or_app. now right.
Qed.
Lemma gstart_inv : forall times, ginv times (gstart times).
Proof.
  intros times. unfold gstart. split; cbn [g_shared g_calls].
  - reflexivity.
  - intros c H. apply in_map_iff in H as (x & <- & I). eauto.
  - intros c H. apply in_map_iff in H as (x & <- & I). reflexivity.
  - intros c i v H N. apply in_map_iff in H as (x & <- & I). cbn [g_seen] in N. destruct i; discriminate.
  - intros c i v H L. apply in_map_iff in H as (x & <- & I). cbn [g_pc] in L. lia.
Qed.
Lemma gstep_inv : forall times s k s', ginv times s -> gstep s k = Some s' -> ginv times s'.
Proof.
  intros times s k s' [I1 I2 I3 I4 I5] H. unfold gstep in H. destruct (nth_error (g_calls s) k) as [c|] eqn:Ek; [|discriminate].
  pose proof (nth_error_In _ _ Ek) as Ic. destruct (I2 c Ic) as (x & Ix & Ef).
  destruct (Nat.ltb_spec (g_pc c) 6) as [L6|G6].
  - destruct (nth_error (g_fields c) (g_pc c)) as [v|] eqn:Ev; [|discriminate]. injection H as <-.
    assert (Hp : (g_pc c < length (g_shared s))%nat) by lia.
    split; cbn [g_shared g_calls].
    + now rewrite put_len.
    + intros c' H. apply in_put in H as [->|H]; [cbn [g_fields]; eauto|auto].
    + intros c' H. apply in_put in H as [->|H]; [|auto]. cbn [g_seen g_pc]. rewrite (I3 c Ic). lia.
    + intros c' i w H N. apply in_put in H as [->|H]; [exact (I4 c i w Ic N)|exact (I4 c' i w H N)].
    + intros c' i w H L N. destruct (Nat.eq_dec i (g_pc c)) as [->|D].
      * rewrite put_same in N by auto. injection N as <-. exists x. split; [auto|]. now rewrite <- Ef.
      * rewrite put_other in N by auto. apply in_put in H as [->|H]; [|exact (I5 c' i w H L N)].
        cbn [g_pc] in L. apply (I5 c i w Ic); auto. lia.
  - destruct (Nat.ltb_spec (g_pc c) 12) as [L12|G12]; [|discriminate].
    destruct (nth_error (g_shared s) (g_pc c - 6)) as [v|] eqn:Ev; [|discriminate]. injection H as <-.
    split; cbn [g_shared g_calls].
    + auto.
    + intros c' H. apply in_put in H as [->|H]; [cbn [g_fields]; eauto|auto].
    + intros c' H. apply in_put in H as [->|H]; [|auto]. cbn [g_seen g_pc]. rewrite app_length, (I3 c Ic). cbn [length]. lia.
    + intros c' i w H N. apply in_put in H as [->|H]; [|exact (I4 c' i w H N)]. cbn [g_seen] in N.
      destruct (Nat.lt_ge_cases i (length (g_seen c))) as [Li|Gi].
      * rewrite nth_error_app1 in N by auto. exact (I4 c i w Ic N).
      * rewrite nth_error_app2 in N by auto. destruct (i - length (g_seen c))%nat as [|j] eqn:Ei; [|destruct j; discriminate].
        injection N as <-. assert (i = g_pc c - 6)%nat by (rewrite (I3 c Ic) in *; lia). subst i. apply (I5 c _ v Ic); auto. lia.
    + intros c' i w H L N. apply in_put in H as [->|H]; [|exact (I5 c' i w H L N)]. cbn [g_pc] in L. apply (I5 c i w Ic); auto.
      assert (i < length (g_shared s))%nat by (apply nth_error_Some; congruence). lia.
Qed.
Lemma grun_inv : forall sched times s s', ginv times s -> grun s sched = Some s' -> ginv times s'.
Proof.
  induction sched as [|k sched IH]; intros times s s' I H; cbn [grun] in H; [congruence|].
  destruct (gstep s k) as [s1|] eqn:E; [|discriminate]. eapply IH; [|exact H]. eapply gstep_inv; eauto.
Qed.
Lemma gwrite : forall s k fs pc seen v, nth_error (g_calls s) k = Some (mkGcall fs pc seen) -> (pc < 6)%nat -> nth_error fs pc = Some v ->
  exists s1, gstep s k = Some s1 /\ g_shared s1 = put (g_shared s) pc v /\ nth_error (g_calls s1) k = Some (mkGcall fs (S pc) seen).
Proof.
  intros s k fs pc seen v H L V. eexists. unfold gstep. rewrite H. cbn [g_pc g_fields g_seen]. replace (pc <? 6)%nat with true by (symmetry; now apply Nat.ltb_lt).
  rewrite V. split; [reflexivity|]. cbn [g_shared g_calls]. split; [reflexivity|]. apply put_same. apply nth_error_Some. congruence.
Qed.
Lemma gread : forall s k fs pc seen v, nth_error (g_calls s) k = Some (mkGcall fs pc seen) -> (6 <= pc < 12)%nat -> nth_error (g_shared s) (pc - 6) = Some v ->
  exists s1, gstep s k = Some s1 /\ g_shared s1 = g_shared s /\ nth_error (g_calls s1) k = Some (mkGcall fs (S pc) (seen ++ [v])).
Proof.
  intros s k fs pc seen v H L V. eexists. unfold gstep. rewrite H. cbn [g_pc g_fields g_seen]. replace (pc <? 6)%nat with false by (symmetry; apply Nat.ltb_ge; lia).
  replace (pc <? 12)%nat with true by (symmetry; apply Nat.ltb_lt; lia).
  rewrite V. split; [reflexivity|]. cbn [g_shared g_calls]. split; [reflexivity|]. apply put_same. apply nth_error_Some. congruence.
Qed.
Lemma call_alone : forall s k a b c d e f, length (g_shared s) = 6%nat -> nth_error (g_calls s) k = Some (mkGcall [a; b; c; d; e; f] 0 []) ->
  exists s', grun s (repeat k 12) = Some s' /\ nth_error (g_calls s') k = Some (mkGcall [a; b; c; d; e; f] 12 [a; b; c; d; e; f]).
Proof.
  intros s k a b c d e f Hl H. destruct (g_shared s) as [|x0 [|x1 [|x2 [|x3 [|x4 [|x5 [|]]]]]]] eqn:Es; try discriminate. clear Hl.
  cbn [repeat grun].
  destruct (gwrite s k _ _ _ a H ltac:(lia) eq_refl) as (s1 & -> & S1 & H1). rewrite Es in S1.
  destruct (gwrite s1 k _ _ _ b H1 ltac:(lia) eq_refl) as (s2 & -> & S2 & H2). rewrite S1 in S2.
  destruct (gwrite s2 k _ _ _ c H2 ltac:(lia) eq_refl) as (s3 & -> & S3 & H3). rewrite S2 in S3.
  destruct (gwrite s3 k _ _ _ d H3 ltac:(lia) eq_refl) as (s4 & -> & S4 & H4). rewrite S3 in S4.
  destruct (gwrite s4 k _ _ _ e H4 ltac:(lia) eq_refl) as (s5 & -> & S5 & H5). rewrite S4 in S5.
  destruct (gwrite s5 k _ _ _ f H5 ltac:(lia) eq_refl) as (s6 & -> & S6 & H6). rewrite S5 in S6.
  cbn in S6. clear S1 S2 S3 S4 S5 H H1 H2 H3 H4 H5 Es.
  destruct (gread s6 k _ _ _ a H6 ltac:(lia) ltac:(rewrite S6; reflexivity)) as (r1 & -> & R1 & G1). rewrite S6 in R1.
  destruct (gread r1 k _ _ _ b G1 ltac:(lia) ltac:(rewrite R1; reflexivity)) as (r2 & -> & R2 & G2). rewrite R1 in R2.
  destruct (gread r2 k _ _ _ c G2 ltac:(lia) ltac:(rewrite R2; reflexivity)) as (r3 & -> & R3 & G3). rewrite R2 in R3.
  destruct (gread r3 k _ _ _ d G3 ltac:(lia) ltac:(rewrite R3; reflexivity)) as (r4 & -> & R4 & G4). rewrite R3 in R4.
  destruct (gread r4 k _ _ _ e G4 ltac:(lia) ltac:(rewrite R4; reflexivity)) as (r5 & -> & R5 & G5). rewrite R4 in R5.
  destruct (gread r5 k _ _ _ f G5 ltac:(lia) ltac:(rewrite R5; reflexivity)) as (r6 & -> & R6 & G6).
  exists r6. split; [reflexivity|]. exact G6.
Qed.
Lemma seen_fields : forall times sched s c x, grun (gstart times) sched = Some s -> In c (g_calls s) -> seen_tm c = Some x ->
  (exists y, In y times /\ tm_sec x = tm_sec y) /\ (exists y, In y times /\ tm_min x = tm_min y) /\ (exists y, In y times /\ tm_hour x = tm_hour y)
  /\ (exists y, In y times /\ tm_mday x = tm_mday y) /\ (exists y, In y times /\ tm_mon x = tm_mon y) /\ (exists y, In y times /\ tm_year x = tm_year y).
Proof.
  intros times sched s c x H I S. destruct (grun_inv _ _ _ _ (gstart_inv times) H) as [_ _ _ I4 _]. unfold seen_tm in S.
  destruct (g_seen c) as [|x0 [|x1 [|x2 [|x3 [|x4 [|x5 [|]]]]]]] eqn:Es; try discriminate. injection S as <-. cbn [tm_sec tm_min tm_hour tm_mday tm_mon tm_year].
  pose proof (fun i v E => I4 c i v I E) as J. rewrite Es in J.
  destruct (J 0%nat x0 eq_refl) as (y0 & Y0 & E0). destruct (J 1%nat x1 eq_refl) as (y1 & Y1 & E1). destruct (J 2%nat x2 eq_refl) as (y2 & Y2 & E2).
  destruct (J 3%nat x3 eq_refl) as (y3 & Y3 & E3). destruct (J 4%nat x4 eq_refl) as (y4 & Y4 & E4). destruct (J 5%nat x5 eq_refl) as (y5 & Y5 & E5).
  injection E0 as <-. injection E1 as <-. injection E2 as <-. injection E3 as <-. injection E4 as <-. injection E5 as <-.
  repeat split; eauto.
Qed.
Lemma alone : forall times pre s k c, grun (gstart times) pre = Some s -> nth_error (g_calls s) k = Some c -> g_pc c = 0%nat ->
  exists s' c' x, grun s (repeat k 12) = Some s' /\ nth_error (g_calls s') k = Some c' /\ In x times /\ g_fields c = fields x /\ seen_tm c' = Some x.
Proof.
  intros times pre s k c H K P. destruct (grun_inv _ _ _ _ (gstart_inv times) H) as [I1 I2 I3 _ _].
  pose proof (nth_error_In _ _ K) as I. destruct (I2 c I) as (x & Ix & Ef). pose proof (I3 c I) as L. destruct c as [fs pc seen]. cbn [g_fields g_pc g_seen] in *.
  subst pc fs. destruct seen; [|discriminate]. destruct (call_alone s k _ _ _ _ _ _ I1 K) as (s' & R & K'). exists s', (mkGcall (fields x) 12 (fields x)), x.
  split; [exact R|]. split; [exact K'|]. split; [auto|]. split; [reflexivity|]. destruct x; reflexivity.
Qed.
Lemma stamp_same_iff : forall t t' x h m s x' h' m' s', 0 <= t <= last_second -> 0 <= t' <= last_second -> clock t x h m s -> clock t' x' h' m' s' ->
  (format_timestamp t = format_timestamp t' <->
   d_day x = d_day x' /\ d_month x = d_month x' /\ d_year x mod 100 = d_year x' mod 100 /\ h = h' /\ m = m' /\ s = s').
Proof.
  intros t t' x h m s x' h' m' s' [T0 T1] [T0' T1'] C C'.
  pose proof (epoch_year _ _ _ _ _ T0 C). apply (year_small _ _ _ _ _ C) in T1. pose proof (epoch_year _ _ _ _ _ T0' C'). apply (year_small _ _ _ _ _ C') in T1'.
  destruct (stamp_ok _ _ _ _ _ C ltac:(lia)) as (a & -> & A & _). destruct (stamp_ok _ _ _ _ _ C' ltac:(lia)) as (b & -> & B & _).
  split.
  - intros E. injection E as <-. eapply stamp_text_fun; eauto.
  - intros (E1 & E2 & E3 & E4 & E5 & E6). f_equal. eapply stamp_text_same; eauto.
Qed.
Lemma common_injective : forall t t', 0 <= t <= last_second -> 0 <= t' <= last_second -> format_ts_common_log t = format_ts_common_log t' -> t = t'.
Proof.
  intros t t' [T0 T1] [T0' T1'] E. pose proof (clock_at t) as C. pose proof (clock_at t') as C'.
  pose proof (epoch_year _ _ _ _ _ T0 C). apply (year_small _ _ _ _ _ C) in T1. pose proof (epoch_year _ _ _ _ _ T0' C'). apply (year_small _ _ _ _ _ C') in T1'.
  destruct (common_ok _ _ _ _ _ C ltac:(lia)) as (a & Ea & A). destruct (common_ok _ _ _ _ _ C' ltac:(lia)) as (b & Eb & B).
  rewrite Ea, Eb in E. injection E as <-. destruct (common_text_fun _ _ _ _ _ _ _ _ _ A B) as (X1 & X2 & X3 & X4).
  rewrite <- X1, <- X2, <- X3, <- X4 in C'. eapply clock_inj; eauto.
Qed.
Lemma elapsed : forall s1 u1 s2 u2, 0 <= s1 -> 0 <= u1 < 1000000 -> 0 <= u2 < 1000000 -> s2 < 18446744073709551 ->
  s1 * 1000000 + u1 <= s2 * 1000000 + u2 -> s2 - s1 < 8796093022207 ->
  exists n, thousandths (print_f3 (response_time (epoch_millis s1 u1) (epoch_millis s2 u2))) n
    /\ Z.abs (1000 * n - ((s2 * 1000000 + u2) - (s1 * 1000000 + u1))) < 1000.
Proof.
  intros s1 u1 s2 u2 S1 U1 U2 S2 O D. rewrite !millis_eq by lia. set (a := s1 * 1000000 + u1) in *. set (b := s2 * 1000000 + u2) in *.
  pose proof (Z.div_mod a 1000). pose proof (Z.div_mod b 1000). pose proof (Z.mod_pos_bound a 1000). pose proof (Z.mod_pos_bound b 1000).
  exists (b / 1000 - a / 1000). split; [apply exact_time; unfold limit_ms|]; lia.
Qed.

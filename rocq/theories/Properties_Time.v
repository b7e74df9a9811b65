(** Properties_Time.v - C83, C84: the clock in the logs (/repo/log.c, /repo/wayuu_log.c). *)
From Verif Require Import HttpUtils Time Lemmas HttpUtils_proofs Log_proofs Time_proofs SpecJson SpecHttp SpecMain SpecTime SpecLog Spec.

(** C83.  Every second has one date and time of day, and gmtime finds it whenever the year fits
    in an int. *)
Theorem C83_clock : forall t, exists x h m s, clock t x h m s
  /\ forall x' h' m' s', clock t x' h' m' s' -> x' = x /\ h' = h /\ m' = m /\ s' = s.
Proof. intros t. eexists _, _, _, _. split; [apply clock_at|]. intros x' h' m' s' H. exact (clock_unique _ _ _ _ _ _ _ _ _ H (clock_at t)). Qed.
Print Assumptions C83_clock.
Theorem C83_gmtime : forall t x h m s, clock t x h m s ->
  (- 2 ^ 31 <= d_year x - 1900 < 2 ^ 31 -> gmtime t = Some (mkTm s m h (d_day x) (d_month x - 1) (d_year x - 1900)))
  /\ (2 ^ 31 <= d_year x - 1900 -> gmtime t = None).
Proof.
  intros t x h m s C. rewrite (gmtime_eq _ _ _ _ _ C). split; intros H.
  - replace (- 2 ^ 31 <=? d_year x - 1900) with true by lia. now replace (d_year x - 1900 <? 2 ^ 31) with true by lia.
  - replace (d_year x - 1900 <? 2 ^ 31) with false by lia. now rewrite andb_false_r.
Qed.
Print Assumptions C83_gmtime.
(** The stamp of the program's log shows day, month, year without century and time; that of the
    access log the whole year.  Both are one line. *)
Theorem C83_stamp : forall t x h m s, clock t x h m s -> 0 <= d_year x < 2 ^ 31 + 1900 ->
  exists txt, format_timestamp t = Ok txt /\ stamp_text x h m s txt /\ len txt = 17 /\ one_line txt.
Proof.
  intros t x h m s C Y. destruct (stamp_ok _ _ _ _ _ C Y) as (txt & E & S & N). exists txt. repeat (split; [assumption|]). eapply stamp_one_line; eauto.
Qed.
Print Assumptions C83_stamp.
Theorem C83_common : forall t x h m s, clock t x h m s -> 0 <= d_year x < 2 ^ 31 + 1900 ->
  exists txt, format_ts_common_log t = Ok txt /\ common_text x h m s txt /\ one_line txt /\ (d_year x < 10000 -> len txt <= 26).
Proof.
  intros t x h m s C Y. destruct (common_ok _ _ _ _ _ C Y) as (txt & E & S). exists txt. repeat (split; [assumption|]).
  split; [eapply common_one_line; eauto|]. intros H. eapply common_len; eauto. lia.
Qed.
Print Assumptions C83_common.
(** The texts tell what they show. *)
Theorem C83_common_injective : forall t t', 0 <= t <= 67768036191676799 -> 0 <= t' <= 67768036191676799 ->
  format_ts_common_log t = format_ts_common_log t' -> t = t'.
Proof. exact common_injective. Qed.
Print Assumptions C83_common_injective.
Theorem C83_stamp_same : forall t t' x h m s x' h' m' s', 0 <= t <= 67768036191676799 -> 0 <= t' <= 67768036191676799 -> clock t x h m s -> clock t' x' h' m' s' ->
  (format_timestamp t = format_timestamp t' <->
   d_day x = d_day x' /\ d_month x = d_month x' /\ d_year x mod 100 = d_year x' mod 100 /\ h = h' /\ m = m' /\ s = s').
Proof. exact stamp_same_iff. Qed.
Print Assumptions C83_stamp_same.
Theorem C83_stamp_injective_refuted : exists t t', 0 <= t < t' /\ t' <= 67768036191676799 /\ format_timestamp t = format_timestamp t'.
Proof. exists 1794808937, (1794808937 + 36524 * 86400). split; [lia|]. split; [lia|]. vm_compute. reflexivity. Qed.
Print Assumptions C83_stamp_injective_refuted.
(** From the year 2147485548 on gmtime gives a null pointer, which strftime reads. *)
Theorem C83_end_of_time : forall t, 0 <= t ->
  (undefined (format_timestamp t) <-> 67768036191676800 <= t) /\ (undefined (format_ts_common_log t) <-> 67768036191676800 <= t).
Proof. intros t H. destruct (format_undefined t H) as [A B]. rewrite A, B. unfold last_second. split; lia. Qed.
Print Assumptions C83_end_of_time.

(** The struct tm is shared.  Whatever the schedule, each field a call of strftime sees was put
    there for one of the times asked for... *)
Theorem C83_shared : forall times sched s c x, grun (gstart times) sched = Some s -> In c (g_calls s) -> seen_tm c = Some x ->
  (exists y, In y times /\ tm_sec x = tm_sec y) /\ (exists y, In y times /\ tm_min x = tm_min y) /\ (exists y, In y times /\ tm_hour x = tm_hour y)
  /\ (exists y, In y times /\ tm_mday x = tm_mday y) /\ (exists y, In y times /\ tm_mon x = tm_mon y) /\ (exists y, In y times /\ tm_year x = tm_year y).
Proof. exact seen_fields. Qed.
Print Assumptions C83_shared.
(** ... and a call that nobody interrupts sees its own time, whatever happened before... *)
Theorem C83_alone : forall times pre s k c, grun (gstart times) pre = Some s -> nth_error (g_calls s) k = Some c -> g_pc c = 0%nat ->
  exists s' c' x, grun s (repeat k 12) = Some s' /\ nth_error (g_calls s') k = Some c' /\ In x times /\ g_fields c = fields x /\ seen_tm c' = Some x.
Proof. exact alone. Qed.
Print Assumptions C83_alone.
(** ... but otherwise the time shown need not be one that was asked for.  Here a call has filled in
    31 December 1999, 23:59:59 when another writes the next second's seconds, minutes and hours. *)
Theorem C83_own_time_refuted : exists t0 t1 x0 x1 sched s c x txt,
  gmtime t0 = Some x0 /\ gmtime t1 = Some x1 /\ t1 = t0 + 1 /\ grun (gstart [x0; x1]) sched = Some s
  /\ nth_error (g_calls s) 0 = Some c /\ seen_tm c = Some x /\ common_of x = txt
  /\ format_ts_common_log (t0 - 86399) = Ok txt /\ format_ts_common_log t0 <> Ok txt /\ format_ts_common_log t1 <> Ok txt.
Proof.
  exists 946684799, 946684800. eexists _, _. exists (repeat 0%nat 6 ++ repeat 1%nat 3 ++ repeat 0%nat 6). eexists _, _, _, _.
  split; [vm_compute; reflexivity|]. split; [vm_compute; reflexivity|]. split; [reflexivity|].
  split; [vm_compute; reflexivity|]. split; [reflexivity|]. split; [vm_compute; reflexivity|]. split; [reflexivity|].
  split; [vm_compute; reflexivity|]. split; vm_compute; discriminate.
Qed.
Print Assumptions C83_own_time_refuted.
Example C83_case :
  format_timestamp 1794808937 = Ok (L "16-11-26 06:02:17") /\ format_ts_common_log 1794808937 = Ok (L "16/Nov/2026:06:02:17 +0000")
  /\ format_ts_common_log 951782400 = Ok (L "29/Feb/2000:00:00:00 +0000") /\ format_ts_common_log 4107542400 = Ok (L "01/Mar/2100:00:00:00 +0000")
  /\ format_ts_common_log 67768036191676799 = Ok (L "31/Dec/2147485547:23:59:59 +0000") /\ undefined (format_ts_common_log 67768036191676800).
Proof. repeat split; [vm_compute; reflexivity..|]. exists NullDeref. vm_compute. reflexivity. Qed.

(** C84.  epoch_millis counts whole milliseconds. *)
Theorem C84_millis : forall sec usec, 0 <= sec < 18446744073709551 -> 0 <= usec < 1000000 -> epoch_millis sec usec = (sec * 1000000 + usec) / 1000.
Proof. exact millis_eq. Qed.
Print Assumptions C84_millis.
(** For less than 278 thousand years the logged duration is the difference exactly, in spite of
    the arithmetic in doubles... *)
Theorem C84_exact : forall start now, start <= now -> now - start < 8796093022208000 ->
  thousandths (print_f3 (response_time start now)) (now - start).
Proof. exact exact_time. Qed.
Print Assumptions C84_exact.
(** ... so that it differs from the time on the clock by less than a millisecond. *)
Theorem C84_elapsed : forall s1 u1 s2 u2, 0 <= s1 -> 0 <= u1 < 1000000 -> 0 <= u2 < 1000000 -> s2 < 18446744073709551 ->
  s1 * 1000000 + u1 <= s2 * 1000000 + u2 -> s2 - s1 < 8796093022207 ->
  exists n, thousandths (print_f3 (response_time (epoch_millis s1 u1) (epoch_millis s2 u2))) n
    /\ Z.abs (1000 * n - ((s2 * 1000000 + u2) - (s1 * 1000000 + u1))) < 1000.
Proof. exact elapsed. Qed.
Print Assumptions C84_elapsed.
(** The next millisecond is the first one shown wrongly. *)
Theorem C84_exact_refuted : thousandths (print_f3 (response_time 0 8796093022208001)) 8796093022208002.
Proof.
  exists (L "8796093022208"), "0"%char, "0"%char, "2"%char, 0, 0, 2. split; [vm_compute; reflexivity|].
  split; [apply (dec_nat_decimal 8796093022208); lia|]. unfold digit_of. repeat split; vm_compute; congruence.
Qed.
Print Assumptions C84_exact_refuted.
(** Beyond, the difference and its quotient are rounded to the nearest double, and what is printed
    is rounded to the nearest thousandth, halves to even. *)
Theorem C84_rounding : forall start now d, d = (now - start) mod 2 ^ 64 -> 0 < d -> exists m e q x, nearest_double d 1 m e /\ response_time start now = mkDouble q x
  /\ (0 <= e -> nearest_double (m * 2 ^ e) 1000 q x) /\ (e < 0 -> nearest_double m (1000 * 2 ^ (- e)) q x).
Proof.
  intros start now d Ed Hd. pose proof (round_double_nearest d 1 Hd eq_refl) as N. set (x := round_double d 1) in *.
  exists (d_num x), (d_exp x), (d_num (response_time start now)), (d_exp (response_time start now)). split; [exact N|]. split; [now destruct (response_time start now)|].
  unfold response_time, div_double. rewrite <- Ed. fold x. destruct N as (N & _). change (2 ^ 52) with 4503599627370496 in N.
  split; intros G.
  - replace (0 <=? d_exp x) with true by lia. apply round_double_nearest; [|lia]. apply Z.mul_pos_pos; [lia|]. apply Z.pow_pos_nonneg; lia.
  - replace (0 <=? d_exp x) with false by lia. apply round_double_nearest; [lia|]. apply Z.mul_pos_pos; [lia|]. apply Z.pow_pos_nonneg; lia.
Qed.
Print Assumptions C84_rounding.
Theorem C84_print : forall x, 0 <= d_num x -> exists n, thousandths (print_f3 x) n
  /\ (0 <= d_exp x -> n = d_num x * 2 ^ d_exp x * 1000) /\ (d_exp x < 0 -> rounded (d_num x * 1000) (2 ^ (- d_exp x)) n).
Proof. exact print_rounded. Qed.
Print Assumptions C84_print.
(** If the clock is set back while a request is served, by up to 1024 ms, the log says that it
    took 18446744073709552 seconds; set back by more, still more than 9 * 10^15. *)
Theorem C84_set_back : forall start now, now < start <= now + 1024 -> print_f3 (response_time start now) = L "18446744073709552.000".
Proof. exact step_back. Qed.
Print Assumptions C84_set_back.
Theorem C84_set_back_far : forall start now, now < start -> start - now <= 2 ^ 63 ->
  exists n, thousandths (print_f3 (response_time start now)) n /\ 9 * 10 ^ 18 <= n.
Proof. exact step_back_far. Qed.
Print Assumptions C84_set_back_far.
Example C84_case :
  print_f3 (response_time (epoch_millis 1794808937 999900) (epoch_millis 1794808938 1000)) = L "0.002"
  /\ print_f3 (response_time 0 7) = L "0.007" /\ print_f3 (response_time 0 61234) = L "61.234" /\ print_f3 (response_time 5 5) = L "0.000"
  /\ print_f3 (mkDouble 1 (-4)) = L "0.062" /\ print_f3 (mkDouble 3 (-4)) = L "0.188" /\ d_num (round_double 9007199254740993 1) = 4503599627370496
  /\ print_f3 (response_time 1000 0) = L "18446744073709552.000" /\ print_f3 (response_time 100000 0) = L "18446744073709452.000".
Proof. vm_compute. repeat split; reflexivity. Qed.

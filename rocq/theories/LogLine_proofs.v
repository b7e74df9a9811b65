(** LogLine_proofs.v - lemmas for C91: the bytes of the application log. *)
From Verif Require Import LogLine Lemmas JsonUtils_proofs HttpUtils_proofs Log_proofs Time_proofs Start_proofs SpecJson SpecHttp SpecTime SpecLog SpecLogLine Spec.

(** ** Reading a log back *)
Definition isdig (c : ascii) : Prop := 48 <= code c <= 57.
(** Text that is empty or begins with a digit. *)
Definition begins (s : str) : Prop := s = [] \/ exists c q, s = c :: q /\ isdig c.

Lemma stamp_at t : 0 <= t <= last_second -> exists txt, format_timestamp t = Ok txt /\ shown_time t txt /\ len txt = 17 /\ begins txt.
Proof.
  intros H. pose proof (clock_at t) as C. pose proof (epoch_year _ _ _ _ _ (proj1 H) C) as Y1. pose proof (proj2 (year_small _ _ _ _ _ C) (proj2 H)) as Y2.
  destruct (stamp_ok _ _ _ _ _ C ltac:(lia)) as (txt & E & S & N). exists txt. split; [exact E|]. split; [eexists _, _, _, _; eauto|]. split; [exact N|].
  destruct S as (dd & mo & yy & hh & mi & ss & (a & b & x & y & -> & (R & Ea) & _) & _ & _ & _ & _ & _ & ->). right. eexists _, _. split; [reflexivity|]. unfold isdig. lia.
Qed.

Lemma tame_cut t r t' r' : tame t -> tame t' -> begins r -> begins r' -> t ++ LF :: r = t' ++ LF :: r' -> t = t' /\ r = r'.
Proof.
  assert (K : forall t w r r', tame (t ++ LF :: w) -> begins r -> r = w ++ LF :: r' -> False).
  { intros u w s s' T [->|(c & q & -> & D)] E; [destruct w; discriminate|]. destruct w as [|d w]; injection E as -> _.
    - destruct D as [D _]. revert D. vm_compute. congruence.
    - exact (T u d w eq_refl D). }
  intros T T' B B' E. apply app_eq_app in E as (w & [(E1 & E2)|(E1 & E2)]).
  - destruct w as [|c w]; [rewrite app_nil_r in E1; subst; injection E2 as <-; auto|]. injection E2 as <- E2. subst t. exfalso. exact (K _ _ _ _ T B' E2).
  - destruct w as [|c w]; [rewrite app_nil_r in E1; subst; injection E2 as <-; auto|]. injection E2 as <- E2. subst t'. exfalso. exact (K _ _ _ _ T' B E2).
Qed.

Lemma level_case l : 0 <= l <= 5 -> In l [0; 1; 2; 3; 4; 5].
Proof. intros H. cbn. lia. Qed.
Lemma pad5_len l : 0 <= l <= 5 -> length (pad5 (level_name l)) = 5%nat.
Proof. intros H. apply level_case in H. cbn in H. repeat (destruct H as [<-|H]; [reflexivity|]). destruct H. Qed.
Lemma pad5_inj l l' : 0 <= l <= 5 -> 0 <= l' <= 5 -> pad5 (level_name l) = pad5 (level_name l') -> l = l'.
Proof.
  intros H H' E. apply level_case in H. apply level_case in H'. cbn in H, H'.
  repeat (destruct H as [<-|H]); try destruct H; repeat (destruct H' as [<-|H']); try destruct H'; try reflexivity; discriminate E.
Qed.
Lemma app_len_inj {A} (a b c d : list A) : length a = length c -> a ++ b = c ++ d -> a = c /\ b = d.
Proof.
  revert c. induction a as [|x a IH]; intros [|y c] H E; try discriminate; cbn in *; auto.
  injection E as -> E. injection H as H. destruct (IH _ H E) as [-> ->]. auto.
Qed.

Definition head_of (stamp : str) (e : said) : str :=
  stamp ++ L " " ++ dec_nat (sd_thread e) ++ L " " ++ pad5 (level_name (sd_level e)) ++ L " " ++ sd_file e ++ L ":" ++ sd_func e ++ L ":" ++ dec (sd_line e) ++ L ": ".
Lemma calls_ok e : regular e -> exists stamp, format_timestamp (sd_time e) = Ok stamp /\ shown_time (sd_time e) stamp /\ len stamp = 17 /\ begins stamp
  /\ log_calls e = Ok [head_of stamp e; sd_text e; [LF]].
Proof.
  intros (Ht & _ & Hl & _). destruct (stamp_at _ Ht) as (stamp & E & S & N & B). exists stamp. do 4 (split; [assumption|]).
  unfold log_calls. rewrite E. cbn [bind]. replace (_ || _) with false by lia. reflexivity.
Qed.
Lemma head_cut s s' e e' r r' : len s = 17 -> len s' = 17 -> regular e -> regular e' -> head_of s e ++ r = head_of s' e' ++ r' ->
  s = s' /\ sd_thread e = sd_thread e' /\ sd_level e = sd_level e' /\ sd_file e = sd_file e' /\ sd_func e = sd_func e' /\ sd_line e = sd_line e' /\ r = r'.
Proof.
  intros N N' (_ & Ht & Hl & Hf & Hg & _) (_ & Ht' & Hl' & Hf' & Hg' & _) E. unfold head_of in E. change (L " ") with [SP] in E. change (L ":") with [":"%char] in E.
  change (L ": ") with (":"%char :: [SP]) in E. rewrite <- !app_assoc in E. cbn [app] in E.
  apply app_len_inj in E as [-> E]; [|unfold len in *; lia]. injection E as E.
  assert (Hd : forall z c, 0 <= z -> digit c = false -> ~ In c (dec_nat z)).
  { intros z c Hz Hc I. destruct (dec_nat_spec z Hz) as (D & _). rewrite Forall_forall in D. apply D in I. congruence. }
  apply cut_unique in E as [E1 E]; try (apply Hd; [assumption|reflexivity]). apply dec_nat_inj in E1 as ->; auto.
  apply app_len_inj in E as [E1 E]; [|now rewrite !pad5_len]. apply pad5_inj in E1 as ->; auto. injection E as E.
  apply cut_unique in E as [-> E]; auto. apply cut_unique in E as [-> E]; auto.
  assert (Hc : forall z, ~ In ":"%char (dec z)) by (intros z; apply dec_not_in; [intros d Hd' ->; discriminate|discriminate]).
  apply cut_unique in E as [E1 E]; auto. apply dec_inj in E1 as ->. injection E as ->. repeat split.
Qed.

Lemma bytes_ok es : Forall regular es -> exists out, log_bytes es = Ok out /\ begins out.
Proof.
  induction 1 as [|e es H _ (out & E & _)]; [exists []; split; [reflexivity|now left]|].
  destruct (calls_ok e H) as (st & _ & _ & N & B & C). cbn [log_bytes]. rewrite C, E. cbn [bind]. eexists. split; [reflexivity|].
  destruct B as [->|(c & q & -> & D)]; [discriminate N|]. right. eexists _, _. split; [reflexivity|exact D].
Qed.
Lemma bytes_injective : forall es es' out, Forall regular es -> Forall regular es' -> log_bytes es = Ok out -> log_bytes es' = Ok out -> Forall2 tells_same es es'.
Proof.
  assert (K : forall e es, regular e -> Forall regular es -> log_bytes (e :: es) <> Ok []).
  { intros e es H F E. destruct (calls_ok e H) as (st & _ & _ & N & _ & C). cbn [log_bytes] in E. rewrite C in E. cbn [bind] in E.
    destruct (log_bytes es); [|discriminate]. cbn [bind concat] in E. injection E as E. unfold head_of in E. destruct st; [discriminate N|discriminate E]. }
  induction es as [|e es IH]; intros [|e' es'] out F F' E E'; [constructor| | |].
  - injection E as <-. inversion F'; subst. now apply K in E'.
  - injection E' as <-. inversion F; subst. now apply K in E.
  - inversion_clear F as [|? ? H Fs]. inversion_clear F' as [|? ? H' Fs']. cbn [log_bytes] in E, E'.
    destruct (calls_ok e H) as (st & _ & S & N & _ & C). destruct (calls_ok e' H') as (st' & _ & S' & N' & _ & C'). rewrite C in E. rewrite C' in E'.
    destruct (bytes_ok es Fs) as (r & Er & Br). destruct (bytes_ok es' Fs') as (r' & Er' & Br'). rewrite Er in E. rewrite Er' in E'. cbn [bind concat] in E, E'.
    injection E as E. injection E' as E'. rewrite <- E' in E. rewrite <- !app_assoc in E. cbn [app] in E.
    apply head_cut in E as (-> & E1 & E2 & E3 & E4 & E5 & E6); auto. pose proof H as (_ & _ & _ & _ & _ & T). pose proof H' as (_ & _ & _ & _ & _ & T').
    apply tame_cut in E6 as [E6 ->]; auto. constructor; [|eapply IH; eauto]. split; [eauto|]. repeat split; assumption.
Qed.

(** ** Several threads *)
Lemma take_at a c cs b : take_call (length a) (a ++ (c :: cs) :: b) = Some (c, a ++ cs :: b).
Proof. induction a as [|t a IH]; [reflexivity|]. cbn [length app take_call]. rewrite IH. destruct t; reflexivity. Qed.
Lemma calls_app a e t b cs : all_calls (a ++ (e :: t) :: b) = Ok cs -> exists ca c ct cb, cs = ca ++ (c ++ ct) :: cb /\ length ca = length a /\ log_calls e = Ok c
  /\ all_calls (a ++ t :: b) = Ok (ca ++ ct :: cb).
Proof.
  revert cs. induction a as [|x a IH]; intros cs H; cbn [app all_calls] in H.
  - cbn [thread_calls] in H. destruct (log_calls e) as [c|]; [|discriminate]. cbn [bind] in H. destruct (thread_calls t) as [ct|] eqn:E1; [|discriminate]. cbn [bind] in H.
    destruct (all_calls b) as [cb|] eqn:E2; [|discriminate]. injection H as <-. exists [], c, ct, cb. cbn [app all_calls]. rewrite E1, E2. auto.
  - destruct (thread_calls x) as [cx|] eqn:E1; [|discriminate]. cbn [bind] in H. destruct (all_calls (a ++ _)) as [r|] eqn:E2; [|discriminate]. injection H as <-.
    destruct (IH _ eq_refl) as (ca & c & ct & cb & -> & E3 & E4 & E5). exists (cx :: ca), c, ct, cb. cbn [app all_calls length]. rewrite E1, E5. cbn [bind]. auto.
Qed.
Lemma log_calls_three e c : log_calls e = Ok c -> exists x y, c = [x; y; [LF]].
Proof. unfold log_calls. destruct (format_timestamp _); [|discriminate]. cbn [bind]. destruct (_ || _); [discriminate|]. intros [= <-]. eauto. Qed.
Lemma all_done ths cs : Forall (fun t => t = []) ths -> all_calls ths = Ok cs -> Forall (fun c => c = []) cs.
Proof.
  intros F. revert cs. induction F as [|t ths -> _ IH]; intros cs H; cbn [all_calls thread_calls bind] in H; [injection H as <-; constructor|].
  destruct (all_calls ths); [|discriminate]. injection H as <-. constructor; auto.
Qed.
Lemma in_turn_run ths order es : in_turn ths order es -> forall cs out0, all_calls ths = Ok cs ->
  exists out rest, lrun (out0, cs) (flat_map (fun k => [k; k; k]) order) = Some (out0 ++ out, rest) /\ log_bytes es = Ok out /\ Forall (fun c => c = []) rest.
Proof.
  induction 1 as [ths F|a e t b k order es Hk _ IH]; intros cs out0 H.
  - exists [], cs. rewrite app_nil_r. split; [reflexivity|]. split; [reflexivity|]. eapply all_done; eauto.
  - destruct (calls_app _ _ _ _ _ H) as (ca & c & ct & cb & -> & E1 & E2 & E3). destruct (log_calls_three _ _ E2) as (x & y & ->).
    destruct (IH _ (out0 ++ x ++ y ++ [LF]) E3) as (out & rest & R1 & R2 & R3). exists ((x ++ y ++ [LF]) ++ out), rest.
    assert (Ek : k = length ca) by congruence. cbn [flat_map app lrun fst snd]. rewrite Ek, take_at. cbn [fst snd]. rewrite take_at. cbn [fst snd]. rewrite take_at. cbn [fst snd].
    rewrite <- !app_assoc in *. rewrite R1. split; [reflexivity|]. cbn [log_bytes]. rewrite E2, R2. cbn [bind concat]. rewrite app_nil_r, <- !app_assoc. auto.
Qed.

(** Whatever the schedule, the same bytes are written, in some order. *)
Lemma take_count k ts c ts' : take_call k ts = Some (c, ts') -> line_count (concat (concat ts)) = (line_count c + line_count (concat (concat ts')))%nat.
Proof.
  revert k ts'. induction ts as [|t ts IH]; intros k ts' H; [destruct k; discriminate H|]. cbn [take_call] in H. destruct k as [|k].
  - destruct t as [|c0 cs]; [discriminate|]. injection H as -> <-. cbn [concat app]. now rewrite !concat_app, !count_app.
  - assert (E : exists ts'', take_call k ts = Some (c, ts'') /\ ts' = t :: ts'').
    { destruct t; cbn [take_call] in H; destruct (take_call k ts) as [[c' ts'']|]; try discriminate; injection H as -> <-; eauto. }
    destruct E as (ts'' & E & ->). apply IH in E. cbn [concat]. rewrite !concat_app, !count_app, E. lia.
Qed.
Lemma run_count : forall sched s s', lrun s sched = Some s' ->
  (line_count (fst s') + line_count (concat (concat (snd s'))) = line_count (fst s) + line_count (concat (concat (snd s))))%nat.
Proof.
  induction sched as [|k sched IH]; intros s s' H; cbn [lrun] in H; [injection H as <-; reflexivity|].
  destruct (take_call k (snd s)) as [[c ts]|] eqn:E; [|discriminate]. apply IH in H. cbn [fst snd] in H. rewrite count_app in H. apply take_count in E. lia.
Qed.
Lemma thread_count es cs : Forall (fun e => one_line (sd_text e) /\ one_line (sd_file e) /\ one_line (sd_func e) /\ 0 <= sd_thread e /\ 0 <= sd_time e <= last_second) es ->
  thread_calls es = Ok cs -> line_count (concat cs) = length es.
Proof.
  intros F. revert cs. induction F as [|e es (H1 & H2 & H3 & H4 & H5) _ IH]; intros cs H; cbn [thread_calls] in H; [injection H as <-; reflexivity|].
  unfold log_calls in H. destruct (stamp_at _ H5) as (st & Es & (x & h & m & s & C & S) & _). rewrite Es in H. cbn [bind] in H. destruct (_ || _) eqn:El; [discriminate|]. cbn [bind] in H.
  destruct (thread_calls es) as [r|]; [|discriminate]. assert (Ec : head_of st e :: sd_text e :: [LF] :: r = cs) by (cbn [bind] in H; change (Ok (head_of st e :: sd_text e :: [LF] :: r) = Ok cs) in H; congruence). clear H. subst cs. specialize (IH _ eq_refl). cbn [concat]. rewrite !count_app. unfold head_of. rewrite !count_app.
  assert (Hst : one_line st) by (exact (stamp_one_line _ _ _ _ _ S)).
  assert (Hp : one_line (pad5 (level_name (sd_level e)))).
  { assert (Hl : 0 <= sd_level e <= 5) by lia. apply level_case in Hl. revert Hl. generalize (sd_level e). clear. intros l Hl I. cbn in Hl. repeat (destruct Hl as [<-|Hl]; [vm_compute in I; intuition discriminate|]). destruct Hl. }
  pose proof (dec_one_line (sd_line e)) as Hd. pose proof (dec_nat_one_line _ H4) as Ht. apply one_line_count in H1, H2, H3, Hst, Hp, Hd, Ht.
  rewrite H1, H2, H3, Hst, Hp, Hd, Ht, IH. reflexivity.
Qed.
Lemma all_count ths cs : Forall (Forall (fun e => one_line (sd_text e) /\ one_line (sd_file e) /\ one_line (sd_func e) /\ 0 <= sd_thread e /\ 0 <= sd_time e <= last_second)) ths ->
  all_calls ths = Ok cs -> line_count (concat (concat cs)) = length (concat ths).
Proof.
  intros F. revert cs. induction F as [|t ths H _ IH]; intros cs E; cbn [all_calls] in E; [injection E as <-; reflexivity|].
  destruct (thread_calls t) as [c|] eqn:E1; [|discriminate]. cbn [bind] in E. destruct (all_calls ths) as [r|]; [|discriminate]. injection E as <-.
  cbn [concat]. rewrite concat_app, count_app, app_length, (IH _ eq_refl), (thread_count _ _ H E1). reflexivity.
Qed.

(** Server_proofs.v - lemmas about descriptors and the table. *)
From Coq Require Import Permutation.
From Verif Require Import Server Lemmas WsConn_proofs Races_proofs SpecConn SpecServer Spec.

Notation cnt := (count_occ Z.eq_dec).
Lemma cnt_cons x y l : cnt (x :: l) y = ((if Z.eq_dec x y then 1 else 0) + cnt l y)%nat.
Proof. cbn. destruct (Z.eq_dec x y); reflexivity. Qed.
Lemma cnt_remove s x l : cnt (remove Z.eq_dec s l) x = if Z.eq_dec s x then 0%nat else cnt l x.
Proof.
  induction l as [|y l IH]; [cbn; now destruct (Z.eq_dec s x)|]. cbn [remove]. destruct (Z.eq_dec s y) as [->|N].
  - rewrite IH, cnt_cons. destruct (Z.eq_dec y x); reflexivity.
  - rewrite !cnt_cons, IH. destruct (Z.eq_dec s x) as [->|]; [|reflexivity]. destruct (Z.eq_dec y x); [congruence|reflexivity].
Qed.
Lemma cnt_in x l : (0 < cnt l x)%nat <-> In x l.
Proof. rewrite (count_occ_In Z.eq_dec). lia. Qed.
Lemma job_split (l : list job) k j : nth_error l k = Some j -> exists a b, l = a ++ j :: b /\ forall j', set_nth l k j' = a ++ j' :: b.
Proof. intros H. apply nth_error_split in H as (a & b & -> & <-). exists a, b. split; [reflexivity|]. intros. apply set_nth_eq. Qed.
Lemma flat_mid A (f : job -> list A) a j b : flat_map f (a ++ j :: b) = flat_map f a ++ f j ++ flat_map f b.
Proof. now rewrite flat_map_app. Qed.

(** ** Where open descriptors are *)
Definition places (sv : server) (x : Z) : nat := (cnt (s_waiting sv) x + cnt (s_lost sv) x + cnt (flat_map held (s_jobs sv)) x)%nat.
Definition fds_ok (sv : server) : Prop := (forall x, cnt (s_open sv) x = places sv x) /\ (forall x, (cnt (s_open sv) x <= 1)%nat) /\ Forall (fun s => 0 < s) (s_open sv).
Ltac norm := rewrite ?flat_mid, ?count_occ_app, ?cnt_cons, ?cnt_remove in *; cbn [held count_occ leaving admitted map c_socket app] in *.
Lemma remove_Forall (P : Z -> Prop) s l : Forall P l -> Forall P (remove Z.eq_dec s l).
Proof. intros H. apply Forall_forall. intros x Hx. apply in_remove in Hx as [Hx _]. rewrite Forall_forall in H. auto. Qed.
Lemma fds_step rules cap m sv a sv' : fds_ok sv -> sstep rules cap m sv a = Some (Ok sv') -> fds_ok sv'.
Proof.
  intros (P & N & F) E. unfold sstep in E. destruct (s_up sv) eqn:U; [|discriminate]. cbn [negb] in E. unfold places in P.
  destruct a as [s al| |k|k|k ip path|k|k|k].
  - destruct ((_ <? _) && (0 <? s) && negb (is_open sv s)) eqn:C; [|discriminate]. apply andb_true_iff in C as [C C3]. apply andb_true_iff in C as [_ C2].
    assert (Ns : cnt (s_open sv) s = 0%nat).
    { destruct (cnt (s_open sv) s) eqn:X; [reflexivity|]. assert (I : In s (s_open sv)) by (apply cnt_in; lia). unfold is_open in C3.
      apply negb_true_iff in C3. assert (existsb (Z.eqb s) (s_open sv) = true); [|congruence]. apply existsb_exists. exists s. split; [exact I|apply Z.eqb_refl]. }
    injection E as <-. destruct al; cbn [negb]; [|now split].
    assert (G : forall x, (cnt (s :: s_open sv) x <= 1)%nat) by (intros x; rewrite cnt_cons; specialize (N x); destruct (Z.eq_dec s x) as [->|]; lia).
    assert (G' : Forall (fun s => 0 < s) (s :: s_open sv)) by (constructor; [lia|exact F]).
    destruct (_ =? cap); (split; [intros x; specialize (P x); unfold places; cbn [s_open s_waiting s_lost s_jobs]; norm; lia|split; [exact G|exact G']]).
  - destruct (_ <? _); [discriminate|]. injection E as <-. now split.
  - destruct (nth_error (s_jobs sv) k) as [j|] eqn:J; [|discriminate]. destruct j; try discriminate. destruct (s_waiting sv) as [|s rest] eqn:W; [discriminate|].
    injection E as <-. destruct (job_split _ _ _ J) as (a & b & Ej & Es). rewrite Ej in P. split; [|split; [exact N|exact F]].
    intros x. specialize (P x). unfold places. cbn [s_open s_waiting s_lost s_jobs]. rewrite Es. norm. lia.
  - destruct (nth_error (s_jobs sv) k) as [j|] eqn:J; [|discriminate]. destruct j; try discriminate. injection E as <-.
    destruct (job_split _ _ _ J) as (a & b & Ej & Es). rewrite Ej in P. split; [|split; [exact N|exact F]].
    intros x. specialize (P x). unfold places. cbn [s_open s_waiting s_lost s_jobs with_job]. rewrite Es. norm. lia.
  - destruct (nth_error (s_jobs sv) k) as [j|] eqn:J; [|discriminate]. destruct j; try discriminate. destruct (connection_add _ _ _ _ _) as [(ok, t)|]; [|discriminate]. cbn [bind] in E. injection E as <-.
    destruct (job_split _ _ _ J) as (a & b & Ej & Es). rewrite Ej in P. split; [|split; [exact N|exact F]].
    intros x. specialize (P x). unfold places. cbn [s_open s_waiting s_lost s_jobs]. rewrite Es. destruct ok; norm; lia.
  - destruct (nth_error (s_jobs sv) k) as [j|] eqn:J; [|discriminate]. destruct j; try discriminate. injection E as <-.
    destruct (job_split _ _ _ J) as (a & b & Ej & Es). rewrite Ej in P. split; [|split; [exact N|exact F]].
    intros x. specialize (P x). unfold places. cbn [s_open s_waiting s_lost s_jobs with_job]. rewrite Es. norm. lia.
  - destruct (nth_error (s_jobs sv) k) as [j|] eqn:J; [|discriminate]. destruct j; try discriminate. injection E as <-.
    destruct (job_split _ _ _ J) as (a & b & Ej & Es). rewrite Ej in P. split; [|split; [|now apply remove_Forall]].
    + intros x. specialize (P x). specialize (N x). unfold places. cbn [s_open s_waiting s_lost s_jobs]. rewrite Es. norm. destruct (Z.eq_dec s x); lia.
    + intros x. specialize (N x). cbn [s_open]. norm. destruct (Z.eq_dec s x); lia.
  - destruct (nth_error (s_jobs sv) k) as [j|] eqn:J; [|discriminate]. destruct j; try discriminate. injection E as <-.
    destruct (job_split _ _ _ J) as (a & b & Ej & Es). rewrite Ej in P. split; [|split; [exact N|exact F]].
    intros x. specialize (P x). unfold places. cbn [s_open s_waiting s_lost s_jobs]. rewrite Es. norm. lia.
Qed.
Lemma start_flat A (f : job -> list A) n : f JIdle = [] -> flat_map f (repeat JIdle n) = [].
Proof. intros H. induction n as [|n IH]; [reflexivity|]. cbn. now rewrite H. Qed.
Lemma fds_start n : fds_ok (server_start n).
Proof. split; [|split; [intros; cbn; lia|constructor]]. intros x. unfold places, server_start. cbn [s_open s_waiting s_lost s_jobs]. rewrite start_flat by reflexivity. reflexivity. Qed.
Lemma fds_reach rules cap m sv l sv' : fds_ok sv -> reaches rules cap m sv l sv' -> fds_ok sv'.
Proof. intros H R. induction R; [exact H|]. apply IHR. eapply fds_step; eauto. Qed.
Lemma fds_perm sv : fds_ok sv -> NoDup (s_open sv) /\ Permutation (s_open sv) (s_waiting sv ++ s_lost sv ++ flat_map held (s_jobs sv)).
Proof.
  intros (P & N & _). split; [now apply (NoDup_count_occ Z.eq_dec)|]. apply (Permutation_count_occ Z.eq_dec). intros x. rewrite P. unfold places. rewrite !count_occ_app. lia.
Qed.
Lemma held_le l : len (flat_map held l) <= len l.
Proof. induction l as [|j l IH]; [cbn; lia|]. cbn [flat_map]. rewrite len_app, len_cons. assert (len (held j) <= 1) by (destruct j; cbn; lia). lia. Qed.

(** ** Orderly schedules are histories *)
Definition fit_job (j : job) : Prop := match j with JClose s (Some c) | JDel s (Some c) => c_socket c = s | _ => True end.
Definition serial (rules : list limit) (sv : server) : Prop :=
  (exists evs answers open, history rules evs answers open /\ Permutation open (flat_map admitted (s_jobs sv)) /\ tracks (s_table sv) open)
  /\ Forall fit_job (s_jobs sv)
  /\ (forall x, (cnt (s_open sv) x + cnt (flat_map leaving (s_jobs sv)) x <= 1)%nat)
  /\ Forall (fun s => 0 < s) (flat_map leaving (s_jobs sv)).
Lemma fit_cnt l x : Forall fit_job l -> (cnt (map c_socket (flat_map admitted l)) x <= cnt (flat_map held l) x + cnt (flat_map leaving l) x)%nat.
Proof.
  induction 1 as [|j l Hj _ IH]; [cbn; lia|]. cbn [flat_map]. rewrite map_app, !count_occ_app.
  assert (cnt (map c_socket (admitted j)) x <= cnt (held j) x + cnt (leaving j) x)%nat; [|lia].
  destruct j as [|s|c|s o|s o]; cbn [admitted held leaving map count_occ]; try lia; destruct o as [c|]; cbn in *; try subst s; lia.
Qed.
Lemma fit_split a j b : Forall fit_job (a ++ j :: b) -> fit_job j /\ forall j', fit_job j' -> Forall fit_job (a ++ j' :: b).
Proof. intros H. apply Forall_app in H as [Ha Hb]. inv Hb. split; [assumption|]. intros j' Hj. apply Forall_app. split; [assumption|now constructor]. Qed.
Lemma serial_step rules cap m sv a sv' : Forall (fun r => no_nul (l_path r)) rules -> fds_ok sv -> serial rules sv -> sstep rules cap m sv a = Some (Ok sv') ->
  match a with
    | Accept s _ => ~ In s (flat_map leaving (s_jobs sv))
    | Admit _ ip path => no_nul path /\ no_nul ip /\ len path <= 511 /\ len ip <= 15
    | _ => True
    end -> serial rules sv'.
Proof.
  intros Hr (P & N & F) ((evs & ans & open & H & PO & T) & FJ & CL & FL) E O. unfold sstep in E. destruct (s_up sv) eqn:U; [|discriminate]. cbn [negb] in E. unfold places in P.
  destruct a as [s al| |k|k|k ip path|k|k|k].
  - destruct ((_ <? _) && (0 <? s) && negb (is_open sv s)) eqn:C; [|discriminate]. apply andb_true_iff in C as [C C3]. apply andb_true_iff in C as [_ C2].
    assert (Ns : cnt (s_open sv) s = 0%nat).
    { destruct (cnt (s_open sv) s) eqn:X; [reflexivity|]. assert (I : In s (s_open sv)) by (apply cnt_in; lia). unfold is_open in C3.
      apply negb_true_iff in C3. assert (existsb (Z.eqb s) (s_open sv) = true); [|congruence]. apply existsb_exists. exists s. split; [exact I|apply Z.eqb_refl]. }
    assert (Nl : cnt (flat_map leaving (s_jobs sv)) s = 0%nat) by (rewrite <- cnt_in in O; lia).
    injection E as <-. destruct al; cbn [negb]; [|split; [exists evs, ans, open; auto|split; [exact FJ|split; [exact CL|exact FL]]]].
    destruct (_ =? cap); (split; [exists evs, ans, open; auto|split; [exact FJ|split; [|exact FL]]]);
      intros x; specialize (CL x); cbn [s_open s_jobs]; rewrite cnt_cons; destruct (Z.eq_dec s x) as [->|]; lia.
  - destruct (_ <? _); [discriminate|]. injection E as <-. split; [exists evs, ans, open; auto|split; [exact FJ|split; [exact CL|exact FL]]].
  - destruct (nth_error (s_jobs sv) k) as [j|] eqn:J; [|discriminate]. destruct j; try discriminate. destruct (s_waiting sv) as [|s rest] eqn:W; [discriminate|].
    injection E as <-. destruct (job_split _ _ _ J) as (a & b & Ej & Es). unfold serial. cbn [s_open s_jobs s_table]. rewrite Es. rewrite Ej in *.
    destruct (fit_split _ _ _ FJ) as [_ FJ']. rewrite !flat_mid in *. split; [exists evs, ans, open; auto|]. split; [now apply FJ'|]. split; assumption.
  - destruct (nth_error (s_jobs sv) k) as [j|] eqn:J; [|discriminate]. destruct j; try discriminate. injection E as <-.
    destruct (job_split _ _ _ J) as (a & b & Ej & Es). unfold serial, with_job. cbn [s_open s_jobs s_table]. rewrite Es. rewrite Ej in *.
    destruct (fit_split _ _ _ FJ) as [_ FJ']. rewrite !flat_mid in *. split; [exists evs, ans, open; auto|]. split; [now apply FJ'|]. split; assumption.
  - destruct (nth_error (s_jobs sv) k) as [j|] eqn:J; [|discriminate]. destruct j as [|s| | |]; try discriminate.
    destruct (job_split _ _ _ J) as (a & b & Ej & Es). rewrite Ej in *. destruct O as (Np & Ni & Lp & Li).
    assert (Ps : 0 < s).
    { rewrite Forall_forall in F. apply F. apply cnt_in. specialize (P s). norm. destruct (Z.eq_dec s s); [lia|congruence]. }
    assert (Ns : ~ In s (map c_socket open)).
    { intros I. assert (I' : In s (map c_socket (flat_map admitted (a ++ JRead s :: b)))) by (eapply Permutation_in; [apply Permutation_map; exact PO|exact I]).
      assert (cnt (map c_socket (flat_map admitted (a ++ b))) s <= cnt (flat_map held (a ++ b)) s + cnt (flat_map leaving (a ++ b)) s)%nat.
      { apply fit_cnt. apply Forall_app in FJ as [Fa Fb]. inv Fb. now apply Forall_app. }
      apply cnt_in in I'. specialize (P s). specialize (CL s). rewrite ?flat_mid, ?flat_map_app, ?map_app in *. norm. destruct (Z.eq_dec s s); [lia|congruence]. }
    destruct (add_tracks rules (s_table sv) open s ip path Hr T Ps Ns Np Lp Li) as [A1 A2].
    pose proof T as (_ & PT & _ & _ & _ & OK).
    destruct (happens_exists rules open (Open s ip path) Hr OK) as (ok & open' & Hh); [| |].
    { pose proof (occupied_le (s_table sv)). apply Permutation_len in PT. destruct T as (LT & _). lia. }
    { exact Np. }
    assert (H' : history rules (evs ++ [Open s ip path]) (ans ++ [ok]) open') by (eapply hi_next; [exact H| |exact Hh]; cbn; auto 8).
    inversion Hh; subst.
    + destruct A2 as (ta & tb & _ & _ & Ea & T'); [assumption|assumption|]. rewrite Ea in E. cbn [bind] in E. injection E as <-.
      unfold serial. cbn [s_open s_jobs s_table]. rewrite Es. destruct (fit_split _ _ _ FJ) as [_ FJ']. rewrite !flat_mid in *. cbn [admitted leaving app] in *.
      split. { eexists _, _, _. split; [exact H'|]. split; [|exact T']. apply Permutation_cons_app. exact PO. }
      split; [now apply FJ'|]. split; assumption.
    + rewrite A1 in E by assumption. cbn [bind] in E. injection E as <-.
      unfold serial. cbn [s_open s_jobs s_table]. rewrite Es. destruct (fit_split _ _ _ FJ) as [_ FJ']. rewrite !flat_mid in *. cbn [admitted leaving app] in *.
      split; [exists evs, ans, open'; auto|]. split; [now apply FJ'|]. split; assumption.
  - destruct (nth_error (s_jobs sv) k) as [j|] eqn:J; [|discriminate]. destruct j; try discriminate. injection E as <-.
    destruct (job_split _ _ _ J) as (a & b & Ej & Es). unfold serial, with_job. cbn [s_open s_jobs s_table]. rewrite Es. rewrite Ej in *.
    destruct (fit_split _ _ _ FJ) as [_ FJ']. rewrite !flat_mid in *. split; [exists evs, ans, open; auto|]. split; [now apply FJ'|]. split; assumption.
  - destruct (nth_error (s_jobs sv) k) as [j|] eqn:J; [|discriminate]. destruct j as [| | |s o|]; try discriminate. injection E as <-.
    destruct (job_split _ _ _ J) as (a & b & Ej & Es). unfold serial. cbn [s_open s_jobs s_table]. rewrite Es. rewrite Ej in *.
    destruct (fit_split _ _ _ FJ) as [Fj FJ']. rewrite !flat_mid in *.
    assert (Ps : 0 < s). { rewrite Forall_forall in F. apply F. apply cnt_in. specialize (P s). norm. destruct (Z.eq_dec s s); [lia|congruence]. }
    split; [exists evs, ans, open; destruct o; auto|]. split; [apply FJ'; now destruct o|]. split.
    + intros x. specialize (CL x). specialize (P x). norm. destruct (Z.eq_dec s x); lia.
    + rewrite Forall_app in *. cbn [leaving app] in *. destruct FL. split; [assumption|now constructor].
  - destruct (nth_error (s_jobs sv) k) as [j|] eqn:J; [|discriminate]. destruct j as [| | | |s o]; try discriminate. injection E as <-.
    destruct (job_split _ _ _ J) as (a & b & Ej & Es). rewrite Ej in *.
    assert (Ps : 0 < s). { rewrite Forall_forall in FL. apply FL. rewrite flat_mid. apply in_or_app. right. now left. }
    destruct (fit_split _ _ _ FJ) as [Fj FJ']. destruct (del_tracks (s_table sv) open s T Ps) as [D1 D2].
    assert (R : serial rules (mkServer (s_open sv) (s_waiting sv) (s_lost sv) (a ++ JIdle :: b) (connection_del (s_table sv) s) true)).
    { split.
      - destruct o as [c|].
        + cbn [fit_job] in Fj. assert (I : In c open). { eapply Permutation_in; [apply Permutation_sym; exact PO|]. rewrite flat_mid. apply in_or_app. right. now left. }
          apply in_split in I as (oa & ob & ->). exists (evs ++ [Close s]), (ans ++ [true]), (oa ++ ob). split; [|split].
          * eapply hi_next; [exact H|exact Ps|]. destruct c as [cs0 cp ci]. cbn in Fj. subst cs0. constructor.
          * cbn [s_jobs]. rewrite flat_mid in *. cbn [admitted app] in *. apply (Permutation_app_inv oa ob _ _ c). exact PO.
          * cbn [s_table]. now apply (D2 oa c ob).
        + exists evs, ans, open. split; [exact H|]. split; [cbn [s_jobs]; rewrite flat_mid in *; exact PO|]. cbn [s_table]. rewrite D1; [exact T|].
          intros I. assert (I' : In s (map c_socket (flat_map admitted (a ++ JDel s None :: b)))) by (eapply Permutation_in; [apply Permutation_map; exact PO|exact I]).
          assert (cnt (map c_socket (flat_map admitted (a ++ b))) s <= cnt (flat_map held (a ++ b)) s + cnt (flat_map leaving (a ++ b)) s)%nat.
          { apply fit_cnt. apply Forall_app in FJ as [Fa Fb]. inv Fb. now apply Forall_app. }
          apply cnt_in in I'. specialize (P s). specialize (CL s). rewrite ?flat_mid, ?flat_map_app, ?map_app in *. norm. destruct (Z.eq_dec s s); [lia|congruence].
      - cbn [s_open s_jobs]. split; [now apply FJ'|]. split.
        + intros x. specialize (CL x). rewrite !flat_mid in *. norm. lia.
        + rewrite !flat_mid in *. rewrite Forall_app in *. destruct FL as [F1 F2]. cbn [leaving app] in *. inv F2. split; assumption. }
    unfold serial in *. cbn [s_open s_jobs s_table] in *. rewrite Es. exact R.
Qed.
Lemma serial_start rules n : serial rules (server_start n).
Proof.
  unfold serial, server_start. cbn [s_open s_jobs s_table]. rewrite !start_flat by reflexivity. split; [|split; [|split; [cbn; lia|constructor]]].
  - exists [], [], []. split; [constructor|]. split; [constructor|apply tracks_empty].
  - induction n; cbn; constructor; [exact I|assumption].
Qed.
Lemma serial_reach rules cap m sv l sv' : Forall (fun r => no_nul (l_path r)) rules -> fds_ok sv -> serial rules sv -> orderly rules cap m sv l sv' -> serial rules sv'.
Proof. intros Hr Hf H R. induction R; [exact H|]. apply IHR; [eapply fds_step; eauto|]. eapply serial_step; eauto. Qed.
Lemma orderly_reaches rules cap m sv l sv' : orderly rules cap m sv l sv' -> reaches rules cap m sv l sv'.
Proof. induction 1; [constructor|]. eapply r_step; eauto. Qed.
Lemma orderly_defined rules cap m sv k ip path : Forall (fun r => no_nul (l_path r)) rules -> fds_ok sv -> serial rules sv ->
  no_nul path -> len path <= 511 -> len ip <= 15 -> forall u, sstep rules cap m sv (Admit k ip path) <> Some (UB u).
Proof.
  intros Hr (P & N & F) ((evs & ans & open & H & PO & T) & FJ & CL & FL) Np Lp Li u E. unfold sstep in E. destruct (s_up sv) eqn:U; [|discriminate]. cbn [negb] in E. unfold places in P.
  destruct (nth_error (s_jobs sv) k) as [j|] eqn:J; [|discriminate]. destruct j as [|s| | |]; try discriminate.
  destruct (job_split _ _ _ J) as (a & b & Ej & Es). rewrite Ej in *.
  assert (Ps : 0 < s).
  { rewrite Forall_forall in F. apply F. apply cnt_in. specialize (P s). norm. destruct (Z.eq_dec s s); [lia|congruence]. }
  assert (Ns : ~ In s (map c_socket open)).
  { intros I. assert (I' : In s (map c_socket (flat_map admitted (a ++ JRead s :: b)))) by (eapply Permutation_in; [apply Permutation_map; exact PO|exact I]).
    assert (cnt (map c_socket (flat_map admitted (a ++ b))) s <= cnt (flat_map held (a ++ b)) s + cnt (flat_map leaving (a ++ b)) s)%nat.
    { apply fit_cnt. apply Forall_app in FJ as [Fa Fb]. inv Fb. now apply Forall_app. }
    apply cnt_in in I'. specialize (P s). specialize (CL s). rewrite ?flat_mid, ?flat_map_app, ?map_app in *. norm. destruct (Z.eq_dec s s); [lia|congruence]. }
  destruct (add_tracks rules (s_table sv) open s ip path Hr T Ps Ns Np Lp Li) as [A1 A2].
  pose proof T as (_ & PT & _ & _ & _ & OK).
  destruct (happens_exists rules open (Open s ip path) Hr OK) as (ok & open' & Hh); [| |].
  { pose proof (occupied_le (s_table sv)). apply Permutation_len in PT. destruct T as (LT & _). lia. }
  { exact Np. }
  inversion Hh; subst.
  - destruct A2 as (ta & tb & _ & _ & Ea & T'); [assumption|assumption|]. rewrite Ea in E. discriminate.
  - rewrite A1 in E by assumption. discriminate.
Qed.

Lemma reaches_app rules cap m a l b l' c : reaches rules cap m a l b -> reaches rules cap m b l' c -> reaches rules cap m a (l ++ l') c.
Proof. induction 1; [auto|]. intros. eapply r_step; eauto. Qed.
Lemma reaches_snoc rules cap m a l b x c : reaches rules cap m a l b -> sstep rules cap m b x = Some (Ok c) -> reaches rules cap m a (l ++ [x]) c.
Proof. intros R E. eapply reaches_app; [exact R|]. eapply r_step; [exact E|constructor]. Qed.

(** ** A connection that reuses a descriptor escapes the table *)
Lemma is_open_cnt sv s : cnt (s_open sv) s = 0%nat -> is_open sv s = false.
Proof.
  intros H. unfold is_open. destruct (existsb (Z.eqb s) (s_open sv)) eqn:X; [|reflexivity].
  apply existsb_exists in X as (y & I & E). apply Z.eqb_eq in E. subst y. apply cnt_in in I. lia.
Qed.
Lemma over_empty rules ip path : Forall (fun r => 0 <= l_max r /\ 0 <= l_max_ip r) rules -> ~ over_limit rules [] ip path.
Proof.
  intros H (r & n & m & I & _ & C1 & C2 & O). inv C1. inv C2. assert (In r rules).
  { clear - I. induction I; [now left|now right]. } rewrite Forall_forall in H. apply H in H0. lia.
Qed.
Lemma sneak rules cap m O S R t s ip path : Forall (fun r => no_nul (l_path r)) rules -> Forall (fun r => 0 <= l_max r /\ 0 <= l_max_ip r) rules ->
  no_nul path -> len path <= 511 -> len ip <= 15 -> 0 < cap -> len O < m -> 0 < s -> cnt O s = 0%nat -> tracks t [] ->
  exists l t', tracks t' [] /\ reaches rules cap m (mkServer O [] [] (JIdle :: S ++ JIdle :: R) t true) l (mkServer (s :: O) [] [] (JIdle :: S ++ JServe (mkConn s path ip) :: R) t' true).
Proof.
  intros Hr Hp Np Lp Li Hc Hm Hs Ho T.
  assert (Rem : remove Z.eq_dec s (s :: O) = O).
  { cbn. destruct (Z.eq_dec s s); [|congruence]. apply notin_remove. rewrite <- cnt_in. lia. }
  assert (NthS : forall X, nth_error (JDel s None :: S ++ X :: R) (1 + length S) = Some X).
  { intros X. cbn [nth_error plus]. rewrite nth_error_app2, Nat.sub_diag by lia. reflexivity. }
  assert (SetS : forall J X Y, set_nth (J :: S ++ X :: R) (1 + length S) Y = J :: S ++ Y :: R).
  { intros J X Y. exact (set_nth_eq (J :: S) X R Y). }
  assert (Set0 : forall J (X : list job) Y, set_nth (J :: X) 0 Y = Y :: X) by (intros J X Y; exact (set_nth_eq [] J X Y)).
  destruct (add_tracks rules t [] s ip path Hr T Hs (fun x => x) Np Lp Li) as [_ A].
  destruct A as (ta & tb & _ & _ & Ea & T'); [now apply over_empty|cbn; lia|].
  destruct (del_tracks _ _ s T' Hs) as [_ D]. specialize (D [] (mkConn s path ip) [] eq_refl eq_refl).
  exists [Accept s true; Take 0; BadMethod 0; CloseFd 0; Accept s true; Take (1 + length S); Admit (1 + length S) ip path; DelEntry 0]. eexists. split; [exact D|].
  assert (Acc : forall jobs t, sstep rules cap m (mkServer O [] [] jobs t true) (Accept s true) = Some (Ok (mkServer (s :: O) [s] [] jobs t true))).
  { intros jobs t0. unfold sstep. cbn [s_up s_open s_waiting s_lost s_jobs s_table negb]. rewrite is_open_cnt by exact Ho. replace (len O <? m) with true by (symmetry; lia). replace (0 <? s) with true by (symmetry; lia).
    cbn [andb negb]. replace (len (@nil Z) =? cap) with false by (symmetry; change (len (@nil Z)) with 0; lia). reflexivity. }
  eapply r_step; [apply Acc|].
  eapply r_step; [unfold sstep; cbn [s_up s_open s_waiting s_lost s_jobs s_table negb nth_error]; reflexivity|]. rewrite ?Set0.
  eapply r_step; [unfold sstep, with_job; cbn [s_up s_open s_waiting s_lost s_jobs s_table negb nth_error]; reflexivity|]. rewrite ?Set0.
  eapply r_step; [unfold sstep; cbn [s_up s_open s_waiting s_lost s_jobs s_table negb nth_error]; reflexivity|]. rewrite Rem. rewrite ?Set0.
  eapply r_step; [apply Acc|].
  eapply r_step; [unfold sstep; cbn [s_up s_open s_waiting s_lost s_jobs s_table negb]; rewrite NthS, SetS; reflexivity|].
  eapply r_step; [unfold sstep; cbn [s_up s_open s_waiting s_lost s_jobs s_table negb]; rewrite NthS, Ea; cbn [bind]; rewrite SetS; reflexivity|].
  eapply r_step; [unfold sstep; cbn [s_up s_open s_waiting s_lost s_jobs s_table negb nth_error]; reflexivity|]. rewrite ?Set0.
  constructor.
Qed.
Fixpoint fds_upto (n : nat) : list Z := match n with O => [] | S k => Z.of_nat n :: fds_upto k end.
Lemma fds_upto_cnt n s : Z.of_nat n < s -> cnt (fds_upto n) s = 0%nat.
Proof. induction n as [|n IH]; intros H; [reflexivity|]. cbn [fds_upto]. rewrite cnt_cons, IH by lia. destruct (Z.eq_dec _ _); lia. Qed.
Lemma fds_upto_len n : len (fds_upto n) = Z.of_nat n.
Proof. induction n as [|n IH]; [reflexivity|]. cbn [fds_upto]. rewrite len_cons, IH. lia. Qed.
Lemma sneaks rules cap m ip path n : Forall (fun r => no_nul (l_path r)) rules -> Forall (fun r => 0 <= l_max r /\ 0 <= l_max_ip r) rules ->
  no_nul path -> len path <= 511 -> len ip <= 15 -> 0 < cap -> forall k, Z.of_nat k <= m -> (k <= n)%nat ->
  exists l t, tracks t [] /\ reaches rules cap m (server_start (S n)) l
    (mkServer (fds_upto k) [] [] (JIdle :: map (fun s => JServe (mkConn s path ip)) (rev (fds_upto k)) ++ repeat JIdle (n - k)) t true).
Proof.
  intros Hr Hp Np Lp Li Hc. induction k as [|k IH]; intros Hm Hk.
  - exists [], empty_table. split; [apply tracks_empty|]. cbn [fds_upto rev map app]. rewrite Nat.sub_0_r. constructor.
  - destruct IH as (l & t & T & R); [lia|lia|]. replace (n - k)%nat with (S (n - S k)) in R by lia. cbn [repeat] in R.
    destruct (sneak rules cap m (fds_upto k) (map (fun s => JServe (mkConn s path ip)) (rev (fds_upto k))) (repeat JIdle (n - S k)) t (Z.of_nat (S k)) ip path) as (l' & t' & T' & R'); auto.
    + rewrite fds_upto_len. lia.
    + lia.
    + apply fds_upto_cnt. lia.
    + exists (l ++ l'), t'. split; [exact T'|]. eapply reaches_app; [exact R|]. cbn [fds_upto rev]. rewrite map_app. cbn [map]. rewrite <- app_assoc. exact R'.
Qed.
Lemma serving_map path ip l rest : flat_map serving (map (fun s => JServe (mkConn s path ip)) l ++ repeat JIdle rest) = map (fun s => mkConn s path ip) l.
Proof. rewrite flat_map_app, (start_flat _ serving) by reflexivity. rewrite app_nil_r. induction l as [|x l IH]; [reflexivity|]. cbn. now rewrite IH. Qed.
Lemma Server_escape rules cap m ip path n : Forall (fun r => no_nul (l_path r)) rules -> Forall (fun r => 0 <= l_max r /\ 0 <= l_max_ip r) rules ->
  no_nul path -> len path <= 511 -> len ip <= 15 -> 0 < cap -> Z.of_nat n <= m ->
  exists l sv, reaches rules cap m (server_start (S n)) l sv /\ occupied (s_table sv) = [] /\ len (flat_map serving (s_jobs sv)) = Z.of_nat n
    /\ Forall (fun c => c_path c = path /\ c_ip c = ip) (flat_map serving (s_jobs sv)).
Proof.
  intros. destruct (sneaks rules cap m ip path n) with (k := n) as (l & t & T & R); auto. eexists l, _. split; [exact R|]. cbn [s_table s_jobs flat_map serving app].
  destruct T as (_ & P & _). rewrite serving_map. split; [apply Permutation_sym, Permutation_nil in P; exact P|]. split.
  - rewrite len_map. unfold len. rewrite rev_length. apply fds_upto_len.
  - apply Forall_forall. intros c I. apply in_map_iff in I as (x & <- & _). auto.
Qed.

(** ** Lost descriptors *)
Lemma lost_step rules cap m sv a sv' : sstep rules cap m sv a = Some (Ok sv') -> (exists new, s_lost sv' = new ++ s_lost sv) /\ length (s_jobs sv') = length (s_jobs sv).
Proof.
  assert (SL : forall (l : list job) k j0 j, nth_error l k = Some j0 -> length (set_nth l k j) = length l).
  { intros l k j0 j H. destruct (job_split _ _ _ H) as (x & y & -> & E). rewrite E, !app_length. reflexivity. }
  intros E. unfold sstep in E. destruct (s_up sv); [|discriminate]. cbn [negb] in E. destruct a.
  - destruct (_ && _); [|discriminate]. injection E as <-. destruct allowed; cbn [negb]; [|split; [now exists []|reflexivity]].
    destruct (_ =? cap); cbn [s_lost s_jobs]; (split; [|reflexivity]); [now exists [s]|now exists []].
  - destruct (_ <? _); [discriminate|]. injection E as <-. split; [now exists []|reflexivity].
  - destruct (nth_error _ _) as [[]|] eqn:J; try discriminate. destruct (s_waiting sv); [discriminate|]. injection E as <-. cbn [s_lost s_jobs]. split; [now exists []|eapply SL; exact J].
  - destruct (nth_error _ _) as [[]|] eqn:J; try discriminate. injection E as <-. cbn [s_lost s_jobs with_job]. split; [now exists []|eapply SL; exact J].
  - destruct (nth_error _ _) as [[]|] eqn:J; try discriminate. destruct (connection_add _ _ _ _ _) as [(ok, t)|]; [|discriminate]. cbn [bind] in E. injection E as <-. cbn [s_lost s_jobs]. split; [now exists []|eapply SL; exact J].
  - destruct (nth_error _ _) as [[]|] eqn:J; try discriminate. injection E as <-. cbn [s_lost s_jobs with_job]. split; [now exists []|eapply SL; exact J].
  - destruct (nth_error _ _) as [[]|] eqn:J; try discriminate. injection E as <-. cbn [s_lost s_jobs]. split; [now exists []|eapply SL; exact J].
  - destruct (nth_error _ _) as [[]|] eqn:J; try discriminate. injection E as <-. cbn [s_lost s_jobs]. split; [now exists []|eapply SL; exact J].
Qed.
Lemma lost_reach rules cap m sv l sv' : reaches rules cap m sv l sv' -> (exists new, s_lost sv' = new ++ s_lost sv) /\ length (s_jobs sv') = length (s_jobs sv).
Proof.
  induction 1 as [|sv a sv1 l sv2 E R ((n & En) & IL)]; [split; [now exists []|reflexivity]|]. destruct (lost_step _ _ _ _ _ _ E) as ((n' & En') & L').
  split; [|congruence]. exists (n ++ n'). now rewrite En, En', app_assoc.
Qed.
Lemma lost_open sv s : fds_ok sv -> In s (s_lost sv) -> In s (s_open sv).
Proof. intros H I. destruct (fds_perm sv H) as [_ P]. eapply Permutation_in; [apply Permutation_sym; exact P|]. apply in_or_app. right. apply in_or_app. now left. Qed.
Definition bounded (cap m : Z) (sv : server) : Prop := len (s_waiting sv) <= cap /\ len (s_open sv) <= m /\ (m <= cap -> s_lost sv = []).
Lemma remove_len s l : len (remove Z.eq_dec s l) <= len l.
Proof. induction l as [|x l IH]; [cbn; lia|]. cbn [remove]. destruct (Z.eq_dec s x); rewrite ?len_cons; lia. Qed.
Lemma waiting_open sv : fds_ok sv -> len (s_open sv) = len (s_waiting sv) + len (s_lost sv) + len (flat_map held (s_jobs sv)).
Proof. intros H. destruct (fds_perm sv H) as [_ P]. apply Permutation_len in P. rewrite P, !len_app. lia. Qed.
Lemma bounded_step rules cap m sv a sv' : fds_ok sv -> bounded cap m sv -> sstep rules cap m sv a = Some (Ok sv') -> bounded cap m sv'.
Proof.
  intros F (B1 & B2 & B3) E. pose proof (waiting_open sv F) as W. pose proof (len_nonneg _ (s_lost sv)). pose proof (len_nonneg _ (flat_map held (s_jobs sv))). unfold sstep in E. destruct (s_up sv); [|discriminate]. cbn [negb] in E. unfold bounded in *. destruct a.
  - destruct ((_ <? _) && (0 <? s) && negb (is_open sv s)) eqn:C; [|discriminate]. apply andb_true_iff in C as [C _]. apply andb_true_iff in C as [C _]. injection E as <-. destruct allowed; cbn [negb]; [|auto].
    destruct (_ =? cap) eqn:Q; cbn [s_waiting s_open s_lost]; rewrite ?len_cons, ?len_app, ?len_cons; cbn [len length Z.of_nat]; change (len (@nil Z)) with 0; repeat split; try lia; auto.
  - destruct (_ <? _); [discriminate|]. injection E as <-. auto.
  - destruct (nth_error _ _) as [[]|]; try discriminate. destruct (s_waiting sv); [discriminate|]. injection E as <-. cbn [s_waiting s_open s_lost]. rewrite len_cons in B1. repeat split; auto. lia.
  - destruct (nth_error _ _) as [[]|]; try discriminate. injection E as <-. auto.
  - destruct (nth_error _ _) as [[]|]; try discriminate. destruct (connection_add _ _ _ _ _) as [(ok, t)|]; [|discriminate]. cbn [bind] in E. injection E as <-. auto.
  - destruct (nth_error _ _) as [[]|]; try discriminate. injection E as <-. auto.
  - destruct (nth_error _ _) as [[]|]; try discriminate. injection E as <-. cbn [s_waiting s_open s_lost]. pose proof (remove_len s (s_open sv)). repeat split; auto. lia.
  - destruct (nth_error _ _) as [[]|]; try discriminate. injection E as <-. auto.
Qed.
Lemma bounded_reach rules cap m sv l sv' : fds_ok sv -> bounded cap m sv -> reaches rules cap m sv l sv' -> bounded cap m sv'.
Proof. intros F B R. induction R; [exact B|]. apply IHR; [eapply fds_step|eapply bounded_step]; eauto. Qed.

(** A descriptor that is not open. *)
Lemma free_fd sv : exists s, 0 < s /\ is_open sv s = false.
Proof.
  assert (G : forall l : list Z, exists b, 0 < b /\ Forall (fun x => x < b) l).
  { induction l as [|x l (b & Hb & F)]; [exists 1; split; [lia|constructor]|]. exists (Z.max b (x + 1)). split; [lia|]. constructor; [lia|]. eapply Forall_impl; [|exact F]. cbn. lia. }
  destruct (G (s_open sv)) as (b & Hb & F). exists b. split; [exact Hb|]. apply is_open_cnt. destruct (cnt (s_open sv) b) eqn:X; [reflexivity|].
  assert (I : In b (s_open sv)) by (apply cnt_in; lia). rewrite Forall_forall in F. apply F in I. lia.
Qed.
Lemma flood rules cap m : forall n sv, s_up sv = true -> len (s_open sv) + Z.of_nat n = m ->
  exists fds sv', length fds = n /\ reaches rules cap m sv (map (fun s => Accept s true) fds ++ [AcceptFails]) sv' /\ s_up sv' = false.
Proof.
  induction n as [|n IH]; intros sv U H.
  - exists []. eexists. split; [reflexivity|]. split; [eapply r_step; [|constructor]; unfold sstep; rewrite U; replace (len (s_open sv) <? m) with false by (symmetry; lia); reflexivity|reflexivity].
  - destruct (free_fd sv) as (s & Ps & Os).
    assert (E : exists sv1, sstep rules cap m sv (Accept s true) = Some (Ok sv1) /\ s_up sv1 = true /\ len (s_open sv1) = len (s_open sv) + 1).
    { unfold sstep. rewrite U, Os. replace (len (s_open sv) <? m) with true by (symmetry; lia). replace (0 <? s) with true by (symmetry; lia). cbn [andb negb].
      eexists. split; [reflexivity|]. destruct (_ =? cap); cbn [s_up s_open]; rewrite len_cons; split; auto; lia. }
    destruct E as (sv1 & E & U1 & L1). destruct (IH sv1 U1) as (fds & sv' & Lf & R & Dn); [lia|]. exists (s :: fds), sv'. split; [cbn; now rewrite Lf|]. split; [|exact Dn].
    cbn [map app]. eapply r_step; [exact E|exact R].
Qed.

Lemma Server_bounds rules cap m n l sv r : Forall (fun r => no_nul (l_path r)) rules -> orderly rules cap m (server_start n) l sv -> in_force rules r ->
  (forall k, counts (on (l_path r)) (flat_map admitted (s_jobs sv)) k -> k <= Z.max 0 (l_max r + 1))
  /\ (forall ip k, counts (on_from (l_path r) ip) (flat_map admitted (s_jobs sv)) k -> k <= Z.max 0 (l_max_ip r + 1)).
Proof.
  intros Hr R I. destruct (serial_reach _ _ _ _ _ _ Hr (fds_start n) (serial_start rules n) R) as ((evs & ans & open & H & P & T) & _).
  destruct T as (_ & _ & _ & _ & _ & Pa). destruct (history_bounds _ _ _ _ _ Hr H I) as [B1 B2].
  assert (Nr : no_nul (l_path r)). { clear - Hr I. induction I; inv Hr; auto. }
  apply Permutation_sym in P.
  assert (Q : forall c, In c (flat_map admitted (s_jobs sv)) -> no_nul (c_path c)).
  { intros c Hc. rewrite Forall_forall in Pa. apply Pa. eapply Permutation_in; eauto. }
  split.
  - intros k C. rewrite (counts_filter _ (fun c => onb (l_path r) (c_path c))) in C.
    + subst k. rewrite (Permutation_len _ _ (filter_Permutation _ _ _ P)). exact B1.
    + intros c Hc. apply onb_iff; auto.
  - intros ip k C. rewrite (counts_filter _ (fun c => onb (l_path r) (c_path c) && str_eqb ip (c_ip c))) in C.
    + subst k. rewrite (Permutation_len _ _ (filter_Permutation _ _ _ P)). apply B2.
    + intros c Hc. rewrite andb_true_iff, str_eqb_eq, onb_iff; auto. unfold on_from, on. split; intros [X Y]; auto.
Qed.

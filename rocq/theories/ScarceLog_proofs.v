(** ScarceLog_proofs.v - the proofs of C112. *)
From Verif Require Import Lemmas LogMain Start Start_proofs SpecStart ScarceText SpecScarceText ScarceText_proofs ScarceLog SpecScarceLog Spec.

Lemma log_meets ok line s level text : meets ok (fun l => l = line /\ lg_level s <= level) (logger_l ok line s level text) (logger s level text).
Proof.
  unfold logger_l. destruct (Z.ltb_spec level (lg_level s)) as [H|H].
  - apply (meets_weak ok (fun _ => False)); [|intros l; split; [intros []|intros (_ & X); lia]]. unfold logger. replace (level <? lg_level s) with true by lia. apply meets_same.
  - destruct (ok line) eqn:O; [right; left; split; [intros l (-> & _); exact O|reflexivity]|]. left. split; [exists line; auto|eexists; reflexivity].
Qed.
Lemma fatal_meets ok line s done text k k' : vocal s -> meets ok (fun l => l = line) (fatal_l ok line s done text k') (fatal s done text k).
Proof.
  intros V. rewrite say_fatal by exact V. unfold fatal_l, logger_l. pose proof V as (V1 & _). unfold LOG_FATAL. replace (5 <? lg_level s) with false by lia.
  destruct (ok line) eqn:O; [|left; split; [exists line; auto|eexists; reflexivity]]. right. left. split; [intros l ->; exact O|]. exact (say_fatal s done text k' V).
Qed.
Lemma failed_meets ok line s done text : meets ok (fun l => l = line /\ lg_level s <= 4) (failed_l ok line s done text) (failed s done text).
Proof.
  unfold failed_l, failed. eapply meets_weak; [apply meets_bind; [apply log_meets|intros s' _; apply meets_same]|]. intros l. unfold LOG_ERROR. tauto.
Qed.
Definition tls_stamps (m : machine) (c : config) (level l : Z) : Prop :=
  cf_ssl c = true /\ level <= 4 /\
  ((m_context m = false /\ l = 137) \/ (m_context m = true /\ m_cert m (cf_root c ++ L "/ssl/cert.pem") = false /\ l = 154)
   \/ (m_context m = true /\ m_cert m (cf_root c ++ L "/ssl/cert.pem") = true /\ m_key m (cf_root c ++ L "/ssl/key.pem") = false /\ l = 160)).
Lemma tls_meets ok m c s (k k' : list deed -> outcome started) W : (forall d, meets ok W (k' d) (k d)) ->
  meets ok (fun l => tls_stamps m c (lg_level s) l \/ (tls_ready m c /\ W l)) (tls_setup_l ok m c s k') (tls_setup m c s k).
Proof.
  intros H. unfold tls_setup_l, tls_setup, tls_stamps, tls_ready. destruct (cf_ssl c).
  2:{ eapply meets_weak; [apply H|]. intros l. split; [intros X; right; split; [discriminate|exact X]|intros [(X & _)|(_ & X)]; [discriminate|exact X]]. }
  destruct (m_context m); cbn [negb].
  2:{ eapply meets_weak; [apply failed_meets|]. intros l. split; [intros (-> & X); left; auto|]. intros [(_ & X & [(_ & ->)|[(Y & _)|(Y & _)]])|(X & _)]; try discriminate; [auto|]. destruct (X eq_refl) as (Y & _). discriminate. }
  apply meets_step. intros cert Ec. apply fits_inv in Ec as (-> & _). apply meets_step. intros key Ek. apply fits_inv in Ek as (-> & _).
  destruct (m_cert m _) eqn:Mc; cbn [negb].
  2:{ eapply meets_weak; [apply failed_meets|]. intros l. split; [intros (-> & X); left; auto 10|]. intros [(_ & X & [(Y & _)|[(_ & _ & ->)|(_ & Y & _)]])|(X & _)]; try discriminate; [auto|]. destruct (X eq_refl) as (_ & Y & _). discriminate. }
  destruct (m_key m _) eqn:Mk; cbn [negb].
  2:{ eapply meets_weak; [apply failed_meets|]. intros l. split; [intros (-> & X); left; auto 12|]. intros [(_ & X & [(Y & _)|[(_ & Y & _)|(_ & _ & _ & ->)]])|(X & _)]; try discriminate; [auto|]. destruct (X eq_refl) as (_ & _ & Y). discriminate. }
  eapply meets_weak; [apply H|]. intros l. split; [intros X; right; auto|]. intros [(_ & _ & [(Y & _)|[(_ & Y & _)|(_ & _ & Y & _)]])|(_ & X)]; try discriminate. exact X.
Qed.
Lemma launch_meets ok m c f s : vocal s -> meets ok (start_stamps m c f (lg_level s)) (ws_launch_l ok m c f s) (ws_launch m c f s).
Proof.
  intros V. unfold ws_launch_l, ws_launch. pose proof (upload_eq m f) as Up. destruct (check_createdir (m_mkdir m) f TMP_DIR) as [made f']. cbn [fst] in Up. destruct made.
  2:{ assert (U : ~ upload_dir m f) by (intros X; apply Up in X; discriminate). eapply meets_weak; [apply fatal_meets, V|]. intros l. split; [intros ->; now constructor|].
      intros X. destruct X as [| | | | |(X & _)|(X & _)|(X & _)|(X & _)|(X & _)|(X & _)]; try reflexivity; contradiction. }
  pose proof (proj1 Up eq_refl) as U. clear Up.
  set (W := fun l => (m_socket m = -1 /\ l = 744) \/ (m_socket m <> -1 /\
     ((lg_level s <= 2 /\ (l = 751 \/ l = 752)) \/ (m_reuse m = false /\ lg_level s <= 4 /\ l = 757) \/ (~ bindable m c /\ l = 760)
      \/ (bindable m c /\ ((m_listen m (m_socket m) = false /\ l = 767) \/ (m_listen m (m_socket m) = true /\ lg_level s <= 2 /\ l = 771)))))).
  eapply (meets_weak ok (fun l => tls_stamps m c (lg_level s) l \/ (tls_ready m c /\ W l))).
  - apply (tls_meets ok m c s). intros d0. apply meets_step. intros rules _. unfold W. clear W. destruct (Z.eqb_spec (m_socket m) (-1)) as [E|E].
    { eapply meets_weak; [apply fatal_meets, V|]. intros l. split; [intros ->; left; auto|]. intros [(_ & ->)|(X & _)]; [reflexivity|contradiction]. }
    eapply (meets_weak ok (fun l => (l = 751 /\ lg_level s <= 2) \/ (l = 752 /\ lg_level s <= 2) \/ (m_reuse m = false /\ lg_level s <= 4 /\ l = 757) \/ (~ bindable m c /\ l = 760)
      \/ (bindable m c /\ ((m_listen m (m_socket m) = false /\ l = 767) \/ (m_listen m (m_socket m) = true /\ lg_level s <= 2 /\ l = 771))))).
    2:{ intros l. split; [|intros [(X & _)|(_ & X)]; [contradiction|tauto]]. intros X. right. split; [exact E|]. tauto. }
    apply meets_bind; [apply log_meets|]. intros s1 E1. destruct (say s LOG_INFO (L "WAYUU binding to address: " ++ cf_bind c) V ltac:(unfold LOG_INFO; lia)) as (x1 & F1 & V1 & L1 & _). rewrite F1 in E1. injection E1 as ->. rewrite <- L1.
    apply meets_bind; [apply log_meets|]. intros s2 E2. destruct (say s1 LOG_INFO (L "WAYUU starting on port " ++ dec (cf_port c)) V1 ltac:(unfold LOG_INFO; lia)) as (x2 & F2 & V2 & L2 & _). rewrite F2 in E2. injection E2 as ->. rewrite <- L2.
    apply meets_bind.
    { destruct (m_reuse m); [apply (meets_weak ok (fun _ => False)); [apply meets_same|intros l; split; [intros []|intros (X & _); discriminate]]|].
      eapply meets_weak; [apply log_meets|]. intros l. unfold LOG_ERROR. tauto. }
    intros s3 E3. assert (V3 : vocal s3 /\ lg_level s3 = lg_level s2).
    { destruct (m_reuse m); [injection E3 as <-; auto|]. destruct (say s2 LOG_ERROR (L "setsockopt(SO_REUSEADDR) failed") V2 ltac:(unfold LOG_ERROR; lia)) as (x3 & F3 & V3 & L3 & _). rewrite F3 in E3. injection E3 as ->. auto. }
    destruct V3 as [V3 L3]. rewrite <- L3. unfold bindable. rewrite <- bound_port_eq. destruct (m_bind m _ _ _).
    2:{ eapply meets_weak; [apply fatal_meets, V3|]. intros l. split; [intros ->; left; split; [discriminate|reflexivity]|intros [(_ & ->)|(X & _)]; [reflexivity|discriminate]]. }
    destruct (m_listen m (m_socket m)).
    2:{ eapply meets_weak; [apply fatal_meets, V3|]. intros l. split; [intros ->; right; auto|intros [(X & _)|(_ & [(_ & ->)|(X & _)])]; [easy|reflexivity|discriminate]]. }
    eapply meets_weak; [apply meets_bind; [apply log_meets|intros s4 _; apply meets_same]|]. intros l. unfold LOG_INFO. split; [intros [(-> & X)|[]]; right; auto|]. intros [(X & _)|(_ & [(X & _)|(_ & X & ->)])]; [easy|discriminate|auto].
  - intros l. unfold tls_stamps, W. split.
    + intros [(S1 & Lv & [(A & ->)|[(A & B & ->)|(A & B & C & ->)]])|(T & [(A & ->)|(A & [(B & [->| ->])|[(B & C & ->)|[(B & ->)|(B & [(C & ->)|(C & D & ->)])]]])])].
      all: constructor; auto; unfold with_socket, can_start; auto 6.
    + intros X. destruct X as [X|X1 X2 X3 X4|X1 X2 X3 X4 X5|X1 X2 X3 X4 X5 X6|X1 X2 X3|(X1 & X2 & X3) X4|(X1 & X2 & X3) X4|(X1 & X2 & X3) X4 X5|(X1 & X2 & X3) X4|(X1 & X2 & X3) X4 X5|(X1 & X2 & X3 & X4 & X5) X6]; auto 12; try contradiction.
Qed.
Lemma main_meets ok m f args : meets ok (fun l => exists c, main_options f args = Ok (Launch c) /\ m_logfile m = true /\ start_stamps m c f (cf_level c) l) (main_run_l ok m f args) (main_run m f args).
Proof.
  unfold main_run_l, main_run. destruct (main_options f args) as [[c|code]|u] eqn:E; cbn [bind].
  2:{ apply (meets_weak ok (fun _ => False)); [apply meets_same|]. intros l. split; [intros []|intros (c & X & _); discriminate]. }
  - destruct (m_logfile m).
    2:{ apply (meets_weak ok (fun _ => False)); [apply meets_same|]. intros l. split; [intros []|intros (c' & _ & X & _); discriminate]. }
    destruct (main_launch_ok f args c E) as (_ & Lv). destruct (main_log (cf_level c) Lv) as (V & _ & Ex). cbv zeta. rewrite Ex.
    eapply meets_weak; [apply meets_bind; [apply launch_meets, V|intros st _; apply meets_same]|]. intros l. cbn [log_set_file log_set_level lg_level].
    split; [intros [X|[]]; exists c; auto|]. intros (c' & X & _ & Y). injection X as <-. auto.
  - apply meets_ub.
Qed.

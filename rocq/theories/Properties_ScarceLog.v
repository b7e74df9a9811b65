(** Properties_ScarceLog.v - C112: the start when memory for the time stamps of its messages is short
    (/repo/log.c, /repo/ws.c). *)
From Verif Require Import Lemmas LogMain Start Start_proofs SpecStart SpecScarceText ScarceText_proofs ScarceLog SpecScarceLog ScarceLog_proofs Spec.

(** C112.  The start is as with enough memory if every message it writes gets its time stamp, and else
    undefined; the messages are those of [start_stamps]. *)
Theorem C112_launch : forall ok m c f s, vocal s -> if_given ok (start_stamps m c f (lg_level s)) (ws_launch_l ok m c f s) (ws_launch m c f s).
Proof. intros. now apply meets_given, launch_meets. Qed.
Print Assumptions C112_launch.
(** The same from the command line. *)
Theorem C112_main : forall ok m f args,
  if_given ok (fun l => exists c, main_options f args = Ok (Launch c) /\ m_logfile m = true /\ start_stamps m c f (cf_level c) l)
    (main_run_l ok m f args) (main_run m f args).
Proof. intros. apply meets_given, main_meets. Qed.
Print Assumptions C112_main.

(** A start that lacks something says so and ends: refuted.  Whatever is missing, there is one stamp without
    which the behaviour is undefined instead, and it is not one of the first two messages. *)
Theorem C112_ends_in_order_refuted : forall m f args c level text,
  main_options f args = Ok (Launch c) -> m_logfile m = true -> missing m c f level text ->
  exists line, line <> 751 /\ line <> 752 /\ undefined (main_run_l (fun l => negb (l =? line)) m f args).
Proof.
  intros m f args c level text E Lf M. destruct (main_launch_ok f args c E) as (_ & Lv). assert (Le : cf_level c <= 4) by lia.
  assert (S : exists line, line <> 751 /\ line <> 752 /\ start_stamps m c f (cf_level c) line).
  { destruct M; eexists; (split; [|split; [|solve [eapply ss_dir; eauto|eapply ss_context; eauto|eapply ss_cert; eauto|eapply ss_key; eauto|eapply ss_socket; eauto|eapply ss_bind; unfold with_socket; eauto|eapply ss_listen; unfold with_socket; eauto]]]); discriminate. }
  destruct S as (line & N1 & N2 & S). exists line. split; [exact N1|]. split; [exact N2|]. apply (proj1 (C112_main _ m f args)). right. exists line. split; [exists c; auto|]. now rewrite Z.eqb_refl.
Qed.
Print Assumptions C112_ends_in_order_refuted.

(** Concrete: the default level, and a machine that can or cannot make the directory for uploads, set
    SO_REUSEADDR and bind; what is shown are the levels of the messages. *)
Definition box (dir reuse binds : bool) : machine := mkMachine dir true (fun _ => true) (fun _ => true) 3 reuse (fun _ => 0) (fun _ _ _ => binds) (fun _ => false) (fun _ => true) true.
Definition srv : fs := fun p => if str_eqb p (L "/srv") then Some Dir else None.
Definition went (x : outcome (started + Z)) : option (option (list Z)) :=
  match x with
  | Ok (inl (Accepting l _ _ _ _ _ _)) => Some (Some (map (fun e => fst (fst e)) (lg_out l)))
  | Ok (inl (Ended l _)) => Some (Some (map (fun e => fst (fst e)) (lg_out l)))
  | Ok (inr _) => Some None
  | UB _ => None
  end.
Definition lacking (lines : list Z) (m : machine) : option (option (list Z)) := went (main_run_l (fun l => negb (existsb (Z.eqb l) lines)) m srv [L "-r"; L "/srv"]).
Example C112_case :
  lacking [718; 744; 757; 760; 767; 137; 154; 160] (box true true true) = Some (Some [2; 2; 2])
  /\ lacking [751] (box true true true) = None /\ lacking [771] (box true true true) = None
  /\ lacking [771] (box true true false) = Some (Some [2; 2; 5]) /\ lacking [760] (box true true false) = None
  /\ lacking [760] (box true false true) = Some (Some [2; 2; 4; 2]) /\ lacking [757] (box true false true) = None
  /\ lacking [751; 752; 771] (box false true true) = Some (Some [5]) /\ lacking [718] (box false true true) = None.
Proof. vm_compute. repeat split. Qed.

(** Properties_Race.v - C59, C66: state shared by the workers without a lock (/repo/ws.c and the
    strtok of /repo/string_utils.c). *)
From Coq Require Import Permutation.
From Verif Require Import StringUtils WsConn Races Lemmas StringUtils_proofs ConfParser_proofs WsConn_proofs Races_proofs SpecConn Spec.

(** C59.  Whatever the rules, any number of workers up to the table's size can all be admitted,
    so the limits bound nothing. *)
Theorem C59_everybody_admitted : forall rules ws p ip,
  Forall (fun r => no_nul (l_path r) /\ 0 <= l_max r /\ 0 <= l_max_ip r) rules ->
  Forall (fun w => k_pc w = CStart /\ k_socket w <> 0 /\ no_nul (k_path w) /\ k_ip w = ip /\ ci_prefix p (k_path w)) ws ->
  len ws <= 1024 ->
  exists sched s, crun rules (mkC empty_table ws) sched = Some (Ok s)
    /\ Forall (fun w => k_pc w = CServe) (c_workers s)
    /\ counts (on p) (occupied (c_table s)) (len ws) /\ counts (on_from p ip) (occupied (c_table s)) (len ws).
Proof.
  intros rules ws p ip Hr Hw Hl. eexists _, _. split; [apply all_admitted|].
  - exact Hr.
  - eapply Forall_impl; [|exact Hw]. intros w (H1 & H2 & H3 & _). auto.
  - unfold len in Hl. lia.
  - cbn [c_workers c_table]. split; [apply Forall_forall; intros w Hin; apply in_map_iff in Hin as (x & <- & _); reflexivity|].
    rewrite occupied_entries. 2:{ eapply Forall_impl; [|exact Hw]. intros w (_ & H & _). exact H. }
    assert (L : len (map entry ws) = len ws) by (unfold len; now rewrite map_length). rewrite <- L.
    split; apply counts_all, Forall_forall; intros c Hc; apply in_map_iff in Hc as (w & <- & Hin); rewrite Forall_forall in Hw;
      destruct (Hw w Hin) as (_ & _ & _ & H4 & H5); [exact H5|]. split; [exact H5|exact H4].
Qed.
Print Assumptions C59_everybody_admitted.
(** The bound that holds one admission after another (C57) is false with two workers. *)
Theorem C59_limit_refuted : exists rules r ws sched s n, in_force rules r /\ crun rules (mkC empty_table ws) sched = Some (Ok s)
  /\ NoDup (map k_socket ws) /\ Forall (fun w => 0 < k_socket w /\ k_pc w = CStart) ws
  /\ counts (on (l_path r)) (occupied (c_table s)) n /\ Z.max 0 (l_max r + 1) < n.
Proof.
  exists [mkLimit (L "/a") 0 0 0], (mkLimit (L "/a") 0 0 0).
  exists [mkWorker 4 (L "10.0.0.1") (L "/a") CStart; mkWorker 5 (L "10.0.0.1") (L "/a") CStart], [0; 1; 0; 0; 1; 1]%nat.
  eexists _, 2. split; [constructor; discriminate|]. split; [vm_compute; reflexivity|]. split.
  { cbn. constructor; [cbn; lia|constructor; [easy|constructor]]. }
  split; [repeat constructor; cbn; lia|]. split; [|cbn; lia].
  match goal with |- counts _ (occupied ?t) _ => let x := eval vm_compute in (occupied t) in change (occupied t) with x end.
  change 2 with (0 + 1 + 1). constructor; [apply ci_prefix_refl|]. constructor; [apply ci_prefix_refl|]. constructor.
Qed.
Print Assumptions C59_limit_refuted.
(** Two workers that look for a slot at the same time both get the first free one; the later
    overwrites the earlier, which is served without being in the table. *)
Theorem C59_lost_connection : forall rules used rest w0 w1, Forall (fun x => c_socket x <> 0) used ->
  k_pc w0 = CSearch -> k_pc w1 = CSearch -> k_socket w0 <> k_socket w1 ->
  ~ In (k_socket w0) (map c_socket (used ++ rest)) ->
  exists s, crun rules (mkC (used ++ free_slot :: rest) [w0; w1]) [0; 1; 0; 1]%nat = Some (Ok s)
    /\ map k_pc (c_workers s) = [CServe; CServe]
    /\ c_table s = used ++ mkConn (k_socket w1) (k_path w1) (k_ip w1) :: rest
    /\ ~ In (k_socket w0) (map c_socket (c_table s)).
Proof.
  intros rules used rest w0 w1 Fu H0 H1 N Nin. eexists. split; [now apply lost_slot|]. cbn. split; [reflexivity|]. split; [reflexivity|].
  rewrite map_app in *. cbn. intros X. apply Nin. apply in_app_or in X as [X|[X|X]]; [apply in_or_app; auto|congruence|apply in_or_app; auto].
Qed.
Print Assumptions C59_lost_connection.
(** Whatever the schedule, the table's entries are those of distinct workers being served, so there
    are never more than workers; and nobody's entry is removed by somebody else. *)
Theorem C59_entries_are_served : forall rules ws sched s, NoDup (map k_socket ws) -> Forall (fun w => k_socket w <> 0) ws ->
  crun rules (mkC empty_table ws) sched = Some (Ok s) ->
  NoDup (map c_socket (occupied (c_table s)))
  /\ forall c, In c (occupied (c_table s)) -> exists w, In w (c_workers s) /\ k_pc w = CServe
       /\ c_socket c = k_socket w /\ c_path c = k_path w /\ c_ip c = k_ip w.
Proof.
  intros rules ws sched s H1 H2 R. destruct (cinv_run _ _ _ _ (cinv_start ws H1 H2) R) as (_ & _ & A & B). split; auto.
  intros c Hc. destruct (B c Hc) as (w & I & P & ->). exists w. auto.
Qed.
Print Assumptions C59_entries_are_served.
(** An admission that is not interrupted is the sequential connection_add, to which C57 and C58 apply. *)
Theorem C59_atomic_is_sequential : forall rules t before w after, k_pc w = CStart -> len (k_path w) <= 511 -> len (k_ip w) <= 15 ->
  exists m, crun rules (mkC t (before ++ w :: after)) (repeat (length before) m)
  = Some ('(ok, t') <- connection_add rules t (k_socket w) (k_ip w) (k_path w);;
          Ok (mkC t' (before ++ set_pc w (if ok : bool then CServe else CEnd false) :: after))).
Proof. exact atomic_add. Qed.
Print Assumptions C59_atomic_is_sequential.
Example C59_case : let ip := L "10.0.0.1" in
  match crun [] (mkC (repeat free_slot 2) [mkWorker 4 ip (L "/a") CStart; mkWorker 5 ip (L "/b") CStart]) [0; 1; 0; 1; 0; 1]%nat with
  | Some (Ok s) => c_table s = [mkConn 5 (L "/b") ip; free_slot] /\ map k_pc (c_workers s) = [CServe; CServe]
  | _ => False
  end.
Proof. vm_compute. auto. Qed.

(** C66.  [t_tokens] are the pieces a thread obtains: path and query string. *)
Theorem C66_query_of_another : forall p1 q1 p2 q2, p1 <> [] -> p2 <> [] -> q1 <> [] -> q2 <> [] ->
  ~ In "?"%char p1 -> ~ In "?"%char q1 -> ~ In "?"%char p2 -> ~ In "?"%char q2 ->
  exists s, trun (L "?") (tinit [p1 ++ L "?" ++ q1; p2 ++ L "?" ++ q2]) [0; 1; 0; 0; 1]%nat = Some s
    /\ map t_tokens (t_threads s) = [[p1; q2]; [p2]].
Proof.
  intros p1 q1 p2 q2 P1 P2 Q1 Q2 N1 N2 N3 N4.
  assert (F : forall x, ~ In "?"%char x -> Forall (fun c => ~ In c (L "?")) x).
  { intros x H. apply Forall_forall. intros c Hc [<-|[]]. auto. }
  assert (E : forall p q, p <> [] -> ~ In "?"%char p -> strtok (L "?") (p ++ L "?" ++ q) = Some (p, q)).
  { intros p q Hp Hn. pose proof (strtok_eq (L "?") [] p (L "?" ++ q)) as X. cbn [app] in X. rewrite X; auto. cbn. auto. }
  assert (E2 : forall q, q <> [] -> ~ In "?"%char q -> strtok (L "?") q = Some (q, [])).
  { intros q Hq Hn. pose proof (strtok_eq (L "?") [] q []) as X. cbn [app] in X. rewrite app_nil_r in X. rewrite X; auto. }
  unfold tinit. cbn [map trun]. unfold tstep at 1. cbn [t_threads t_save nth_error t_pc t_str t_tokens]. rewrite (E p1 q1) by auto.
  unfold tstep at 1. cbn [t_threads t_save nth_error t_pc t_str t_tokens set_nth firstn skipn app]. rewrite (E p2 q2) by auto.
  unfold tstep at 1. cbn [t_threads t_save nth_error t_pc t_str t_tokens set_nth firstn skipn app]. rewrite (E2 q2) by auto.
  unfold tstep at 1. cbn [t_threads t_save nth_error t_pc t_str t_tokens set_nth firstn skipn app]. change (strtok (L "?") []) with (@None (str * str)).
  unfold tstep at 1. cbn [t_threads t_save nth_error t_pc t_str t_tokens set_nth firstn skipn app]. change (strtok (L "?") []) with (@None (str * str)).
  eexists. split; [reflexivity|]. reflexivity.
Qed.
Print Assumptions C66_query_of_another.
(** A thread that is not interrupted obtains the pieces of its own URL, whatever the others did before. *)
Theorem C66_alone_is_correct : forall delim save before after u ts, tokens delim u ts ->
  trun delim (mkT save (before ++ mkSplitter u TFirst [] :: after)) (repeat (length before) (S (length ts)))
  = Some (mkT [] (before ++ mkSplitter u TDone ts :: after)).
Proof. intros. now apply split_alone_first. Qed.
Print Assumptions C66_alone_is_correct.
(** Under every schedule the first piece - the path - is the thread's own, and every piece is one
    of some request's. *)
Theorem C66_path_is_own : forall delim urls sched s, trun delim (tinit urls) sched = Some s ->
  map t_str (t_threads s) = urls /\
  forall w, In w (t_threads s) ->
    (forall t r us, t_tokens w = t :: r -> tokens delim (t_str w) us -> exists us', us = t :: us')
    /\ (forall t, In t (t_tokens w) -> exists u us, In u urls /\ tokens delim u us /\ In t us).
Proof.
  intros delim urls sched s R. destruct (tinv_run _ _ _ _ _ (tinv_init delim urls) R) as (U & _ & F). split; auto.
  intros w I. rewrite Forall_forall in F. destruct (F w I) as (_ & W2 & W3). split; auto.
  intros t r us Et T. destruct (W2 t r Et) as (r' & X). apply tokens_strtok in T. destruct us as [|u us].
  - congruence.
  - destruct T as (r2 & Y & _). rewrite X in Y. inv Y. eauto.
Qed.
Print Assumptions C66_path_is_own.
Example C66_case :
  match trun (L "?") (tinit [L "/account?user=alice"; L "/account?user=bob"]) [0; 1; 0]%nat with
  | Some s => map t_tokens (t_threads s) = [[L "/account"; L "user=bob"]; [L "/account"]]
  | None => False
  end.
Proof. vm_compute. reflexivity. Qed.

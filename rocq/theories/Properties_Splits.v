(** Properties_Splits.v - C102: worker threads interrupted while they split their URLs
    (/repo/string_utils.c:split, /repo/http_utils.c:get_path_and_query_string, /repo/ws.c:626). *)
From Verif Require Import WsRequest Splits Lemmas StringUtils_proofs Workers_proofs DefinedApi_proofs Splits_proofs Properties_Dispatch Properties_Api Properties_Workers Properties_Harmless
  SpecMultipart SpecHttp SpecConn SpecReq SpecRouter SpecDispatch SpecApi SpecWorkers SpecDefined SpecDefinedApi Spec.
From Coq Require Import Permutation.

Local Opaque accept_request.

(** The request is handled when it comes alone, and neither its method nor a limit stops it before
    its URL is split. *)
Definition admitted (f : fs) (q : incoming) : Prop :=
  v_limits (q_env q) = [] /\ exists res, alone f q = Ok res /\ o_taken res <> TBadMethod /\ o_taken res <> TTooMany.

(** C102.  With two threads no two such requests are safe together: there is a schedule in which one
    thread goes on in the copy of the other's URL after that has been freed. *)
Theorem C102_any_two : forall f q1 q2 rest n, admitted f q1 -> admitted f q2 -> (2 <= n)%nat ->
  exists sched, srun (spool_start f (q1 :: q2 :: rest) n) sched = Some (UB UseAfterFree).
Proof.
  intros f q1 q2 rest n (V1 & r1 & A1 & B1 & D1) (V2 & r2 & A2 & B2 & D2) N.
  destruct (alone_reaches f q1 r1 V1 A1 B1 D1) as (h1 & hl1 & t1 & ts1 & R1). destruct (alone_reaches f q2 r2 V2 A2 B2 D2) as (h2 & hl2 & t2 & ts2 & R2).
  eapply freed_text; eauto.
Qed.
Print Assumptions C102_any_two.
(** And without that, the query of the second can become that of the first, which itself is left
    without one. *)
Theorem C102_query_taken : forall f q1 q2 rest n h1 h2 p1 ts1 p2 x2, admitted f q1 -> admitted f q2 -> (2 <= n)%nat ->
  read_head q1 = Ok (inr h1) -> tokens (L "?") (hd_url h1) (p1 :: ts1) -> read_head q2 = Ok (inr h2) -> tokens (L "?") (hd_url h2) [p2; x2] ->
  exists sched p hl1 hl2, srun (spool_start f (q1 :: q2 :: rest) n) sched = Some (Ok p)
    /\ nth_error (w_threads (s_pool p)) 0 = Some (SServe q1 h1) /\ progress_of p 0 = PSplit hl1 [p1; x2] /\ take_headers h1 = Ok hl1
    /\ nth_error (w_threads (s_pool p)) 1 = Some (SServe q2 h2) /\ progress_of p 1 = PSplit hl2 [p2] /\ take_headers h2 = Ok hl2.
Proof.
  intros f q1 q2 rest n h1 h2 p1 ts1 p2 x2 (V1 & r1 & A1 & B1 & D1) (V2 & r2 & A2 & B2 & D2) N H1 T1 H2 T2.
  destruct (alone_reaches f q1 r1 V1 A1 B1 D1) as (h1' & hl1 & t1 & ts1' & R1). destruct (alone_reaches f q2 r2 V2 A2 B2 D2) as (h2' & hl2 & t2 & ts2' & R2).
  pose proof R1 as (_ & X1 & _ & _ & Y1 & Z1 & _). pose proof R2 as (_ & X2 & _ & _ & Y2 & Z2 & _). rewrite H1 in X1. rewrite H2 in X2. injection X1 as <-. injection X2 as <-.
  pose proof (tokens_unique _ _ _ _ T1 Z1) as E1. pose proof (tokens_unique _ _ _ _ T2 Z2) as E2. injection E1 as <- <-. injection E2 as <- <-.
  destruct (foreign_query f q1 q2 rest n h1 hl1 p1 ts1 h2 hl2 p2 x2 N R1 R2) as (sched & p & E & N1 & N2 & P1 & P2). exists sched, p, hl1, hl2. auto 10.
Qed.
Print Assumptions C102_query_taken.
(** A lock over the splitting would do.  It only takes schedules away... *)
Theorem C102_lock_less : forall f qs n sched o, lrun (spool_start f qs n) sched = Some o -> srun (spool_start f qs n) sched = Some o.
Proof. intros. now apply lock_is_run. Qed.
Print Assumptions C102_lock_less.
(** ... and what is left are the schedules of C95, C99 and C101, where a URL is split in one step. *)
Theorem C102_lock_same : forall f qs n sched,
  match lrun (spool_start f qs n) sched with
  | Some (Ok p) => exists sched', wrun (pool_start f qs n) sched' = Some (Ok (s_pool p))
  | Some (UB _) => exists sched' u, wrun (pool_start f qs n) sched' = Some (UB u)
  | None => True
  end.
Proof.
  intros f qs n sched. destruct (lrun (spool_start f qs n) sched) as [[p|u]|] eqn:E; [| |exact I]; destruct (lock_run sched _ _ (linv_start f qs n) E) as (s' & H); [|now exists s'].
  exists s'. exact (proj2 H).
Qed.
Print Assumptions C102_lock_same.
(** So with a lock, without limits, each connection gets exactly the answer it would get alone... *)
Theorem C102_lock_answers : forall f qs n sched p, Forall as_built qs -> Forall (fun q => keeps_socket (v_app (q_env q)) /\ v_limits (q_env q) = []) qs -> (n <= 1024)%nat ->
  lrun (spool_start f qs n) sched = Some (Ok p) ->
  forall q k r, In (q, k, r) (w_answers (s_pool p)) -> exists res, alone f q = Ok res /\ o_taken res = k /\ o_req res = r.
Proof.
  intros f qs n sched p B K N E q k r I. pose proof (C102_lock_same f qs n sched) as S. rewrite E in S. destruct S as (s' & S). eapply C95_no_limits; eauto.
Qed.
Print Assumptions C102_lock_answers.
(** ... the threads never wait for each other in a circle, and every schedule comes to an end... *)
Theorem C102_lock_ends : forall f qs n sched p, Forall as_built qs -> (0 < n)%nat -> lrun (spool_start f qs n) sched = Some (Ok p) ->
  len sched <= 420 * len qs /\ ((forall k, lstep p k = None) -> Permutation qs (answered (s_pool p))).
Proof.
  intros f qs n sched p B N E. destruct (lock_run sched _ _ (linv_start f qs n) E) as (s' & I & S). split.
  - apply (to_do_run _ _ _ (linv_start f qs n)) in E. rewrite to_do_start in E. pose proof (to_do_nonneg p I). lia.
  - intros R. exact (proj2 (C95_ends f qs n s' (s_pool p) B N S) (lock_at_rest p I R)).
Qed.
Print Assumptions C102_lock_ends.
(** ... and behaviour can be undefined exactly if one of the requests is not harmless. *)
Theorem C102_lock_defined : forall f qs n, Forall (in_order f) qs -> (0 < n <= 1024)%nat ->
  ((forall sched u, lrun (spool_start f qs n) sched <> Some (UB u))
   <-> Forall (fun q => harmless (q_env q) f empty_table (q_peer q) (q_stream q)) qs).
Proof.
  intros f qs n O N.
  assert (B : Forall as_built qs) by (eapply Forall_impl; [|exact O]; intros q (A & _); exact A).
  split.
  - intros H.
    assert (G : forall d sched p, (420 * length qs < length sched + d)%nat -> lrun (spool_start f qs n) sched = Some (Ok p) ->
      exists more p', lrun (spool_start f qs n) (sched ++ more) = Some (Ok p') /\ forall k, lstep p' k = None).
    { induction d as [|d IH]; intros sched p D R.
      - exfalso. destruct (C102_lock_ends f qs n sched p B ltac:(lia) R) as (E & _). unfold len in E. lia.
      - assert (X : (exists k, lstep p k <> None) \/ forall k, lstep p k = None).
        { assert (Y : forall m, (exists k, lstep p k <> None) \/ forall k, (k < m)%nat -> lstep p k = None).
          { induction m as [|m [Y|Y]]; [right; lia|now left|]. destruct (lstep p m) eqn:E; [left; exists m; congruence|]. right. intros k Hk. destruct (Nat.eq_dec k m) as [->|]; [exact E|apply Y; lia]. }
          destruct (Y (length (w_threads (s_pool p)))) as [Z|Z]; [now left|]. right. intros k. destruct (le_lt_dec (length (w_threads (s_pool p))) k) as [Hk|Hk]; [|now apply Z].
          unfold lstep, sstep, must_wait, wstep. now rewrite (proj2 (nth_error_None _ _) Hk). }
        destruct X as [(k & K)|X]; [|exists [], p; rewrite app_nil_r; auto].
        destruct (lstep p k) as [o|] eqn:E; [|easy].
        assert (A : forall l p0, lrun p0 l = Some (Ok p) -> lrun p0 (l ++ [k]) = Some o).
        { induction l as [|j l IHl]; intros p0 R0.
          - injection R0 as ->. unfold lrun. cbn [app srun_with]. rewrite E. now destruct o.
          - cbn [app]. unfold lrun in *. cbn [srun_with] in *. destruct (lstep p0 j) as [[p1|u]|]; [now apply IHl|discriminate|discriminate]. }
        specialize (A _ _ R). destruct o as [p1|u]; [|now elim (H _ _ A)].
        destruct (IH (sched ++ [k]) p1) as (more & p' & Q & F); [rewrite app_length; cbn; lia|exact A|]. exists (k :: more), p'. now rewrite <- app_assoc in Q. }
    destruct (G (S (420 * length qs)) [] (spool_start f qs n) ltac:(cbn [length]; lia) eq_refl) as (sched & p & R & F). cbn [app] in R.
    pose proof (C102_lock_same f qs n sched) as S. rewrite R in S. destruct S as (s' & S). pose proof (proj2 (C102_lock_ends f qs n sched p B ltac:(lia) R) F) as P.
    assert (K : Forall (fun q => keeps_socket (v_app (q_env q)) /\ v_limits (q_env q) = []) qs) by (eapply Forall_impl; [|exact O]; intros q (_ & A1 & A2 & _); auto).
    apply Forall_forall. intros q I. pose proof (Permutation_in _ P I) as I'. unfold answered in I'. apply in_map_iff in I' as (((q' & k) & r) & E & I'). cbn [fst] in E. subst q'.
    destruct (C102_lock_answers f qs n sched p B K ltac:(lia) R q k r I') as (res & A & _).
    rewrite Forall_forall in O. destruct (O q I) as (_ & _ & _ & Sr & junk & Sj). eapply handled_harmless; eauto.
  - intros H sched u E. pose proof (C102_lock_same f qs n sched) as S. rewrite E in S. destruct S as (s' & u' & S). exact (proj2 (C101_schedules f qs n O N) H s' u' S).
Qed.
Print Assumptions C102_lock_defined.
(** A single thread behaves as with the lock. *)
Theorem C102_one_thread : forall f qs sched, srun (spool_start f qs 1) sched = lrun (spool_start f qs 1) sched.
Proof. intros f qs sched. apply single_run; [apply linv_start|]. cbn. lia. Qed.
Print Assumptions C102_one_thread.

(** Two requests, the same text with and without the other one in between: a freed copy read, a
    query given to the wrong request, both as they should be when each splits undisturbed, and 51
    tokens from URLs none of which has more than 31. *)
Local Transparent accept_request.
Definition asks (socket : Z) (u : str) : incoming := mkIn api_env socket (L "1.2.3.4") (L "POST /api/x" ++ u ++ L " HTTP/1.1" ++ CRLF ++ CRLF).
Definition got (step : spool -> nat -> option (outcome spool)) (qs : list incoming) (n : nat) (sched : list nat) : option (list (Z * str) + ub) :=
  match srun_with step (spool_start demo_fs qs n) sched with
  | Some (Ok p) => Some (inl (map (fun a => (q_socket (fst (fst a)), r_query (snd a))) (w_answers (s_pool p))))
  | Some (UB u) => Some (inr u)
  | None => None
  end.
Definition turns (l : list (nat * nat)) : list nat := flat_map (fun x => repeat (fst x) (snd x)) l.
Definition two : list incoming := [asks 4 (L "?a=1"); asks 5 (L "?b=2")].
Definition marks (n : nat) : str := concat (repeat (L "?y") n).
Example C102_case :
  got sstep two 2 (turns [(0, 6); (1, 8); (0, 1)])%nat = Some (inr UseAfterFree)
  /\ got sstep two 2 (turns [(0, 6); (1, 6); (0, 2); (1, 1); (0, 2); (1, 2)])%nat = Some (inl [(4, L "b=2"); (5, [])])
  /\ got sstep two 2 (turns [(0, 8); (1, 8); (0, 2); (1, 2)])%nat = Some (inl [(4, L "a=1"); (5, L "b=2")])
  /\ got lstep two 2 (turns [(0, 6); (1, 6)])%nat = None
  /\ got lstep two 2 (turns [(0, 6); (1, 5); (0, 4); (1, 5)])%nat = Some (inl [(4, L "a=1"); (5, L "b=2")])
  /\ got sstep [asks 4 []; asks 5 []] 2 (turns [(0, 6); (1, 7); (0, 1)])%nat = Some (inr UseAfterFree)
  /\ got sstep [asks 4 []; asks 5 (marks 30); asks 6 (marks 30)] 3 (turns [(0, 6); (1, 6); (0, 30); (2, 6); (0, 20)])%nat = Some (inr ArrayIndex).
Proof. repeat split; vm_compute; reflexivity. Qed.
Example C102_admitted : admitted demo_fs (asks 4 (L "?a=1")).
Proof.
  split; [reflexivity|].
  assert (H : match alone demo_fs (asks 4 (L "?a=1")) with Ok r => match o_taken r with TApi _ => true | _ => false end | UB _ => false end = true) by (vm_compute; reflexivity).
  destruct (alone demo_fs (asks 4 (L "?a=1"))) as [res|u]; [|discriminate H]. exists res. split; [reflexivity|]. destruct (o_taken res); try discriminate H. split; discriminate.
Qed.

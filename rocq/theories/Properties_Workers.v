(** Properties_Workers.v - C95, requests handled by several threads at the same time (Workers.v). *)
From Verif Require Import Workers Lemmas SpecJson SpecHttp SpecConn SpecReq SpecDispatch SpecLog SpecEffects SpecWorkers Workers_proofs Properties_Dispatch Spec.
From Coq Require Import Permutation.

(** md5sum's array is the code's, and the paths of the limits are C strings. *)
Definition as_built (q : incoming) : Prop := mp_md5_size (v_mp (q_env q)) = 36 /\ Forall (fun r => no_nul (l_path r)) (v_limits (q_env q)).
Lemma built_sound qs : Forall as_built qs -> Forall sound qs.
Proof. intros H. eapply Forall_impl; [|exact H]. intros q [A B]. split; [lia|exact B]. Qed.

(** However the threads' steps interleave, whatever sockets the connections have, each connection
    that is answered gets the answer it would get with nothing else going on, or 429. *)
Theorem C95_alone : forall f qs n sched p, Forall as_built qs -> wrun (pool_start f qs n) sched = Some (Ok p) ->
  forall q k r, In (q, k, r) (w_answers p) ->
  (exists res, alone f q = Ok res /\ o_taken res = k /\ o_req res = r) \/ refused k r.
Proof.
  intros f qs n sched p H R q k r I. pose proof (pinv_run f qs sched (built_sound _ H) _ (pinv_start f qs n)) as P. rewrite R in P.
  destruct P as (_ & _ & _ & _ & A & _). rewrite Forall_forall in A. exact (A _ I).
Qed.
Print Assumptions C95_alone.
(** Behaviour is undefined only if one of the requests is so on its own. *)
Theorem C95_undefined : forall f qs n sched u, Forall as_built qs -> wrun (pool_start f qs n) sched = Some (UB u) ->
  exists q, In q qs /\ alone f q = UB u.
Proof.
  intros f qs n sched u H R. pose proof (pinv_run f qs sched (built_sound _ H) _ (pinv_start f qs n)) as P. now rewrite R in P.
Qed.
Print Assumptions C95_undefined.
(** No connection is refused unless a limit in force is for its URL: the table never fills up, even
    when descriptors are reused and entries overwritten. *)
Theorem C95_refused : forall f qs n sched p, Forall as_built qs -> Forall (fun q => keeps_socket (v_app (q_env q))) qs -> (n <= 1024)%nat ->
  wrun (pool_start f qs n) sched = Some (Ok p) ->
  forall q r, In (q, TTooMany, r) (w_answers p) -> exists rule, in_force (v_limits (q_env q)) rule /\ ci_prefix (l_path rule) (r_url r).
Proof.
  intros f qs n sched p H K N R q r I. destruct (start_more f qs n) as (O & A & Ln).
  pose proof (ruled_run f qs sched (built_sound _ H) K _ p (pinv_start f qs n) O ltac:(lia) A R) as [_ P]. rewrite Forall_forall in P. exact (P _ I eq_refl).
Qed.
Print Assumptions C95_refused.
(** So without limits each connection gets exactly the answer it would get alone. *)
Theorem C95_no_limits : forall f qs n sched p, Forall as_built qs -> Forall (fun q => keeps_socket (v_app (q_env q)) /\ v_limits (q_env q) = []) qs -> (n <= 1024)%nat ->
  wrun (pool_start f qs n) sched = Some (Ok p) ->
  forall q k r, In (q, k, r) (w_answers p) -> exists res, alone f q = Ok res /\ o_taken res = k /\ o_req res = r.
Proof.
  intros f qs n sched p H K N R q k r I. destruct (C95_alone f qs n sched p H R q k r I) as [A|(-> & _)]; [exact A|]. exfalso.
  assert (K' : Forall (fun q => keeps_socket (v_app (q_env q))) qs) by (eapply Forall_impl; [|exact K]; intros x [X _]; exact X).
  destruct (C95_refused f qs n sched p H K' N R q r I) as (rule & F & _).
  pose proof (pinv_run f qs sched (built_sound _ H) _ (pinv_start f qs n)) as P. rewrite R in P. destruct P as (_ & _ & _ & _ & _ & P).
  assert (Iq : In q qs). { apply (Permutation_in q (Permutation_sym P)), in_or_app. left. unfold answered. apply in_map_iff. exists (q, TTooMany, r). auto. }
  rewrite Forall_forall in K. destruct (K q Iq) as [_ E]. rewrite E in F. inversion F.
Qed.
Print Assumptions C95_no_limits.
(** Every connection is queued, in work or answered, once; the files are as they were. *)
Theorem C95_once : forall f qs n sched p, Forall as_built qs -> wrun (pool_start f qs n) sched = Some (Ok p) ->
  Permutation qs (answered p ++ in_work p ++ w_queue p) /\ w_fs p = f.
Proof.
  intros f qs n sched p H R. pose proof (pinv_run f qs sched (built_sound _ H) _ (pinv_start f qs n)) as P. rewrite R in P.
  destruct P as (F & _ & _ & _ & _ & P). split; [exact P|exact F].
Qed.
Print Assumptions C95_once.
(** The connections are taken in the order they came in. *)
Theorem C95_order : forall f qs n sched p, Forall as_built qs -> wrun (pool_start f qs n) sched = Some (Ok p) ->
  exists taken, qs = taken ++ w_queue p /\ Permutation taken (answered p ++ in_work p).
Proof.
  intros f qs n sched p H R. destruct (queue_run _ _ _ R) as (a & A). cbn [pool_start w_queue] in A. exists a. split; [exact A|].
  pose proof (proj1 (C95_once f qs n sched p H R)) as P. rewrite A in P at 1. rewrite app_assoc in P. now apply Permutation_app_inv_r in P.
Qed.
Print Assumptions C95_order.
(** A schedule has at most seven steps for each connection, and one that cannot be continued has
    answered every connection. *)
Theorem C95_ends : forall f qs n sched p, Forall as_built qs -> (0 < n)%nat -> wrun (pool_start f qs n) sched = Some (Ok p) ->
  len sched <= 7 * len qs /\ ((forall k, wstep p k = None) -> Permutation qs (answered p)).
Proof.
  intros f qs n sched p H N R. split.
  - apply left_run in R as B. rewrite left_start in B. pose proof (ssum_nonneg (w_threads p)). pose proof (len_nonneg _ (w_queue p)). unfold left_to_do in B. lia.
  - intros S. destruct (C95_once f qs n sched p H R) as [P _]. destruct (at_rest p S) as [Q I].
    + rewrite <- (length_zero_iff_nil). rewrite (run_length _ _ _ R). destruct (start_more f qs n) as (_ & _ & ->). lia.
    + rewrite Q, (idle_work _ I), !app_nil_r in P. exact P.
Qed.
Print Assumptions C95_ends.
(** With a limit the answer can differ from the one alone: the limit counts the others. *)
Definition limited : wsenv := mkEnv demo_app [] [mkLimit (L "/a") 0 0 0] (L "/www") (L "/index.html") (L "/f.ico") (mkMpenv (fun s => s) 1 true MD5_BUF) (cs (L "junk")).
Definition get_a (socket : Z) : incoming := mkIn limited socket (L "1.2.3.4") (L "GET /a.txt HTTP/1.1" ++ CRLF ++ CRLF).
Lemma second_refused : match wrun (pool_start demo_fs [get_a 4; get_a 5] 2) [0; 0; 0; 0; 0; 1; 1; 1; 1; 1]%nat with
  | Some (Ok p) => map (fun a => (q_socket (fst (fst a)), snd (fst a))) (w_answers p) = [(5, TTooMany)]
  | _ => False
  end.
Proof. vm_compute. reflexivity. Qed.
Lemma second_alone : match alone demo_fs (get_a 5) with Ok res => o_taken res = TStatic | UB _ => False end.
Proof. vm_compute. reflexivity. Qed.
Theorem C95_alone_refuted : exists f qs n sched p q r res, Forall as_built qs /\ wrun (pool_start f qs n) sched = Some (Ok p)
  /\ In (q, TTooMany, r) (w_answers p) /\ alone f q = Ok res /\ o_taken res = TStatic.
Proof.
  assert (B : Forall as_built [get_a 4; get_a 5]). { repeat constructor; cbn; repeat constructor; discriminate. }
  pose proof second_refused as R. destruct (wrun _ _) as [[p|]|] eqn:E; try contradiction. pose proof second_alone as A. destruct (alone demo_fs (get_a 5)) as [res|] eqn:E2; [|contradiction].
  destruct (w_answers p) as [|[[q k] r] [|? ?]] eqn:W; try discriminate R. cbn [map fst snd] in R.
  assert (q_socket q = 5 /\ k = TTooMany) as [S ->] by (split; congruence).
  exists demo_fs, [get_a 4; get_a 5], 2%nat, [0; 0; 0; 0; 0; 1; 1; 1; 1; 1]%nat, p, (get_a 5), r, res. split; [exact B|]. split; [exact E|].
  split; [|split; [exact E2|exact A]]. rewrite W. left. f_equal. f_equal.
  assert (I : In q [get_a 4; get_a 5]).
  { apply (Permutation_in q (Permutation_sym (proj1 (C95_once _ _ _ _ _ B E)))), in_or_app. left. unfold answered. rewrite W. now left. }
  destruct I as [<-|[<-|[]]]; [discriminate S|reflexivity].
Qed.
Print Assumptions C95_alone_refuted.
Example C95_case :
  let get u s := mkIn demo s (L "1.2.3.4") (L "GET " ++ u ++ L " HTTP/1.1" ++ CRLF ++ CRLF) in
  match wrun (pool_start demo_fs [get (L "/a.txt") 4; get (L "/api/x") 5; mkIn demo 6 (L "1.2.3.4") (L "PUT /a.txt HTTP/1.1" ++ CRLF ++ CRLF)] 2)
             [0; 1; 0; 1; 1; 0; 1; 0; 0; 1; 1; 0; 1; 0; 1; 1; 1; 1; 1; 1; 1]%nat with
  | Some (Ok p) => map (fun a => (q_socket (fst (fst a)), snd (fst a))) (w_answers p) = [(5, TApi [CallHandler 7%nat]); (4, TStatic); (6, TNotGet)]
                   /\ w_queue p = [] /\ in_work p = [] /\ w_table p = empty_table
  | _ => False
  end.
Proof. vm_compute. repeat split; reflexivity. Qed.

(** Splits_proofs.v - lemmas for C102. *)
From Verif Require Import Splits Lemmas StringUtils_proofs HttpUtils_proofs ConfParser_proofs WsConn_proofs Races_proofs Workers_proofs SpecWorkers Spec.
From Coq Require Import Permutation.

Local Opaque read_head alone serve respond take_headers empty_table connection_add connection_validate too_many_connections header_loop get_line handle_api_request handle_static_routes bad_request
  get_path_and_query_string startswith cstr write_at.

(** ** Lists by index *)
Lemma set_nth_error {A} (l : list A) k x j : (k < length l)%nat -> nth_error (set_nth l k x) j = if Nat.eqb j k then Some x else nth_error l j.
Proof.
  intros H. destruct (nth_error l k) as [y|] eqn:N; [|apply nth_error_None in N; lia]. apply nth_error_split in N as (a & b & -> & <-). rewrite set_nth_eq.
  destruct (Nat.eqb_spec j (length a)) as [->|Nj].
  - rewrite nth_error_app2, Nat.sub_diag by lia. reflexivity.
  - destruct (le_lt_dec (length a) j) as [Hj|Hj]; [|now rewrite !nth_error_app1 by lia]. rewrite !nth_error_app2 by lia. destruct (j - length a)%nat eqn:D; [lia|reflexivity].
Qed.
Lemma set_nth_length {A} (l : list A) k x : (k < length l)%nat -> length (set_nth l k x) = length l.
Proof.
  intros H. destruct (nth_error l k) as [y|] eqn:N; [|apply nth_error_None in N; lia]. apply nth_error_split in N as (a & b & -> & <-). rewrite set_nth_eq, !app_length. reflexivity.
Qed.
Lemma nth_by_error {A} (l : list A) k d : nth k l d = match nth_error l k with Some x => x | None => d end.
Proof. revert k. induction l as [|x l IH]; intros [|k]; cbn; auto. Qed.
Lemma nth_set {A} (l : list A) k x j d : (k < length l)%nat -> nth j (set_nth l k x) d = if Nat.eqb j k then x else nth j l d.
Proof. intros H. rewrite !nth_by_error, set_nth_error by exact H. now destruct (Nat.eqb j k). Qed.
Lemma Forall_nth_error {A} (P : A -> Prop) l k x : Forall P l -> nth_error l k = Some x -> P x.
Proof. intros F N. rewrite Forall_forall in F. apply F. eapply nth_error_In; eauto. Qed.
Lemma Forall_set {A} (P : A -> Prop) l k x : Forall P l -> P x -> (k < length l)%nat -> Forall P (set_nth l k x).
Proof.
  intros F H Hk. destruct (nth_error l k) as [y|] eqn:N; [|apply nth_error_None in N; lia]. apply nth_error_split in N as (a & b & -> & <-). rewrite set_nth_eq.
  apply Forall_app in F as [F1 F2]. inversion F2; subst. apply Forall_app. split; [auto|constructor; auto].
Qed.
Lemma nth_some_lt {A} (l : list A) k x : nth_error l k = Some x -> (k < length l)%nat.
Proof. intros H. apply nth_error_Some. congruence. Qed.

(** ** serve is its parts *)
Lemma serve_cut q f h : serve q f h = (hl <- take_headers h;; '(path, query) <- get_path_and_query_string (hd_url h);; respond q f h hl path query).
Proof.
  Local Transparent serve respond take_headers. unfold serve, take_headers. Tactic Notation "side" simple_intropattern(p) := match goal with |- bind ?x _ = bind (bind ?x _) _ => destruct x as [p|]; cbn [bind]; [|reflexivity] end.
  side b1. side [[n b2] s2]. destruct (header_loop _ _ _) as [hl|]; cbn [bind]; [|reflexivity]. cbv zeta. destruct (get_path_and_query_string _) as [[path query]|]; reflexivity.
  Local Opaque serve respond take_headers.
Qed.
Lemma split_ok url toks : tokens (L "?") url toks -> no_nul url -> len toks <= 50 -> path_and_query toks = get_path_and_query_string url.
Proof.
  intros T N H. Local Transparent get_path_and_query_string. unfold get_path_and_query_string. Local Opaque get_path_and_query_string. rewrite (split_eq _ _ _ T N).
  replace (len toks <=? 50) with true by lia. cbn [bind]. pose proof (tokens_no_nul _ _ _ T N) as F. destruct toks as [|p t]; [reflexivity|]. inversion F as [|? ? Np Ft]; subst. cbn [path_and_query map].
  rewrite (split_entry_eq p Np). cbn [bind]. destruct (cstr (StringUtils_proofs.entry p)); cbn [bind]; [|reflexivity]. destruct t as [|q t]; [reflexivity|]. inversion Ft as [|? ? Nq _]; subst. cbn [map].
  rewrite (split_entry_eq q Nq). reflexivity.
Qed.
Lemma split_many url toks : tokens (L "?") url toks -> no_nul url -> 50 < len toks -> get_path_and_query_string url = UB ArrayIndex.
Proof.
  intros T N H. Local Transparent get_path_and_query_string. unfold get_path_and_query_string. Local Opaque get_path_and_query_string. rewrite (split_eq _ _ _ T N). now replace (len toks <=? 50) with false by lia.
Qed.

(** ** The invariant of the server with a lock *)
Definition headed (s : stage) : Prop :=
  match s with
  | SCheck q h | SRefused q h | SSearch q h | SClaim q h _ | SServe q h => read_head q = Ok (inr h)
  | _ => True
  end.
Definition text_ok (u : str) (toks : list str) (rest : str) : Prop := forall ts, tokens (L "?") rest ts -> tokens (L "?") u (toks ++ ts).
Definition prog_ok (p : spool) (k : nat) : Prop :=
  match progress_of p k with
  | PBefore => True
  | PWithin hl b toks => exists q h rest, nth_error (w_threads (s_pool p)) k = Some (SServe q h) /\ take_headers h = Ok hl /\ s_save p = Some (b, rest)
      /\ ~ In b (s_freed p) /\ (b < s_next p)%nat /\ len toks <= 50 /\ text_ok (hd_url h) toks rest
  | PSplit hl toks => exists q h, nth_error (w_threads (s_pool p)) k = Some (SServe q h) /\ take_headers h = Ok hl /\ len toks <= 50 /\ tokens (L "?") (hd_url h) toks
  end.
Definition linv (p : spool) : Prop :=
  length (s_done p) = length (w_threads (s_pool p)) /\ Forall headed (w_threads (s_pool p)) /\ (forall k, prog_ok p k)
  /\ (forall j k, within (progress_of p j) = true -> within (progress_of p k) = true -> j = k) /\ Forall (fun b => (b < s_next p)%nat) (s_freed p).

Lemma headed_step p k p' : Forall headed (w_threads p) -> wstep p k = Some (Ok p') ->
  exists s, nth_error (w_threads p) k <> None /\ w_threads p' = set_nth (w_threads p) k s /\ headed s.
Proof.
  intros F E. unfold wstep in E. destruct (nth_error (w_threads p) k) as [s|] eqn:N; [|discriminate]. pose proof (Forall_nth_error _ _ _ _ F N) as H.
  destruct s as [|q|q h|q h|q h i|q h|q h|q kd r]; cbn [headed] in H.
  - destruct (w_queue p); inversion E; subst. eexists. split; [easy|]. split; [reflexivity|exact I].
  - destruct (read_head q) as [x|] eqn:R; cbn [bind] in E; inversion E; subst. eexists. split; [easy|]. split; [reflexivity|]. destruct x; cbn; auto.
  - destruct (connection_validate _ _ _ _) as [ok|]; cbn [bind] in E; inversion E; subst. eexists. split; [easy|]. split; [reflexivity|]. now destruct ok.
  - inversion E; subst. eexists. split; [easy|]. split; [reflexivity|]. now destruct (free_index _).
  - destruct (fits HTTP_MAX_PATH (hd_url h)); cbn [bind] in E; [|discriminate]. destruct (fits HTTP_MAX_IP _); cbn [bind] in E; inversion E; subst. eexists. split; [easy|]. split; [reflexivity|exact H].
  - destruct (too_many_connections _); cbn [bind] in E; inversion E; subst. eexists. split; [easy|]. split; [reflexivity|exact I].
  - destruct (serve _ _ _) as [[[kd r] f']|]; cbn [bind] in E; inversion E; subst. eexists. split; [easy|]. split; [reflexivity|exact I].
  - inversion E; subst. eexists. split; [easy|]. split; [reflexivity|exact I].
Qed.

Definition simulates (p : spool) (k : nat) (o : outcome spool) : Prop :=
  match o with
  | Ok p' => linv p' /\ (s_pool p' = s_pool p \/ wstep (s_pool p) k = Some (Ok (s_pool p')))
  | UB _ => exists u, wstep (s_pool p) k = Some (UB u)
  end.

(** A call of strtok by the only thread within its splitting. *)
Lemma token_step p k q h hl b toks text next : linv p -> nth_error (w_threads (s_pool p)) k = Some (SServe q h) -> take_headers h = Ok hl ->
  (forall j, within (progress_of p j) = true -> j = k) -> ~ In b (s_freed p) -> (b < next)%nat -> (s_next p <= next)%nat -> len toks <= 50 -> text_ok (hd_url h) toks text ->
  simulates p k (after_token (mkS (s_pool p) (s_done p) (s_save p) (s_freed p) next) k hl b toks b text).
Proof.
  intros (Ld & Hh & Hp & Hu & Hf) N R Only Nb Lb Ln Lt T. unfold after_token. cbn [s_pool s_done s_save s_freed s_next].
  assert (Hk : (k < length (s_done p))%nat) by (rewrite Ld; eapply nth_some_lt; eauto).
  assert (Q : forall x, length (set_nth (s_done p) k x) = length (w_threads (s_pool p))) by (intros x; rewrite set_nth_length; auto).
  destruct (strtok (L "?") text) as [[tok rest]|] eqn:E.
  - assert (T' : text_ok (hd_url h) (toks ++ [tok]) rest).
    { intros ts H. rewrite <- app_assoc. cbn [app]. apply T. eapply tokens_of_strtok; eauto. }
    change MAX_SPLIT_STR with 50. destruct (Z.leb_spec 50 (len toks)) as [G|G].
    + assert (NU : no_nul (hd_url h)) by (apply (head_told q h); exact (Forall_nth_error _ _ _ _ Hh N)).
      destruct (tokens_exist (L "?") rest) as (ts & Hts). apply T' in Hts. exists ArrayIndex. unfold wstep. rewrite N, serve_cut, R. cbn [bind].
      rewrite (split_many _ _ Hts NU); [reflexivity|]. rewrite !len_app. pose proof (len_nonneg _ ts). change (len [tok]) with 1. lia.
    + split; [|left; reflexivity]. split; [apply Q|]. split; [exact Hh|]. cbn [s_pool s_done s_save s_freed s_next]. split; [|split].
      * intros j. unfold prog_ok, progress_of. cbn [s_pool s_done s_save s_freed s_next]. rewrite nth_set by exact Hk. destruct (Nat.eqb_spec j k) as [->|Nj].
        -- exists q, h, rest. split; [exact N|]. split; [exact R|]. split; [reflexivity|]. split; [exact Nb|]. split; [exact Lb|]. split; [|exact T']. rewrite len_app. change (len [tok]) with 1. lia.
        -- specialize (Hp j). unfold prog_ok, progress_of in Hp. unfold progress_of in Only. specialize (Only j). destruct (nth j (s_done p) PBefore); [exact I| |exact Hp]. elim Nj. now apply Only.
      * intros i j. unfold progress_of. cbn [s_done]. rewrite !nth_set by exact Hk. destruct (Nat.eqb_spec i k) as [->|Ni], (Nat.eqb_spec j k) as [->|Nj]; auto.
      * eapply Forall_impl; [|exact Hf]. cbn. intros. lia.
  - split; [|left; reflexivity]. split; [apply Q|]. split; [exact Hh|]. cbn [s_pool s_done s_save s_freed s_next]. split; [|split].
    + intros j. unfold prog_ok, progress_of. cbn [s_pool s_done s_save s_freed s_next]. rewrite nth_set by exact Hk. destruct (Nat.eqb_spec j k) as [->|Nj].
      * exists q, h. split; [exact N|]. split; [exact R|]. split; [exact Lt|]. rewrite <- (app_nil_r toks). apply T. constructor. now apply strtok_none.
      * specialize (Hp j). unfold prog_ok, progress_of in Hp. unfold progress_of in Only. specialize (Only j). destruct (nth j (s_done p) PBefore); [exact I| |exact Hp]. elim Nj. now apply Only.
    + intros i j. unfold progress_of. cbn [s_done]. rewrite !nth_set by exact Hk. destruct (Nat.eqb_spec i k) as [->|Ni], (Nat.eqb_spec j k) as [->|Nj]; auto; try discriminate.
    + constructor; [exact Lb|]. eapply Forall_impl; [|exact Hf]. cbn. intros. lia.
Qed.

Lemma lock_step p k o : linv p -> lstep p k = Some o -> simulates p k o.
Proof.
  intros I E. pose proof I as (Ld & Hh & Hp & Hu & Hf). unfold lstep in E. destruct (must_wait p k) eqn:W; [discriminate|]. unfold sstep in E.
  assert (Plain : forall o', (forall q h, nth_error (w_threads (s_pool p)) k <> Some (SServe q h)) ->
    wstep (s_pool p) k = Some o' -> simulates p k (w <- o';; Ok (mkS w (s_done p) (s_save p) (s_freed p) (s_next p)))).
  { intros [w|u] NS Ew; cbn [bind simulates]; [|eauto]. split; [|right; exact Ew]. destruct (headed_step _ _ _ Hh Ew) as (s & Nk & Et & Hs).
    assert (Hk : (k < length (w_threads (s_pool p)))%nat) by (now apply nth_error_Some).
    split; [cbn [s_pool s_done]; rewrite Et, set_nth_length by exact Hk; exact Ld|]. cbn [s_pool s_done s_save s_freed s_next]. split; [rewrite Et; apply Forall_set; auto|].
    split; [|split; [exact Hu|exact Hf]]. intros j. specialize (Hp j). unfold prog_ok, progress_of in *. cbn [s_pool s_done s_save s_freed s_next]. rewrite Et, set_nth_error by exact Hk.
    destruct (Nat.eqb_spec j k) as [->|Nj]; [|exact Hp]. destruct (nth k (s_done p) PBefore) as [|hl b toks|hl toks]; [exact Logic.I| |].
    - destruct Hp as (q & h & rest & X & _). now elim (NS q h).
    - destruct Hp as (q & h & X & _). now elim (NS q h). }
  destruct (nth_error (w_threads (s_pool p)) k) as [s|] eqn:N.
  2:{ unfold wstep in E. rewrite N in E. discriminate. }
  assert (HS : (exists q h, s = SServe q h) \/ forall q h, Some s <> Some (SServe q h)) by (destruct s; try (right; congruence); left; eauto).
  destruct HS as [(q & h & ->)|NS].
  2:{ destruct (wstep (s_pool p) k) as [o'|] eqn:Ew; [|destruct s; try discriminate; elim (NS q h); reflexivity].
      specialize (Plain o' NS eq_refl). destruct s; try (injection E as <-; exact Plain). elim (NS q h). reflexivity. }
  clear Plain. unfold must_wait in W. rewrite N in W. pose proof (Hp k) as Hk. unfold prog_ok in Hk. pose proof (Forall_nth_error _ _ _ _ Hh N) as Rq. cbn [headed] in Rq.
  destruct (progress_of p k) as [|hl b toks|hl toks] eqn:P; injection E as <-.
  - destruct (take_headers h) as [hl|u] eqn:R; cbn [bind]; [|exists u; unfold wstep; now rewrite N, serve_cut, R].
    apply (token_step p k q h hl (s_next p) [] (hd_url h) (S (s_next p))); auto.
    + intros j Hj. exfalso. assert (X : existsb within (s_done p) = true); [|congruence]. apply existsb_exists. exists (progress_of p j). split; [|exact Hj].
      unfold progress_of in *. destruct (nth_in_or_default j (s_done p) PBefore) as [H|H]; [exact H|]. rewrite H in Hj. discriminate.
    + intros H. rewrite Forall_forall in Hf. apply Hf in H. lia.
    + rewrite len_nil. lia.
    + intros ts H. exact H.
  - destruct Hk as (q' & h' & rest & N' & R & Sv & Nb & Lb & Lt & T). rewrite N in N'. injection N' as <- <-. rewrite Sv.
    assert (is_freed b (s_freed p) = false) as ->.
    { apply not_true_is_false. intros H. apply existsb_exists in H as (x & Ix & Ex). apply Nat.eqb_eq in Ex. subst x. now apply Nb. }
    pose proof (token_step p k q h hl b toks rest (s_next p) I N R) as X. destruct p as [pl dn sv fr nx]. cbn [s_pool s_done s_save s_freed s_next] in *. apply X; auto.
    intros j Hj. apply Hu; [exact Hj|]. now rewrite P.
  - destruct Hk as (q' & h' & N' & R & Lt & T). rewrite N in N'. injection N' as <- <-. destruct (head_told _ _ Rq) as (_ & _ & _ & _ & NU & _).
    assert (Ew : wstep (s_pool p) k = Some ('(path, query) <- path_and_query toks;; '(k', r, f) <- respond q (w_fs (s_pool p)) h hl path query;;
      Ok (mkPool (w_queue (s_pool p)) (set_nth (w_threads (s_pool p)) k (SClosed q k' r)) (w_table (s_pool p)) f (w_answers (s_pool p))))).
    { unfold wstep. rewrite N, serve_cut, R. cbn [bind]. rewrite (split_ok _ _ T NU Lt). destruct (get_path_and_query_string _) as [[path query]|]; reflexivity. }
    destruct (path_and_query toks) as [[path query]|u]; cbn [bind] in *; [|exists u; exact Ew].
    destruct (respond q (w_fs (s_pool p)) h hl path query) as [[[kd r] f]|u]; cbn [bind] in *; [|exists u; exact Ew].
    assert (Hk : (k < length (w_threads (s_pool p)))%nat) by (eapply nth_some_lt; eauto). assert (Hd : (k < length (s_done p))%nat) by lia.
    split; [|right; exact Ew]. split; [cbn [s_pool s_done w_threads]; rewrite !set_nth_length by auto; exact Ld|]. cbn [s_pool s_done s_save s_freed s_next w_threads].
    split; [apply Forall_set; auto; exact Logic.I|]. split; [|split; [|exact Hf]].
    + intros j. specialize (Hp j). unfold prog_ok, progress_of in *. cbn [s_pool s_done s_save s_freed s_next w_threads]. rewrite nth_set by exact Hd. destruct (Nat.eqb_spec j k) as [->|Nj]; [exact Logic.I|].
      rewrite set_nth_error by exact Hk. rewrite (proj2 (Nat.eqb_neq j k) Nj). exact Hp.
    + intros i j. unfold progress_of in *. cbn [s_done]. rewrite !nth_set by exact Hd. destruct (Nat.eqb_spec i k) as [->|Ni], (Nat.eqb_spec j k) as [->|Nj]; auto; discriminate.
Qed.
Lemma linv_start f qs n : linv (spool_start f qs n).
Proof.
  assert (B : forall k, nth k (repeat PBefore n) PBefore = PBefore) by (intros k; destruct (nth_in_or_default k (repeat PBefore n) PBefore) as [H|H]; [now apply repeat_spec in H|exact H]).
  unfold spool_start, pool_start. split; [cbn; now rewrite !repeat_length|]. split; [apply Forall_forall; intros s H; apply repeat_spec in H; now subst|].
  split; [|split; [|constructor]].
  - intros k. unfold prog_ok, progress_of. cbn [s_done]. now rewrite B.
  - intros i j. unfold progress_of. cbn [s_done]. rewrite B. discriminate.
Qed.
Lemma lock_run sched : forall p o, linv p -> lrun p sched = Some o ->
  exists sched', match o with
                 | Ok p' => linv p' /\ wrun (s_pool p) sched' = Some (Ok (s_pool p'))
                 | UB _ => exists u, wrun (s_pool p) sched' = Some (UB u)
                 end.
Proof.
  unfold lrun, wrun. induction sched as [|k l IH]; intros p o I E; cbn [srun_with] in E.
  - injection E as <-. exists []. split; [exact I|reflexivity].
  - destruct (lstep p k) as [[p1|u]|] eqn:S; [| |discriminate].
    + apply (lock_step p k _ I) in S as (I1 & S). destruct (IH p1 o I1 E) as (sched' & H). destruct S as [S|S].
      * rewrite <- S. exists sched'. exact H.
      * exists (k :: sched'). cbn [run_with]. rewrite S. exact H.
    + injection E as <-. apply (lock_step p k _ I) in S as (u' & S). exists [k], u'. cbn [run_with]. now rewrite S.
Qed.

(** ** Every schedule of the server with a lock ends, and only when all is answered *)
Definition weight (x : progress) : Z := match x with PBefore => 0 | PWithin _ _ toks => len toks | PSplit _ _ => 52 end.
Fixpoint wsum (l : list progress) : Z := match l with [] => 0 | x :: r => weight x + wsum r end.
Lemma wsum_set l : forall k x, (k < length l)%nat -> wsum (set_nth l k x) = wsum l - weight (nth k l PBefore) + weight x.
Proof.
  assert (A : forall a b, wsum (a ++ b) = wsum a + wsum b) by (induction a as [|y a IH]; intros b; cbn [app wsum]; [lia|rewrite IH; lia]).
  intros k x H. rewrite nth_by_error. destruct (nth_error l k) as [y|] eqn:N; [|apply nth_error_None in N; lia]. apply nth_error_split in N as (a & b & -> & <-). rewrite set_nth_eq, !A. cbn [wsum]. lia.
Qed.
Definition to_do (p : spool) : Z := 60 * left_to_do (s_pool p) - wsum (s_done p).
Lemma wsum_le l : forall d, length d = length l -> (forall k, weight (nth k d PBefore) <= 60 * spot (nth k l SIdle)) -> wsum d <= 60 * ssum l.
Proof.
  induction l as [|s l IH]; intros [|x d] L0 H; cbn [length] in *; try lia; cbn [wsum ssum]; [lia|]. specialize (IH d ltac:(lia) (fun k => H (S k))). pose proof (H 0%nat) as H0. cbn [nth] in H0. lia.
Qed.
Lemma to_do_nonneg p : linv p -> 0 <= to_do p.
Proof.
  intros (Ld & _ & Hp & _). unfold to_do, left_to_do. pose proof (len_nonneg _ (w_queue (s_pool p))).
  assert (X : wsum (s_done p) <= 60 * ssum (w_threads (s_pool p))); [|lia]. apply wsum_le; [exact Ld|]. intros k. specialize (Hp k). unfold prog_ok, progress_of in Hp. destruct (nth k (s_done p) PBefore); cbn [weight].
  - destruct (nth k (w_threads (s_pool p)) SIdle); cbn [spot]; lia.
  - destruct Hp as (q & h & rest & N & _ & _ & _ & _ & Lt & _). rewrite nth_by_error, N. cbn [spot]. lia.
  - destruct Hp as (q & h & N & _). rewrite nth_by_error, N. cbn [spot]. lia.
Qed.
Lemma to_do_token p k hl b toks o text next p' : (k < length (s_done p))%nat -> weight (progress_of p k) <= len toks <= 50 ->
  after_token (mkS (s_pool p) (s_done p) (s_save p) (s_freed p) next) k hl b toks o text = Ok p' -> to_do p' + 1 <= to_do p.
Proof.
  intros Hk Wt E. unfold after_token in E. cbn [s_pool s_done s_save s_freed s_next] in E. unfold progress_of in Wt. destruct (strtok (L "?") text) as [[tok rest]|].
  - destruct (MAX_SPLIT_STR <=? len toks); inversion E. unfold to_do. cbn [s_pool s_done]. rewrite wsum_set by exact Hk. cbn [weight]. rewrite len_app. change (len [tok]) with 1. lia.
  - inversion E. unfold to_do. cbn [s_pool s_done]. rewrite wsum_set by exact Hk. cbn [weight]. lia.
Qed.
Lemma to_do_step p k p' : linv p -> lstep p k = Some (Ok p') -> to_do p' + 1 <= to_do p.
Proof.
  intros I E. pose proof I as (Ld & Hh & Hp & _). pose proof (lock_step p k _ I E) as [_ Sim]. unfold lstep in E. destruct (must_wait p k); [discriminate|]. unfold sstep in E.
  assert (Plain : match wstep (s_pool p) k with None => None | Some o => Some (w <- o;; Ok (mkS w (s_done p) (s_save p) (s_freed p) (s_next p))) end = Some (Ok p') -> to_do p' + 1 <= to_do p).
  { destruct (wstep (s_pool p) k) as [[w|u]|] eqn:Ew; cbn [bind]; intros X; inversion X. apply left_step in Ew. unfold to_do. cbn [s_pool s_done]. lia. }
  destruct (nth_error (w_threads (s_pool p)) k) as [s|] eqn:N; [|exact (Plain E)]. destruct s; try exact (Plain E). clear Plain.
  assert (Hk : (k < length (s_done p))%nat) by (rewrite Ld; eapply nth_some_lt; eauto). pose proof (Hp k) as Pk. unfold prog_ok in Pk. destruct (progress_of p k) as [|hl b toks|hl toks] eqn:P.
  - destruct (take_headers h) as [hl|]; cbn [bind] in E; [|discriminate]. injection E as E. eapply to_do_token; [exact Hk| |exact E]. rewrite P, len_nil. cbn [weight]. lia.
  - destruct Pk as (q' & h' & rest & _ & _ & Sv & _ & _ & Lt & _). rewrite Sv in E. destruct (is_freed b (s_freed p)); [discriminate|]. injection E as E.
    eapply (to_do_token p k hl b toks b rest (s_next p)); [exact Hk| |destruct p; exact E]. rewrite P. cbn [weight]. lia.
  - destruct (path_and_query toks) as [[path query]|]; cbn [bind] in E; [|discriminate]. destruct (respond _ _ _ _ _ _) as [[[kd r] f]|]; cbn [bind] in E; inversion E; subst p'.
    cbn [s_pool] in Sim. unfold to_do. cbn [s_pool s_done]. rewrite wsum_set by exact Hk. unfold progress_of in P. rewrite P. cbn [weight]. destruct Sim as [Sim|Sim].
    + exfalso. assert (X : nth_error (w_threads (s_pool p)) k = Some (SClosed q kd r)); [|congruence]. rewrite <- Sim. cbn [w_threads]. rewrite set_nth_error by (eapply nth_some_lt; eauto). now rewrite Nat.eqb_refl.
    + apply left_step in Sim. lia.
Qed.
Lemma to_do_run sched : forall p p', linv p -> lrun p sched = Some (Ok p') -> to_do p' + len sched <= to_do p.
Proof.
  unfold lrun. induction sched as [|k l IH]; intros p p' I E; cbn [srun_with] in E; [inversion E; subst; rewrite len_nil; lia|].
  destruct (lstep p k) as [[p1|u]|] eqn:S; try discriminate. apply (to_do_step _ _ _ I) in S as D. apply (lock_step _ _ _ I) in S as (I1 & _). apply (IH _ _ I1) in E. rewrite len_cons. lia.
Qed.
Lemma to_do_start f qs n : to_do (spool_start f qs n) = 420 * len qs.
Proof.
  unfold to_do, spool_start. cbn [s_pool s_done]. rewrite left_start. assert (wsum (repeat PBefore n) = 0) as -> by (induction n; cbn [repeat wsum weight]; lia). lia.
Qed.
Lemma lock_at_rest p : linv p -> (forall k, lstep p k = None) -> forall k, wstep (s_pool p) k = None.
Proof.
  intros (Ld & _ & Hp & _) H.
  assert (NW : existsb within (s_done p) = false).
  { apply not_true_is_false. intros X. apply existsb_exists in X as (x & Ix & Wx). apply (In_nth _ _ PBefore) in Ix as (j & _ & Ej). specialize (Hp j). specialize (H j).
    unfold prog_ok, progress_of in Hp. rewrite Ej in Hp. destruct x as [|hl b toks|]; try discriminate. destruct Hp as (q & h & rest & N & _). unfold lstep, must_wait, sstep, progress_of in H. rewrite N, Ej in H. discriminate. }
  intros k. specialize (H k). unfold lstep, must_wait in H. unfold sstep in H. rewrite NW in H. destruct (wstep (s_pool p) k) as [o|] eqn:E; [|reflexivity]. exfalso.
  destruct (nth_error (w_threads (s_pool p)) k) as [[|q|q h|q h|q h i|q h|q h|q kd r]|] eqn:N; try discriminate. destruct (progress_of p k); discriminate.
Qed.

(** ** One thread never waits *)
Lemma single_step p k : linv p -> (length (w_threads (s_pool p)) <= 1)%nat -> lstep p k = sstep p k.
Proof.
  intros (Ld & _) H. unfold lstep. replace (must_wait p k) with false; [reflexivity|]. unfold must_wait. destruct (nth_error (w_threads (s_pool p)) k) as [s|] eqn:N; [|reflexivity].
  apply nth_some_lt in N as Hk. unfold progress_of. destruct (s_done p) as [|x [|y d]]; cbn [length] in Ld; try lia. assert (k = 0%nat) as -> by lia. cbn [nth existsb]. destruct s, x; reflexivity.
Qed.
Lemma single_run sched : forall p, linv p -> (length (w_threads (s_pool p)) <= 1)%nat -> srun p sched = lrun p sched.
Proof.
  unfold srun, lrun. induction sched as [|k l IH]; intros p I H; [reflexivity|]. cbn [srun_with]. rewrite <- (single_step p k I H). destruct (lstep p k) as [[p1|u]|] eqn:S; auto.
  apply (lock_step _ _ _ I) in S as (I1 & S). apply IH; [exact I1|]. destruct S as [->|S]; [exact H|]. now rewrite (step_length _ _ _ S).
Qed.
Lemma lock_is_run sched : forall p o, lrun p sched = Some o -> srun p sched = Some o.
Proof.
  unfold srun, lrun. induction sched as [|k l IH]; intros p o E; [exact E|]. cbn [srun_with] in *. unfold lstep in E at 1. destruct (must_wait p k); [discriminate|]. destruct (sstep p k) as [[p1|u]|]; auto.
Qed.

(** ** Two requests at once *)
Definition reaches (q : incoming) (h : reqhead) (hl : hstate) (t : str) (ts : list str) : Prop :=
  v_limits (q_env q) = [] /\ read_head q = Ok (inr h) /\ fits HTTP_MAX_PATH (hd_url h) = Ok (hd_url h) /\ fits HTTP_MAX_IP (r_ip (hd_req h)) = Ok (r_ip (hd_req h))
  /\ take_headers h = Ok hl /\ tokens (L "?") (hd_url h) (t :: ts) /\ len ts <= 49.
Lemma no_rules t ip path : connection_validate [] t ip path = Ok true.
Proof. Local Transparent connection_validate. reflexivity. Local Opaque connection_validate. Qed.
Lemma alone_reaches f q res : v_limits (q_env q) = [] -> alone f q = Ok res -> o_taken res <> TBadMethod -> o_taken res <> TTooMany ->
  exists h hl t ts, reaches q h hl t ts.
Proof.
  intros V A T1 T2. rewrite alone_cut in A. destruct (read_head q) as [[r|h]|] eqn:R; cbn [bind] in A; [injection A as <-; now elim T1| |discriminate].
  rewrite V in A. destruct (add_empty [] (q_socket q) (r_ip (hd_req h)) (hd_url h) (no_rules _ _ _)) as (tt & AE). rewrite AE in A.
  destruct (fits HTTP_MAX_PATH (hd_url h)) as [pa|] eqn:F1; cbn [bind] in A; [|discriminate]. destruct (fits HTTP_MAX_IP _) as [ip|] eqn:F2; cbn [bind negb] in A; [|discriminate].
  pose proof (fits_same _ _ _ F1); pose proof (fits_same _ _ _ F2). subst pa ip. rewrite serve_cut in A. destruct (take_headers h) as [hl|] eqn:Rh; cbn [bind] in A; [|discriminate].
  destruct (head_told _ _ R) as (_ & _ & _ & _ & NU & _). destruct (tokens_exist (L "?") (hd_url h)) as (ts & T).
  destruct (Z_le_gt_dec (len ts) 50) as [G|G]; [|rewrite (split_many _ _ T NU) in A by lia; discriminate]. rewrite <- (split_ok _ _ T NU G) in A.
  destruct ts as [|t ts]; [discriminate|]. exists h, hl, t, ts. rewrite len_cons in G. unfold reaches. repeat (split; [assumption|]). lia.
Qed.
Lemma set_set {A} (l : list A) k x y : (k < length l)%nat -> set_nth (set_nth l k x) k y = set_nth l k y.
Proof.
  intros H. destruct (nth_error l k) as [z|] eqn:N; [|apply nth_error_None in N; lia]. apply nth_error_split in N as (a & b & -> & <-). rewrite !set_nth_eq. reflexivity.
Qed.
Lemma srun_app a : forall p p' b, srun p a = Some (Ok p') -> srun p (a ++ b) = srun p' b.
Proof.
  unfold srun. induction a as [|k a IH]; intros p p' b E; cbn [srun_with app] in *; [congruence|]. destruct (sstep p k) as [[p1|u]|]; try discriminate. now apply IH.
Qed.
Lemma srun_cons k l p p' : sstep p k = Some (Ok p') -> srun p (k :: l) = srun p' l.
Proof. intros E. unfold srun. cbn [srun_with]. now rewrite E. Qed.
Local Opaque free_index.
(** A thread takes a connection and gets as far as its header lines. *)
Lemma walk qs th tb f an dn sv fr nx k q h hl t ts i : nth_error th k = Some SIdle -> reaches q h hl t ts -> free_index tb = Some i ->
  srun (mkS (mkPool (q :: qs) th tb f an) dn sv fr nx) [k; k; k; k; k]
  = Some (Ok (mkS (mkPool qs (set_nth th k (SServe q h)) (set_nth tb i (mkConn (q_socket q) (hd_url h) (r_ip (hd_req h)))) f an) dn sv fr nx)).
Proof.
  intros N (V & R & F1 & F2 & _) FI. assert (Hk : (k < length th)%nat) by (eapply nth_some_lt; eauto).
  assert (G : forall s, nth_error (set_nth th k s) k = Some s) by (intros s; rewrite set_nth_error by exact Hk; now rewrite Nat.eqb_refl).
  erewrite srun_cons. 2:{ unfold sstep. cbn [s_pool w_threads]. rewrite N. unfold wstep. cbn [s_pool w_threads w_queue w_table w_fs w_answers]. rewrite N. cbn [bind]. reflexivity. }
  erewrite srun_cons. 2:{ unfold sstep. cbn [s_pool w_threads]. rewrite G. unfold wstep. cbn [s_pool w_threads w_queue w_table w_fs w_answers]. rewrite G, R. cbn [bind]. reflexivity. }
  unfold at_stage. cbn [s_pool s_done s_save s_freed s_next w_threads w_queue w_table w_fs w_answers]. rewrite set_set by exact Hk.
  erewrite srun_cons. 2:{ unfold sstep. cbn [s_pool w_threads]. rewrite G. unfold wstep. cbn [s_pool w_threads w_queue w_table w_fs w_answers]. rewrite G, V, no_rules. cbn [bind]. reflexivity. }
  unfold at_stage. cbn [s_pool s_done s_save s_freed s_next w_threads w_queue w_table w_fs w_answers]. rewrite set_set by exact Hk.
  erewrite srun_cons. 2:{ unfold sstep. cbn [s_pool w_threads]. rewrite G. unfold wstep. cbn [s_pool w_threads w_queue w_table w_fs w_answers]. rewrite G, FI. cbn [bind]. reflexivity. }
  unfold at_stage. cbn [s_pool s_done s_save s_freed s_next w_threads w_queue w_table w_fs w_answers]. rewrite set_set by exact Hk.
  erewrite srun_cons. 2:{ unfold sstep. cbn [s_pool w_threads]. rewrite G. unfold wstep. cbn [s_pool w_threads w_queue w_table w_fs w_answers]. rewrite G, F1. cbn [bind]. rewrite F2. cbn [bind]. reflexivity. }
  unfold at_stage. cbn [s_pool s_done s_save s_freed s_next w_threads w_queue w_table w_fs w_answers]. rewrite set_set by exact Hk. reflexivity.
Qed.
(** Its first call of strtok. *)
Lemma first_call pl dn sv fr nx k q h hl t ts : nth_error (w_threads pl) k = Some (SServe q h) -> nth k dn PBefore = PBefore -> reaches q h hl t ts ->
  exists rest, tokens (L "?") rest ts /\ sstep (mkS pl dn sv fr nx) k = Some (Ok (mkS pl (set_nth dn k (PWithin hl nx [t])) (Some (nx, rest)) fr (S nx))).
Proof.
  intros N P (_ & _ & _ & _ & Rh & T & _). apply tokens_strtok in T as (rest & E & T). exists rest. split; [exact T|]. unfold sstep, progress_of. cbn [s_pool s_done s_save s_freed s_next]. rewrite N, P, Rh. cbn [bind].
  unfold after_token. rewrite E. cbn [s_pool s_done s_save s_freed s_next app]. reflexivity.
Qed.
(** Its further calls on a text that is still there. *)
Lemma next_call pl dn fr nx k q h hl b toks o text t ts : nth_error (w_threads pl) k = Some (SServe q h) -> nth k dn PBefore = PWithin hl b toks -> tokens (L "?") text (t :: ts) -> ~ In o fr -> len toks <= 49 ->
  exists rest, tokens (L "?") rest ts /\ sstep (mkS pl dn (Some (o, text)) fr nx) k = Some (Ok (mkS pl (set_nth dn k (PWithin hl b (toks ++ [t]))) (Some (o, rest)) fr nx)).
Proof.
  intros N P T No Lt. apply tokens_strtok in T as (rest & E & T). exists rest. split; [exact T|]. unfold sstep, progress_of. cbn [s_pool s_done s_save s_freed s_next]. rewrite N, P.
  replace (is_freed o fr) with false. 2:{ symmetry. apply not_true_is_false. intros H. apply existsb_exists in H as (x & Ix & Ex). apply Nat.eqb_eq in Ex. now subst. }
  unfold after_token. rewrite E. change MAX_SPLIT_STR with 50. replace (50 <=? len toks) with false by lia. reflexivity.
Qed.
Lemma last_call pl dn fr nx k q h hl b toks o text : nth_error (w_threads pl) k = Some (SServe q h) -> nth k dn PBefore = PWithin hl b toks -> tokens (L "?") text [] -> ~ In o fr ->
  sstep (mkS pl dn (Some (o, text)) fr nx) k = Some (Ok (mkS pl (set_nth dn k (PSplit hl toks)) (Some (o, [])) (b :: fr) nx)).
Proof.
  intros N P T No. apply tokens_strtok in T. unfold sstep, progress_of. cbn [s_pool s_done s_save s_freed s_next]. rewrite N, P.
  replace (is_freed o fr) with false. 2:{ symmetry. apply not_true_is_false. intros H. apply existsb_exists in H as (x & Ix & Ex). apply Nat.eqb_eq in Ex. now subst. }
  unfold after_token. now rewrite T.
Qed.
Lemma all_calls pl fr nx k q h hl b o : nth_error (w_threads pl) k = Some (SServe q h) -> ~ In o fr -> forall ts toks text dn, (k < length dn)%nat -> nth k dn PBefore = PWithin hl b toks -> tokens (L "?") text ts -> len toks + len ts <= 50 ->
  srun (mkS pl dn (Some (o, text)) fr nx) (repeat k (S (length ts))) = Some (Ok (mkS pl (set_nth dn k (PSplit hl (toks ++ ts))) (Some (o, [])) (b :: fr) nx)).
Proof.
  intros N No. induction ts as [|t ts IH]; intros toks text dn Hk P T Lt.
  - cbn [length repeat]. erewrite srun_cons by (eapply last_call; eauto). now rewrite app_nil_r.
  - rewrite len_cons in Lt. pose proof (len_nonneg _ ts). destruct (next_call pl dn fr nx k q h hl b toks o text t ts N P T No ltac:(lia)) as (rest & T' & E). cbn [length repeat]. rewrite (srun_cons _ _ _ _ E).
    assert (G : nth k (set_nth dn k (PWithin hl b (toks ++ [t]))) PBefore = PWithin hl b (toks ++ [t])) by (rewrite nth_set by exact Hk; now rewrite Nat.eqb_refl).
    assert (Hk' : (k < length (set_nth dn k (PWithin hl b (toks ++ [t]))))%nat) by (rewrite set_nth_length; auto).
    etransitivity. { apply (IH _ _ _ Hk' G T'). rewrite len_app. change (len [t]) with 1. lia. }
    rewrite set_set by exact Hk. now rewrite <- app_assoc.
Qed.
Local Transparent free_index empty_table.
Lemma second_slot c : exists i, free_index (set_nth empty_table 0 c) = Some i.
Proof.
  assert (H : forall l, exists i, free_index (c :: free_slot :: l) = Some i) by (intros l; cbn [free_index]; destruct (c_socket c =? 0); [eauto|]; change (c_socket free_slot =? 0) with true; cbn; eauto).
  exact (H (repeat free_slot 1022)).
Qed.
Lemma first_slot : free_index empty_table = Some 0%nat.
Proof. reflexivity. Qed.
Local Opaque free_index empty_table.
(** Both have made their first call. *)
Lemma both_called f q1 q2 rest n h1 hl1 t1 ts1 h2 hl2 t2 ts2 : (2 <= n)%nat -> reaches q1 h1 hl1 t1 ts1 -> reaches q2 h2 hl2 t2 ts2 ->
  exists sched pl dn text, srun (spool_start f (q1 :: q2 :: rest) n) sched = Some (Ok (mkS pl dn (Some (1%nat, text)) [] 2)) /\ tokens (L "?") text ts2
    /\ nth_error (w_threads pl) 0 = Some (SServe q1 h1) /\ nth_error (w_threads pl) 1 = Some (SServe q2 h2) /\ (1 < length dn)%nat
    /\ nth 0 dn PBefore = PWithin hl1 0 [t1] /\ nth 1 dn PBefore = PWithin hl2 1 [t2].
Proof.
  intros Hn R1 R2. destruct n as [|[|n]]; try lia. unfold spool_start, pool_start.
  destruct (second_slot (mkConn (q_socket q1) (hd_url h1) (r_ip (hd_req h1)))) as (i & FI).
  pose proof (walk (q2 :: rest) (repeat SIdle (S (S n))) empty_table f [] (repeat PBefore (S (S n))) None [] 0%nat 0 q1 h1 hl1 t1 ts1 0 eq_refl R1 first_slot) as W1.
  set (th1 := set_nth (repeat SIdle (S (S n))) 0 (SServe q1 h1)) in *. set (tb1 := set_nth empty_table 0 _) in *.
  pose proof (walk rest th1 tb1 f [] (repeat PBefore (S (S n))) None [] 0%nat 1 q2 h2 hl2 t2 ts2 i eq_refl R2 FI) as W2.
  match type of W2 with _ = Some (Ok (mkS ?pl _ _ _ _)) => set (pl2 := pl) in * end.
  destruct (first_call pl2 (repeat PBefore (S (S n))) None [] 0 0 q1 h1 hl1 t1 ts1 eq_refl eq_refl R1) as (x1 & T1 & C1).
  destruct (first_call pl2 (set_nth (repeat PBefore (S (S n))) 0 (PWithin hl1 0 [t1])) (Some (0%nat, x1)) [] 1 1 q2 h2 hl2 t2 ts2 eq_refl eq_refl R2) as (x2 & T2 & C2).
  exists ([0; 0; 0; 0; 0] ++ [1; 1; 1; 1; 1] ++ [0; 1])%nat. do 3 eexists. split.
  { rewrite (srun_app _ _ _ _ W1), (srun_app _ _ _ _ W2), (srun_cons _ _ _ _ C1), (srun_cons _ _ _ _ C2). reflexivity. }
  split; [exact T2|]. split; [reflexivity|]. split; [reflexivity|]. split; [|split; reflexivity]. unfold set_nth. cbn [repeat firstn skipn app length]. lia.
Qed.
Lemma freed_text f q1 q2 rest n h1 hl1 t1 ts1 h2 hl2 t2 ts2 : (2 <= n)%nat -> reaches q1 h1 hl1 t1 ts1 -> reaches q2 h2 hl2 t2 ts2 ->
  exists sched, srun (spool_start f (q1 :: q2 :: rest) n) sched = Some (UB UseAfterFree).
Proof.
  intros Hn R1 R2. destruct (both_called f q1 q2 rest n h1 hl1 t1 ts1 h2 hl2 t2 ts2 Hn R1 R2) as (sched & pl & dn & text & E & T & N0 & N1 & Ld & P0 & P1).
  destruct R2 as (_ & _ & _ & _ & _ & _ & L2).
  assert (F : ~ In 1%nat []) by (intros H; exact H).
  pose proof (all_calls pl [] 2 1 q2 h2 hl2 1 1 N1 F ts2 [t2] text dn Ld P1 T) as A. change (len [t2]) with 1 in A. specialize (A ltac:(lia)).
  exists (sched ++ repeat 1%nat (S (length ts2)) ++ [0%nat]). rewrite (srun_app _ _ _ _ E), (srun_app _ _ _ _ A). unfold srun. cbn [srun_with]. unfold sstep, progress_of. cbn [s_pool s_done s_save s_freed s_next].
  rewrite N0, nth_set by exact Ld. cbn [Nat.eqb]. rewrite P0. reflexivity.
Qed.
(** The second thread's query goes to the first one. *)
Lemma foreign_query f q1 q2 rest n h1 hl1 t1 ts1 h2 hl2 t2 x2 : (2 <= n)%nat -> reaches q1 h1 hl1 t1 ts1 -> reaches q2 h2 hl2 t2 [x2] ->
  exists sched p, srun (spool_start f (q1 :: q2 :: rest) n) sched = Some (Ok p)
    /\ nth_error (w_threads (s_pool p)) 0 = Some (SServe q1 h1) /\ nth_error (w_threads (s_pool p)) 1 = Some (SServe q2 h2)
    /\ progress_of p 0 = PSplit hl1 [t1; x2] /\ progress_of p 1 = PSplit hl2 [t2].
Proof.
  intros Hn R1 R2. destruct (both_called f q1 q2 rest n h1 hl1 t1 ts1 h2 hl2 t2 [x2] Hn R1 R2) as (sched & pl & dn & text & E & T & N0 & N1 & Ld & P0 & P1).
  assert (F : ~ In 1%nat []) by (intros H; exact H).
  pose proof (all_calls pl [] 2 0 q1 h1 hl1 0 1 N0 F [x2] [t1] text dn ltac:(lia) P0 T) as A. specialize (A ltac:(vm_compute; discriminate)). cbn [app] in A.
  assert (F' : ~ In 1%nat [0%nat]) by (intros [H|H]; [discriminate|exact H]).
  pose proof (last_call pl (set_nth dn 0 (PSplit hl1 [t1; x2])) [0%nat] 2 1 q2 h2 hl2 1 [t2] 1 [] N1) as B. rewrite nth_set in B by lia. cbn [Nat.eqb] in B. specialize (B P1 (tokens_none _ _ (Forall_nil _)) F').
  exists (sched ++ repeat 0%nat (S (length [x2])) ++ [1%nat]). eexists. split; [rewrite (srun_app _ _ _ _ E), (srun_app _ _ _ _ A), (srun_cons _ _ _ _ B); reflexivity|].
  split; [exact N0|]. split; [exact N1|]. unfold progress_of. cbn [s_done]. rewrite !nth_set by (rewrite ?set_nth_length; lia). split; reflexivity.
Qed.

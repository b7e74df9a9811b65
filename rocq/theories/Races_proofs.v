(** Races_proofs.v - lemmas about the unprotected shared state. *)
From Coq Require Import Permutation.
From Verif Require Import StringUtils WsConn Races Lemmas StringUtils_proofs ConfParser_proofs WsConn_proofs SpecConn Spec.

(** ** Lists *)
Lemma set_nth_eq {A} (a : list A) x b w : set_nth (a ++ x :: b) (length a) w = a ++ w :: b.
Proof.
  unfold set_nth. rewrite firstn_app, Nat.sub_diag, firstn_O, app_nil_r, firstn_all. f_equal. f_equal.
  rewrite skipn_app, skipn_all2 by lia. replace (S (length a) - length a)%nat with 1%nat by lia. reflexivity.
Qed.
Lemma nth_mid {A} (a : list A) x b : nth_error (a ++ x :: b) (length a) = Some x.
Proof. rewrite nth_error_app2, Nat.sub_diag by lia. reflexivity. Qed.
Lemma free_index_eq a c b : Forall (fun x => c_socket x <> 0) a -> c_socket c = 0 -> free_index (a ++ c :: b) = Some (length a).
Proof.
  intros F H. induction F as [|x a Hx F IH]; cbn [app free_index length].
  - now rewrite H.
  - rewrite (proj2 (Z.eqb_neq _ _)) by auto. now rewrite IH.
Qed.
Lemma free_index_full t : Forall (fun x => c_socket x <> 0) t -> free_index t = None.
Proof. induction 1 as [|x t Hx _ IH]; [reflexivity|]. cbn [free_index]. rewrite (proj2 (Z.eqb_neq _ _)) by auto. now rewrite IH. Qed.
Lemma crun_app rules s a b : crun rules s (a ++ b) =
  match crun rules s a with Some (Ok s') => crun rules s' b | x => x end.
Proof.
  revert s. induction a as [|k a IH]; intros s; cbn [app crun]; [reflexivity|].
  destruct (cstep rules s k) as [[s'|u]|]; auto.
Qed.

(** ** Admissions one at a time *)
Lemma occupied_all t : len (occupied t) = len t -> Forall (fun x => c_socket x <> 0) t.
Proof.
  induction t as [|c t IH]; [constructor|]. rewrite occupied_cons, len_cons. pose proof (occupied_le t).
  destruct (Z.eqb_spec (c_socket c) 0) as [E|E].
  - lia.
  - rewrite len_cons. intros X. constructor; auto. apply IH. lia.
Qed.
Lemma atomic_add rules t a w b : k_pc w = CStart -> len (k_path w) <= 511 -> len (k_ip w) <= 15 ->
  exists m, crun rules (mkC t (a ++ w :: b)) (repeat (length a) m)
  = Some ('(ok, t') <- connection_add rules t (k_socket w) (k_ip w) (k_path w);;
          Ok (mkC t' (a ++ set_pc w (if ok : bool then CServe else CEnd false) :: b))).
Proof.
  intros Hp L1 L2. unfold connection_add. destruct (connection_validate rules t (k_ip w) (k_path w)) as [[]|u] eqn:V; cbn [bind].
  - pose proof (occupied_le t). destruct (Z.eq_dec (len (occupied t)) (len t)) as [F|F].
    + exists 2%nat. cbn [repeat crun]. unfold cstep at 1. cbn [c_workers c_table]. rewrite nth_mid, Hp, V. cbn [bind].
      rewrite set_nth_eq. unfold cstep. cbn [c_workers c_table]. rewrite nth_mid. cbn [set_pc k_pc].
      rewrite free_index_full by (now apply occupied_all). rewrite claim_full by auto. cbn [bind]. rewrite set_nth_eq. reflexivity.
    + destruct (claim_free t (k_socket w) (k_ip w) (k_path w)) as (x & c & y & E & Hc & Fx & C); auto; [lia|]. rewrite C. cbn [bind].
      exists 3%nat. cbn [repeat crun]. unfold cstep at 1. cbn [c_workers c_table]. rewrite nth_mid, Hp, V. cbn [bind].
      rewrite set_nth_eq. unfold cstep at 1. cbn [c_workers c_table]. rewrite nth_mid. cbn [set_pc k_pc].
      rewrite E, free_index_eq by auto. rewrite set_nth_eq. unfold cstep. cbn [c_workers c_table]. rewrite nth_mid. cbn [set_pc k_pc].
      rewrite !set_nth_eq. reflexivity.
  - exists 1%nat. cbn [repeat crun]. unfold cstep. cbn [c_workers c_table]. rewrite nth_mid, Hp, V. cbn [bind]. rewrite set_nth_eq. reflexivity.
  - exists 1%nat. cbn [repeat crun]. unfold cstep. cbn [c_workers c_table]. rewrite nth_mid, Hp, V. reflexivity.
Qed.

(** ** Everybody validates first *)
Lemma validate_empty rules ip path : Forall (fun r => no_nul (l_path r) /\ 0 <= l_max r /\ 0 <= l_max_ip r) rules -> no_nul path ->
  connection_validate rules empty_table ip path = Ok true.
Proof.
  intros Hr Hp. assert (O : occupied empty_table = []) by (vm_compute; reflexivity). rewrite validate_eq; auto.
  - rewrite O. replace (overb rules [] ip path) with false; [reflexivity|]. induction Hr as [|r rs (_ & H1 & H2) _ IH]; [reflexivity|].
    cbn [overb]. destruct (l_path r); [reflexivity|]. rewrite <- IH. cbn [filter len length]. change (len (@nil conn)) with 0.
    rewrite (proj2 (Z.ltb_ge _ _)), (proj2 (Z.ltb_ge _ _)) by (cbn; lia). now rewrite andb_false_r.
  - eapply Forall_impl; [|exact Hr]. intros r (H & _). exact H.
  - rewrite O. constructor.
Qed.
Lemma all_validate rules t todo : forall done, Forall (fun w => k_pc w = CStart /\ connection_validate rules t (k_ip w) (k_path w) = Ok true) todo ->
  crun rules (mkC t (done ++ todo)) (seq (length done) (length todo)) = Some (Ok (mkC t (done ++ map (fun w => set_pc w CSearch) todo))).
Proof.
  induction todo as [|w todo IH]; intros done F; cbn [length seq crun map]; [reflexivity|]. inv F. destruct H1 as [H1 V].
  unfold cstep at 1. cbn [c_workers c_table]. rewrite nth_mid, H1, V. cbn [bind]. rewrite set_nth_eq.
  specialize (IH (done ++ [set_pc w CSearch])). rewrite app_length in IH. cbn [length] in IH. rewrite Nat.add_1_r in IH.
  rewrite <- app_assoc in IH. cbn [app] in IH. rewrite IH by auto. now rewrite <- app_assoc.
Qed.
Definition entry (w : worker) : conn := mkConn (k_socket w) (k_path w) (k_ip w).
Lemma all_claim rules todo : forall done used rest, Forall (fun x => c_socket x <> 0) used -> Forall (fun w => k_pc w = CSearch /\ k_socket w <> 0) todo ->
  crun rules (mkC (used ++ repeat free_slot (length todo) ++ rest) (done ++ todo)) (flat_map (fun k => [k; k]) (seq (length done) (length todo)))
  = Some (Ok (mkC (used ++ map entry todo ++ rest) (done ++ map (fun w => set_pc w CServe) todo))).
Proof.
  induction todo as [|w todo IH]; intros done used rest Fu F; cbn [length seq flat_map repeat map]; [reflexivity|]. inv F. destruct H1 as [H1 H3].
  cbn [app crun]. unfold cstep at 1. cbn [c_workers c_table]. rewrite nth_mid, H1. cbn [bind]. rewrite set_nth_eq.
  rewrite free_index_eq by auto. unfold cstep at 1. cbn [c_workers c_table]. rewrite nth_mid. cbn [set_pc k_pc k_socket k_path k_ip].
  rewrite !set_nth_eq. specialize (IH (done ++ [mkWorker (k_socket w) (k_ip w) (k_path w) CServe]) (used ++ [entry w]) rest).
  rewrite app_length in IH. cbn [length] in IH. rewrite Nat.add_1_r in IH. rewrite <- !app_assoc in IH. cbn [app] in IH.
  unfold set_pc. cbn [k_socket k_ip k_path]. change (mkConn (k_socket w) (k_path w) (k_ip w)) with (entry w). rewrite IH; auto.
  apply Forall_app. split; auto.
Qed.
Lemma repeat_split {A} (x : A) n m : (n <= m)%nat -> repeat x m = repeat x n ++ repeat x (m - n).
Proof. intros H. rewrite <- repeat_app. f_equal. lia. Qed.
Lemma all_admitted rules ws : Forall (fun r => no_nul (l_path r) /\ 0 <= l_max r /\ 0 <= l_max_ip r) rules ->
  Forall (fun w => k_pc w = CStart /\ k_socket w <> 0 /\ no_nul (k_path w)) ws -> (length ws <= 1024)%nat ->
  crun rules (mkC empty_table ws) (seq 0 (length ws) ++ flat_map (fun k => [k; k]) (seq 0 (length ws)))
  = Some (Ok (mkC (map entry ws ++ repeat free_slot (1024 - length ws)) (map (fun w => set_pc w CServe) ws))).
Proof.
  intros Hr Hw Hl. rewrite crun_app. pose proof (all_validate rules empty_table ws []) as V. cbn [app length] in V. rewrite V; clear V.
  2:{ eapply Forall_impl; [|exact Hw]. intros w (H1 & H2 & H3). split; auto. now apply validate_empty. }
  cbn [app]. unfold empty_table. change (Z.to_nat WS_MAX_CONNECTIONS) with 1024%nat. rewrite (repeat_split free_slot (length ws)) by auto.
  pose proof (all_claim rules (map (fun w => set_pc w CSearch) ws) [] [] (repeat free_slot (1024 - length ws))) as C.
  rewrite map_length in C. cbn [app length] in C. rewrite C.
  - rewrite !map_map. reflexivity.
  - constructor.
  - apply Forall_forall. intros w Hin. apply in_map_iff in Hin as (w0 & <- & Hin). rewrite Forall_forall in Hw. destruct (Hw _ Hin) as (_ & H & _). auto.
Qed.
Lemma occupied_entries ws m : Forall (fun w => k_socket w <> 0) ws -> occupied (map entry ws ++ repeat free_slot m) = map entry ws.
Proof.
  intros F. unfold occupied. rewrite filter_app. replace (filter (fun c => negb (c_socket c =? 0)) (repeat free_slot m)) with (@nil conn).
  - rewrite app_nil_r. induction F as [|w ws Hw _ IH]; [reflexivity|]. cbn [map filter entry c_socket]. rewrite (proj2 (Z.eqb_neq _ _)) by auto. cbn [negb]. now rewrite IH.
  - induction m as [|m IH]; [reflexivity|]. cbn [repeat filter]. exact IH.
Qed.

(** ** Two workers, one slot *)
Lemma lost_slot rules used rest w0 w1 : Forall (fun x => c_socket x <> 0) used ->
  k_pc w0 = CSearch -> k_pc w1 = CSearch ->
  crun rules (mkC (used ++ free_slot :: rest) [w0; w1]) [0; 1; 0; 1]%nat
  = Some (Ok (mkC (used ++ entry w1 :: rest) [set_pc w0 CServe; set_pc w1 CServe])).
Proof.
  intros Fu H0 H1. cbn [crun]. unfold cstep at 1. cbn [c_workers c_table nth_error]. rewrite H0, free_index_eq by auto.
  unfold cstep at 1. cbn [c_workers c_table nth_error set_nth firstn skipn app]. rewrite H1, free_index_eq by auto.
  unfold cstep at 1. cbn [c_workers c_table nth_error set_nth firstn skipn app set_pc k_pc]. rewrite set_nth_eq.
  unfold cstep. cbn [c_workers c_table nth_error set_nth firstn skipn app set_pc k_pc]. rewrite set_nth_eq. reflexivity.
Qed.

(** ** Under every schedule *)
(** The table's entries are those of distinct workers being served. *)
Definition cinv (s : cstate) : Prop :=
  NoDup (map k_socket (c_workers s)) /\ Forall (fun w => k_socket w <> 0) (c_workers s)
  /\ NoDup (map c_socket (occupied (c_table s)))
  /\ forall c, In c (occupied (c_table s)) -> exists w, In w (c_workers s) /\ k_pc w = CServe /\ c = entry w.
Lemma del_split t s : ~ In s (map c_socket t) \/ exists a c b, t = a ++ c :: b /\ c_socket c = s /\ ~ In s (map c_socket a).
Proof.
  induction t as [|x t [IH|(a & c & b & -> & Hc & Ha)]].
  - left. easy.
  - destruct (Z.eq_dec (c_socket x) s) as [E|E].
    + right. exists [], x, t. auto.
    + left. intros [X|X]; auto.
  - right. destruct (Z.eq_dec (c_socket x) s) as [E|E].
    + exists [], x, (a ++ c :: b). auto.
    + exists (x :: a), c, b. split; [reflexivity|]. split; auto. intros [X|X]; auto.
Qed.
Lemma owner_elsewhere a w b w' : NoDup (map k_socket (a ++ w :: b)) -> In w' (a ++ w :: b) -> k_socket w' <> k_socket w -> In w' (a ++ b).
Proof.
  intros _ H N. apply in_app_or in H as [H|[->|H]]; [apply in_or_app; auto|congruence|apply in_or_app; auto].
Qed.
Lemma same_sockets a w p b : map k_socket (a ++ set_pc w p :: b) = map k_socket (a ++ w :: b).
Proof. rewrite !map_app. reflexivity. Qed.
Lemma socket_unique a w b w' : NoDup (map k_socket (a ++ w :: b)) -> In w' (a ++ b) -> k_socket w' <> k_socket w.
Proof.
  intros N H E. rewrite map_app in N. cbn [map] in N. apply NoDup_remove_2 in N. apply N. rewrite <- map_app, <- E. now apply in_map.
Qed.
Lemma mid_in {A} (a : list A) x b y : In y (a ++ b) -> In y (a ++ x :: b).
Proof. intros H. apply in_app_or in H as [H|H]; apply in_or_app; auto. right. now right. Qed.
Lemma cinv_step rules s k s' : cinv s -> cstep rules s k = Some (Ok s') -> cinv s'.
Proof.
  intros (ND & NZ & NT & Ow) E. unfold cstep in E. destruct (nth_error (c_workers s) k) as [w|] eqn:N; [|discriminate].
  apply nth_error_split in N as (a & b & EW & <-). rewrite EW in *.
  assert (NZ' : forall p, Forall (fun w => k_socket w <> 0) (a ++ set_pc w p :: b)).
  { intros p. apply Forall_app in NZ as [Z1 Z2]. inv Z2. apply Forall_app. split; auto. }
  assert (Zw : k_socket w <> 0) by (apply Forall_app in NZ as [_ Z2]; now inv Z2).
  (* the table unchanged, the worker not served before *)
  assert (G : forall p, k_pc w <> CServe -> cinv (mkC (c_table s) (a ++ set_pc w p :: b))).
  { intros p Hp. split; [|split; [|split]]; cbn; auto; [now rewrite same_sockets|].
    intros c Hc. destruct (Ow c Hc) as (w' & I & P & Ec). exists w'. split; auto. apply mid_in.
    apply in_app_or in I as [I|[<-|I]]; [apply in_or_app; auto|congruence|apply in_or_app; auto]. }
  rewrite !set_nth_eq in E. destruct (k_pc w) eqn:P.
  - destruct (connection_validate rules (c_table s) (k_ip w) (k_path w)) as [v|]; cbn [bind] in E; [|discriminate]. inv E. rewrite set_nth_eq. apply G. discriminate.
  - inv E. apply G. discriminate.
  - inv E. clear G. set (t1 := firstn i (c_table s)). set (t2 := skipn (S i) (c_table s)).
    assert (Sub : NoDup (map c_socket (occupied (t1 ++ t2))) /\ forall c, In c (occupied (t1 ++ t2)) -> In c (occupied (c_table s))).
    { destruct (nth_error (c_table s) i) as [x|] eqn:Ni.
      - apply nth_error_split in Ni as (u & v & Eu & Lu). unfold t1, t2. rewrite Eu in *. subst i.
        rewrite firstn_app, Nat.sub_diag, firstn_O, app_nil_r, firstn_all, skipn_app, skipn_all2 by lia.
        replace (S (length u) - length u)%nat with 1%nat by lia. cbn [skipn app].
        unfold occupied in *. rewrite !filter_app in *. cbn [filter] in NT |- *. destruct (negb (c_socket x =? 0)).
        + split; [|intros c; apply mid_in]. rewrite map_app in NT |- *. cbn [map] in NT. now apply NoDup_remove_1 in NT.
        + split; auto.
      - apply nth_error_None in Ni. unfold t1, t2. rewrite firstn_all2, skipn_all2, app_nil_r by lia. auto. }
    destruct Sub as [S1 S2]. unfold occupied in S1, S2. rewrite filter_app in S1, S2. 
    assert (Oc : occupied (t1 ++ entry w :: t2) = occupied t1 ++ entry w :: occupied t2).
    { unfold occupied. rewrite filter_app. cbn [filter entry c_socket]. now rewrite (proj2 (Z.eqb_neq _ _)) by auto. }
    fold (occupied t1) in S1, S2. fold (occupied t2) in S1, S2.
    change (set_nth (c_table s) i (mkConn (k_socket w) (k_path w) (k_ip w))) with (t1 ++ entry w :: t2).
    assert (Fresh : forall c, In c (occupied t1 ++ occupied t2) -> exists w', In w' (a ++ b) /\ k_pc w' = CServe /\ c = entry w').
    { intros c Hc. apply S2 in Hc. destruct (Ow c Hc) as (w' & I & P' & Ec). exists w'. split; auto.
      apply in_app_or in I as [I|[<-|I]]; [apply in_or_app; auto|congruence|apply in_or_app; auto]. }
    split; [|split; [|split]]; cbn [c_workers c_table]; auto; [now rewrite same_sockets| |].
    + rewrite Oc, map_app. cbn [map]. apply NoDup_Add with (a := k_socket w) (l := map c_socket (occupied t1) ++ map c_socket (occupied t2)); [apply Add_app|].
      rewrite <- map_app. split; auto. intros X. apply in_map_iff in X as (c & Ec & Hc). destruct (Fresh c Hc) as (w' & I & _ & ->).
      cbn in Ec. now apply (socket_unique _ _ _ _ ND I).
    + intros c Hc. rewrite Oc in Hc. apply in_app_or in Hc as [Hc|[<-|Hc]].
      * destruct (Fresh c) as (w' & I & P' & Ec); [apply in_or_app; auto|]. exists w'. split; [now apply mid_in|auto].
      * exists (set_pc w CServe). split; [apply in_or_app; right; now left|auto].
      * destruct (Fresh c) as (w' & I & P' & Ec); [apply in_or_app; auto|]. exists w'. split; [now apply mid_in|auto].
  - inv E. clear G.
    assert (Sub : NoDup (map c_socket (occupied (connection_del (c_table s) (k_socket w))))
       /\ forall c, In c (occupied (connection_del (c_table s) (k_socket w))) -> In c (occupied (c_table s)) /\ c_socket c <> k_socket w).
    { destruct (del_split (c_table s) (k_socket w)) as [A|(u & x & v & Eu & Hx & Hu)].
      - rewrite del_absent by auto. split; auto. intros c Hc. split; auto. intros X. apply A. rewrite <- X. apply in_map.
        unfold occupied in Hc. now apply filter_In in Hc.
      - rewrite Eu in *. rewrite del_present by auto. unfold occupied in *. rewrite !filter_app in *. cbn [filter] in *.
        change (c_socket free_slot =? 0) with true. cbn [negb]. rewrite Hx in *. rewrite (proj2 (Z.eqb_neq _ _)) in * by auto. cbn [negb] in *.
        rewrite map_app in NT |- *. cbn [map] in NT. split; [now apply NoDup_remove_1 in NT|]. intros c Hc. split; [now apply mid_in|].
        apply NoDup_remove_2 in NT. intros X. apply NT. rewrite Hx, <- X, <- map_app. now apply in_map. }
    destruct Sub as [S1 S2]. split; [|split; [|split]]; cbn [c_workers c_table]; auto; [now rewrite same_sockets|].
    intros c Hc. apply S2 in Hc as [Hc Hn]. destruct (Ow c Hc) as (w' & I & P' & Ec). exists w'. split; auto. apply mid_in.
    apply (owner_elsewhere a w b); auto. subst c. exact Hn.
  - discriminate.
Qed.
Lemma cinv_run rules sched : forall s s', cinv s -> crun rules s sched = Some (Ok s') -> cinv s'.
Proof.
  induction sched as [|k sched IH]; intros s s' I R; cbn [crun] in R; [now inv R|].
  destruct (cstep rules s k) as [[s1|]|] eqn:E; try discriminate. eapply IH; [|exact R]. eapply cinv_step; eauto.
Qed.
Lemma cinv_start ws : NoDup (map k_socket ws) -> Forall (fun w => k_socket w <> 0) ws -> cinv (mkC empty_table ws).
Proof.
  intros H1 H2. assert (O : occupied empty_table = []) by (vm_compute; reflexivity).
  split; [|split; [|split]]; cbn [c_workers c_table]; auto; rewrite O; [constructor|easy].
Qed.

(** ** strtok's shared position *)
Lemma tstep_eq delim save a w b : tstep delim (mkT save (a ++ w :: b)) (length a)
  = match t_pc w with
    | TDone => None
    | _ => match strtok delim (match t_pc w with TFirst => t_str w | _ => save end) with
           | None => Some (mkT [] (a ++ mkSplitter (t_str w) TDone (t_tokens w) :: b))
           | Some (tok, rest) => Some (mkT rest (a ++ mkSplitter (t_str w) TNext (t_tokens w ++ [tok]) :: b))
           end
    end.
Proof.
  unfold tstep. cbn [t_threads t_save]. rewrite nth_mid. destruct (t_pc w); auto; destruct (strtok delim _) as [[tok rest]|]; now rewrite set_nth_eq.
Qed.
Lemma tstep_inv delim s k s' : tstep delim s k = Some s' -> exists a w b, t_threads s = a ++ w :: b /\ k = length a
  /\ tstep delim (mkT (t_save s) (a ++ w :: b)) (length a) = Some s'.
Proof.
  intros E. destruct (nth_error (t_threads s) k) as [w|] eqn:N.
  - assert (N' := N). apply nth_error_split in N' as (a & b & Ea & <-). exists a, w, b. split; auto. split; auto. rewrite <- Ea. destruct s. exact E.
  - unfold tstep in E. rewrite N in E. discriminate.
Qed.
(** Alone, a thread finds its own tokens. *)
Lemma split_alone delim ts : forall u save got a b w, t_pc w = TNext -> t_tokens w = got -> t_str w = u -> tokens delim save ts ->
  trun delim (mkT save (a ++ w :: b)) (repeat (length a) (S (length ts)))
  = Some (mkT [] (a ++ mkSplitter u TDone (got ++ ts) :: b)).
Proof.
  induction ts as [|t ts IH]; intros u save got a b w P G U T; apply tokens_strtok in T; cbn [length repeat trun].
  - rewrite tstep_eq, P, T. now rewrite app_nil_r, G, U.
  - destruct T as (r & E & T). rewrite tstep_eq, P, E.
    specialize (IH u r (got ++ [t]) a b (mkSplitter (t_str w) TNext (t_tokens w ++ [t]))). cbn [length repeat trun] in IH.
    rewrite IH; auto; [now rewrite <- app_assoc|cbn; now rewrite G].
Qed.
Lemma split_alone_first delim ts u save a b w : t_pc w = TFirst -> t_tokens w = [] -> t_str w = u -> tokens delim u ts ->
  trun delim (mkT save (a ++ w :: b)) (repeat (length a) (S (length ts)))
  = Some (mkT [] (a ++ mkSplitter u TDone ts :: b)).
Proof.
  intros P G U T. apply tokens_strtok in T. destruct ts as [|t ts]; cbn [length repeat trun]; rewrite tstep_eq, P, U.
  - rewrite T, G. reflexivity.
  - destruct T as (r & E & T). rewrite E, G. exact (split_alone delim ts u r [t] a b (mkSplitter u TNext ([] ++ [t])) eq_refl eq_refl eq_refl T).
Qed.
(** Under every schedule: the first token is the thread's own, the others come from some string. *)
Definition tinv (delim : str) (urls : list str) (s : tstate) : Prop :=
  map t_str (t_threads s) = urls
  /\ (forall ts, tokens delim (t_save s) ts -> forall t, In t ts -> exists u us, In u urls /\ tokens delim u us /\ In t us)
  /\ Forall (fun w => (t_pc w = TNext -> t_tokens w <> [])
       /\ (forall t r, t_tokens w = t :: r -> exists r', strtok delim (t_str w) = Some (t, r'))
       /\ forall t, In t (t_tokens w) -> exists u us, In u urls /\ tokens delim u us /\ In t us) (t_threads s).
Lemma tokens_of_strtok delim s t r ts : strtok delim s = Some (t, r) -> tokens delim r ts -> tokens delim s (t :: ts).
Proof.
  intros E T. destruct (tokens_exist delim s) as (ts' & T'). assert (T2 := T'). apply tokens_strtok in T'. destruct ts' as [|t' ts'].
  - rewrite T' in E. discriminate.
  - destruct T' as (r' & E' & T'). rewrite E in E'. inv E'. now rewrite (tokens_unique _ _ _ _ T T').
Qed.
Lemma tinv_step delim urls s k s' : tinv delim urls s -> tstep delim s k = Some s' -> tinv delim urls s'.
Proof.
  intros (U & S & F) E. apply tstep_inv in E as (a & w & b & Ea & -> & E). rewrite tstep_eq in E. rewrite Ea in *.
  apply Forall_app in F as [Fa Fb]. inv Fb. destruct H1 as (W1 & W2 & W3).
  assert (Iw : In (t_str w) (map t_str (a ++ w :: b))) by (apply in_map, in_or_app; right; now left).
  set (input := match t_pc w with TFirst => t_str w | _ => t_save s end) in *.
  assert (In' : t_pc w <> TDone -> forall ts, tokens delim input ts -> forall t, In t ts -> exists u us, In u (map t_str (a ++ w :: b)) /\ tokens delim u us /\ In t us).
  { intros N ts T t I. unfold input in T. destruct (t_pc w); [|eauto|congruence]. exists (t_str w), ts. auto. }
  assert (Same : forall p g, map t_str (a ++ mkSplitter (t_str w) p g :: b) = map t_str (a ++ w :: b)) by (intros; rewrite !map_app; reflexivity).
  assert (D : t_pc w <> TDone) by (intros X; rewrite X in E; discriminate).
  replace (match t_pc w with TDone => None | _ => match strtok delim input with
           | None => Some (mkT [] (a ++ mkSplitter (t_str w) TDone (t_tokens w) :: b))
           | Some (tok, rest) => Some (mkT rest (a ++ mkSplitter (t_str w) TNext (t_tokens w ++ [tok]) :: b)) end end)
    with (match strtok delim input with
           | None => Some (mkT [] (a ++ mkSplitter (t_str w) TDone (t_tokens w) :: b))
           | Some (tok, rest) => Some (mkT rest (a ++ mkSplitter (t_str w) TNext (t_tokens w ++ [tok]) :: b)) end) in E
    by (destruct (t_pc w); congruence).
  destruct (strtok delim input) as [[tok rest]|] eqn:K; inv E.
  - split; [cbn; apply Same|]. split.
    + intros ts T t I. cbn in T. apply (In' D (tok :: ts)); [eapply tokens_of_strtok; eauto|now right].
    + cbn. apply Forall_app. split; auto. constructor; auto. cbn. split; [intros _ X; now apply app_eq_nil in X as [_ X]|]. split.
      * intros t r Et. destruct (t_tokens w) as [|t0 r0] eqn:Tw.
        -- cbn in Et. inv Et. destruct (t_pc w) eqn:P; [unfold input in K; eauto| |congruence].
           now destruct W1.
        -- cbn in Et. inv Et. eapply W2. eauto.
      * intros t I. apply in_app_or in I as [I|[<-|[]]]; auto. destruct (tokens_exist delim rest) as (ts & T).
        apply (In' D (tok :: ts)); [eapply tokens_of_strtok; eauto|now left].
  - split; [cbn; apply Same|]. split.
    + intros ts T t I. cbn in T. apply tokens_strtok in T. destruct ts; [easy|]. destruct T as (r & X & _). discriminate.
    + cbn. apply Forall_app. split; auto. constructor; auto. cbn. split; [discriminate|]. split; auto.
Qed.
Lemma tinv_run delim urls sched : forall s s', tinv delim urls s -> trun delim s sched = Some s' -> tinv delim urls s'.
Proof.
  induction sched as [|k sched IH]; intros s s' I R; cbn [trun] in R; [now inv R|].
  destruct (tstep delim s k) as [s1|] eqn:E; try discriminate. eapply IH; [|exact R]. eapply tinv_step; eauto.
Qed.
Lemma tinv_init delim urls : tinv delim urls (tinit urls).
Proof.
  split; [|split].
  - cbn. rewrite map_map. cbn. apply map_id.
  - cbn. intros ts T t I. apply tokens_strtok in T. destruct ts; [easy|]. destruct T as (r & X & _). discriminate.
  - cbn. apply Forall_forall. intros w I. apply in_map_iff in I as (u & <- & _). cbn. split; [discriminate|]. split; [discriminate|easy].
Qed.

(** ConfHeap_proofs.v - lemmas about heap blocks of the configuration code. *)
From Coq Require Import Permutation.
From Verif Require Import ConfHeap Lemmas StringUtils_proofs ConfParser_proofs SpecConf SpecHeap Spec.

(** ** The heap *)
Lemma find_in l n s : NoDup (map fst l) -> In (n, s) l -> find_block l n = Some s.
Proof.
  induction l as [|[m x] l IH]; intros N I; [destruct I|]. cbn [map fst] in N. inversion N as [|? ? Nm Nl]; subst. cbn [find_block].
  destruct I as [E|I].
  - injection E as -> ->. now rewrite Nat.eqb_refl.
  - destruct (Nat.eqb_spec m n) as [->|]; [|now apply IH]. exfalso. apply Nm. apply in_map_iff. now exists (n, s).
Qed.
Lemma drop_perm l n s r : NoDup (map fst l) -> Permutation l ((n, s) :: r) -> Permutation (drop_block l n) r.
Proof.
  revert r. induction l as [|[m x] l IH]; intros r N P; [apply Permutation_nil in P; discriminate|].
  cbn [map fst] in N. inversion N as [|? ? Nm Nl]; subst. cbn [drop_block]. destruct (Nat.eqb_spec m n) as [->|Hne].
  - assert (E : x = s).
    { assert (I : In (n, s) ((n, x) :: l)) by (eapply Permutation_in; [apply Permutation_sym; exact P|now left]). destruct I as [E|I]; [now injection E|].
      exfalso. apply Nm. apply in_map_iff. now exists (n, s). }
    subst x. eapply Permutation_cons_inv; exact P.
  - assert (I : In (m, x) ((n, s) :: r)) by (eapply Permutation_in; [exact P|now left]).
    destruct I as [E|I]; [injection E; congruence|]. apply in_split in I as (r1 & r2 & ->).
    apply Permutation_cons_app. apply IH; [exact Nl|].
    apply (Permutation_cons_app_inv ((n, s) :: r1) r2 (a := (m, x))). exact P.
Qed.
Lemma set_perm l n s s' r : NoDup (map fst l) -> Permutation l ((n, s) :: r) -> Permutation (set_block l n s') ((n, s') :: r).
Proof.
  revert r. induction l as [|[m x] l IH]; intros r N P; [apply Permutation_nil in P; discriminate|].
  cbn [map fst] in N. inversion N as [|? ? Nm Nl]; subst. cbn [set_block]. destruct (Nat.eqb_spec m n) as [->|Hne].
  - assert (E : x = s).
    { assert (I : In (n, s) ((n, x) :: l)) by (eapply Permutation_in; [apply Permutation_sym; exact P|now left]). destruct I as [E|I]; [now injection E|].
      exfalso. apply Nm. apply in_map_iff. now exists (n, s). }
    subst x. apply perm_skip. eapply Permutation_cons_inv; exact P.
  - assert (I : In (m, x) ((n, s) :: r)) by (eapply Permutation_in; [exact P|now left]).
    destruct I as [E|I]; [injection E; congruence|]. apply in_split in I as (r1 & r2 & ->).
    change ((n, s') :: r1 ++ (m, x) :: r2) with (((n, s') :: r1) ++ (m, x) :: r2).
    apply Permutation_cons_app. apply IH; [exact Nl|].
    apply (Permutation_cons_app_inv ((n, s) :: r1) r2 (a := (m, x))). exact P.
Qed.
Lemma are_nodup h l : blocks_are h l -> NoDup (map fst (h_live h)).
Proof. intros (P & N & _). eapply Permutation_NoDup; [apply Permutation_sym, Permutation_map; exact P|exact N]. Qed.
Lemma are_perm h l l' : blocks_are h l -> Permutation l l' -> blocks_are h l'.
Proof.
  intros (P & N & F) Q. split; [now transitivity l|]. split; [eapply Permutation_NoDup; [apply Permutation_map; exact Q|exact N]|eapply Permutation_Forall; eauto].
Qed.
Lemma are_read h l n s : blocks_are h l -> In (n, s) l -> hread h (PBlock n) = Ok s.
Proof.
  intros A I. cbn [hread]. rewrite (find_in _ n s); [reflexivity|eapply are_nodup; eauto|]. destruct A as (P & _). eapply Permutation_in; [apply Permutation_sym; exact P|exact I].
Qed.
Lemma are_alloc h l s : blocks_are h l -> exists h1, halloc h s = (h1, PBlock (h_next h)) /\ blocks_are h1 ((h_next h, s) :: l).
Proof.
  intros (P & N & F). eexists. split; [reflexivity|]. split; [cbn; now apply perm_skip|]. split.
  - cbn [map fst]. constructor; [|exact N]. intros I. apply in_map_iff in I as (x & E & I). rewrite Forall_forall in F. apply F in I. lia.
  - cbn [h_next]. constructor; [cbn; lia|]. eapply Forall_impl; [|exact F]. cbn. lia.
Qed.
Lemma are_free h l n s : blocks_are h ((n, s) :: l) -> exists h1, hfree h (PBlock n) = Ok h1 /\ blocks_are h1 l.
Proof.
  intros A. pose proof (are_nodup _ _ A) as ND. destruct A as (P & N & F). cbn [hfree]. rewrite (find_in _ n s); [|exact ND|eapply Permutation_in; [apply Permutation_sym; exact P|now left]].
  eexists. split; [reflexivity|]. split; [cbn [h_live]; eapply drop_perm; eauto|]. cbn [map fst] in N. inversion N; inversion F; subst. split; assumption.
Qed.
Lemma are_write h l n s s' : blocks_are h ((n, s) :: l) -> exists h1, hwrite h (PBlock n) s' = Ok h1 /\ blocks_are h1 ((n, s') :: l).
Proof.
  intros A. pose proof (are_nodup _ _ A) as ND. destruct A as (P & N & F). cbn [hwrite]. rewrite (find_in _ n s); [|exact ND|eapply Permutation_in; [apply Permutation_sym; exact P|now left]].
  eexists. split; [reflexivity|]. split; [cbn [h_live]; eapply set_perm; eauto|]. split; [exact N|]. inversion F; subst. constructor; assumption.
Qed.
Lemma are_trim h l n s t : blocks_are h ((n, s) :: l) -> trim_str s = Ok t -> exists h1, htrim h (PBlock n) = Ok h1 /\ blocks_are h1 ((n, t) :: l).
Proof.
  intros A T. unfold htrim. rewrite (are_read h _ n s A) by now left. cbn [bind]. rewrite T. cbn [bind]. eapply are_write; eauto.
Qed.
Lemma are_free_all h m l : blocks_are h (m ++ l) -> exists h1, hfree_all h (map (fun x => PBlock (fst x)) m) = Ok h1 /\ blocks_are h1 l.
Proof.
  revert h. induction m as [|[n s] m IH]; intros h A; [exists h; auto|]. cbn [map hfree_all app fst] in *.
  destruct (are_free _ _ _ _ A) as (h1 & E & A1). rewrite E. cbn [bind]. now apply IH.
Qed.
Lemma are_read_all h m l : blocks_are h l -> (forall x, In x m -> In x l) -> hread_all h (map (fun x => PBlock (fst x)) m) = Ok (map snd m).
Proof.
  intros A. induction m as [|[n s] m IH]; intros I; [reflexivity|]. cbn [map hread_all fst snd]. rewrite (are_read h l n s A) by (apply I; now left). cbn [bind].
  rewrite IH; [reflexivity|]. intros x Hx. apply I. now right.
Qed.
Lemma are_dup_all h l ss : blocks_are h l -> exists h1 m, hdup_all h ss = (h1, map (fun x => PBlock (fst x)) m) /\ map snd m = ss /\ blocks_are h1 (m ++ l).
Proof.
  revert h l. induction ss as [|s ss IH]; intros h l A; [exists h, []; auto|]. cbn [hdup_all].
  destruct (are_alloc h l s A) as (h1 & E & A1). rewrite E. destruct (IH _ _ A1) as (h2 & m & E2 & M & A2). rewrite E2.
  exists h2, ((h_next h, s) :: m). split; [reflexivity|]. split; [cbn; now rewrite M|]. eapply are_perm; [exact A2|]. cbn [app]. apply Permutation_sym, Permutation_middle.
Qed.

(** Blocks once freed stay freed. *)
Definition dead (h : heap) (n : nat) : Prop := (n < h_next h)%nat /\ find_block (h_live h) n = None.
Lemma not_listed_dead h l n : blocks_are h l -> (n < h_next h)%nat -> ~ In n (map fst l) -> dead h n.
Proof.
  intros (P & _) L I. split; [exact L|]. assert (J : ~ In n (map fst (h_live h))). { intros J. apply I. eapply Permutation_in; [apply Permutation_map; exact P|exact J]. }
  clear -J. induction (h_live h) as [|[m x] t IH]; [reflexivity|]. cbn [find_block]. destruct (Nat.eqb_spec m n) as [->|]; [exfalso; apply J; now left|]. apply IH. intros K. apply J. now right.
Qed.
Lemma next_free h p h1 : hfree h p = Ok h1 -> h_next h1 = h_next h.
Proof. destruct p; cbn [hfree]; intros E; try discriminate; [now inv E|]. destruct (find_block _ n); now inv E. Qed.

(** ** Items *)
Lemma owns_read h it c own fr : owns it c own -> blocks_are h (own ++ fr) -> item_of h it = Ok c.
Proof.
  intros (a & b & vo & mo & Hs & Hk & Hv & Hm & Hc & ->) A. unfold item_of. rewrite Hk, Hm.
  rewrite (are_read h _ b (key c) A) by (right; now left). cbn [bind].
  assert (V : hread h (i_value it) = Ok (value c)).
  { destruct Hv as [(E1 & E2 & _)|(n & E1 & ->)]; [rewrite E1, E2; reflexivity|]. rewrite E1. eapply are_read; [exact A|]. cbn. auto. }
  rewrite V. cbn [bind]. rewrite (are_read_all h mo _ A).
  - cbn [bind]. rewrite <- Hc. now destruct c.
  - intros x I. cbn. right. right. rewrite !in_app_iff. auto.
Qed.
Lemma owns_free_full h it c own fr : owns it c own -> blocks_are h (own ++ fr) ->
  exists h1 res n, free_conf_item h it = Ok h1 /\ blocks_are h1 (res ++ fr) /\ Forall (fun b => snd b = []) res /\ length res = n /\ empties it c n
    /\ forall a, i_self it = PBlock a -> dead h1 a.
Proof.
  intros (a & b & vo & mo & Hs & Hk & Hv & Hm & Hc & ->) A. unfold free_conf_item.
  rewrite Hs, (are_read h _ a [] A) by now left. cbn [bind].
  (* the key *)
  assert (K : exists h1 kr x, free_unless_empty h (i_key it) = Ok h1 /\ blocks_are h1 (vo ++ mo ++ (a, []) :: kr ++ fr) /\ Forall (fun b => snd b = []) kr /\ length kr = x
    /\ (key c = [] /\ x = 1 \/ key c <> [] /\ x = 0)%nat).
  { rewrite Hk. cbn [free_unless_empty]. rewrite (are_read h _ b (key c) A) by (right; now left). cbn [bind]. destruct (key c) as [|k0 k1] eqn:Ek.
    - exists h, [(b, [])], 1%nat. split; [reflexivity|]. split; [|auto]. eapply are_perm; [exact A|]. cbn [app]. rewrite <- app_assoc.
      rewrite app_assoc. rewrite (app_assoc vo mo). etransitivity; [|apply Permutation_middle]. apply perm_skip. apply Permutation_middle.
    - destruct (are_free h (vo ++ mo ++ (a, []) :: fr) b (k0 :: k1)) as (h1 & E & A1).
      { eapply are_perm; [exact A|]. cbn [app]. rewrite <- app_assoc. etransitivity; [apply perm_swap|]. apply perm_skip. rewrite app_assoc. rewrite (app_assoc vo mo). apply Permutation_middle. }
      exists h1, [], 0%nat. split; [exact E|]. split; [exact A1|]. split; [constructor|]. split; [reflexivity|]. right. split; [discriminate|reflexivity]. }
  destruct K as (h1 & kr & x & E1 & A1 & F1 & L1 & X). rewrite E1. cbn [bind].
  (* the value *)
  assert (V : exists h2 vr y, free_unless_empty h1 (i_value it) = Ok h2 /\ blocks_are h2 (mo ++ (a, []) :: vr ++ kr ++ fr) /\ Forall (fun b => snd b = []) vr /\ length vr = y
    /\ ((value c = [] /\ exists m, i_value it = PBlock m) /\ y = 1 \/ (value c <> [] \/ i_value it = PLit []) /\ y = 0)%nat).
  { destruct Hv as [(Ev & Vn & ->)|(n & Ev & ->)].
    - rewrite Ev. exists h1, [], 0%nat. split; [reflexivity|]. split; [exact A1|]. split; [constructor|]. split; [reflexivity|]. right. auto.
    - rewrite Ev. cbn [free_unless_empty]. rewrite (are_read h1 _ n (value c) A1) by now left. cbn [bind]. destruct (value c) as [|v0 v1] eqn:Eval.
      + exists h1, [(n, [])], 1%nat. split; [reflexivity|]. split; [|split; [auto|split; [reflexivity|left; eauto]]].
        eapply are_perm; [exact A1|]. cbn [app]. etransitivity; [apply Permutation_middle|]. apply Permutation_app_head. apply perm_swap.
      + destruct (are_free h1 (mo ++ (a, []) :: kr ++ fr) n (v0 :: v1) A1) as (h2 & E2 & A2).
        exists h2, [], 0%nat. split; [exact E2|]. split; [exact A2|]. split; [constructor|]. split; [reflexivity|]. right. split; [left; discriminate|reflexivity]. }
  destruct V as (h2 & vr & y & E2 & A2 & F2 & L2 & Y). rewrite E2. cbn [bind].
  rewrite Hm. destruct (are_free_all _ _ _ A2) as (h3 & E3 & A3). rewrite E3. cbn [bind].
  destruct (are_free _ _ _ _ A3) as (h4 & E4 & A4). exists h4, (vr ++ kr), (x + y)%nat. split; [exact E4|]. split; [now rewrite <- app_assoc|].
  split; [apply Forall_app; auto|]. split; [rewrite app_length; lia|]. split; [exists x, y; auto|].
  intros a' Ea. inv Ea. destruct A3 as (_ & N3 & F3). cbn [map fst] in N3. inversion N3; inversion F3; subst.
  apply (not_listed_dead _ _ _ A4); [|assumption]. rewrite (next_free _ _ _ E4). assumption.
Qed.
Lemma owns_free h it c own fr : owns it c own -> blocks_are h (own ++ fr) ->
  exists h1 res n, free_conf_item h it = Ok h1 /\ blocks_are h1 (res ++ fr) /\ Forall (fun b => snd b = []) res /\ length res = n /\ empties it c n.
Proof. intros O A. destruct (owns_free_full _ _ _ _ _ O A) as (h1 & res & n & E & A1 & F & N & M & _). eauto 8. Qed.
Lemma fill_owns h a c fr it : blocks_are h ((a, []) :: fr) -> i_self it = PBlock a -> i_value it = PLit [] ->
  exists h1 it' own, fill_item h it c = (h1, it') /\ owns it' c own /\ blocks_are h1 (own ++ fr) /\ (value c = [] -> i_value it' = PLit []).
Proof.
  intros A Hs Hv. unfold fill_item. destruct (are_alloc _ _ (key c) A) as (h1 & E1 & A1). rewrite E1. rewrite Hv, Hs.
  destruct (value c) as [|v0 v1] eqn:Ev.
  - destruct (are_dup_all _ _ (multivalue c) A1) as (h2 & m & E2 & M & A2). rewrite E2. exists h2. eexists. eexists. split; [reflexivity|]. split; [|split; [|auto]].
    + exists a, (h_next h), [], m. cbn [i_self i_key i_value i_multi]. split; [reflexivity|]. split; [reflexivity|]. split; [left; auto|]. auto.
    + eapply are_perm; [exact A2|]. cbn [app]. rewrite <- (app_nil_r m) at 1.
      transitivity ((h_next h, key c) :: m ++ (a, []) :: fr); [rewrite app_nil_r; apply Permutation_sym, Permutation_middle|].
      transitivity ((h_next h, key c) :: (a, []) :: m ++ fr); [apply perm_skip, Permutation_sym, Permutation_middle|apply perm_swap].
  - destruct (are_alloc _ _ (v0 :: v1) A1) as (h2 & E2 & A2). rewrite E2. destruct (are_dup_all _ _ (multivalue c) A2) as (h3 & m & E3 & M & A3). rewrite E3.
    exists h3. eexists. eexists. split; [reflexivity|]. split; [|split; [|discriminate]].
    + exists a, (h_next h), [(h_next h1, v0 :: v1)], m. cbn [i_self i_key i_value i_multi]. rewrite Ev. split; [reflexivity|]. split; [reflexivity|]. split; [right; eauto|]. auto.
    + eapply are_perm; [exact A3|]. cbn [app].
      transitivity ((h_next h1, v0 :: v1) :: m ++ (h_next h, key c) :: (a, []) :: fr); [apply Permutation_sym, Permutation_middle|].
      transitivity ((h_next h1, v0 :: v1) :: (h_next h, key c) :: (a, []) :: m ++ fr).
      { apply perm_skip. etransitivity; [apply Permutation_sym, Permutation_middle|]. apply perm_skip, Permutation_sym, Permutation_middle. }
      change ((a, []) :: (h_next h, key c) :: (h_next h1, v0 :: v1) :: m ++ fr) with ([(a, []); (h_next h, key c); (h_next h1, v0 :: v1)] ++ m ++ fr).
      change ((h_next h1, v0 :: v1) :: (h_next h, key c) :: (a, []) :: m ++ fr) with ([(h_next h1, v0 :: v1); (h_next h, key c); (a, [])] ++ m ++ fr).
      apply Permutation_app_tail. etransitivity; [apply Permutation_rev|]. cbn. reflexivity.
Qed.
Lemma new_item_owns h k v mv fr : blocks_are h fr -> len mv <= 20 ->
  exists h1 it own, new_item_with_values h k v mv = Ok (h1, it) /\ owns it (mkItem k v mv) own /\ blocks_are h1 (own ++ fr) /\ (v = [] -> i_value it = PLit []).
Proof.
  intros A L. unfold new_item_with_values. replace (CONF_MAX_MULTI_ELEMENTS <? len mv) with false by (symmetry; unfold CONF_MAX_MULTI_ELEMENTS; lia).
  unfold new_conf_item. destruct (are_alloc _ _ [] A) as (h1 & E1 & A1). rewrite E1.
  destruct (fill_owns h1 (h_next h) (mkItem k v mv) fr (mkHI (PBlock (h_next h)) (PLit []) (PLit []) []) A1 eq_refl eq_refl) as (h2 & it & own & E & O & A2 & V).
  rewrite E. exists h2, it, own. auto.
Qed.

(** ** Parsing *)
Lemma first_pass_h_none h line : ~ In "="%char line -> first_pass_h h line = Ok (h, None).
Proof. intros H. unfold first_pass_h. apply strstr_char in H. unfold DELIM. change (L "=") with ["="%char]. now rewrite H. Qed.

Lemma trimmed_again s t : trimmed s t -> trimmed t t.
Proof. intros H. apply trimmed_self. eapply trimmed_edges; eauto. Qed.
Lemma trimmed_no_nul s t : trimmed s t -> no_nul s -> no_nul t.
Proof. intros (a & b & -> & _) H. apply no_nul_app in H as [_ H]. now apply no_nul_app in H as [H _]. Qed.

Lemma first_pass_h_eq h fr line T k ts k' v : no_nul line -> In "="%char line -> trimmed line T ->
  tokens (L "=") T (k :: ts) -> trimmed k k' -> trimmed (hd [] ts) v -> blocks_are h fr ->
  exists h1 it own, first_pass_h h line = Ok (h1, Some it) /\ owns it (mkItem k' v []) own /\ blocks_are h1 (own ++ fr)
    /\ (ts = [] -> i_value it = PLit []) /\ (ts <> [] -> exists m, i_value it = PBlock m).
Proof.
  intros Hn Hi HT Hk Hk' Hv A. unfold first_pass_h. destruct (strstr_in _ Hi) as [n ->].
  unfold new_conf_item. destruct (are_alloc _ _ [] A) as (h1 & E1 & A1). rewrite E1. cbn [i_self].
  destruct (are_alloc _ _ line A1) as (h2 & E2 & A2). rewrite E2.
  destruct (are_trim _ _ _ _ _ A2 (trim_str_ok _ _ Hn HT)) as (h3 & E3 & A3). rewrite E3. cbn [bind].
  rewrite (are_read _ _ _ _ A3) by now left. cbn [bind].
  assert (NT : no_nul T) by (eapply trimmed_no_nul; eauto).
  apply tokens_strtok in Hk as (r & Ek & Hr). unfold DELIM in *. rewrite Ek.
  apply strtok_no_nul in Ek as [Nk Nr]; [|exact NT].
  destruct (are_alloc _ _ k A3) as (h4 & E4 & A4). rewrite E4.
  destruct (are_trim _ _ _ _ _ A4 (trim_str_ok _ _ Nk Hk')) as (h5 & E5 & A5). rewrite E5. cbn [bind].
  apply tokens_strtok in Hr. destruct ts as [|v0 ts].
  - rewrite Hr. cbn [bind]. assert (v = []) as -> by (eapply trimmed_unique; [exact Hv|apply blank_trimmed_nil; constructor]).
    destruct (are_free h5 ((h_next h3, k') :: (h_next h, []) :: fr) (h_next h1) T) as (h6 & E6 & A6).
    { eapply are_perm; [exact A5|]. apply perm_swap. }
    rewrite E6. cbn [bind]. exists h6. eexists. eexists. split; [reflexivity|]. split; [|split; [|split; [auto|congruence]]].
    + exists (h_next h), (h_next h3), [], []. cbn [i_self i_key i_value i_multi key value multivalue map].
      split; [reflexivity|]. split; [reflexivity|]. split; [left; auto|]. auto.
    + cbn [app key]. eapply are_perm; [exact A6|]. apply perm_swap.
  - destruct Hr as (r' & Er & _). rewrite Er. apply strtok_no_nul in Er as [Nv _]; [|exact Nr]. cbn [hd] in Hv.
    rewrite (trim_str_ok _ _ Nv Hv). cbn [bind].
    destruct (are_alloc _ _ v A5) as (h6 & E6 & A6). rewrite E6.
    assert (NV : no_nul v) by (eapply trimmed_no_nul; eauto).
    destruct (are_trim _ _ _ _ _ A6 (trim_str_ok _ _ NV (trimmed_again _ _ Hv))) as (h7 & E7 & A7). rewrite E7. cbn [bind].
    destruct (are_free h7 ((h_next h5, v) :: (h_next h3, k') :: (h_next h, []) :: fr) (h_next h1) T) as (h8 & E8 & A8).
    { eapply are_perm; [exact A7|]. etransitivity; [|apply perm_swap]. apply perm_skip. apply perm_swap. }
    rewrite E8. cbn [bind]. exists h8. eexists. eexists. split; [reflexivity|]. split; [|split; [|split; [discriminate|intros _; eexists; reflexivity]]].
    + exists (h_next h), (h_next h3), [(h_next h5, v)], []. cbn [i_self i_key i_value i_multi key value multivalue map].
      split; [reflexivity|]. split; [reflexivity|]. split; [right; eauto|]. auto.
    + cbn [app key]. eapply are_perm; [exact A8|].
      change ((h_next h, []) :: (h_next h3, k') :: (h_next h5, v) :: fr) with ([(h_next h, []); (h_next h3, k'); (h_next h5, v)] ++ fr).
      change ((h_next h5, v) :: (h_next h3, k') :: (h_next h, []) :: fr) with ([(h_next h5, v); (h_next h3, k'); (h_next h, [])] ++ fr).
      apply Permutation_app_tail. etransitivity; [apply Permutation_rev|]. cbn. reflexivity.
Qed.

Lemma multi_loop_count fuel : forall i rest l n, multi_loop fuel i rest = Ok (l, n) -> n = i + len l + 1.
Proof.
  induction fuel as [|f IH]; intros i rest l n; cbn [multi_loop]; (destruct (i <? CONF_MAX_MULTI_ELEMENTS); [|discriminate]);
    (destruct (strtok MULTI_DELIM rest) as [[tok r]|]; [|intros H; inv H; change (len (@nil str)) with 0; lia]);
    (destruct (CONF_MAX_MULTI_ELEMENTS <=? i + 1); [discriminate|]); intros H; apply bind_ok_inv in H as (v & _ & H); [discriminate|].
  apply bind_ok_inv in H as ([l' n'] & E & H). inv H. apply IH in E. subst. rewrite len_cons. lia.
Qed.
Lemma multi_loop_h_eq fuel : forall h fr i rest l n, multi_loop fuel i rest = Ok (l, n) -> blocks_are h fr ->
  exists h1 m, multi_loop_h fuel h i rest = Ok (h1, (map (fun x => PBlock (fst x)) m, n)) /\ map snd m = l /\ blocks_are h1 (m ++ fr).
Proof.
  induction fuel as [|f IH]; intros h fr i rest l n; cbn [multi_loop multi_loop_h]; (destruct (i <? CONF_MAX_MULTI_ELEMENTS); [|discriminate]);
    (destruct (strtok MULTI_DELIM rest) as [[tok r]|]; [|intros H A; inv H; exists h, []; auto]);
    (destruct (CONF_MAX_MULTI_ELEMENTS <=? i + 1); [discriminate|]); intros H A; apply bind_ok_inv in H as (v & T & H); [discriminate|].
  apply bind_ok_inv in H as ([l' n'] & E & H). inv H. destruct (are_alloc _ _ tok A) as (h1 & E1 & A1). rewrite E1.
  destruct (are_trim _ _ _ _ _ A1 T) as (h2 & E2 & A2). rewrite E2. cbn [bind].
  destruct (IH _ _ _ _ _ _ E A2) as (h3 & m & E3 & M & A3). rewrite E3. cbn [bind].
  exists h3, ((h_next h, v) :: m). split; [reflexivity|]. split; [cbn; now rewrite M|]. eapply are_perm; [exact A3|]. cbn [app]. apply Permutation_sym, Permutation_middle.
Qed.
Lemma parse_multi_h_eq h fr it c own c' : owns it c own -> multivalue c = [] -> conf_parse_multi c = Ok c' -> blocks_are h (own ++ fr) ->
  exists h1 it' own', parse_multi_h h it = Ok (h1, it') /\ owns it' c' own' /\ blocks_are h1 (own' ++ fr)
    /\ i_value it' = i_value it /\ key c' = key c /\ value c' = value c.
Proof.
  intros O Hm H A. pose proof O as (a & b & vo & mo & Hs & Hk & Hv & Hmu & Hc & ->).
  assert (mo = []) as -> by (rewrite Hm in Hc; now destruct mo). rewrite app_nil_r in *.
  assert (V : hread h (i_value it) = Ok (value c)).
  { destruct Hv as [(E1 & E2 & _)|(n & E1 & ->)]; [rewrite E1, E2; reflexivity|]. rewrite E1. eapply are_read; [exact A|]. cbn. auto. }
  unfold parse_multi_h. rewrite V. cbn [bind]. destruct (are_alloc _ _ (value c) A) as (h1 & E1 & A1). rewrite E1.
  unfold conf_parse_multi in H. destruct (strtok MULTI_DELIM (value c)) as [[tok rest]|].
  - apply bind_ok_inv in H as (v0 & T & H). apply bind_ok_inv in H as ([l n] & E & H). inv H.
    destruct (are_alloc _ _ tok A1) as (h2 & E2 & A2). rewrite E2.
    destruct (are_trim _ _ _ _ _ A2 T) as (h3 & E3 & A3). rewrite E3. cbn [bind].
    destruct (multi_loop_h_eq _ _ _ _ _ _ _ E A3) as (h4 & m & E4 & M & A4). rewrite E4. cbn [bind].
    destruct (are_free h4 (m ++ (h_next h1, v0) :: ((a, []) :: (b, key c) :: vo) ++ fr) (h_next h) (value c)) as (h5 & E5 & A5).
    { eapply are_perm; [exact A4|]. cbn [app]. etransitivity; [apply Permutation_sym, Permutation_middle|].
      etransitivity; [apply perm_skip, Permutation_sym, Permutation_middle|]. etransitivity; [apply perm_swap|]. apply perm_skip. apply Permutation_middle. }
    rewrite E5. cbn [bind]. pose proof (multi_loop_count _ _ _ _ _ E) as Hn.
    assert (Ln : Z.to_nat n = length (v0 :: l)) by (cbn [length]; unfold len in Hn; lia).
    exists h5. eexists. exists ((a, []) :: (b, key c) :: vo ++ (h_next h1, v0) :: m). split; [reflexivity|]. split; [|split; [|cbn; auto]].
    + exists a, b, vo, ((h_next h1, v0) :: m). cbn [i_self i_key i_value i_multi key value multivalue]. split; [exact Hs|]. split; [exact Hk|]. split; [exact Hv|].
      split; [|split; [|reflexivity]].
      * rewrite firstn_all2; [reflexivity|]. cbn [length]. rewrite map_length, <- (map_length snd m), M. cbn [length] in Ln. lia.
      * rewrite Ln, firstn_all. cbn. now rewrite M.
    + eapply are_perm; [exact A5|]. cbn [app]. rewrite <- app_assoc. cbn [app].
      change ((h_next h1, v0) :: (a, []) :: (b, key c) :: vo ++ fr) with (((h_next h1, v0) :: (a, []) :: (b, key c) :: vo) ++ fr).
      etransitivity; [apply Permutation_app_swap_app|]. cbn [app].
      apply (Permutation_middle ((a, []) :: (b, key c) :: vo) (m ++ fr)).
  - inv H. destruct (are_free _ _ _ _ A1) as (h2 & E2 & A2). rewrite E2. cbn [bind]. exists h2. eexists. exists ((a, []) :: (b, key c) :: vo). split; [reflexivity|].
    split; [|split; [exact A2|cbn; auto]]. exists a, b, vo, []. cbn [i_self i_key i_value i_multi key value multivalue map]. rewrite app_nil_r. auto 8.
Qed.

Lemma lost_of k k' : trimmed k k' -> exists n, lost_by k n /\ (k' = [] /\ n = 1 \/ k' <> [] /\ n = 0)%nat.
Proof.
  intros T. destruct k' as [|c k'].
  - exists 1%nat. split; [left|left]; split; auto. now apply trimmed_nil_blank.
  - exists 0%nat. split; right; (split; [|reflexivity]); [|discriminate]. intros B. apply blank_trimmed_nil in B.
    discriminate (trimmed_unique _ _ _ T B).
Qed.

(** The leak of one line. *)
Lemma empties_line it t T k r k' v : In "="%char t -> trimmed t T -> tokens (L "=") T (k :: r) -> trimmed k k' -> trimmed (hd [] r) v ->
  (r = [] -> i_value it = PLit []) -> (r <> [] -> exists m, i_value it = PBlock m)->
  forall c n, key c = k' -> value c = v -> empties it c n ->
  forall ls p, left_behind ls p -> left_behind (t :: ls) (n + p).
Proof.
  intros Hi HT Ht Hk Hv R0 R1 c n Ek Ev (x & y & X & Y & ->) ls p P.
  destruct (lost_of _ _ Hk) as (x' & Lx & X'). assert (x' = x) as -> by (rewrite Ek in X; intuition congruence).
  destruct r as [|v0 r].
  - assert (y = 0)%nat as ->. { specialize (R0 eq_refl). destruct Y as [[[_ (q & E)] _]|[_ ?]]; [congruence|assumption]. }
    rewrite Nat.add_0_r. eapply lb_key; eauto.
  - destruct R1 as (q & R1); [discriminate|]. cbn [hd] in Hv. destruct (lost_of _ _ Hv) as (y' & Ly & Y').
    assert (y' = y) as ->. { rewrite Ev, R1 in Y. intuition congruence. }
    eapply lb_value; eauto.
Qed.

Lemma parse_loop_h_eq path flags ls lv : Forall2 visible ls lv -> forall fuel h fr c res, lines 511 c ls ->
  parse_loop fuel path flags c = Ok res -> blocks_are h fr ->
  exists h1 leak, parse_loop_h fuel h path flags c = Ok (h1, res) /\ blocks_are h1 (leak ++ fr)
    /\ Forall (fun b => snd b = []) leak /\ left_behind lv (length leak).
Proof.
  induction 1 as [|l t ls lv Vt V IH]; intros fuel h fr c res Hl H A.
  - apply lines_fgets in Hl. change (511 + 1) with MAX_LINE_LEN in Hl. destruct fuel; cbn [parse_loop parse_loop_h] in *; rewrite Hl in *; inv H;
      (exists h, []; split; [reflexivity|split; [exact A|split; [constructor|constructor]]]).
  - apply lines_fgets in Hl as (r & E & Hl & _). change (511 + 1) with MAX_LINE_LEN in E.
    destruct fuel as [|f]; cbn [parse_loop parse_loop_h] in *; rewrite E in *; [discriminate|].
    rewrite (visible_upto _ _ Vt) in *. pose proof (visible_no_nul _ _ Vt) as Nt.
    destruct (in_dec ascii_dec "="%char t) as [I|I].
    2:{ rewrite first_pass_none in H by exact I. rewrite first_pass_h_none by exact I. cbn [bind] in *.
        apply bind_ok_inv in H as (w & W & H). rewrite W. inv H. cbn [bind]. exists h, []. split; [reflexivity|]. split; [exact A|]. split; [constructor|]. now constructor. }
    destruct (exists_trimmed t) as (T & HT). destruct (tokens_exist (L "=") T) as (ts & Ht). destruct ts as [|k ts].
    { rewrite (first_pass_empty t T) in H by auto. discriminate. }
    destruct (exists_trimmed k) as (k' & Hk). destruct (exists_trimmed (hd [] ts)) as (v & Hv).
    rewrite (first_pass_eq t T k ts k' v) in H by auto. cbn [bind key] in H.
    destruct (first_pass_h_eq h fr t T k ts k' v) as (h1 & it & own & E1 & O & A1 & R0 & R1); auto. rewrite E1. cbn [bind].
    assert (K : hread h1 (i_key it) = Ok k').
    { destruct O as (a & b & vo & mo & _ & Hkk & _ & _ & _ & ->). rewrite Hkk. eapply are_read; [exact A1|]. right. now left. }
    rewrite K. cbn [bind]. destruct (get_key_flag k' flags) as [m|].
    + apply bind_ok_inv in H as (c1 & M & H). apply bind_ok_inv in H as ([st out] & P & H). inv H.
      assert (X : exists h2 it' own', (if m : bool then parse_multi_h h1 it else Ok (h1, it)) = Ok (h2, it') /\ owns it' c1 own' /\ blocks_are h2 (own' ++ fr)
        /\ i_value it' = i_value it /\ key c1 = k' /\ value c1 = v).
      { destruct m; [now apply (parse_multi_h_eq h1 fr it (mkItem k' v []) own c1)|]. inv M. exists h1, it, own. auto 8. }
      destruct X as (h2 & it' & own' & E2 & O' & A2 & Vi & Kc & Vc). rewrite E2. cbn [bind].
      rewrite (owns_read _ _ _ _ _ O' A2). cbn [bind].
      destruct (owns_free _ _ _ _ _ O' A2) as (h3 & res & n & E3 & A3 & F3 & L3 & Em). rewrite E3. cbn [bind].
      destruct (IH f h3 (res ++ fr) r (st, out) Hl P A3) as (h4 & leak & E4 & A4 & F4 & L4). rewrite E4. cbn [bind].
      exists h4, (res ++ leak). split; [reflexivity|]. split; [|split; [now apply Forall_app|]].
      * eapply are_perm; [exact A4|]. rewrite <- app_assoc. apply Permutation_app_swap_app.
      * rewrite app_length, L3. eapply (empties_line it' t T k ts k' v) with (c := c1); eauto; try (rewrite Vi; assumption).
    + destruct (owns_free _ _ _ _ _ O A1) as (h3 & res0 & n & E3 & A3 & F3 & L3 & Em). rewrite E3. cbn [bind].
      destruct (IH f h3 (res0 ++ fr) r res Hl H A3) as (h4 & leak & E4 & A4 & F4 & L4). rewrite E4.
      exists h4, (res0 ++ leak). split; [reflexivity|]. split; [|split; [now apply Forall_app|]].
      * eapply are_perm; [exact A4|]. rewrite <- app_assoc. apply Permutation_app_swap_app.
      * rewrite app_length, L3. eapply (empties_line it t T k ts k' v) with (c := mkItem k' v []); eauto.
Qed.
Lemma parse_h_eq f path flags content ls lv st out h fr : f path = Some (File content) -> lines 511 content ls -> Forall2 visible ls lv ->
  parse f path flags = Ok (st, out) -> blocks_are h fr ->
  exists h1 leak, parse_h h f path flags = Ok (h1, (st, out)) /\ blocks_are h1 (leak ++ fr)
    /\ Forall (fun b => snd b = []) leak /\ left_behind lv (length leak).
Proof. intros Hf Hl V H A. unfold parse, parse_h in *. rewrite Hf in *. eapply parse_loop_h_eq; eauto. Qed.
Lemma parse_h_nofile f path flags st out h : (forall c, f path <> Some (File c)) ->
  parse f path flags = Ok (st, out) -> parse_h h f path flags = Ok (h, (st, out)).
Proof.
  intros Hf H. unfold parse, parse_h in *. destruct (f path) as [[c|]|]; [now destruct (Hf c)|now inv H|].
  apply bind_ok_inv in H as (w & W & H). rewrite W. now inv H.
Qed.

(** ** Writing *)
Lemma empties_literal it c n : (value c = [] -> i_value it = PLit []) -> empties it c n -> (key c = [] /\ n = 1 \/ key c <> [] /\ n = 0)%nat.
Proof.
  intros V (x & y & X & Y & ->). assert (y = 0)%nat as ->. { destruct Y as [[[E (m & F)] _]|[_ ?]]; [rewrite (V E) in F; discriminate|assumption]. }
  rewrite Nat.add_0_r. exact X.
Qed.
Lemma copy_items_eq its cs own : all_own its cs own -> forall h fr, blocks_are h (own ++ fr) ->
  exists h1 its' own' res, copy_items h its = Ok (h1, its') /\ all_own its' cs own' /\ blocks_are h1 (own' ++ res ++ fr)
    /\ Forall (fun b => snd b = []) res /\ emptied its cs (length res) /\ Forall2 plain its' cs.
Proof.
  induction 1 as [|it c own its cs owns' O AO IH]; intros h fr A.
  - exists h, [], [], []. split; [reflexivity|]. split; [constructor|]. split; [exact A|]. split; [constructor|]. split; constructor.
  - cbn [copy_items]. unfold new_conf_item, copy_conf_item. destruct (are_alloc _ _ [] A) as (h1 & E1 & A1). rewrite E1.
    rewrite (owns_read h1 it c own ((h_next h, []) :: owns' ++ fr) O).
    2:{ eapply are_perm; [exact A1|]. rewrite <- app_assoc. apply Permutation_middle. }
    cbn [bind]. destruct (fill_owns h1 (h_next h) c ((own ++ owns') ++ fr) (mkHI (PBlock (h_next h)) (PLit []) (PLit []) []) A1 eq_refl eq_refl) as (h2 & it' & own' & E2 & O' & A2 & V').
    rewrite E2. destruct (owns_free h2 it c own (owns' ++ own' ++ fr) O) as (h3 & res & n & E3 & A3 & F3 & L3 & Em).
    { eapply are_perm; [exact A2|]. rewrite <- app_assoc. etransitivity; [apply Permutation_app_swap_app|]. apply Permutation_app_head. apply Permutation_app_swap_app. }
    rewrite E3. cbn [bind]. destruct (IH h3 (res ++ own' ++ fr)) as (h4 & its' & owns'' & res' & E4 & AO' & A4 & F4 & L4 & V4).
    { eapply are_perm; [exact A3|]. apply Permutation_app_swap_app. }
    rewrite E4. cbn [bind]. exists h4, (it' :: its'), (own' ++ owns''), (res ++ res'). split; [reflexivity|]. split; [now constructor|].
    split; [|split; [now apply Forall_app|split; [rewrite app_length; constructor; [now rewrite L3|exact L4]|now constructor]]].
    eapply are_perm; [exact A4|]. rewrite <- !app_assoc.
    transitivity (owns'' ++ own' ++ res ++ res' ++ fr).
    + apply Permutation_app_head. etransitivity; [apply Permutation_app_head, Permutation_app_swap_app|].
      etransitivity; [apply Permutation_app_swap_app|]. apply Permutation_app_head. apply Permutation_app_swap_app.
    + apply Permutation_app_swap_app.
Qed.
Lemma free_items_eq its cs own : all_own its cs own -> forall h fr, blocks_are h (own ++ fr) ->
  exists h1 res, free_items h its = Ok h1 /\ blocks_are h1 (res ++ fr) /\ Forall (fun b => snd b = []) res /\ emptied its cs (length res).
Proof.
  induction 1 as [|it c own its cs owns' O AO IH]; intros h fr A.
  - exists h, []. split; [reflexivity|]. split; [exact A|]. split; constructor.
  - cbn [free_items]. rewrite <- app_assoc in A. destruct (owns_free h it c own _ O A) as (h1 & res & n & E & A1 & F & Ln & Em). rewrite E. cbn [bind].
    destruct (IH h1 (res ++ fr)) as (h2 & res' & E2 & A2 & F2 & L2). { eapply are_perm; [exact A1|]. apply Permutation_app_swap_app. }
    exists h2, (res ++ res'). split; [exact E2|]. split; [|split; [now apply Forall_app|rewrite app_length; constructor; [now rewrite Ln|exact L2]]].
    eapply are_perm; [exact A2|]. rewrite <- app_assoc. apply Permutation_app_swap_app.
Qed.
Lemma item_string_h_eq h it c own fr s : owns it c own -> blocks_are h (own ++ fr) -> conf_item_to_string c = Ok s ->
  exists h1 n, item_string_h h it = Ok (h1, PBlock n) /\ blocks_are h1 ((n, s) :: own ++ fr).
Proof.
  intros O A S. unfold item_string_h. rewrite (owns_read _ _ _ _ _ O A). cbn [bind]. rewrite S. cbn [bind].
  destruct (i_multi it) as [|p ps].
  - destruct (are_alloc _ _ s A) as (h1 & E1 & A1). rewrite E1. eauto.
  - destruct (are_alloc _ _ [] A) as (h1 & E1 & A1). rewrite E1. destruct (are_alloc _ _ s A1) as (h2 & E2 & A2). rewrite E2.
    destruct (are_free h2 ((h_next h1, s) :: own ++ fr) (h_next h) []) as (h3 & E3 & A3). { eapply are_perm; [exact A2|]. apply perm_swap. }
    rewrite E3. cbn [bind]. eauto.
Qed.
Lemma write_items_eq its cs own : all_own its cs own -> forall h fr out, blocks_are h (own ++ fr) -> Forall2 (fun c s => conf_item_to_string c = Ok s) cs out ->
  exists h1, write_items h its = Ok (h1, out) /\ blocks_are h1 (own ++ fr).
Proof.
  induction 1 as [|it c own its cs owns' O AO IH]; intros h fr out A S; inversion S as [|? s ? out' Sc Sr]; subst.
  - exists h. auto.
  - cbn [write_items]. rewrite <- app_assoc in A. destruct (item_string_h_eq h it c own _ s O A Sc) as (h1 & n & E1 & A1). rewrite E1. cbn [bind].
    rewrite (are_read _ _ _ _ A1) by now left. cbn [bind]. destruct (are_free _ _ _ _ A1) as (h2 & E2 & A2). rewrite E2. cbn [bind].
    destruct (IH h2 (own ++ fr) out') as (h3 & E3 & A3); [eapply are_perm; [exact A2|apply Permutation_app_swap_app]|exact Sr|]. rewrite E3. cbn [bind].
    exists h3. split; [reflexivity|]. eapply are_perm; [exact A3|]. rewrite <- app_assoc. apply Permutation_app_swap_app.
Qed.
Lemma ser_loop_h_eq its cs own : all_own its cs own -> forall h fr acc s, blocks_are h (own ++ fr) -> ser_loop cs acc = Ok s ->
  exists h1 lost, ser_loop_h h its acc = Ok (h1, s) /\ blocks_are h1 (lost ++ own ++ fr) /\ length lost = length its /\ Forall2 (fun c b => conf_item_to_string c = Ok (snd b)) cs (rev lost).
Proof.
  induction 1 as [|it c own its cs owns' O AO IH]; intros h fr acc s A S; cbn [ser_loop ser_loop_h] in *.
  - inv S. exists h, []. split; [reflexivity|]. split; [exact A|]. split; [reflexivity|constructor].
  - apply bind_ok_inv in S as (a1 & F1 & S). rewrite F1. cbn [bind]. apply bind_ok_inv in S as (t & St & S). apply bind_ok_inv in S as (a2 & F2 & S).
    rewrite <- app_assoc in A. destruct (item_string_h_eq h it c own _ t O A St) as (h1 & n & E1 & A1). rewrite E1. cbn [bind].
    rewrite (are_read _ _ _ _ A1) by now left. cbn [bind]. rewrite F2. cbn [bind].
    destruct (IH h1 ((n, t) :: own ++ fr) a2 s) as (h2 & lost & E2 & A2 & L2 & C2); [eapply are_perm; [exact A1|]|exact S|].
    { change ((n, t) :: own ++ owns' ++ fr) with (((n, t) :: own) ++ owns' ++ fr). change ((n, t) :: own ++ fr) with (((n, t) :: own) ++ fr). apply Permutation_app_swap_app. }
    exists h2, (lost ++ [(n, t)]). split; [exact E2|]. split; [|split; [rewrite app_length, L2; cbn; lia|]].
    + eapply are_perm; [exact A2|]. rewrite <- !app_assoc. apply Permutation_app_head. cbn [app].
      change ((n, t) :: own ++ fr) with (((n, t) :: own) ++ fr). etransitivity; [apply Permutation_app_swap_app|]. reflexivity.
    + rewrite rev_app_distr. cbn [rev app]. constructor; [exact St|exact C2].
Qed.

Lemma emptied_plain its cs n : Forall2 plain its cs -> emptied its cs n -> keyless cs n.
Proof.
  intros P. revert n. induction P as [|it c its cs Hp P IH]; intros n E; inversion E as [|? ? ? ? x m Ex Em]; subst; [constructor|].
  destruct (empties_literal _ _ _ Hp Ex) as [[K ->]|[K ->]]; cbn [Nat.add]; constructor; auto.
Qed.
Lemma keyless_unique cs : forall n m, keyless cs n -> keyless cs m -> n = m.
Proof. induction cs; intros n m H1 H2; inversion H1; inversion H2; subst; try congruence; f_equal; auto. Qed.

Lemma find_set l m s n : find_block l n = None -> find_block (set_block l m s) n = None.
Proof.
  induction l as [|[k x] l IH]; [auto|]. cbn [find_block set_block]. intros H.
  destruct (Nat.eqb k m); cbn [find_block]; destruct (Nat.eqb k n); try discriminate; auto.
Qed.
Lemma find_drop l m n : find_block l n = None -> find_block (drop_block l m) n = None.
Proof.
  induction l as [|[k x] l IH]; [auto|]. cbn [find_block drop_block]. intros H.
  destruct (Nat.eqb k m); cbn [find_block]; destruct (Nat.eqb k n); try discriminate; auto.
Qed.
Lemma dead_alloc h n s h1 p : dead h n -> halloc h s = (h1, p) -> dead h1 n.
Proof. intros [L F] E. inv E. split; cbn [h_next h_live find_block]; [lia|]. destruct (Nat.eqb_spec (h_next h) n); [lia|exact F]. Qed.
Lemma dead_free h n p h1 : dead h n -> hfree h p = Ok h1 -> dead h1 n.
Proof. intros [L F] E. destruct p; cbn [hfree] in E; try discriminate; [now inv E|]. destruct (find_block _ n0); inv E. split; cbn; [exact L|]. now apply find_drop. Qed.
Lemma dead_fue h n p h1 : dead h n -> free_unless_empty h p = Ok h1 -> dead h1 n.
Proof.
  intros D E. destruct p; cbn [free_unless_empty] in E; [now inv E| |]; apply bind_ok_inv in E as (s' & _ & E); (destruct s'; [now inv E|eapply dead_free; eauto]).
Qed.
Lemma dead_free_all l : forall h n h1, dead h n -> hfree_all h l = Ok h1 -> dead h1 n.
Proof. induction l as [|p l IH]; intros h n h1 D E; cbn [hfree_all] in E; [now inv E|]. apply bind_ok_inv in E as (h2 & E1 & E). eapply IH; [|exact E]. eapply dead_free; eauto. Qed.
Lemma dead_free_item h it n h1 : dead h n -> free_conf_item h it = Ok h1 -> dead h1 n.
Proof.
  intros D E. unfold free_conf_item in E. apply bind_ok_inv in E as (s & _ & E). apply bind_ok_inv in E as (h2 & E2 & E). apply bind_ok_inv in E as (h3 & E3 & E). apply bind_ok_inv in E as (h4 & E4 & E).
  eapply dead_free; [|exact E]. eapply dead_free_all; [|exact E4]. eapply dead_fue; [|exact E3]. eapply dead_fue; [|exact E2]. exact D.
Qed.
Lemma dead_dup_all l : forall h n h1 ps, dead h n -> hdup_all h l = (h1, ps) -> dead h1 n.
Proof.
  induction l as [|s l IH]; intros h n h1 ps D E; cbn [hdup_all] in E; [now inv E|].
  destruct (halloc h s) as [h2 p] eqn:E1. destruct (hdup_all h2 l) as [h3 ps'] eqn:E2. inv E. eapply IH; [|exact E2]. eapply dead_alloc; eauto.
Qed.
Lemma dead_fill h it c n h1 it' : dead h n -> fill_item h it c = (h1, it') -> dead h1 n.
Proof.
  intros D E. unfold fill_item in E. destruct (halloc h (key c)) as [h2 k] eqn:E1. assert (D2 : dead h2 n) by (eapply dead_alloc; eauto).
  destruct (value c) as [|v0 v1].
  - destruct (hdup_all h2 (multivalue c)) as [h4 m] eqn:E3. inv E. eapply dead_dup_all; [|exact E3]. exact D2.
  - destruct (halloc h2 (v0 :: v1)) as [h3 v] eqn:E2. destruct (hdup_all h3 (multivalue c)) as [h4 m] eqn:E3. inv E. eapply dead_dup_all; [|exact E3]. eapply dead_alloc; eauto.
Qed.
Lemma dead_copy_items l : forall h n h1 r, dead h n -> copy_items h l = Ok (h1, r) -> dead h1 n.
Proof.
  induction l as [|src l IH]; intros h n h1 r D E; cbn [copy_items] in E; [now inv E|].
  unfold new_conf_item in E. destruct (halloc h []) as [h2 self] eqn:E1. apply bind_ok_inv in E as ([h3 it'] & E2 & E). unfold copy_conf_item in E2. apply bind_ok_inv in E2 as (c & _ & E2). injection E2 as E2.
  apply bind_ok_inv in E as (h4 & E4 & E). apply bind_ok_inv in E as ([h5 r'] & E5 & E). inv E. eapply IH; [|exact E5].
  eapply dead_free_item; [|exact E4]. eapply dead_fill; [|exact E2]. eapply dead_alloc; eauto.
Qed.
Lemma dead_uses h it n : dead h n -> i_self it = PBlock n -> undefined (free_conf_item h it).
Proof. intros [_ F] E. unfold free_conf_item. rewrite E. cbn [hread]. rewrite F. eexists. reflexivity. Qed.

Lemma copied_dead its cs own : all_own its cs own -> forall h fr h1 r, blocks_are h (own ++ fr) -> copy_items h its = Ok (h1, r) ->
  forall it a, In it its -> i_self it = PBlock a -> dead h1 a.
Proof.
  induction 1 as [|it c own its cs owns' O AO IH]; intros h fr h1 r A E jt j I S; [destruct I|].
  cbn [copy_items] in E. unfold new_conf_item, copy_conf_item in E. destruct (are_alloc _ _ [] A) as (h2 & E1 & A1). rewrite E1 in E.
  rewrite (owns_read h2 it c own ((h_next h, []) :: owns' ++ fr) O) in E.
  2:{ eapply are_perm; [exact A1|]. rewrite <- app_assoc. apply Permutation_middle. }
  cbn [bind] in E. destruct (fill_owns h2 (h_next h) c ((own ++ owns') ++ fr) (mkHI (PBlock (h_next h)) (PLit []) (PLit []) []) A1 eq_refl eq_refl) as (h3 & it' & own' & E2 & O' & A2 & V').
  rewrite E2 in E. destruct (owns_free_full h3 it c own (owns' ++ own' ++ fr) O) as (h4 & res & n & E3 & A3 & F3 & L3 & Em & Dd).
  { eapply are_perm; [exact A2|]. rewrite <- app_assoc. etransitivity; [apply Permutation_app_swap_app|]. apply Permutation_app_head. apply Permutation_app_swap_app. }
  rewrite E3 in E. cbn [bind] in E. apply bind_ok_inv in E as ([h5 r'] & E5 & E). inv E.
  destruct I as [<-|I]; [eapply dead_copy_items; [exact (Dd _ S)|exact E5]|].
  eapply (IH h4 (res ++ own' ++ fr)); [|exact E5|exact I|exact S]. eapply are_perm; [exact A3|]. apply Permutation_app_swap_app.
Qed.
Lemma copy_items_app a b : forall h, copy_items h (a ++ b) = ('(h1, x) <- copy_items h a;; '(h2, y) <- copy_items h1 b;; Ok (h2, x ++ y)).
Proof.
  induction a as [|it a IH]; intros h; cbn [app copy_items].
  - cbn [bind]. destruct (copy_items h b) as [[h2 y]|]; reflexivity.
  - destruct (new_conf_item h) as [h1 i1]. destruct (copy_conf_item h1 i1 it) as [[h2 i2]|]; [|reflexivity]. cbn [bind].
    destruct (free_conf_item h2 it) as [h3|]; [|reflexivity]. cbn [bind]. rewrite IH. destruct (copy_items h3 a) as [[h4 x]|]; [|reflexivity]. cbn [bind].
    destruct (copy_items h4 b) as [[h5 y]|]; reflexivity.
Qed.
Lemma copy_dead it l h n : dead h n -> i_self it = PBlock n -> undefined (copy_items h (it :: l)).
Proof.
  intros D S. cbn [copy_items]. unfold new_conf_item. destruct (halloc h []) as [h1 p] eqn:E1. unfold copy_conf_item.
  destruct (item_of h1 it) as [c|]; [|eexists; reflexivity]. cbn [bind]. destruct (fill_item h1 _ c) as [h2 it'] eqn:E2.
  assert (D2 : dead h2 n) by (eapply dead_fill; [|exact E2]; eapply dead_alloc; eauto).
  destruct (dead_uses h2 it n D2 S) as (u & ->). eexists. reflexivity.
Qed.

(** ** The statements *)
Lemma left_behind_unique ls : forall n m, left_behind ls n -> left_behind ls m -> n = m.
Proof.
  assert (Lu : forall k n m, lost_by k n -> lost_by k m -> n = m) by (unfold lost_by; intuition congruence).
  induction ls as [|t ls IH]; intros n m H1 H2; inversion H1; inversion H2; subst; try contradiction; try reflexivity;
    repeat match goal with A : trimmed t ?x, B : trimmed t ?y |- _ => lazymatch x with y => fail | _ => pose proof (trimmed_unique _ _ _ A B); subst x end end;
    match goal with A : tokens _ ?T ?x, B : tokens _ ?T ?y |- _ => lazymatch x with y => fail | _ => pose proof (tokens_unique _ _ _ _ A B) as EE; try discriminate EE; inv EE end end;
    repeat f_equal; eauto.
Qed.
Lemma new_serializable_eq h path its cs own fr : all_own its cs own -> blocks_are h (own ++ fr) -> len its <= 20 ->
  exists h1 s a own' lost, new_serializable_h h path its = Ok (h1, s)
    /\ hs_path s = path /\ hs_self s = PBlock a /\ all_own (hs_items s) cs own' /\ Forall2 plain (hs_items s) cs
    /\ blocks_are h1 ((a, []) :: own' ++ lost ++ fr) /\ Forall (fun b => snd b = []) lost /\ emptied its cs (length lost)
    /\ (forall it, In it its -> undefined (free_conf_item h1 it)).
Proof.
  intros O A Ln. unfold new_serializable_h. replace (CONF_MAX_ITEMS <? len its) with false by (symmetry; unfold CONF_MAX_ITEMS; lia).
  destruct (are_alloc _ _ [] A) as (h1 & E1 & A1). rewrite E1.
  assert (A1' : blocks_are h1 (own ++ (h_next h, []) :: fr)) by (eapply are_perm; [exact A1|apply Permutation_middle]).
  destruct (copy_items_eq _ _ _ O h1 _ A1') as (h2 & its' & own' & lost & E2 & O' & A2 & F & Em & P). rewrite E2. cbn [bind].
  exists h2. eexists. exists (h_next h), own', lost. split; [reflexivity|]. cbn [hs_path hs_self hs_items]. split; [reflexivity|]. split; [reflexivity|]. split; [exact O'|]. split; [exact P|].
  split; [|split; [exact F|split; [exact Em|]]].
  - eapply are_perm; [exact A2|]. rewrite !app_assoc. apply Permutation_sym, Permutation_middle.
  - intros it I. assert (S : exists a, i_self it = PBlock a).
    { clear -O I. induction O as [|jt c own its cs own' Oj O IH]; [destruct I|]. destruct I as [<-|I]; [|auto]. destruct Oj as (a & b & ? & ? & E & _). eauto. }
    destruct S as (a & S). eapply dead_uses; [|exact S]. eapply copied_dead; [exact O|exact A1'|exact E2|exact I|exact S].
Qed.
Lemma twice_undefined h path its cs own fr it rest : all_own its cs own -> blocks_are h (own ++ fr) -> In it its ->
  undefined (new_serializable_h h path (its ++ it :: rest)).
Proof.
  intros O A I. unfold new_serializable_h. destruct (CONF_MAX_ITEMS <? len (its ++ it :: rest)); [eexists; reflexivity|].
  destruct (are_alloc _ _ [] A) as (h1 & E1 & A1). rewrite E1.
  assert (A1' : blocks_are h1 (own ++ (h_next h, []) :: fr)) by (eapply are_perm; [exact A1|apply Permutation_middle]).
  assert (S : exists a, i_self it = PBlock a).
  { clear -O I. induction O as [|jt c own its cs own' Oj O IH]; [destruct I|]. destruct I as [<-|I]; [|auto]. destruct Oj as (a & b & ? & ? & E & _). eauto. }
  destruct S as (a & S). rewrite copy_items_app. destruct (copy_items h1 its) as [[h2 x]|] eqn:E2; [|eexists; reflexivity]. cbn [bind].
  destruct (copy_dead it rest h2 a) as (u & ->); [eapply copied_dead; [exact O|exact A1'|exact E2|exact I|exact S]|exact S|eexists; reflexivity].
Qed.
Lemma write_conf_h_eq h s cs own p path a out fr : all_own (hs_items s) cs own -> hs_self s = PBlock a -> hs_path s = PBlock p ->
  blocks_are h ((a, []) :: (p, path) :: own ++ fr) -> Forall2 plain (hs_items s) cs -> Forall2 (fun c t => conf_item_to_string c = Ok t) cs out ->
  exists h1 lost, write_conf_h h s true = Ok (h1, (0, out)) /\ blocks_are h1 (lost ++ fr) /\ Forall (fun b => snd b = []) lost /\ keyless cs (length lost).
Proof.
  intros O Sa Sp A P S. unfold write_conf_h. rewrite Sp, (are_read _ _ p path A) by (right; now left). cbn [bind negb].
  destruct (write_items_eq _ _ _ O h ((a, []) :: (p, path) :: fr) out) as (h1 & E1 & A1); [|exact S|].
  { eapply are_perm; [exact A|]. change ((a, []) :: (p, path) :: own ++ fr) with ([(a, []); (p, path)] ++ own ++ fr). apply Permutation_app_swap_app. }
  rewrite E1. cbn [bind]. unfold free_serializable. rewrite Sp, Sa.
  destruct (are_free h1 (own ++ (a, []) :: fr) p path) as (h2 & E2 & A2).
  { eapply are_perm; [exact A1|]. transitivity ((a, []) :: own ++ (p, path) :: fr); [apply Permutation_sym, Permutation_middle|].
    transitivity ((a, []) :: (p, path) :: own ++ fr); [apply perm_skip, Permutation_sym, Permutation_middle|]. etransitivity; [apply perm_swap|]. apply perm_skip. apply Permutation_middle. }
  rewrite E2. cbn [bind]. destruct (free_items_eq _ _ _ O h2 _ A2) as (h3 & lost & E3 & A3 & F & Em). rewrite E3. cbn [bind].
  destruct (are_free h3 (lost ++ fr) a []) as (h4 & E4 & A4). { eapply are_perm; [exact A3|]. apply Permutation_sym, Permutation_middle. }
  rewrite E4. cbn [bind]. exists h4, lost. split; [reflexivity|]. split; [exact A4|]. split; [exact F|]. eapply emptied_plain; eauto.
Qed.
Lemma write_literal h s path : hs_path s = PLit path -> undefined (write_conf_h h s true).
Proof.
  intros E. unfold write_conf_h. rewrite E. cbn [hread bind negb]. destruct (write_items h (hs_items s)) as [[h1 out]|]; [|eexists; reflexivity]. cbn [bind].
  unfold free_serializable. rewrite E. eexists. reflexivity.
Qed.
Lemma write_fails h s path : hread h (hs_path s) = Ok path ->
  (len path <= 87 -> write_conf_h h s false = Ok (h, (-1, []))) /\ (88 <= len path -> undefined (write_conf_h h s false)).
Proof.
  intros E. unfold write_conf_h. rewrite E. cbn [bind negb].
  assert (Ln : len (L "Unable to open file " ++ path ++ L " for writing") = 32 + len path).
  { rewrite !len_app. change (len (L "Unable to open file ")) with 20. change (len (L " for writing")) with 12. lia. }
  split; intros H; [rewrite fits_ok by lia; reflexivity|rewrite fits_oob by lia; eexists; reflexivity].
Qed.
Lemma ser_string_h_eq h s cs own path t fr : all_own (hs_items s) cs own -> hread h (hs_path s) = Ok path -> blocks_are h (own ++ fr) ->
  serializable_to_string (mkSer path cs) = Ok t ->
  exists h1 n lost, ser_string_h h s = Ok (h1, PBlock n) /\ blocks_are h1 ((n, t) :: lost ++ own ++ fr)
    /\ Forall2 (fun c b => conf_item_to_string c = Ok (snd b)) cs (rev lost).
Proof.
  intros O Rp A S. unfold serializable_to_string in S. cbn [ser_path ser_items] in S. apply bind_ok_inv in S as (a0 & F0 & S). apply bind_ok_inv in S as (a1 & S1 & S).
  unfold ser_string_h. destruct (are_alloc _ _ [] A) as (h1 & E1 & A1). rewrite E1.
  assert (R1 : hread h1 (hs_path s) = Ok path).
  { destruct (hs_path s) as [|l|n]; cbn [hread] in *; auto. inv E1. cbn [h_live find_block]. destruct (Nat.eqb_spec (h_next h) n) as [En|]; [|exact Rp].
    destruct (find_block (h_live h) n) eqn:Fb; [|discriminate]. exfalso. destruct A as (P & _ & Fo).
    assert (In n (map fst (h_live h))). { clear -Fb. induction (h_live h) as [|[m x] l0 IH]; [discriminate|]. cbn [find_block] in Fb. destruct (Nat.eqb_spec m n); [left; auto|right; auto]. }
    apply (Permutation_in n (Permutation_map fst P)) in H. apply in_map_iff in H as (x & Ex & Ix). rewrite Forall_forall in Fo. apply Fo in Ix. lia. }
  rewrite R1. cbn [bind].
  assert (Ll : len (hs_items s) = len cs). { clear -O. induction O; [reflexivity|]. rewrite !len_cons. lia. }
  rewrite Ll, F0. cbn [bind].
  destruct (ser_loop_h_eq _ _ _ O h1 ((h_next h, []) :: fr) a0 a1) as (h2 & lost & E2 & A2 & L2 & C2); [eapply are_perm; [exact A1|apply Permutation_middle]|exact S1|].
  rewrite E2. cbn [bind]. rewrite S. cbn [bind].
  destruct (are_write h2 (lost ++ own ++ fr) (h_next h) [] t) as (h3 & E3 & A3).
  { eapply are_perm; [exact A2|]. rewrite !app_assoc. apply Permutation_sym, Permutation_middle. }
  rewrite E3. cbn [bind]. exists h3, (h_next h), lost. auto.
Qed.
Lemma new_and_free h k v mv fr : blocks_are h fr -> len mv <= 20 ->
  exists h1 it own h2 lost, new_item_with_values h k v mv = Ok (h1, it) /\ owns it (mkItem k v mv) own /\ blocks_are h1 (own ++ fr)
    /\ free_conf_item h1 it = Ok h2 /\ blocks_are h2 (lost ++ fr) /\ Forall (fun b => snd b = []) lost
    /\ (k = [] /\ length lost = 1 \/ k <> [] /\ length lost = 0)%nat /\ undefined (free_conf_item h2 it).
Proof.
  intros A Ln. destruct (new_item_owns h k v mv fr A Ln) as (h1 & it & own & E1 & O & A1 & V).
  destruct (owns_free_full _ _ _ _ _ O A1) as (h2 & lost & n & E2 & A2 & F & N & Em & D). exists h1, it, own, h2, lost.
  do 6 (split; [assumption|]). split.
  - subst n. exact (empties_literal it (mkItem k v mv) _ V Em).
  - destruct O as (a & ? & ? & ? & Hs & _). eapply dead_uses; eauto.
Qed.

Lemma too_many h path its k v mv :
  (21 <= len its -> undefined (new_serializable_h h path its)) /\ (21 <= len mv -> undefined (new_item_with_values h k v mv)).
Proof.
  unfold new_serializable_h, new_item_with_values, CONF_MAX_ITEMS, CONF_MAX_MULTI_ELEMENTS. split; intros H.
  - replace (20 <? len its) with true by lia. eexists. reflexivity.
  - replace (20 <? len mv) with true by lia. eexists. reflexivity.
Qed.

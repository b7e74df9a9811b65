(** StringUtils_proofs.v - lemmas about StringUtils.v. *)
From Verif Require Import Spec.
From Verif Require Export Lemmas StringUtils.

(** ** Characters *)
Definition all_bytes : list ascii := map ascii_of_nat (seq 0 256).
Lemma all_bytes_in c : In c all_bytes.
Proof.
  unfold all_bytes. apply in_map_iff. exists (nat_of_ascii c). split; [apply ascii_nat_embedding|].
  apply in_seq. pose proof (nat_ascii_bounded c). lia.
Qed.
(** A fact about one byte, checked on all 256. *)
Lemma by_bytes (p : ascii -> bool) : forallb p all_bytes = true -> forall c, p c = true.
Proof. intros H c. rewrite forallb_forall in H. apply H, all_bytes_in. Qed.

Lemma isspace_blank c : isspace c = true <-> blank c.
Proof.
  unfold blank; rewrite <- is_delim_in. assert (H : forall c, eqb (isspace c) (is_delim [HT; LF; VT; FF; CR; SP] c) = true)
    by (apply by_bytes; vm_compute; reflexivity).
  specialize (H c). apply eqb_prop in H. now rewrite H.
Qed.
Lemma isspace_not_blank c : isspace c = false <-> ~ blank c.
Proof. rewrite <- isspace_blank; destruct (isspace c); split; congruence. Qed.
Lemma blank_not_nul c : blank c -> c <> NUL.
Proof. intros H ->. vm_compute in H. intuition discriminate. Qed.

(** ** trim *)
Lemma lscan_ok l t0 pre r b :
  Forall blank l -> (forall c q, t0 = c :: q -> ~ blank c) ->
  b = map Some (pre ++ l ++ t0) ++ r ->
  lscan (length (l ++ t0)) (len pre) b = Ok (len pre + len l).
Proof.
  intros Hl Ht. revert pre; induction Hl as [|c l Hc _ IH]; intros pre E.
  - cbn [app]. rewrite len_nil, Z.add_0_r. destruct t0 as [|c t0]; [reflexivity|].
    cbn [length lscan]. subst b. appn.
    rewrite rd_at by now rewrite len_map. cbn [bind].
    replace (isspace c) with false; [reflexivity|].
    symmetry. apply isspace_not_blank. eauto.
  - cbn [app length lscan].
    replace (rd b (len pre)) with (Ok c).
    2:{ subst b. appn. rewrite rd_at by now rewrite len_map. reflexivity. }
    cbn [bind]. apply isspace_blank in Hc. rewrite Hc.
    replace (len pre + 1) with (len (pre ++ [c])) by llia.
    rewrite IH by (subst b; now appn). f_equal. llia.
Qed.

Lemma rscan_ok t r x :
  Forall blank r -> (forall q c, t = q ++ [c] -> ~ blank c) ->
  rscan (length (t ++ r)) (map Some (t ++ r) ++ x) = Ok (len t - 1).
Proof.
  intros Hr Ht. revert x. induction r as [|c r IH] using rev_ind; intros x.
  - rewrite app_nil_r. destruct t as [|c q] using rev_ind; [reflexivity|].
    rewrite app_length, Nat.add_comm. cbn [length Nat.add rscan].
    rewrite map_app, <- app_assoc. cbn [map app].
    rewrite rd_at by (rewrite len_map; reflexivity). cbn [bind].
    replace (isspace c) with false; [f_equal; unfold len; rewrite app_length; cbn; lia|].
    symmetry. apply isspace_not_blank. eauto.
  - apply Forall_app in Hr as [Hr Hc]. inv Hc.
    rewrite app_assoc, app_length, Nat.add_comm. cbn [length Nat.add rscan].
    rewrite map_app, <- app_assoc. cbn [map app].
    rewrite rd_at by (rewrite len_map; reflexivity). cbn [bind].
    apply isspace_blank in H1. rewrite H1. now rewrite IH.
Qed.

(** Decomposition of the buffer and the exact result of trim. *)
Lemma trim_cs l t r rest :
  no_nul (l ++ t ++ r) -> Forall blank l -> Forall blank r -> no_blank_edges t ->
  exists junk, trim (cs (l ++ t ++ r) ++ rest) = Ok (cs t ++ junk ++ rest)
               /\ length junk = (length l + length r)%nat.
Proof.
  intros Hn Hl Hr [Hb He].
  (* blanks all around an empty core count as leading ones *)
  assert (D : exists l' r', l ++ t ++ r = l' ++ t ++ r' /\ Forall blank l' /\ Forall blank r'
            /\ (forall c q, t ++ r' = c :: q -> ~ blank c) /\ (length l' + length r' = length l + length r)%nat).
  { destruct t as [|c t].
    - exists (l ++ r), []. rewrite !app_nil_r. cbn [app]. repeat split; auto.
      + now apply Forall_app.
      + rewrite app_length. cbn. lia.
    - exists l, r. repeat split; auto. intros c' q Q. cbn in Q. inv Q. eauto. }
  destruct D as (l' & r' & E & Hl' & Hr' & Hh & Hlen). rewrite E in *.
  rewrite <- Hlen. clear E Hl Hr Hlen l r. rename l' into l, r' into r.
  set (t0 := t ++ r) in *.
  assert (Hn0 : no_nul t0) by (apply no_nul_app in Hn; tauto).
  unfold trim. rewrite strlen_cs by auto. cbn [bind].
  rewrite to_nat_len.
  replace (cs (l ++ t0) ++ rest) with (map Some ([] ++ l ++ t0) ++ ([Some NUL] ++ rest))
    by (unfold cs; now rewrite <- app_assoc).
  change 0 with (len (@nil ascii)) at 1. erewrite lscan_ok by eauto. cbn [bind].
  change (len (@nil ascii)) with 0. rewrite Z.add_0_l. cbn [app].
  (* the buffer after the left trim *)
  assert (B : exists junk1,
     (if len l =? 0 then Ok (map Some (l ++ t0) ++ Some NUL :: rest)
      else r0 <- strlen (from (map Some (l ++ t0) ++ Some NUL :: rest) (len l));;
           b' <- memcpy (map Some (l ++ t0) ++ Some NUL :: rest) 0
                        (map Some (l ++ t0) ++ Some NUL :: rest) (len l) r0;;
           r' <- strlen (from b' (len l));; wr b' r' NUL)
     = Ok (map Some t0 ++ Some NUL :: junk1 ++ rest) /\ length junk1 = length l).
  { destruct l as [|c0 l0] eqn:El.
    - exists []. cbn. split; reflexivity.
    - rewrite <- El in *. assert (Hpos : 0 < len l) by (subst l; llia).
      replace (len l =? 0) with false by lia.
      rewrite map_app, <- app_assoc.
      rewrite from_app by now rewrite len_map.
      unfold strlen at 1. rewrite cstr_map by auto. cbn [bind].
      (* the region of length |t0| overwritten at the front *)
      set (whole := map Some l ++ map Some t0 ++ Some NUL :: rest).
      assert (W : exists mid last, map Some l ++ map Some t0 = mid ++ map Some last
                /\ length mid = length t0 /\ length last = length l /\ no_nul last).
      { exists (firstn (length t0) (map Some (l ++ t0))), (skipn (length t0) (l ++ t0)).
        rewrite <- map_app. rewrite <- skipn_map, firstn_skipn. repeat split.
        - rewrite firstn_length, map_length, app_length. lia.
        - rewrite skipn_length, app_length. lia.
        - auto. }
      destruct W as (mid & last & W & Lm & Ll & Nl).
      unfold memcpy.
      replace (slice whole (len l) (len t0)) with (Ok (map Some t0)).
      2:{ unfold whole. rewrite slice_ok; [reflexivity| |]; now rewrite len_map. }
      cbn [bind]. unfold whole. rewrite app_assoc, W.
      rewrite <- app_assoc.
      change (mid ++ map Some last ++ Some NUL :: rest)
        with ([] ++ mid ++ (map Some last ++ Some NUL :: rest)).
      rewrite write_at_app; [|reflexivity|now rewrite map_length]. cbn [bind app].
      (* strlen(str + i) on the overwritten buffer *)
      assert (F : map Some t0 ++ map Some last ++ Some NUL :: rest
                  = map Some (firstn (length l) (t0 ++ last))
                    ++ (map Some (skipn (length l) (t0 ++ last)) ++ Some NUL :: rest)).
      { rewrite !app_assoc. f_equal. rewrite <- !map_app. now rewrite firstn_skipn. }
      assert (G : strlen (from (map Some t0 ++ map Some last ++ Some NUL :: rest) (len l))
                  = Ok (len (map Some t0))).
      { rewrite F. rewrite from_app.
        2:{ rewrite len_map, len_firstn. unfold len. rewrite app_length. lia. }
        unfold strlen. rewrite cstr_map by (apply no_nul_skipn, no_nul_app; auto). cbn [bind].
        f_equal. rewrite len_map, len_skipn. unfold len. rewrite app_length. lia. }
      rewrite G. cbn [bind].
      destruct last as [|z last]; [cbn in Ll; unfold len in Hpos; lia|].
      cbn [map app].
      rewrite wr_at by reflexivity.
      exists (map Some last ++ [Some NUL]). split.
      + now rewrite <- app_assoc.
      + rewrite app_length, map_length. cbn in *. lia. }
  destruct B as (junk1 & B & Lj). rewrite B. cbn [bind]. clear B.
  unfold strlen. rewrite cstr_map by auto. cbn [bind]. rewrite to_nat_len.
  unfold t0 at 1 2. rewrite rscan_ok by auto. cbn [bind].
  replace (len t - 1 + 1) with (len (map Some t)) by (rewrite len_map; lia).
  unfold t0. rewrite map_app, <- app_assoc.
  destruct r as [|z r].
  - cbn [map app]. rewrite wr_at by reflexivity. exists junk1.
    unfold cs. rewrite <- app_assoc. split; [reflexivity|]. cbn. lia.
  - cbn [map app]. rewrite wr_at by reflexivity.
    exists (map Some r ++ Some NUL :: junk1). unfold cs. rewrite <- !app_assoc. split; [reflexivity|].
    rewrite app_length, map_length. cbn. lia.
Qed.

Lemma exists_trimmed s : exists t, trimmed s t.
Proof.
  set (l := take_while isspace s). set (u := drop_while isspace s).
  set (r := rev (take_while isspace (rev u))). set (t := rev (drop_while isspace (rev u))).
  assert (Eu : u = t ++ r).
  { unfold t, r. rewrite <- rev_app_distr, take_drop, rev_involutive. reflexivity. }
  exists t, l, r. repeat split.
  - rewrite <- Eu. unfold l, u. now rewrite take_drop.
  - eapply Forall_impl; [|apply take_while_all]. intros; now apply isspace_blank.
  - unfold r. apply Forall_rev. eapply Forall_impl; [|apply take_while_all]. intros; now apply isspace_blank.
  - intros c q E. rewrite E in Eu. apply isspace_not_blank. eapply drop_while_hd. exact Eu.
  - intros q c E. apply isspace_not_blank. eapply drop_while_hd with (s := rev u) (r := rev q).
    unfold t in E. apply (f_equal (@rev _)) in E. rewrite rev_involutive, rev_app_distr in E. exact E.
Qed.

Lemma blank_run_prefix a x b y :
  a ++ x = b ++ y -> Forall blank a -> (forall c q, x = c :: q -> ~ blank c) ->
  (forall c q, y = c :: q -> ~ blank c) -> Forall blank b -> a = b /\ x = y.
Proof.
  revert b; induction a as [|c a IH]; intros b E Ha Hx Hy Hb.
  - destruct b as [|d b]; [auto|]. cbn in E. inv Hb. destruct (Hx _ _ eq_refl H1).
  - inv Ha. destruct b as [|d b].
    + cbn in E. destruct (Hy c (a ++ x)); auto.
    + cbn in E. inv E. inv Hb. destruct (IH b) as [-> ->]; auto.
Qed.

Lemma trimmed_unique s t1 t2 : trimmed s t1 -> trimmed s t2 -> t1 = t2.
Proof.
  intros (l1 & r1 & E1 & Hl1 & Hr1 & Hb1 & He1) (l2 & r2 & E2 & Hl2 & Hr2 & Hb2 & He2).
  assert (A : forall l t r, s = l ++ t ++ r -> Forall blank l -> Forall blank r ->
              (t = [] -> Forall blank s)).
  { intros l t r -> ? ? ->. apply Forall_app; auto. }
  assert (B : forall t l r c q, s = l ++ t ++ r -> t = c :: q -> ~ blank c -> ~ Forall blank s).
  { intros t l r c q -> -> N F. apply Forall_app in F as [_ F]. apply Forall_app in F as [F _]. now inv F. }
  destruct t1 as [|c1 q1], t2 as [|c2 q2]; auto.
  - exfalso. eapply B; [exact E2|reflexivity|eauto|]. exact (A _ _ _ E1 Hl1 Hr1 eq_refl).
  - exfalso. eapply B; [exact E1|reflexivity|eauto|]. exact (A _ _ _ E2 Hl2 Hr2 eq_refl).
  - rewrite E1 in E2. apply blank_run_prefix in E2 as [_ E2]; auto.
    2:{ intros c q Q. inv Q. eauto. } 2:{ intros c q Q. inv Q. eauto. }
    apply (f_equal (@rev _)) in E2. rewrite !rev_app_distr in E2.
    apply blank_run_prefix in E2 as [_ E2]; try (now apply Forall_rev).
    + apply (f_equal (@rev _)) in E2. now rewrite !rev_involutive in E2.
    + intros c q Q. apply (f_equal (@rev _)) in Q. rewrite rev_involutive in Q. cbn in Q. eauto.
    + intros c q Q. apply (f_equal (@rev _)) in Q. rewrite rev_involutive in Q. cbn in Q. eauto.
Qed.

Lemma trim_holds s rest : no_nul s ->
  exists t junk, trim (cs s ++ rest) = Ok (cs t ++ junk ++ rest) /\ trimmed s t
    /\ length (cs t ++ junk) = length (cs s) /\ no_nul t.
Proof.
  intros Hn. destruct (exists_trimmed s) as (t & l & r & -> & Hl & Hr & Ht).
  destruct (trim_cs l t r rest) as (junk & E & L); auto.
  exists t, junk. repeat split; auto.
  - exists l, r. auto.
  - rewrite app_length, !cs_length, !app_length. lia.
  - eapply no_nul_sub; eauto.
Qed.

Lemma trim_fixed t x : no_nul t -> no_blank_edges t -> trim (cs t ++ x) = Ok (cs t ++ x).
Proof.
  intros Hn Ht. destruct (trim_cs [] t [] x) as (junk & E & L); auto.
  - now rewrite app_nil_r.
  - cbn [app] in E. rewrite app_nil_r in E. rewrite E. destruct junk; [reflexivity|discriminate].
Qed.

Lemma trim_idempotent b b' : trim b = Ok b' -> trim b' = Ok b'.
Proof.
  intros H. assert (S : exists s r, no_nul s /\ b = cs s ++ r).
  { unfold trim in H. apply bind_ok_inv in H as (n & H & _).
    apply strlen_inv in H as (s & r & ? & ? & _). eauto. }
  destruct S as (s & r & Hn & ->).
  destruct (trim_holds s r Hn) as (t & junk & E & (l0 & r0 & _ & _ & _ & Ht) & _ & Hnt).
  rewrite E in H. inv H. now apply trim_fixed.
Qed.

(** ** chop_string *)
Definition chopped (c : ascii) : Prop := 34 < code c < 128.

Lemma chop_test c : (schar c <=? 34) = false <-> chopped c.
Proof.
  unfold chopped, schar. pose proof (code_range c). destruct (code c <? 128) eqn:E; lia.
Qed.

Lemma chop_loop_keep p pre x b :
  Forall chopped p -> b = map Some (pre ++ p) ++ x ->
  forall k, chop_loop (length p + k) (len pre) b = chop_loop k (len (pre ++ p)) b.
Proof.
  intros Hp. revert pre; induction Hp as [|c p Hc _ IH]; intros pre E k.
  - now rewrite app_nil_r.
  - cbn [length Nat.add chop_loop].
    replace (rd b (len pre)) with (Ok c).
    2:{ subst b. appn. rewrite rd_at by now rewrite len_map. reflexivity. }
    cbn [bind]. apply chop_test in Hc. rewrite Hc.
    replace (len pre + 1) with (len (pre ++ [c])) by llia.
    rewrite IH by (subst b; now appn). f_equal. llia.
Qed.

Lemma chop_cut p c q rest :
  no_nul (p ++ c :: q) -> Forall chopped p -> ~ chopped c ->
  chop_string (cs (p ++ c :: q) ++ rest) = Ok (cs p ++ cs q ++ rest).
Proof.
  intros Hn Hp Hc. unfold chop_string. rewrite strlen_cs by auto. cbn [bind].
  rewrite to_nat_len. rewrite app_length. change 0 with (len (@nil ascii)).
  erewrite chop_loop_keep; [|exact Hp|].
  2:{ unfold cs. appn. reflexivity. }
  cbn [app length chop_loop].
  unfold cs. appn. rewrite rd_at by now rewrite len_map. cbn [bind].
  destruct (schar c <=? 34) eqn:E; [|now apply chop_test in E].
  rewrite wr_at by now rewrite len_map. reflexivity.
Qed.

Lemma chop_none s rest : no_nul s -> Forall chopped s ->
  chop_string (cs s ++ rest) = Ok (cs s ++ rest).
Proof.
  intros Hn Hp. unfold chop_string. rewrite strlen_cs by auto. cbn [bind].
  rewrite to_nat_len. change 0 with (len (@nil ascii)).
  rewrite <- (Nat.add_0_r (length s)).
  erewrite chop_loop_keep; [reflexivity|exact Hp|].
  unfold cs. appn. reflexivity.
Qed.

Lemma chopped_dec c : {chopped c} + {~ chopped c}.
Proof.
  destruct (schar c <=? 34) eqn:E; [right|left]; [|now apply chop_test].
  rewrite <- chop_test. congruence.
Qed.

(** ** rtrim, ltrim *)
Lemma rtrim_loop_keep p pre sep x b fuel :
  ~ In sep p -> no_nul (pre ++ p) -> b = map Some (pre ++ p) ++ x -> forall n, strlen b = Ok n -> len (pre ++ p) <= n ->
  rtrim_loop (length p + fuel) (len pre) sep b = rtrim_loop fuel (len (pre ++ p)) sep b.
Proof.
  revert pre; induction p as [|c p IH]; intros pre Hi Hn E n Sn Hl.
  - now rewrite app_nil_r.
  - cbn [length Nat.add rtrim_loop]. rewrite Sn at 1. cbn [bind].
    replace (len pre <? n) with true by (symmetry; apply Z.ltb_lt; llia).
    replace (rd b (len pre)) with (Ok c).
    2:{ subst b. appn. rewrite rd_at by now rewrite len_map. reflexivity. }
    cbn [bind]. rewrite ceq_neq by (intros ->; apply Hi; now left). cbn [bind].
    replace (len pre + 1) with (len (pre ++ [c])) by llia.
    rewrite IH with (n := n); auto.
    + now appn.
    + intros I. apply Hi. now right.
    + now appn.
    + subst b. now appn.
    + now rewrite <- app_assoc.
Qed.

Lemma rtrim_cut s sep a b rest : no_nul s -> first_cut sep s a b -> rtrim (cs s ++ rest) sep = Ok a.
Proof.
  intros Hn [-> Ha]. unfold rtrim, strdup. rewrite cstr_cs by auto. cbn [bind].
  assert (Na : no_nul a) by (apply no_nul_app in Hn; tauto).
  rewrite cs_length, app_length. cbn [length].
  replace (S (length a + S (length b))) with (length a + S (S (length b)))%nat by lia.
  change 0 with (len (@nil ascii)).
  erewrite rtrim_loop_keep; [|exact Ha|exact Na| |now apply strlen_cs0|llia].
  2:{ unfold cs. appn. reflexivity. }
  cbn [app rtrim_loop]. rewrite strlen_cs0 by auto. cbn [bind].
  replace (len a <? len (a ++ sep :: b)) with true by (symmetry; apply Z.ltb_lt; llia).
  unfold cs. appn. rewrite rd_at by now rewrite len_map. cbn [bind]. rewrite ceq_refl.
  rewrite wr_at by now rewrite len_map. cbn [bind].
  unfold strlen. rewrite cstr_map by auto. cbn [bind].
  replace (len a + 1 <? len a) with false by lia. cbn [bind].
  now rewrite cstr_map.
Qed.

Lemma rtrim_none s sep rest : no_nul s -> ~ In sep s -> rtrim (cs s ++ rest) sep = Ok s.
Proof.
  intros Hn Hi. unfold rtrim, strdup. rewrite cstr_cs by auto. cbn [bind].
  rewrite cs_length.
  replace (S (length s)) with (length s + 1)%nat by lia.
  change 0 with (len (@nil ascii)).
  erewrite rtrim_loop_keep; [|exact Hi|exact Hn| |now apply strlen_cs0|cbn [app]; lia].
  2:{ unfold cs. appn. reflexivity. }
  cbn [app rtrim_loop]. rewrite strlen_cs0 by auto. cbn [bind].
  rewrite Z.ltb_irrefl. cbn [bind]. now apply cstr_cs0.
Qed.

Lemma ltrim_loop_keep p pre sep x b k :
  ~ In sep p -> b = map Some (pre ++ p) ++ x ->
  ltrim_loop (length p + k) (len pre) sep b = ltrim_loop k (len (pre ++ p)) sep b.
Proof.
  revert pre; induction p as [|c p IH]; intros pre Hi E.
  - now rewrite app_nil_r.
  - cbn [length Nat.add ltrim_loop].
    replace (rd b (len pre)) with (Ok c).
    2:{ subst b. appn. rewrite rd_at by now rewrite len_map. reflexivity. }
    cbn [bind]. rewrite ceq_neq by (intros ->; apply Hi; now left).
    replace (len pre + 1) with (len (pre ++ [c])) by llia.
    rewrite IH.
    + now rewrite <- app_assoc.
    + intros I. apply Hi. now right.
    + subst b. now appn.
Qed.

Lemma ltrim_cut s sep a b rest : no_nul s -> first_cut sep s a b -> ltrim (cs s ++ rest) sep = Ok b.
Proof.
  intros Hn [-> Ha]. unfold ltrim. rewrite strlen_cs by auto. cbn [bind].
  rewrite to_nat_len, app_length. cbn [length]. change 0 with (len (@nil ascii)).
  erewrite ltrim_loop_keep; [|exact Ha|unfold cs; appn; reflexivity].
  cbn [app ltrim_loop].
  replace (cs (a ++ sep :: b) ++ rest) with (map Some a ++ Some sep :: cs b ++ rest)
    by (unfold cs; now appn).
  rewrite rd_at by now rewrite len_map. cbn [bind]. rewrite ceq_refl.
  replace (map Some a ++ Some sep :: cs b ++ rest) with ((map Some a ++ [Some sep]) ++ cs b ++ rest)
    by now appn.
  rewrite from_app by llia. apply cstr_cs.
  apply no_nul_app in Hn as [_ Hn]. now apply no_nul_cons in Hn.
Qed.

Lemma ltrim_none s sep rest : no_nul s -> ~ In sep s -> ltrim (cs s ++ rest) sep = Ok s.
Proof.
  intros Hn Hi. unfold ltrim. rewrite strlen_cs by auto. cbn [bind].
  rewrite to_nat_len. change 0 with (len (@nil ascii)).
  rewrite <- (Nat.add_0_r (length s)).
  erewrite ltrim_loop_keep; [|exact Hi|unfold cs; appn; reflexivity].
  cbn [app ltrim_loop]. now apply cstr_cs.
Qed.

Lemma first_cut_exists c s : In c s -> exists a b, first_cut c s a b.
Proof.
  intros I. destruct (strchr s c) as [n|] eqn:E.
  - apply strchr_some in E as (a & b & -> & H & _). exists a, b. now split.
  - now apply strchr_none in E.
Qed.

(** ** split *)
Lemma cstrn_cs n s r : no_nul s -> cstrn n (cs s ++ r) = Ok (firstn n s).
Proof.
  revert s; induction n as [|n IH]; intros [|c s] H; try reflexivity.
  apply no_nul_cons in H as [H1 H2]. cbn. rewrite ceq_neq by auto.
  change (map Some s ++ [Some NUL]) with (cs s). now rewrite IH.
Qed.

(** An entry holds the first 1023 bytes, NUL padding up to 1023, and one indeterminate byte. *)
Definition entry (t : str) : buf :=
  map Some (firstn 1023 t) ++ repeat (Some NUL) (1023 - length t) ++ [None].

Lemma split_entry_eq t : no_nul t -> split_entry t = Ok (entry t).
Proof.
  intros H. unfold split_entry, strncpy, MAX_SPLIT_STR_LEN.
  change (Z.to_nat (1024 - 1)) with 1023%nat.
  rewrite <- (app_nil_r (cs t)). rewrite cstrn_cs by auto. cbn [bind].
  rewrite firstn_length.
  replace (1023 - Nat.min 1023 (length t))%nat with (1023 - length t)%nat by lia.
  replace (malloc 1024) with (malloc 1023 ++ [None]) by reflexivity.
  assert (Lb : length (map Some (firstn 1023 t) ++ repeat (Some NUL) (1023 - length t)) = 1023%nat).
  { rewrite app_length, map_length, firstn_length, repeat_length. lia. }
  change (malloc 1023 ++ [None]) with ([] ++ malloc 1023 ++ [None]).
  rewrite write_at_app; [|reflexivity|].
  - cbn [app]. unfold entry. now rewrite <- app_assoc.
  - rewrite Lb. reflexivity.
Qed.

Lemma entry_readable t : no_nul t -> len t <= 1022 -> cstr (entry t) = Ok t.
Proof.
  intros H Hl. unfold entry. unfold len in Hl.
  rewrite firstn_all2 by lia.
  destruct (1023 - length t)%nat eqn:E; [lia|]. cbn [repeat app].
  now apply cstr_map.
Qed.

Lemma cstr_map_none s r : no_nul s -> cstr (map Some s ++ None :: r) = UB UninitRead.
Proof.
  induction s as [|c s IH]; intros H; [reflexivity|].
  apply no_nul_cons in H as [H1 H2]. cbn. rewrite ceq_neq by auto. now rewrite IH.
Qed.

Lemma entry_unreadable t : no_nul t -> 1022 < len t -> cstr (entry t) = UB UninitRead.
Proof.
  intros H Hl. unfold entry. unfold len in Hl.
  replace (1023 - length t)%nat with O by lia. cbn [repeat app].
  apply cstr_map_none. now apply no_nul_firstn.
Qed.

Lemma tokens_no_nul d s ts : tokens d s ts -> no_nul s -> Forall no_nul ts.
Proof.
  induction 1; intros Hn; [constructor|].
  apply no_nul_app in Hn as [_ Hn]. apply no_nul_app in Hn as [? ?]. constructor; auto.
Qed.

Lemma tokens_skip d x s ts : In x d -> tokens d s ts -> tokens d (x :: s) ts.
Proof.
  intros Hx H. inv H.
  - constructor. now constructor.
  - change (x :: a ++ t ++ r) with ((x :: a) ++ t ++ r). constructor; auto.
Qed.

Lemma tokens_unskip d x s ts : In x d -> tokens d (x :: s) ts -> tokens d s ts.
Proof.
  intros Hx H. inversion H as [s0 F|a t r ts0 Fa Hne Ft Hr Ht]; subst.
  - inv F. now constructor.
  - destruct a as [|y a].
    + destruct t as [|y t]; [easy|]. cbn in H0. inv H0. inv Ft. easy.
    + cbn in H0. inv H0. inv Fa. constructor; auto.
Qed.

Lemma tokens_nil_of d s : tokens d s [] -> Forall (fun c => In c d) s.
Proof. now inversion 1. Qed.

Lemma tokens_unique d s ts1 ts2 : tokens d s ts1 -> tokens d s ts2 -> ts1 = ts2.
Proof.
  assert (U : forall s t1 r1, strtok d s = Some (t1, r1) -> forall ts, tokens d s ts ->
            exists ts', ts = t1 :: ts' /\ tokens d r1 ts').
  { intros s' t1 r1 E ts H. inv H.
    - apply strtok_none in H0. congruence.
    - rewrite strtok_eq in E; auto.
      2:{ destruct r; [easy|]. eauto. }
      inv E. exists ts0. split; [reflexivity|]. destruct r as [|x r]; [assumption|].
      cbn. eapply tokens_unskip; eauto. }
  remember (S (length s)) as n. assert (Hn : (length s < n)%nat) by lia. clear Heqn.
  revert s Hn ts1 ts2; induction n as [|n IH]; intros s Hn ts1 ts2 H1 H2; [lia|].
  - destruct (strtok d s) as [[t r]|] eqn:E.
    + destruct (U _ _ _ E _ H1) as (a & -> & Ha). destruct (U _ _ _ E _ H2) as (b & -> & Hb).
      f_equal. apply strtok_shorter in E. eapply IH; eauto. lia.
    + apply strtok_none in E.
      assert (N : forall ts, tokens d s ts -> ts = []).
      { intros ts H. inv H; auto. apply Forall_app in E as [_ E]. apply Forall_app in E as [E _].
        destruct t as [|x t]; [easy|]. inv E. inv H4. easy. }
      now rewrite (N _ H1), (N _ H2).
Qed.

Lemma tokens_exist d s : exists ts, tokens d s ts.
Proof.
  remember (length s) as n. assert (Hn : (length s <= n)%nat) by lia. clear Heqn.
  revert s Hn; induction n as [|n IH]; intros s Hn.
  - destruct s; [|cbn in Hn; lia]. exists []. constructor. constructor.
  - destruct (strtok d s) as [[t r]|] eqn:E.
    + pose proof (strtok_shorter _ _ _ _ E). apply strtok_some in E as (a & r0 & -> & Ha & Hne & Ht & Hr & ->).
      destruct (IH (tl r0)) as (ts & Hts); [lia|]. exists (t :: ts). constructor; auto.
      * intros c r' ->. auto.
      * destruct r0 as [|x r0]; [assumption|]. cbn in Hts. now apply tokens_skip.
    + apply strtok_none in E. exists []. now constructor.
Qed.

Lemma split_loop_eq d s ts : tokens d s ts -> no_nul s -> forall fuel n,
  (length s <= fuel)%nat -> 0 <= n -> n <= 50 ->
  split_loop fuel n d s = if n + len ts <=? 50 then Ok (map entry ts) else UB ArrayIndex.
Proof.
  intros H Hn fuel. revert s ts H Hn.
  induction fuel as [|f IH]; intros s ts H Hn n Hl Hn0 Hn50.
  - destruct s; [|cbn in Hl; lia].
    assert (ts = []) as -> by (eapply tokens_unique; [exact H|constructor; constructor]).
    change (split_loop 0 n d []) with (Ok (@nil buf)). replace (n + len (@nil str) <=? 50) with true by (unfold len; cbn; lia). reflexivity.
  - cbn [split_loop]. destruct (strtok d s) as [[t r]|] eqn:E.
    + pose proof (strtok_shorter _ _ _ _ E) as Hs.
      apply strtok_some in E as (a & r0 & -> & Ha & Hne & Ht & Hr & ->).
      assert (Hnt : no_nul t) by (eapply no_nul_sub; eauto).
      destruct (tokens_exist d (tl r0)) as (ts' & Hts').
      assert (ts = t :: ts') as ->.
      { eapply tokens_unique; [exact H|]. constructor; auto.
        - intros c r' ->. auto.
        - destruct r0 as [|x r0]; [assumption|]. cbn in Hts'. now apply tokens_skip. }
      unfold MAX_SPLIT_STR. destruct (50 <=? n) eqn:E50.
      { replace (n + len (t :: ts') <=? 50) with false by llia. reflexivity. }
      rewrite split_entry_eq by auto. cbn [bind].
      rewrite IH with (ts := ts'); auto; try lia.
      * replace (n + 1 + len ts' <=? 50) with (n + len (t :: ts') <=? 50) by (rewrite len_cons; lia).
        destruct (n + len (t :: ts') <=? 50); reflexivity.
      * apply no_nul_app in Hn as [_ Hn]. apply no_nul_app in Hn as [_ Hn].
        destruct r0; [easy|]. now apply no_nul_cons in Hn.
    + apply strtok_none in E.
      assert (ts = []) as -> by (eapply tokens_unique; [exact H|now constructor]).
      replace (n + len (@nil str) <=? 50) with true by (unfold len; cbn; lia). reflexivity.
Qed.

Lemma split_eq d s ts : tokens d s ts -> no_nul s ->
  split s d = if len ts <=? 50 then Ok (map entry ts) else UB ArrayIndex.
Proof. intros. unfold split. now rewrite (split_loop_eq d s ts) by (auto; lia). Qed.

(** ** split_once *)
Lemma trim_str_eq s t rest : no_nul s -> trimmed s t ->
  exists b, trim (cs s ++ rest) = Ok b /\ cstr b = Ok t.
Proof.
  intros Hn Ht. destruct (trim_holds s rest Hn) as (t' & junk & E & Ht' & _ & Hn').
  assert (t' = t) as -> by (eapply trimmed_unique; eauto).
  exists (cs t ++ junk ++ rest). split; auto. now apply cstr_cs.
Qed.

Lemma trimmed_no_nul s t : no_nul s -> trimmed s t -> no_nul t.
Proof. intros H (l & r & -> & _). now apply no_nul_sub in H. Qed.

Lemma split_once_cut s a b ta tb rest delim : no_nul s -> first_cut ":" s a b ->
  trimmed a ta -> trimmed b tb ->
  split_once (cs s ++ rest) delim = Ok [entry ta; entry tb].
Proof.
  intros Hn Hc Hta Htb. pose proof Hc as [Hs _].
  assert (Na : no_nul a) by (subst s; apply no_nul_app in Hn; tauto).
  assert (Nb : no_nul b) by (subst s; apply no_nul_app in Hn as [_ Hn]; now apply no_nul_cons in Hn).
  unfold split_once. erewrite rtrim_cut by eauto. cbn [bind].
  destruct (trim_str_eq a ta []) as (xa & Ea & Ca); auto. rewrite app_nil_r in Ea.
  rewrite Ea. cbn [bind]. rewrite Ca. cbn [bind].
  rewrite split_entry_eq by (eapply trimmed_no_nul; [|eassumption]; assumption). cbn [bind].
  erewrite ltrim_cut by eauto. cbn [bind]. rewrite cstr_cs by auto. cbn [bind].
  replace (len b <? len s) with true by (subst s; symmetry; apply Z.ltb_lt; llia).
  destruct (trim_str_eq b tb []) as (xb & Eb & Cb); auto. rewrite app_nil_r in Eb.
  rewrite Eb. cbn [bind]. rewrite Cb. cbn [bind].
  rewrite split_entry_eq by (eapply trimmed_no_nul; [|eassumption]; assumption). reflexivity.
Qed.

Lemma split_once_none s t rest delim : no_nul s -> ~ In ":"%char s -> trimmed s t ->
  split_once (cs s ++ rest) delim = Ok [entry t].
Proof.
  intros Hn Hc Ht. unfold split_once. rewrite rtrim_none by auto. cbn [bind].
  destruct (trim_str_eq s t []) as (xa & Ea & Ca); auto. rewrite app_nil_r in Ea.
  rewrite Ea. cbn [bind]. rewrite Ca. cbn [bind].
  rewrite split_entry_eq by (eapply trimmed_no_nul; [|eassumption]; assumption). cbn [bind].
  rewrite ltrim_none by auto. cbn [bind]. rewrite cstr_cs by auto. cbn [bind].
  now rewrite Z.ltb_irrefl.
Qed.

(** ** join *)
Lemma present_app a b : present (a ++ b) = present a ++ present b.
Proof. induction a as [|[s|] a IH]; cbn; auto. now rewrite IH. Qed.

Definition ptr_no_nul (p : cptr) : Prop := forall s, p = Some s -> no_nul s.

Lemma total_len_app a b : total_len (a ++ b) = total_len a + total_len b.
Proof. induction a as [|[s|] a IH]; cbn [total_len app]; rewrite ?IH; lia. Qed.
Lemma total_len_nonneg a : 0 <= total_len a.
Proof. induction a as [|[s|] a IH]; cbn [total_len]; lens; lia. Qed.

Definition with_delim (d : str) (l : list str) : str := flat_map (fun s => s ++ d) l.

Lemma with_delim_last d l x : with_delim d l ++ x = separated d (l ++ [x]).
Proof.
  induction l as [|s l IH]; [reflexivity|].
  cbn [with_delim flat_map app]. unfold with_delim in IH. rewrite <- app_assoc, IH.
  rewrite <- app_assoc. destruct l; reflexivity.
Qed.

Lemma join_loop_eq d a : no_nul d -> Forall ptr_no_nul a -> forall s r,
  no_nul s -> total_len a + len a * len d <= len r ->
  exists r', join_loop a d (cs s ++ r) = Ok (cs (s ++ with_delim d (present a)) ++ r')
    /\ len r' >= len r - (total_len a + len a * len d).
Proof.
  intros Hd H. induction H as [|p a Hp _ IH]; intros s r Hs Hr.
  - exists r. cbn. rewrite app_nil_r. split; [reflexivity|]. lia.
  - rewrite len_cons in *. destruct p as [x|]; cbn [join_loop total_len present with_delim flat_map] in *.
    + pose proof (total_len_nonneg a). pose proof (len_nonneg _ a). pose proof (len_nonneg _ d).
      pose proof (len_nonneg _ x).
      rewrite strcat_cs by (auto; nia). cbn [bind].
      rewrite strcat_cs.
      2:{ apply no_nul_app; split; [auto|now apply Hp]. }
      2:{ rewrite len_skipn. fold (len x). change (Z.of_nat (length x)) with (len x). nia. }
      cbn [bind].
      set (r2 := skipn (length d) (skipn (length x) r)).
      assert (Lr2 : len r2 = len r - len x - len d).
      { unfold r2. rewrite !len_skipn. change (Z.of_nat (length x)) with (len x).
        change (Z.of_nat (length d)) with (len d). nia. }
      destruct (IH ((s ++ x) ++ d) r2) as (r' & E & L).
      { repeat (apply no_nul_app; split; auto). }
      { nia. }
      exists r'. rewrite E. split; [|nia]. f_equal. f_equal. f_equal.
      unfold with_delim. now rewrite <- !app_assoc.
    + pose proof (len_nonneg _ d). destruct (IH s r Hs) as (r' & E & L); [nia|].
      exists r'. split; [exact E|nia].
Qed.

Lemma calloc_cs n : 1 <= n -> calloc n = cs [] ++ calloc (n - 1).
Proof.
  intros H. unfold calloc. replace (Z.to_nat n) with (S (Z.to_nat (n - 1))) by lia. reflexivity.
Qed.

Lemma firstn_last A (l : list A) n x : nth_error l n = Some x -> firstn (S n) l = firstn n l ++ [x].
Proof.
  revert l; induction n as [|n IH]; intros [|y l] H; try discriminate.
  - now inv H.
  - cbn in H. cbn [firstn app]. now rewrite <- IH.
Qed.

Lemma join_many a size d s0 sl :
  no_nul d -> Forall ptr_no_nul a -> 2 <= size <= len a ->
  nth_error a 0 = Some (Some s0) -> nth_error a (Z.to_nat (size - 1)) = Some (Some sl) ->
  join (Some a) size d = Ok (JHeap (separated d (present (firstn (Z.to_nat size) a)))).
Proof.
  intros Hd Ha Hs H0 Hl. unfold join.
  replace (size <=? 0) with false by lia.
  destruct a as [|p a0]; [discriminate|]. cbn in H0. inv H0. set (a := Some s0 :: a0) in *.
  replace (size =? 1) with false by lia. replace (len a <? size) with false by lia.
  set (n := Z.to_nat (size - 1)) in *.
  replace (Z.to_nat size) with (S n) by lia.
  rewrite (firstn_last _ _ _ _ Hl).
  assert (Ln : length (firstn n a) = n) by (rewrite firstn_length; unfold len in Hs; lia).
  rewrite (firstn_app n), Ln, Nat.sub_diag, firstn_firstn, Nat.min_id. cbn [firstn].
  rewrite app_nil_r. rewrite total_len_app. cbn [total_len].
  assert (Fa : Forall ptr_no_nul (firstn n a)).
  { rewrite <- (firstn_skipn n a) in Ha. now apply Forall_app in Ha. }
  pose proof (total_len_nonneg (firstn n a)). lens.
  rewrite calloc_cs by nia.
  destruct (join_loop_eq d (firstn n a) Hd Fa [] (calloc (total_len (firstn n a) + (len sl + 0) + size * len d + 1 - 1))) as (r' & E & L).
  - constructor.
  - rewrite len_calloc. unfold len at 1. rewrite Ln. nia.
  - rewrite E. cbn [bind app].
    rewrite nth_error_app2, Ln, Nat.sub_diag by lia. cbn [nth_error].
    assert (Nsl : no_nul sl).
    { rewrite Forall_forall in Ha. apply (Ha (Some sl)); [|reflexivity]. eapply nth_error_In; eauto. }
    assert (Nw : no_nul (with_delim d (present (firstn n a)))).
    { clear -Hd Fa. induction Fa as [|[x|] l Hx _ IH]; cbn [present]; [constructor| |auto].
      cbn [with_delim flat_map]. repeat (apply no_nul_app; split; auto). }
    rewrite strcat_cs; auto.
    2:{ rewrite len_calloc in L. assert (len (firstn n a) = size - 1) by (unfold len; rewrite Ln; lia). nia. }
    cbn [bind]. rewrite cstr_cs by (now apply no_nul_app). cbn [bind].
    rewrite present_app. cbn [present]. now rewrite with_delim_last.
Qed.

Lemma join_last_null a size d s0 :
  no_nul d -> Forall ptr_no_nul a -> 2 <= size <= len a ->
  nth_error a 0 = Some (Some s0) -> nth_error a (Z.to_nat (size - 1)) = Some None ->
  join (Some a) size d = UB NullDeref.
Proof.
  intros Hd Ha Hs H0 Hl. unfold join.
  replace (size <=? 0) with false by lia.
  destruct a as [|p a0]; [discriminate|]. cbn in H0. inv H0. set (a := Some s0 :: a0) in *.
  replace (size =? 1) with false by lia. replace (len a <? size) with false by lia.
  set (n := Z.to_nat (size - 1)) in *.
  replace (Z.to_nat size) with (S n) by lia.
  rewrite (firstn_last _ _ _ _ Hl).
  assert (Ln : length (firstn n a) = n) by (rewrite firstn_length; unfold len in Hs; lia).
  rewrite (firstn_app n), Ln, Nat.sub_diag, firstn_firstn, Nat.min_id. cbn [firstn].
  rewrite app_nil_r. rewrite total_len_app. cbn [total_len].
  assert (Fa : Forall ptr_no_nul (firstn n a)).
  { rewrite <- (firstn_skipn n a) in Ha. now apply Forall_app in Ha. }
  pose proof (total_len_nonneg (firstn n a)). lens.
  rewrite calloc_cs by nia.
  destruct (join_loop_eq d (firstn n a) Hd Fa [] (calloc (total_len (firstn n a) + 0 + size * len d + 1 - 1))) as (r' & E & L).
  - constructor.
  - rewrite len_calloc. unfold len at 1. rewrite Ln. nia.
  - rewrite E. cbn [bind app].
    rewrite nth_error_app2, Ln, Nat.sub_diag by lia. reflexivity.
Qed.

(** ** split of join *)
Lemma tokens_separated c l : Forall (fun s => s <> [] /\ ~ In c s) l -> tokens [c] (separated [c] l) l.
Proof.
  assert (A : forall s, ~ In c s -> Forall (fun x => ~ In x [c]) s).
  { intros s H. rewrite Forall_forall. intros x I [->|[]]. auto. }
  induction 1 as [|s l [Hne Hs] Hl IH]; [constructor; constructor|].
  destruct l as [|s2 l].
  - cbn. change s with ([] ++ s) at 1. rewrite <- (app_nil_r s) at 1. constructor; auto; try easy.
  - change (separated [c] (s :: s2 :: l)) with ([] ++ s ++ ([c] ++ separated [c] (s2 :: l))).
    constructor; auto.
    + intros x r' E. cbn in E. inv E. now left.
    + cbn [app]. apply tokens_skip; [now left|auto].
Qed.

Lemma map_Some_present l : present (map Some l) = l.
Proof. induction l; cbn; congruence. Qed.

Lemma no_nul_separated d l : no_nul d -> Forall no_nul l -> no_nul (separated d l).
Proof.
  intros Hd. induction 1 as [|s l Hs Hl IH]; [constructor|].
  destruct l; [auto|]. change (separated d (s :: l :: l0)) with (s ++ d ++ separated d (l :: l0)).
  repeat (apply no_nul_app; split; auto).
Qed.

Lemma join_map l d : l <> [] -> no_nul d -> Forall no_nul l ->
  join (Some (map Some l)) (len l) d = Ok (JHeap (separated d l)).
Proof.
  intros Hne Hd Hl. destruct l as [|s0 l]; [easy|]. destruct l as [|s1 l].
  - reflexivity.
  - set (l' := s0 :: s1 :: l) in *.
    assert (len l' >= 2) by (unfold l'; llia).
    assert (exists sl, nth_error l' (Z.to_nat (len l' - 1)) = Some sl) as [sl Hsl].
    { destruct (nth_error l' _) eqn:E; [eauto|]. apply nth_error_None in E. unfold len in *. lia. }
    rewrite (join_many _ _ _ s0 sl); auto.
    + rewrite to_nat_len. rewrite <- (map_length Some l'), firstn_all. now rewrite map_Some_present.
    + apply Forall_map. eapply Forall_impl; [|exact Hl]. intros x Hx y E. now inv E.
    + rewrite len_map. lia.
    + rewrite nth_error_map, Hsl. reflexivity.
Qed.

(** ** startswith *)
Definition same_letterb (a b : ascii) : bool :=
  ceq a b || existsb (fun p => ceq (fst p) a && ceq (snd p) b || ceq (fst p) b && ceq (snd p) a) letter_pairs.
Lemma same_letterb_spec a b : same_letterb a b = true <-> same_letter a b.
Proof.
  unfold same_letterb, same_letter. rewrite orb_true_iff, ceq_true, existsb_exists.
  split; intros [H|H]; auto; right.
  - destruct H as ([x y] & I & H). cbn [fst snd] in H.
    apply orb_true_iff in H as [H|H]; apply andb_true_iff in H as [H1 H2];
    apply ceq_true in H1; apply ceq_true in H2; subst; auto.
  - destruct H as [H|H].
    + exists (a, b). split; auto. cbn. now rewrite !ceq_refl.
    + exists (b, a). split; auto. cbn. rewrite !ceq_refl. cbn. now rewrite orb_true_r.
Qed.
Lemma tolower_table :
  forallb (fun a => forallb (fun b => eqb (ceq (tolower a) (tolower b)) (same_letterb a b)) all_bytes) all_bytes = true.
Proof. vm_compute. reflexivity. Qed.
Lemma tolower_same a b : ceq (tolower a) (tolower b) = same_letterb a b.
Proof.
  pose proof tolower_table as H. rewrite forallb_forall in H. specialize (H a (all_bytes_in a)).
  cbv beta in H. rewrite forallb_forall in H. specialize (H b (all_bytes_in b)).
  now apply eqb_prop in H.
Qed.
Lemma tolower_nul c : tolower c = NUL -> c = NUL.
Proof. all_ascii c; vm_compute; congruence. Qed.

Lemma tolower_same_iff a b : ceq (tolower a) (tolower b) = true <-> same_letter a b.
Proof. rewrite tolower_same. apply same_letterb_spec. Qed.

Lemma ci_prefix_nil s : ci_prefix [] s.
Proof. exists [], s. split; auto. constructor. Qed.
Lemma ci_prefix_cons x p y s : ci_prefix (x :: p) (y :: s) <-> same_letter x y /\ ci_prefix p s.
Proof.
  split.
  - intros (q & r & E & H). inv H. cbn in E. inv E. split; auto. exists l', r. now split.
  - intros [H (q & r & -> & Hp)]. exists (y :: q), r. split; auto. now constructor.
Qed.
Lemma ci_prefix_cons_nil x p : ~ ci_prefix (x :: p) [].
Proof. intros (q & r & E & H). inv H. discriminate. Qed.

Lemma same_letter_sym a b : same_letter a b <-> same_letter b a.
Proof. unfold same_letter. intuition. Qed.

Lemma startswith_eq s rest p : no_nul s -> no_nul p ->
  exists r, startswith (cs s ++ rest) p = Ok r /\ (r = true <-> ci_prefix p s).
Proof.
  unfold startswith. revert s; induction p as [|x p IH]; intros s Hs Hp.
  - exists true. split; [reflexivity|]. split; auto. intros _. apply ci_prefix_nil.
  - apply no_nul_cons in Hp as [Hx Hp]. destruct s as [|y s].
    + exists false. cbn [length strncasecmp_eq cs map app].
      destruct (ceq (tolower NUL) (tolower x)) eqn:E.
      * apply ceq_true in E. symmetry in E. change (tolower NUL) with NUL in E. now apply tolower_nul in E.
      * split; [reflexivity|]. split; [easy|]. intros H. now apply ci_prefix_cons_nil in H.
    + apply no_nul_cons in Hs as [Hy Hs].
      change (cs (y :: s) ++ rest) with (Some y :: (cs s ++ rest)).
      change (cs (x :: p)) with (Some x :: cs p). cbn [length strncasecmp_eq].
      destruct (ceq (tolower y) (tolower x)) eqn:E.
      * rewrite ceq_neq by auto. destruct (IH s Hs Hp) as (r & -> & Hr). exists r. split; auto.
        rewrite ci_prefix_cons, Hr. apply tolower_same_iff in E. apply same_letter_sym in E. tauto.
      * exists false. split; auto. split; [easy|]. rewrite ci_prefix_cons. intros [H _].
        apply same_letter_sym, tolower_same_iff in H. congruence.
Qed.

(** The entries before the first empty or NULL one. *)
Lemma startswithany_eq s rest pre tail : no_nul s -> Forall (fun p => no_nul p /\ p <> []) pre ->
  (tail = None \/ tail = Some []) -> forall more,
  exists r, startswithany (cs s ++ rest) (map Some pre ++ tail :: more) = Ok r
            /\ (r = true <-> exists p, In p pre /\ ci_prefix p s).
Proof.
  intros Hs Hp Ht more. induction Hp as [|p pre [Hn Hne] _ IH].
  - exists false. split.
    + destruct Ht as [-> | ->]; reflexivity.
    + split; [easy|]. now intros (p & [] & _).
  - cbn [map app startswithany]. destruct p as [|x p]; [easy|].
    destruct (startswith_eq s rest (x :: p) Hs Hn) as (r & -> & Hr). cbn [bind].
    destruct r.
    + exists true. split; auto. split; auto. intros _. exists (x :: p). split; [now left|]. now apply Hr.
    + destruct IH as (r & -> & IH). exists r. split; auto. rewrite IH. split.
      * intros (q & I & C). exists q. split; auto. now right.
      * intros (q & [<-|I] & C); [now apply Hr in C|]. eauto.
Qed.

(** ** text_find_after *)
Lemma match_at_eq needle pre suf rest b : no_nul needle ->
  b = map Some (pre ++ suf) ++ Some NUL :: rest ->
  match_at b (len pre) needle = Ok (prefixb needle suf).
Proof.
  revert pre suf; induction needle as [|x n IH]; intros pre suf Hn E; [reflexivity|].
  apply no_nul_cons in Hn as [Hx Hn]. cbn [match_at prefixb].
  destruct suf as [|y suf].
  - subst b. rewrite app_nil_r. rewrite rd_at by now rewrite len_map. cbn [bind].
    rewrite ceq_neq by auto. reflexivity.
  - replace (rd b (len pre)) with (Ok y).
    2:{ subst b. appn. rewrite rd_at by now rewrite len_map. reflexivity. }
    cbn [bind]. destruct (ceq_spec y x) as [->|N].
    + rewrite ceq_refl. cbn [andb]. replace (len pre + 1) with (len (pre ++ [x])) by llia.
      apply IH; auto. subst b. now appn.
    + rewrite ceq_neq by congruence. reflexivity.
Qed.

Lemma find_loop_eq needle suf pre rest b : no_nul needle -> needle <> [] ->
  b = map Some (pre ++ suf) ++ Some NUL :: rest ->
  find_loop (length suf) b needle (len pre)
  = Ok (match strstr suf needle with Some n => len pre + Z.of_nat n + len needle | None => -1 end).
Proof.
  intros Hn Hne. revert pre; induction suf as [|y suf IH]; intros pre E.
  - destruct needle; [easy|]. reflexivity.
  - cbn [length find_loop strstr]. erewrite match_at_eq; eauto. cbn [bind].
    destruct (prefixb needle (y :: suf)); [f_equal; lia|].
    replace (len pre + 1) with (len (pre ++ [y])) by llia.
    rewrite IH by (subst b; now appn). f_equal.
    destruct (strstr suf needle); cbn [option_map]; llia.
Qed.

Lemma text_find_after_eq data needle rest start : no_nul needle -> needle <> [] ->
  0 <= start ->
  text_find_after (map Some data ++ Some NUL :: rest) needle start (len data)
  = Ok (if len data <=? start then -1 else
        match strstr (skipn (Z.to_nat start) data) needle with
        | Some n => start + Z.of_nat n + len needle | None => -1 end).
Proof.
  intros Hn Hne Hs. unfold text_find_after. destruct (len data <=? start) eqn:E.
  - replace (Z.to_nat (len data - start)) with O by lia. reflexivity.
  - set (pre := firstn (Z.to_nat start) data). set (suf := skipn (Z.to_nat start) data).
    assert (Lp : len pre = start) by (unfold pre; rewrite len_firstn; lia).
    assert (Ls : length suf = Z.to_nat (len data - start)).
    { unfold suf. rewrite skipn_length. unfold len in *. lia. }
    rewrite <- Ls, <- Lp at 1. rewrite <- Lp.
    erewrite find_loop_eq; eauto. unfold pre, suf. now rewrite firstn_skipn.
Qed.

Lemma text_find_after_spec data needle rest start : no_nul needle -> needle <> [] -> 0 <= start ->
  exists r, text_find_after (map Some data ++ Some NUL :: rest) needle start (len data) = Ok r
  /\ ((exists i, start <= i /\ occurs_at needle data i /\ r = i + len needle
        /\ (forall j, start <= j -> occurs_at needle data j -> i <= j))
      \/ (r = -1 /\ forall j, start <= j -> ~ occurs_at needle data j)).
Proof.
  intros Hn Hne Hs. rewrite text_find_after_eq by auto. eexists. split; [reflexivity|].
  assert (Pos : 0 < len needle) by (destruct needle; [easy|llia]).
  destruct (len data <=? start) eqn:E.
  { right. split; auto. intros j Hj (a & b & -> & <-). llia. }
  assert (Lp : len (firstn (Z.to_nat start) data) = start) by (rewrite len_firstn; lia).
  destruct (strstr (skipn (Z.to_nat start) data) needle) as [n|] eqn:F.
  - left. apply strstr_some in F as ((a & b & Eq & Ln) & Min). exists (start + Z.of_nat n).
    split; [lia|]. split; [|split; [reflexivity|]].
    + exists (firstn (Z.to_nat start) data ++ a), b. split.
      * rewrite <- app_assoc, <- Eq. now rewrite firstn_skipn.
      * rewrite len_app, Lp. unfold len at 1. lia.
    + intros j Hj (a' & b' & Ed & La).
      specialize (Min (skipn (Z.to_nat start) a') b').
      assert (H : (n <= length (skipn (Z.to_nat start) a'))%nat).
      { apply Min. rewrite Ed, skipn_app. unfold len in La.
        replace (Z.to_nat start - length a')%nat with O by lia. reflexivity. }
      rewrite skipn_length in H. unfold len in La. lia.
  - right. split; auto. intros j Hj (a' & b' & Ed & La).
    rewrite strstr_none in F. apply (F (skipn (Z.to_nat start) a') b').
    rewrite Ed, skipn_app. unfold len in La.
    replace (Z.to_nat start - length a')%nat with O by lia. reflexivity.
Qed.

(** ** string_isalnum *)
Lemma isalnum_spec c : isalnum c = true <-> alphanumeric c.
Proof.
  assert (H : forallb (fun c => eqb (isalnum c) (is_delim (L "0123456789ABCDEFGHIJKLMNOPQRSTUVWXYZabcdefghijklmnopqrstuvwxyz") c)) all_bytes = true)
    by (vm_compute; reflexivity).
  rewrite forallb_forall in H. specialize (H c (all_bytes_in c)). apply eqb_prop in H. rewrite H.
  apply is_delim_in.
Qed.

Lemma isalnum_loop_eq s pre rest b : b = map Some (pre ++ s) ++ rest ->
  isalnum_loop (length s) (len pre) b = Ok (forallb isalnum s).
Proof.
  revert pre; induction s as [|c s IH]; intros pre E; [reflexivity|].
  cbn [length isalnum_loop forallb].
  replace (rd b (len pre)) with (Ok c).
  2:{ subst b. appn. rewrite rd_at by now rewrite len_map. reflexivity. }
  cbn [bind]. destruct (isalnum c); [|reflexivity].
  replace (len pre + 1) with (len (pre ++ [c])) by llia.
  rewrite IH; auto. subst b. now appn.
Qed.

Lemma string_isalnum_spec s rest : no_nul s ->
  exists r, string_isalnum (cs s ++ rest) = Ok r
            /\ (r = true <-> s <> [] /\ Forall alphanumeric s).
Proof.
  intros Hn. destruct s as [|c s].
  - exists false. split; [reflexivity|]. split; [easy|]. now intros [].
  - unfold string_isalnum. change (cs (c :: s) ++ rest) with ([] ++ Some c :: (cs s ++ rest)) at 1.
    rewrite rd_at by reflexivity. cbn [bind]. pose proof Hn as Hn'. apply no_nul_cons in Hn' as [Hc _].
    rewrite ceq_neq by auto. rewrite strlen_cs by auto. cbn [bind]. rewrite to_nat_len.
    change 0 with (len (@nil ascii)). erewrite isalnum_loop_eq.
    2:{ unfold cs. appn. reflexivity. }
    eexists. split; [reflexivity|]. rewrite forallb_forall, Forall_forall.
    split.
    + intros H. split; [easy|]. intros x I. now apply isalnum_spec, H.
    + intros [_ H] x I. now apply isalnum_spec, H.
Qed.

(** ** md5sum *)
Lemma hex2_len c : len (hex2 c) = 2.
Proof. reflexivity. Qed.

Lemma hex2_text c : hex2 c = hex_text [c].
Proof. all_ascii c; vm_compute; reflexivity. Qed.
Lemma hex_text_cons c s : hex_text (c :: s) = hex2 c ++ hex_text s.
Proof. rewrite hex2_text. reflexivity. Qed.
Lemma hex_text_len s : len (hex_text s) = 2 * len s.
Proof. induction s; [reflexivity|]. rewrite hex_text_cons, len_app, hex2_len, IHs. llia. Qed.
Lemma hex_text_app a b : hex_text (a ++ b) = hex_text a ++ hex_text b.
Proof. induction a; cbn [app]; auto. now rewrite !hex_text_cons, IHa, app_assoc. Qed.
Lemma hex_text_no_nul s : no_nul (hex_text s).
Proof.
  induction s; [constructor|]. rewrite hex_text_cons. apply no_nul_app. split; auto.
  all_ascii a; apply no_nul_dec_b; vm_compute; reflexivity.
Qed.

Lemma md5_feed_eq s pre rest b fuel : b = map Some (pre ++ s) ++ rest ->
  (Z.of_nat fuel > len s / 512) -> md5_feed fuel b (len pre) (len s) = Ok s.
Proof.
  revert s pre; induction fuel as [|f IH]; intros s pre E Hf.
  - lens. lia.
  - cbn [md5_feed]. destruct (0 <? len s) eqn:En.
    2:{ destruct s; [reflexivity|llia]. }
    destruct (512 <? len s) eqn:E5.
    + set (c := firstn 512 s). set (s' := skipn 512 s).
      assert (Es : s = c ++ s') by (unfold c, s'; now rewrite firstn_skipn).
      assert (Lc : len c = 512) by (unfold c; rewrite len_firstn; lia).
      assert (Ls : len s' = len s - 512) by (unfold s'; rewrite len_skipn; lia).
      replace (slice b (len pre) 512) with (Ok (map Some c)).
      2:{ subst b. rewrite Es. appn. rewrite slice_ok; [reflexivity| |]; rewrite len_map; auto. }
      cbn [bind]. rewrite defined_bytes_map. cbn [bind].
      replace (len pre + 512) with (len (pre ++ c)) by llia. rewrite <- Ls.
      rewrite IH with (s := s').
      * cbn [bind]. now rewrite <- Es.
      * subst b. rewrite Es. now appn.
      * rewrite Ls. replace (len s - 512) with (len s + (-1) * 512) by lia. rewrite Z.div_add by lia. lia.
    + replace (slice b (len pre) (len s)) with (Ok (map Some s)).
      2:{ subst b. appn. rewrite slice_ok; [reflexivity| |]; rewrite len_map; auto. }
      cbn [bind]. rewrite defined_bytes_map. cbn [bind].
      assert (R : md5_feed f b (len pre + 512) (len s - 512) = Ok []).
      { destruct f; cbn [md5_feed]; replace (0 <? len s - 512) with false by lia; reflexivity. }
      rewrite R. cbn [bind]. now rewrite app_nil_r.
Qed.

Lemma md5_feed_neg b off n fuel : n <= 0 -> md5_feed fuel b off n = Ok [].
Proof. intros H. destruct fuel; cbn [md5_feed]; replace (0 <? n) with false by lia; reflexivity. Qed.

Lemma md5_hex_eq d done b x y : 
  b = map Some (hex_text done) ++ x :: y -> 2 * len d <= len y ->
  (d = [] -> x = Some NUL) ->
  exists r, md5_hex (len done) d b = Ok (cs (hex_text (done ++ d)) ++ r)
   /\ length (cs (hex_text (done ++ d)) ++ r) = length b.
Proof.
  revert done b x y; induction d as [|c d IH]; intros done b x y E Hl Hx.
  - cbn [md5_hex]. rewrite Hx in E by auto. rewrite app_nil_r. exists y. subst b. unfold cs. appn. auto.
  - cbn [md5_hex].
    destruct y as [|y1 y]; [llia|]. destruct y as [|y2 y]; [llia|].
    assert (W : strcpy b (2 * len done) (hex2 c)
            = Ok (map Some (hex_text (done ++ [c])) ++ Some NUL :: y)).
    { unfold strcpy. subst b.
      change (x :: y1 :: y2 :: y) with ([x; y1; y2] ++ y). rewrite write_at_app.
      - rewrite hex_text_app. unfold cs. appn. rewrite <- hex2_text. reflexivity.
      - rewrite len_map, hex_text_len. reflexivity.
      - reflexivity. }
    rewrite W. cbn [bind]. replace (len done + 1) with (len (done ++ [c])) by llia.
    destruct (IH (done ++ [c]) _ (Some NUL) y eq_refl) as (r & Er & Lr); [llia|auto|].
    exists r. rewrite Er. rewrite <- !app_assoc in *. cbn [app] in *. split; [reflexivity|].
    rewrite Lr. subst b. rewrite !app_length, !map_length. cbn [length].
    rewrite hex_text_app, app_length, <- hex2_text. cbn. lia.
Qed.

(** [data] is what the digest is fed: the given [n] bytes, or nothing. *)
Lemma md5sum_feed pre data rest n : n = len data \/ (n <= 0 /\ data = []) ->
  md5_feed (Z.to_nat (n / 512 + 1)) (map Some (pre ++ data) ++ rest) (len pre) n = Ok data.
Proof.
  intros [-> | [Hn ->]]; [|now apply md5_feed_neg].
  eapply md5_feed_eq; eauto. pose proof (len_nonneg _ data). lia.
Qed.

Lemma md5sum_eq md5 out data n rest pre :
  length (md5 data) = 16%nat -> n = len data \/ (n <= 0 /\ data = []) -> 129 <= len out ->
  exists r, md5sum md5 out (map Some (pre ++ data) ++ rest) (len pre) n
      = Ok (cs (hex_text (md5 data)) ++ r ++ Some NUL :: skipn 129 out) /\ length r = 95%nat.
Proof.
  intros Hm Hn Ho. unfold md5sum. change (EVP_MAX_MD_SIZE * 2 + 1) with 129.
  change (EVP_MAX_MD_SIZE * 2) with 128.
  change (malloc 129) with ([] ++ None :: malloc 128). rewrite wr_at by reflexivity. cbn [bind app].
  rewrite md5sum_feed by auto. cbn [bind].
  destruct (md5_hex_eq (md5 data) [] (Some NUL :: malloc 128) (Some NUL) (malloc 128)) as (r & E & Lr); auto.
  { unfold len at 1. rewrite Hm, len_malloc. lia. }
  change (len (@nil ascii)) with 0 in E. cbn [app] in E, Lr. rewrite E. cbn [bind].
  assert (Lh : length (hex_text (md5 data)) = 32%nat).
  { pose proof (hex_text_len (md5 data)) as H. unfold len in H. rewrite Hm in H. lia. }
  rewrite app_length, cs_length, Lh in Lr. change (length (Some NUL :: malloc 128)) with 129%nat in Lr.
  destruct r as [|z r _] using rev_ind; [cbn [length] in Lr; lia|].
  rewrite app_length in Lr. cbn [length] in Lr.
  assert (H128 : length (cs (hex_text (md5 data)) ++ r) = 128%nat) by (rewrite app_length, cs_length; lia).
  exists r. split; [|lia]. rewrite (app_assoc _ r [z]).
  assert (Eo : out = [] ++ firstn 128 out ++ skipn 128 out) by (cbn [app]; now rewrite (firstn_skipn 128 out)).
  set (m := cs (hex_text (md5 data)) ++ r) in *.
  replace (memcpy out 0 (m ++ [z]) 0 128) with (Ok (m ++ skipn 128 out)).
  2:{ rewrite Eo at 2. change (m ++ [z]) with ([] ++ m ++ [z]).
      change 0 with (len (@nil (option ascii))). symmetry. apply memcpy_ok.
      - unfold len. rewrite H128. reflexivity.
      - rewrite firstn_length. unfold len in Ho. lia. }
  cbn [bind app].
  destruct (skipn 128 out) as [|w q] eqn:Es.
  { apply (f_equal (@length _)) in Es. rewrite skipn_length in Es. cbn [length] in Es. unfold len in Ho. lia. }
  rewrite wr_at by (unfold len; rewrite H128; reflexivity).
  unfold m. rewrite <- app_assoc. f_equal. f_equal. f_equal. f_equal.
  rewrite <- (firstn_skipn 128 out), Es. rewrite skipn_app.
  assert (L128 : length (firstn 128 out) = 128%nat) by (rewrite firstn_length; unfold len in Ho; lia).
  rewrite skipn_all2 by lia. rewrite L128. reflexivity.
Qed.

Lemma md5sum_oob md5 out data n rest pre :
  length (md5 data) = 16%nat -> n = len data \/ (n <= 0 /\ data = []) -> len out < 129 ->
  md5sum md5 out (map Some (pre ++ data) ++ rest) (len pre) n = UB OobWrite.
Proof.
  intros Hm Hn Ho. unfold md5sum. change (EVP_MAX_MD_SIZE * 2 + 1) with 129.
  change (EVP_MAX_MD_SIZE * 2) with 128.
  change (malloc 129) with ([] ++ None :: malloc 128). rewrite wr_at by reflexivity. cbn [bind app].
  rewrite md5sum_feed by auto. cbn [bind].
  destruct (md5_hex_eq (md5 data) [] (Some NUL :: malloc 128) (Some NUL) (malloc 128)) as (r & E & Lr); auto.
  { unfold len at 1. rewrite Hm, len_malloc. lia. }
  change (len (@nil ascii)) with 0 in E. cbn [app] in E, Lr. rewrite E. cbn [bind].
  set (m := cs (hex_text (md5 data)) ++ r) in *.
  change (length (Some NUL :: malloc 128)) with 129%nat in Lr.
  unfold memcpy. assert (Sm : exists l, slice m 0 128 = Ok l /\ len l = 128).
  { unfold slice. replace (len m) with 129 by (unfold len; now rewrite Lr). cbn [Z.ltb Z.leb andb].
    eexists. split; [reflexivity|]. rewrite len_firstn, len_skipn. unfold len. rewrite Lr. reflexivity. }
  destruct Sm as (l & -> & Ll). cbn [bind].
  destruct (Z.leb_spec 128 (len out)).
  - rewrite write_at_0 by lia. cbn [bind]. apply wr_oob. rewrite len_app, len_skipn.
    unfold len in *. lia.
  - rewrite write_at_oob by lia. reflexivity.
Qed.

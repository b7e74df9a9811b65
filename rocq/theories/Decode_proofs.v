(** Decode_proofs.v - lemmas about the multipart decoder on any body (/repo/ws.c:165-277). *)
From Verif Require Import WsMultipart WsRequest Lemmas StringUtils_proofs WsMultipart_proofs JsonUtils_proofs WsRequest_proofs ReqHeap_proofs Defined_proofs SpecMultipart SpecReq SpecDecode Spec.

Local Notation blank2 := SpecMultipart.blank_line.

(** ** Searching *)
Lemma first_of_strstr mark s a b : first_of mark s a b -> strstr s mark = Some (length a).
Proof.
  intros (E & M). destruct (strstr s mark) as [k|] eqn:F.
  - apply strstr_some in F as ((a' & b' & E' & <-) & M'). f_equal. pose proof (M a' b' E'). pose proof (M' a b E). lia.
  - exfalso. now apply (proj1 (strstr_none _ _) F a b).
Qed.
Lemma first_of_unique mark s a b a' b' : first_of mark s a b -> first_of mark s a' b' -> a = a' /\ b = b'.
Proof.
  intros F F'. pose proof (first_of_strstr _ _ _ _ F) as E. rewrite (first_of_strstr _ _ _ _ F') in E. injection E as E.
  destruct F as (Es & _), F' as (Es' & _). rewrite Es in Es'. apply app_eq_len in Es' as [-> Es']; [|auto]. apply app_inv_head in Es'. auto.
Qed.
Lemma first_of_dec mark s : (exists a b, first_of mark s a b) \/ ~ holds mark s.
Proof.
  destruct (strstr s mark) as [k|] eqn:F.
  - left. apply strstr_some in F as ((a & b & E & <-) & M). exists a, b. split; auto.
  - right. intros (a & b & E). now apply (proj1 (strstr_none _ _) F a b).
Qed.
Lemma first_of_holds mark s a b : first_of mark s a b -> holds mark s.
Proof. intros (E & _). now exists a, b. Qed.
(** The search of the code, in a text that is followed by a NUL. *)
Lemma find_text mark s rest a b : no_nul mark -> mark <> [] -> first_of mark s a b ->
  text_find_after (map Some (s ++ NUL :: rest)) mark 0 (len s) = Ok (len a + len mark).
Proof.
  intros Hn Hne F. rewrite map_app. cbn [map]. rewrite text_find_after_eq by (auto; lia). destruct F as (E & M).
  replace (len s <=? 0) with false.
  - cbn [Z.to_nat skipn]. rewrite (first_of_strstr mark s a b) by (now split). unfold len. f_equal.
  - symmetry. apply Z.leb_gt. rewrite E, !len_app. destruct mark; [easy|]. rewrite len_cons. lens. lia.
Qed.
Lemma find_no_text mark s rest : no_nul mark -> mark <> [] -> ~ holds mark s ->
  text_find_after (map Some (s ++ NUL :: rest)) mark 0 (len s) = Ok (-1).
Proof.
  intros Hn Hne F. rewrite map_app. cbn [map]. apply (text_not_found mark [] s (map Some rest)); auto.
Qed.
Lemma find_at mark pre s rest a b : no_nul mark -> mark <> [] -> first_of mark s a b ->
  text_find_after (map Some (pre ++ s) ++ Some NUL :: rest) mark (len pre) (len (pre ++ s)) = Ok (len pre + len a + len mark).
Proof.
  intros Hn Hne (E & M). subst s. apply text_find_here; auto. destruct mark; [easy|]. rewrite !len_app, len_cons. lens. lia.
Qed.
(** ... and among the first [k] positions of any bytes, as many bytes following as the mark needs. *)
Lemma find_within mark t k : mark <> [] -> 0 <= k -> k + len mark <= len t + 1 ->
  (exists a b, first_of mark t a b /\ len a < k /\ text_find_after (map Some t) mark 0 k = Ok (len a + len mark))
  \/ ((forall a b, t = a ++ mark ++ b -> k <= len a) /\ text_find_after (map Some t) mark 0 k = Ok (-1)).
Proof.
  intros Hne Hk Hl.
  assert (G : forall j pre suf, t = pre ++ suf -> (Z.of_nat j + len mark <= len suf + 1) ->
    (exists a b, first_of mark suf a b /\ len a < Z.of_nat j /\ find_loop j (map Some t) mark (len pre) = Ok (len pre + len a + len mark))
    \/ ((forall a b, suf = a ++ mark ++ b -> Z.of_nat j <= len a) /\ find_loop j (map Some t) mark (len pre) = Ok (-1))).
  { induction j as [|j IH]; intros pre suf E Lj.
    - right. split; [intros; lens; lia|reflexivity].
    - cbn [find_loop]. pose proof (match_at_long mark pre suf []) as M. rewrite app_nil_r, <- E in M. rewrite M by (unfold len in *; lia). clear M. cbn [bind].
      destruct (prefixb mark suf) eqn:P.
      + apply prefixb_spec in P as (r & P). left. exists [], r. split; [split; [exact P|intros; cbn; lia]|]. split; [change (len (@nil ascii)) with 0; lia|].
        f_equal. change (len (@nil ascii)) with 0. lia.
      + assert (NP : forall b, suf <> mark ++ b) by (intros b Eb; rewrite (proj2 (prefixb_spec _ _)) in P by eauto; discriminate).
        destruct suf as [|c suf]; [exfalso; change (len (@nil ascii)) with 0 in Lj; destruct mark; [easy|]; rewrite len_cons in Lj; lens; lia|].
        replace (len pre + 1) with (len (pre ++ [c])) by llia. destruct (IH (pre ++ [c]) suf) as [(a & b & (F1 & F2) & La & F3)|(F1 & F2)].
        * now rewrite <- app_assoc.
        * rewrite len_cons in Lj. lia.
        * left. exists (c :: a), b. split; [split; [now rewrite F1|]|].
          { intros [|x a'] b' E'; [now elim (NP b')|]. injection E' as <- E'. specialize (F2 a' b' E'). cbn. lia. }
          split; [rewrite len_cons; lia|]. rewrite F3. f_equal. llia.
        * right. split; [|exact F2]. intros [|x a'] b' E'; [now elim (NP b')|]. injection E' as <- E'. specialize (F1 a' b' E'). rewrite len_cons. lia. }
  destruct (G (Z.to_nat k) [] t eq_refl) as [(a & b & F & La & E)|(F & E)]; [lia| |].
  - left. exists a, b. split; [exact F|]. split; [lia|]. unfold text_find_after. rewrite Z.sub_0_r. exact E.
  - right. split; [intros a b Ea; specialize (F a b Ea); lia|]. unfold text_find_after. rewrite Z.sub_0_r. exact E.
Qed.

(** ** Trimming in place *)
Lemma skip_step k (l : str) c r : skipn k l = c :: r -> skipn (k + 1) l = r.
Proof. intros E. rewrite Nat.add_comm. replace (1 + k)%nat with (k + 1)%nat by lia. rewrite <- skipn_skipn_plus, E. reflexivity. Qed.
Lemma cleared_trim t t' : cleared t t' -> trim (map Some t) = Ok (map Some t') /\ length t' = length t.
Proof.
  intros (lead & core & trail & r & Et & Nn & Bl & Bt & [Hb He] & Ce & Et').
  set (t0 := core ++ trail) in *. assert (E0 : t = lead ++ t0 ++ NUL :: r) by (rewrite Et; unfold t0; now rewrite <- app_assoc).
  assert (Hh : forall c q, t0 = c :: q -> ~ blank c).
  { intros c q E. unfold t0 in E. destruct core as [|x core]; [rewrite Ce in E by reflexivity; discriminate|]. injection E as -> _. eauto. }
  apply no_nul_app in Nn as [Nl N0]. change (core ++ trail) with t0 in N0.
  set (junk := skipn (length t0 + 1) t) in *.
  (* the block after the move *)
  assert (B : exists k, strlen (map Some t) = Ok k /\ lscan (Z.to_nat k) 0 (map Some t) = Ok (len lead)
    /\ (if len lead =? 0 then Ok (map Some t) else
          r0 <- strlen (from (map Some t) (len lead));; b' <- memcpy (map Some t) 0 (map Some t) (len lead) r0;;
          r' <- strlen (from b' (len lead));; wr b' r' NUL) = Ok (map Some (t0 ++ NUL :: junk)) /\ (length t0 + S (length junk) = length t)%nat).
  { exists (len (lead ++ t0)). split; [rewrite E0, app_assoc, as_cs; apply strlen_cs; apply no_nul_app; auto|]. split.
    { rewrite to_nat_len. pose proof (lscan_ok lead t0 [] (map Some (NUL :: r)) (map Some t) Bl Hh) as S. change (len (@nil ascii)) with 0 in S.
      rewrite S; [f_equal; lia|]. rewrite E0. cbn [app]. rewrite (app_assoc lead t0), map_app. reflexivity. }
    assert (Lj : (length t0 + S (length junk) = length t)%nat).
    { unfold junk. rewrite skipn_length, E0, !app_length. cbn [length]. lia. }
    split; [|exact Lj].
    destruct lead as [|c0 l0] eqn:El.
    - change (len (@nil ascii) =? 0) with true. cbv iota. cbn [app] in E0. unfold junk. rewrite E0.
      replace (skipn (length t0 + 1) (t0 ++ NUL :: r)) with r; [reflexivity|]. symmetry. apply (skip_step _ _ NUL).
      rewrite skipn_app, skipn_all, Nat.sub_diag. reflexivity.
    - rewrite <- El in *. assert (Hpos : 0 < len lead) by (rewrite El; llia). replace (len lead =? 0) with false by lia. clear El c0 l0.
      assert (G1 : strlen (from (map Some t) (len lead)) = Ok (len t0)).
      { rewrite E0, map_app, from_app by (now rewrite len_map). rewrite as_cs. now apply strlen_cs. }
      rewrite G1. cbn [bind].
      assert (G2 : memcpy (map Some t) 0 (map Some t) (len lead) (len t0) = Ok (map Some (t0 ++ skipn (length t0) t))).
      { unfold memcpy. replace (slice (map Some t) (len lead) (len t0)) with (Ok (map Some t0)).
        2:{ rewrite E0, !map_app. now rewrite slice_ok by (now rewrite len_map). } cbn [bind].
        rewrite write_at_0 by (rewrite !len_map; unfold len; lia). now rewrite map_length, skipn_map, <- map_app. }
      rewrite G2. cbn [bind].
      assert (D : exists z last, skipn (length t0) (lead ++ t0) = z :: last).
      { destruct (skipn (length t0) (lead ++ t0)) as [|z last] eqn:Q; [|eauto]. apply (f_equal (@length ascii)) in Q. rewrite skipn_length, app_length in Q. cbn in Q. unfold len in Hpos. lia. }
      destruct D as (z & last & D).
      assert (K : skipn (length t0) t = z :: last ++ NUL :: r).
      { rewrite E0, app_assoc, skipn_app, D. replace (length t0 - length (lead ++ t0))%nat with O by (rewrite app_length; lia). reflexivity. }
      assert (Kj : junk = last ++ NUL :: r) by (unfold junk; eapply skip_step; exact K).
      rewrite K. assert (Nd : no_nul (z :: last)) by (rewrite <- D; apply no_nul_skipn, no_nul_app; auto).
      assert (Ll : length (z :: last) = length lead) by (rewrite <- D, skipn_length, app_length; lia).
      assert (G3 : strlen (from (map Some (t0 ++ z :: last ++ NUL :: r)) (len lead)) = Ok (len t0)).
      { change (z :: last ++ NUL :: r) with ((z :: last) ++ NUL :: r). rewrite app_assoc. set (w := t0 ++ z :: last).
        assert (Lw : length w = (length t0 + length lead)%nat) by (unfold w; rewrite app_length, Ll; lia).
        rewrite <- (firstn_skipn (length lead) w). rewrite <- app_assoc, map_app, from_app by (rewrite len_map; unfold len; rewrite firstn_length; lia).
        rewrite as_cs, strlen_cs by (apply no_nul_skipn; unfold w; apply no_nul_app; auto). f_equal. unfold len. rewrite skipn_length. lia. }
      rewrite G3. cbn [bind]. rewrite map_app. cbn [map]. rewrite wr_at by (now rewrite len_map). rewrite Kj. now rewrite (map_app Some t0). }
  destruct B as (k & B1 & B2 & B3 & Lj). unfold trim. rewrite B1. cbn [bind]. rewrite B2. cbn [bind]. rewrite B3. cbn [bind].
  rewrite as_cs, strlen_cs by exact N0. cbn [bind]. rewrite to_nat_len. unfold cs. rewrite <- app_assoc. unfold t0 at 1 2. rewrite rscan_ok by auto. cbn [bind].
  replace (len core - 1 + 1) with (len core) by lia. subst t'.
  change (map Some t0 ++ [Some NUL] ++ map Some junk) with (map Some t0 ++ map Some (NUL :: junk)). unfold t0 at 1. rewrite map_app, <- app_assoc, <- map_app.
  destruct (trail ++ NUL :: junk) as [|z y] eqn:Q; [destruct trail; discriminate|]. cbn [map skipn]. rewrite wr_at by (now rewrite len_map).
  split; [now rewrite (map_app Some core)|]. apply (f_equal (@length ascii)) in Q. rewrite app_length in Q. cbn [length] in Q.
  rewrite app_length. cbn [length]. unfold t0 in Lj. rewrite app_length in Lj. lia.
Qed.
Definition ends (t : str) : Prop := exists q, t = q ++ [NUL].
Lemma ends_app a t : ends t -> ends (a ++ t).
Proof. intros (q & ->). exists (a ++ q). now rewrite app_assoc. Qed.
Lemma ends_cons c t : ends t -> ends (c :: t).
Proof. exact (ends_app [c] t). Qed.
Lemma ends_tail a t : t <> [] -> ends (a ++ t) -> ends t.
Proof.
  intros Ht (q & E). destruct t as [|c t _] using rev_ind; [easy|]. rewrite app_assoc in E. apply app_inj_tail in E as [_ ->]. now exists t.
Qed.
Lemma cleared_ends t t' : ends t -> cleared t t' -> ends t'.
Proof.
  intros H (lead & core & trail & r & Et & _ & _ & _ & _ & _ & ->). apply ends_app.
  destruct (skipn (length (core ++ trail) + 1) t) as [|z y] eqn:Q.
  - destruct trail as [|x trail]; [now exists []|]. cbn [app skipn]. apply ends_cons, ends_app. now exists [].
  - assert (E : ends (z :: y)) by (apply (ends_tail (firstn (length (core ++ trail) + 1) t)); [discriminate|]; now rewrite <- Q, firstn_skipn).
    destruct trail as [|x trail]; cbn [app skipn]; [now apply ends_cons|]. now apply ends_cons, ends_app, ends_cons.
Qed.
Lemma cleared_exists t : In NUL t -> exists t', cleared t t'.
Proof.
  intros H. destruct (first_nul t H) as (s & r & -> & Hs). destruct (exists_trimmed s) as (u & l & w & -> & Bl & Bw & Hu).
  destruct u as [|c u].
  - eexists. exists (l ++ w), [], [], r. cbn [app] in *. rewrite !app_nil_r. split; [reflexivity|]. split; [exact Hs|]. split; [now apply Forall_app|].
    split; [constructor|]. split; [exact Hu|]. split; reflexivity.
  - eexists. exists l, (c :: u), w, r. split; [now rewrite <- !app_assoc|]. split; [exact Hs|]. split; [exact Bl|]. split; [exact Bw|]. split; [exact Hu|]. split; [discriminate|reflexivity].
Qed.
Lemma ends_in t : ends t -> In NUL t.
Proof. intros (q & ->). apply in_or_app. right. now left. Qed.

(** ** The name of a field *)
Lemma chop_seen w rest : exists b, chop_string (map Some w ++ Some NUL :: rest) = Ok b /\ cstr b = Ok (visible w) /\ no_nul (visible w).
Proof.
  destruct (seen_exists w) as (s & Hs & D).
  assert (V : visible w = visible s).
  { destruct D as [->|(r & ->)]; [reflexivity|]. clear. induction s as [|c s IH]; [reflexivity|]. cbn [app visible]. now rewrite IH. }
  assert (E : exists rest', map Some w ++ Some NUL :: rest = cs s ++ rest').
  { destruct D as [->|(r & ->)]; [exists rest; unfold cs; now rewrite <- app_assoc|]. rewrite as_cs, <- app_assoc. eauto. }
  destruct E as (rest' & ->). rewrite V. clear V.
  assert (K : Forall chopped (visible s) /\ (s = visible s \/ exists c q, s = visible s ++ c :: q /\ ~ chopped c)).
  { clear. induction s as [|c s IH]; [split; [constructor|now left]|]. cbn [visible]. destruct ((34 <? code c) && (code c <? 128)) eqn:E.
    - destruct IH as (H1 & [H2|(d & q & H2 & H3)]); (split; [constructor; [unfold chopped; lia|exact H1]|]).
      + left. now rewrite <- H2.
      + right. exists d, q. split; [cbn [app]; now rewrite <- H2|exact H3].
    - split; [constructor|]. right. exists c, s. split; [reflexivity|]. unfold chopped. lia. }
  destruct K as (K1 & [K2|(c & q & K2 & K3)]).
  - set (vs := visible s) in *. clearbody vs. subst s. rewrite chop_none by auto. eexists. split; [reflexivity|]. split; [now apply cstr_cs|auto].
  - set (vs := visible s) in *. clearbody vs. subst s. rewrite chop_cut by auto. apply no_nul_app in Hs as [Hs _].
    eexists. split; [reflexivity|]. split; [now apply cstr_cs|exact Hs].
Qed.

(** ** One part *)
Lemma seen_unique s t t' : seen_as s t -> seen_as s t' -> t = t'.
Proof. intros H H'. rewrite <- (upto_seen _ _ H). exact (upto_seen _ _ H'). Qed.
Ltac same := repeat match goal with
  | H : seen_as ?s ?a, H' : seen_as ?s ?b |- _ => first [constr_eq a b; clear H' | let E := fresh in pose proof (seen_unique s a b H H') as E; subst b]
  | H : first_of ?m ?s ?a ?b, H' : first_of ?m ?s ?c ?d |- _ =>
      first [constr_eq a c; constr_eq b d; clear H' | let E := fresh in let E' := fresh in destruct (first_of_unique m s a b c d H H') as [E E']; subst c; subst d]
  end.
Lemma app_two (u v : str) a b c d : u ++ [a; b] = v ++ [c; d] -> u = v.
Proof. intros E. change (u ++ [a] ++ [b] = v ++ [c] ++ [d]) in E. rewrite !app_assoc in E. apply app_inj_tail in E as [E _]. now apply app_inj_tail in E as [E _]. Qed.
(** A blank line in the part is one in the block. *)
Lemma first_in_part m (p st c w : str) : first_of m p c w -> first_of m (p ++ st) c (w ++ st).
Proof.
  intros (E & M). split; [rewrite E; now rewrite <- !app_assoc|]. intros a b Ea.
  destruct (le_lt_dec (length c) (length a)) as [|G]; [auto|].
  assert (Lp : length p = (length c + length m + length w)%nat) by (rewrite E, !app_length; lia).
  apply (M a (firstn (length p - length a - length m) b)).
  assert (Q : firstn (length p) (p ++ st) = p) by (rewrite firstn_app, firstn_all, Nat.sub_diag, firstn_O; apply app_nil_r).
  rewrite <- Q at 1. rewrite Ea. rewrite firstn_app, firstn_all2 by lia. f_equal. rewrite firstn_app, firstn_all2 by lia. reflexivity.
Qed.
Lemma gives_det n t p st out o1 o2 : t = p ++ st -> part_gives n t p out o1 -> part_gives n t p out o2 -> o1 = o2.
Proof.
  intros Et H1 H2. assert (NB : forall c w, first_of blank2 p c w -> ~ (forall a d, t = a ++ blank2 ++ d -> len p <= len a)).
  { intros c w (E & _) N. specialize (N c (w ++ st)). rewrite Et, E in N at 1. rewrite <- !app_assoc in N. specialize (N eq_refl).
    rewrite E, !len_app in N. change (len blank2) with 4 in N. lens. lia. }
  destruct H1 as [T1 S1 N1|T1 a1 S1 F1|T1 a1 b1 m1 S1 F1 B1 P1 X1 L1|T1 a1 b1 m1 c1 v1 x1 y1 V1 S1 F1 B1 P1 X1 K1 U1 L1];
  destruct H2 as [T2 S2 N2|T2 a2 S2 F2|T2 a2 b2 m2 S2 F2 B2 P2 X2 L2|T2 a2 b2 m2 c2 v2 x2 y2 V2 S2 F2 B2 P2 X2 K2 U2 L2];
  pose proof (seen_unique t T1 T2 S1 S2) as E; subst T2; try reflexivity;
  try (exfalso; match goal with H : ~ holds name_mark T1, F : first_of name_mark T1 _ _ |- _ => apply H; eapply first_of_holds; exact F end);
  destruct (first_of_unique _ _ _ _ _ _ F1 F2) as [E1 E2]; try subst a2; try subst b2; try congruence.
  - exfalso. eapply NB; eauto.
  - exfalso. eapply NB; eauto.
  - destruct (first_of_unique _ _ _ _ _ _ K1 K2) as [E1 E2]. apply app_two in E2. subst v2. pose proof (seen_unique _ _ _ U1 U2) as ->.
    rewrite P1 in P2. apply app_inv_head in P2. apply app_inv_head in P2. now subst m2.
Qed.

Lemma part_exact e f n old p out room : mp_md5_size e <= 128 -> len (laid p old) = n + 1 -> ends (laid p old) -> len p + 4 <= n -> no_nul out -> len (cs out ++ room) = n + 1 ->
  (exists out' room', part_gives n (laid p old) p out out' /\ no_nul out' /\ len (cs out' ++ room') = n + 1
     /\ part_parse e f (cs out ++ room) (map Some (laid p old)) (len p) = Ok (cs out' ++ room', f))
  \/ ((forall out', ~ part_gives n (laid p old) p out out') /\ undefined (part_parse e f (cs out ++ room) (map Some (laid p old)) (len p))).
Proof.
  intros Hm Ll He Lp No Lr. unfold laid in *. set (st := skipn (length p) old) in *. clearbody st. clear old.
  destruct (first_nul (p ++ st) (ends_in _ He)) as (T & r & Et & NT).
  assert (ST : seen_as (p ++ st) T) by (split; [exact NT|right; eauto]).
  assert (En : strlen (map Some (p ++ st)) = Ok (len T)) by (rewrite Et, as_cs; now apply strlen_cs).
  unfold part_parse. rewrite En. cbn [bind].
  destruct (first_of_dec FORM_DATA_NAME T) as [(a & b & F)|NF].
  2:{ left. exists out, room. split; [now apply (pg_nameless _ _ _ _ T)|]. split; [auto|]. split; [auto|].
      rewrite Et. rewrite find_no_text by (auto; try discriminate; apply no_nul_dec_b; reflexivity). reflexivity. }
  assert (Es : text_find_after (map Some (p ++ st)) FORM_DATA_NAME 0 (len T) = Ok (len a + 17)).
  { rewrite Et. now rewrite (find_text _ _ _ a b) by (auto; try discriminate; apply no_nul_dec_b; reflexivity). }
  rewrite Es. cbn [bind]. replace (len a + 17 <? 1) with false by (lens; lia).
  pose proof F as (ET & _).
  assert (Em : strlen (from (map Some (p ++ st)) (len a + 17)) = Ok (len b)).
  { rewrite Et, ET. rewrite <- !app_assoc, app_assoc, map_app. rewrite from_app by (rewrite len_map, len_app; reflexivity).
    rewrite as_cs. apply strlen_cs. rewrite ET in NT. apply no_nul_app in NT as [_ NT]. now apply no_nul_app in NT as [_ NT]. }
  rewrite Em. cbn [bind]. destruct b as [|b0 b].
  { left. exists out, room. split; [now apply (pg_cut _ _ _ _ T a)|]. auto. }
  replace (len (b0 :: b) <=? 0) with false by (rewrite len_cons; lens; lia).
  destruct (Z_lt_dec (len p) (len a + 17)) as [G|G].
  { right. split.
    - assert (NP : forall m, p <> a ++ name_mark ++ m) by (intros m E; rewrite E, !len_app in G; change (len name_mark) with 17 in G; lens; lia).
      intros o H. destruct H as [T1 S1 N1|T1 a1 S1 F1|T1 a1 b1 m1 S1 F1 B1 P1 X1 L1|T1 a1 b1 m1 c1 v1 x1 y1 V1 S1 F1 B1 P1 X1 K1 U1 L1];
        pose proof (seen_unique _ _ _ ST S1) as <-.
      + apply N1. eapply first_of_holds. exact F.
      + destruct (first_of_unique _ _ _ _ _ _ F F1). discriminate.
      + destruct (first_of_unique _ _ _ _ _ _ F F1) as [<- _]. now apply (NP m1).
      + destruct (first_of_unique _ _ _ _ _ _ F F1) as [<- _]. now apply (NP m1).
    - unfold memcpy at 1. unfold slice. replace (len p - (len a + 17) <? 0) with true by lia. cbn [bind]. eexists. reflexivity. }
  assert (Ep : exists name, p = a ++ FORM_DATA_NAME ++ name).
  { exists (skipn (length (a ++ FORM_DATA_NAME)) p). rewrite app_assoc.
    assert (Q : firstn (length (a ++ FORM_DATA_NAME)) p = a ++ FORM_DATA_NAME).
    { assert (Q1 : firstn (length (a ++ FORM_DATA_NAME)) (p ++ st) = a ++ FORM_DATA_NAME).
      { rewrite Et, ET. rewrite (app_assoc a), <- app_assoc. rewrite firstn_app, firstn_all, Nat.sub_diag, firstn_O. apply app_nil_r. }
      rewrite firstn_app in Q1. replace (length (a ++ FORM_DATA_NAME) - length p)%nat with O in Q1.
      - now rewrite firstn_O, app_nil_r in Q1.
      - rewrite app_length. change (length FORM_DATA_NAME) with 17%nat. unfold len in G. lia. }
    rewrite <- Q at 1. symmetry. apply firstn_skipn. }
  destruct Ep as (name & Ep).
  assert (Lname : len p - (len a + 17) = len name) by (rewrite Ep, !len_app; change (len FORM_DATA_NAME) with 17; lia).
  rewrite Lname.
  assert (E1 : memcpy (calloc (len p + 1)) 0 (map Some (p ++ st)) (len a + 17) (len name) = Ok (map Some name ++ calloc (len p - len name + 1))).
  { rewrite Ep at 2. rewrite <- !app_assoc, app_assoc. replace (len a + 17) with (len (a ++ FORM_DATA_NAME)) by (rewrite len_app; reflexivity). apply to_calloc. lens. lia. }
  rewrite E1. cbn [bind]. rewrite calloc_cs by (rewrite <- Lname; lens; lia).
  rewrite cs_nil. cbn [app]. rewrite wr_at by (now rewrite len_map). cbn [bind].
  destruct (chop_seen name (calloc (len p - len name + 1 - 1))) as (fb & Ef & Cf & Nf). rewrite Ef. cbn [bind]. rewrite Cf. cbn [bind].
  assert (INV : forall o, part_gives n (p ++ st) p out o -> len (opened out) <= n /\ ((forall c d, p ++ st = c ++ blank2 ++ d -> len p <= len c)
    \/ (~ holds filename_mark T /\ exists c v x y value, first_of blank2 p c (v ++ [x; y]) /\ seen_as v value /\ len (opened out ++ visible name ++ L "=" ++ value) <= n))).
  { intros o H. destruct H as [T1 S1 N1|T1 a1 S1 F1|T1 a1 b1 m1 S1 F1 B1 P1 X1 L1|T1 a1 b1 m1 c1 v1 x1 y1 V1 S1 F1 B1 P1 X1 K1 U1 L1];
      pose proof (seen_unique _ _ _ ST S1) as <-.
    - exfalso. apply N1. eapply first_of_holds. exact F.
    - destruct (first_of_unique _ _ _ _ _ _ F F1). discriminate.
    - auto.
    - destruct (first_of_unique _ _ _ _ _ _ F F1) as [<- _]. rewrite Ep in P1 at 1. apply app_inv_head in P1. apply app_inv_head in P1. subst m1.
      split; [rewrite len_app in L1; lens; lia|]. right. split; [exact X1|]. exists c1, v1, x1, y1, V1. auto. }
  assert (EA : (len (opened out) <= n /\ no_nul (opened out) /\ exists room1, (if 0 <? len out then strcat (cs out ++ room) (L "&") else Ok (cs out ++ room)) = Ok (cs (opened out) ++ room1)
                  /\ len room1 = n - len (opened out))
     \/ (n < len (opened out) /\ (if 0 <? len out then strcat (cs out ++ room) (L "&") else Ok (cs out ++ room)) = UB OobWrite)).
  { rewrite len_app, len_cs in Lr. destruct out as [|o0 out].
    - left. cbn [opened]. change (len (@nil ascii)) with 0 in *. split; [lens; lia|]. split; [constructor|]. exists room. split; [reflexivity|lia].
    - replace (0 <? len (o0 :: out)) with true by (rewrite len_cons; lens; lia). unfold opened.
      destruct (Z_le_dec 1 (len room)) as [Gr|Gr].
      + left. rewrite strcat_cs by (auto; change (len (L "&")) with 1; lia). rewrite len_app. change (len (L "&")) with 1. split; [lia|].
        split; [apply no_nul_app; split; [auto|apply no_nul_dec_b; reflexivity]|]. eexists. split; [reflexivity|]. rewrite len_skipn. change (Z.of_nat (length (L "&"))) with 1. lia.
      + right. rewrite strcat_oob by (auto; change (len (L "&")) with 1; lia). rewrite len_app. change (len (L "&")) with 1. split; [lia|reflexivity]. }
  assert (LB : len blank2 = 4) by reflexivity.
  destruct (find_within blank2 (p ++ st) (len p)) as [(c & d & FB & Lc & EB)|(NB & EB)]; [discriminate|lens; lia|rewrite LB; lia| |];
    change (CRLF ++ CRLF) with blank2; rewrite EB; cbn [bind]; rewrite strlen_cs by exact No; cbn [bind].
  2:{ destruct EA as [(Lo & Nop & room1 & -> & L1)|(Lo & ->)]; cbn [bind].
      - left. exists (opened out), room1. split; [now apply (pg_headers _ _ _ _ T a (b0 :: b) name)|]. split; [exact Nop|]. split; [rewrite len_app, len_cs; lia|].
        destruct (first_of_dec FILENAME T) as [(y & z & FF)|NFF]; [rewrite Et, (find_text _ _ _ y z)|rewrite Et, find_no_text]; auto; try discriminate; apply no_nul_dec_b; reflexivity.
      - right. split; [|eexists; reflexivity]. intros o H. destruct (INV o H). lia. }
  destruct EA as [(Lo & Nop & room1 & -> & L1)|(Lo & ->)]; cbn [bind].
  2:{ right. split; [|eexists; reflexivity]. intros o H. destruct (INV o H). lia. }
  destruct (first_of_dec FILENAME T) as [(y & z & FF)|NFF].
  { right. assert (ESF : text_find_after (map Some (p ++ st)) FILENAME 0 (len T) = Ok (len y + len FILENAME))
      by (rewrite Et; apply (find_text _ _ _ y z); auto; try discriminate; apply no_nul_dec_b; reflexivity).
    rewrite ESF. cbn [bind].
    replace (0 <? len c + len blank2) with true by (lens; lia). replace (0 <? len y + len FILENAME) with true by (change (len FILENAME) with 12; lens; lia).
    split; [|apply save_small; exact Hm]. intros o H. destruct (INV o H) as (_ & [X|(X & _)]).
    - destruct FB as (FB & _). specialize (X c d FB). lia.
    - apply X. eapply first_of_holds. exact FF. }
  assert (ESF : text_find_after (map Some (p ++ st)) FILENAME 0 (len T) = Ok (-1)) by (rewrite Et, find_no_text; auto; try discriminate; apply no_nul_dec_b; reflexivity).
  rewrite ESF. cbn [bind]. replace (0 <? len c + len blank2) with true by (lens; lia). change (0 <? -1) with false. cbv iota.
  destruct (Z_lt_dec (len p) (len c + 6)) as [Gc|Gc].
  { right. split.
    - intros o H. destruct (INV o H) as (_ & [X|(_ & c1 & v & x & y & value & K & _)]).
      + destruct FB as (FB & _). specialize (X c d FB). lia.
      + pose proof (first_in_part _ _ st _ _ K) as K'. destruct (first_of_unique _ _ _ _ _ _ FB K') as [<- _]. destruct K as (K & _).
        rewrite K, !len_app, LB in Gc. change (len [x; y]) with 2 in Gc. lens. lia.
    - unfold memcpy at 1. unfold slice. replace (len p - (len c + len blank2) - 2 <? 0) with true by lia. cbn [bind]. eexists. reflexivity. }
  (* the value *)
  assert (EV : exists v x y, p = c ++ blank2 ++ v ++ [x; y]).
  { destruct FB as (FB & _). assert (Q : firstn (length (c ++ blank2)) p = c ++ blank2).
    { assert (Q1 : firstn (length (c ++ blank2)) (p ++ st) = c ++ blank2) by (rewrite FB, app_assoc, firstn_app, firstn_all, Nat.sub_diag, firstn_O; apply app_nil_r).
      rewrite firstn_app in Q1. replace (length (c ++ blank2) - length p)%nat with O in Q1; [now rewrite firstn_O, app_nil_r in Q1|].
      rewrite app_length. change (length blank2) with 4%nat. unfold len in Gc. lia. }
    set (w := skipn (length (c ++ blank2)) p). assert (Ew : p = c ++ blank2 ++ w) by (rewrite app_assoc, <- Q at 1; symmetry; apply firstn_skipn).
    assert (Lw : (2 <= length w)%nat) by (apply (f_equal len) in Ew; rewrite !len_app, LB in Ew; unfold len in *; lia).
    clearbody w. destruct w as [|y w _] using rev_ind; [cbn in Lw; lia|]. destruct w as [|x w _] using rev_ind; [cbn in Lw; lia|].
    exists w, x, y. rewrite Ew. now rewrite <- app_assoc. }
  destruct EV as (v & x & y & EV).
  assert (K : first_of blank2 p c (v ++ [x; y])).
  { split; [exact EV|]. intros a' b' E'. destruct FB as (_ & M). apply (M a' (b' ++ st)). rewrite E' at 1. now rewrite <- !app_assoc. }
  assert (Lv : len p - (len c + len blank2) - 2 = len v) by (rewrite EV, !len_app; change (len [x; y]) with 2; lia). rewrite Lv.
  assert (E9 : memcpy (calloc (len p + 1)) 0 (map Some (p ++ st)) (len c + len blank2) (len v) = Ok (map Some v ++ calloc (len p - len v + 1))).
  { rewrite EV at 2. rewrite <- !app_assoc, (app_assoc c). rewrite <- len_app. apply to_calloc. lens. lia. }
  rewrite E9. cbn [bind]. rewrite calloc_cs by (lens; lia). destruct (seen_exists v) as (value & Hv).
  assert (E10 : cstr (map Some v ++ cs [] ++ calloc (len p - len v + 1 - 1)) = Ok value).
  { destruct Hv as (Nv & [->|(r' & ->)]); [apply (cstr_map value); exact Nv|]. rewrite map_app, <- app_assoc. cbn [map app]. now apply cstr_map. }
  rewrite E10. cbn [bind]. set (new := visible name ++ L "=" ++ value).
  assert (Nn : no_nul new) by (unfold new; apply no_nul_app; split; [exact Nf|]; apply no_nul_app; split; [apply no_nul_dec_b; reflexivity|apply Hv]).
  destruct (Z_le_dec (len (opened out ++ new)) n) as [Gn|Gn]; rewrite len_app in Gn.
  - left. exists (opened out ++ new). rewrite strcat_cs by (auto; lia). eexists. cbn [bind]. split; [apply (pg_value _ _ _ _ T a (b0 :: b) name c v x y value); auto; [discriminate|]|].
    { fold new. rewrite len_app. exact Gn. }
    split; [apply no_nul_app; auto|]. split; [|reflexivity]. rewrite !len_app, len_cs, len_app, len_skipn. unfold len in *. lia.
  - right. rewrite strcat_oob by (auto; lia). cbn [bind]. split; [|eexists; reflexivity]. intros o H. destruct (INV o H) as (_ & [X|(_ & c1 & v1 & x1 & y1 & value1 & K1 & U1 & X)]).
    + destruct FB as (FB & _). specialize (X c d FB). lia.
    + destruct (first_of_unique _ _ _ _ _ _ K K1) as [<- E2]. apply app_two in E2. subst v1. rewrite <- (seen_unique _ _ _ Hv U1) in X. fold new in X. rewrite len_app in X. lia.
Qed.

(** ** All parts *)
Lemma map_some_inj (a b : str) : map Some a = map Some b -> a = b.
Proof. revert b. induction a as [|c a IH]; intros [|d b] E; try discriminate; [reflexivity|]. injection E as -> E. f_equal. auto. Qed.
Lemma cleared_det t a b : cleared t a -> cleared t b -> a = b.
Proof. intros A B. apply cleared_trim in A as [A _], B as [B _]. rewrite A in B. injection B as B. now apply map_some_inj. Qed.
Lemma decoded_det n bnd s old out r1 r2 : decoded n bnd s old out r1 -> decoded n bnd s old out r2 -> r1 = r2.
Proof.
  intros H. revert r2. induction H as [s old out N|s a q old out F N|s a s1 p q c rest old next out out1 res F F1 G C E _ IH]; intros r2 H2;
    inversion H2 as [? ? ? N'|? a' q' ? ? F' N'|? a' s1' p' q' c' rest' ? next' ? out1' ? F' F1' G' C' E' D']; subst; try reflexivity.
  - exfalso. apply N. eapply first_of_holds. exact F'.
  - exfalso. destruct (first_of_unique _ _ _ _ _ _ F F') as [<- ->]. apply N. eapply first_of_holds. exact F1'.
  - exfalso. apply N'. eapply first_of_holds. exact F.
  - exfalso. destruct (first_of_unique _ _ _ _ _ _ F F') as [<- <-]. apply N'. eapply first_of_holds. exact F1.
  - destruct (first_of_unique _ _ _ _ _ _ F F') as [<- E]. injection E as <- <-. destruct (first_of_unique _ _ _ _ _ _ F1 F1') as [<- <-].
    rewrite <- (cleared_det _ _ _ C C') in D'. rewrite <- (gives_det _ _ _ _ _ _ _ eq_refl G G') in D'. auto.
Qed.
Lemma first_len m s a b : first_of m s a b -> len s = len a + len m + len b.
Proof. intros (-> & _). rewrite !len_app. lia. Qed.
Lemma loop_exact e f bnd body : mp_md5_size e <= 128 -> no_nul bnd -> 2 <= len bnd -> len body < 2 ^ 31 ->
  forall k pre s old out room, body = pre ++ s -> (length s <= k)%nat -> len old = len body + 1 -> ends old -> no_nul out -> len (cs out ++ room) = len body + 1 ->
  (exists res room', decoded (len body) bnd s old out res /\ no_nul res /\ len (cs res ++ room') = len body + 1
     /\ multipart_loop k e f (cs body) (map Some old) (cs out ++ room) bnd (len body) (len pre) = Ok (cs res ++ room', f))
  \/ ((forall res, ~ decoded (len body) bnd s old out res)
     /\ undefined (multipart_loop k e f (cs body) (map Some old) (cs out ++ room) bnd (len body) (len pre))).
Proof.
  intros Hm Hn H2 Hl. assert (Hne : bnd <> []) by (intros ->; change (len (@nil ascii)) with 0 in H2; lia).
  induction k as [|k IH]; intros pre s old out room Eb Hk Lo Ho No Lr.
  - destruct s; [|cbn in Hk; lia]. left. exists out, room. split; [apply de_none; intros (a & b & E); destruct a; [destruct bnd; easy|easy]|].
    split; [auto|]. split; [auto|]. rewrite app_nil_r in Eb. subst pre. cbn [multipart_loop]. now rewrite Z.ltb_irrefl.
  - cbn [multipart_loop]. destruct (Z.ltb_spec (len pre) (len body)) as [G|G].
    2:{ assert (s = []) as -> by (apply len_0; subst body; rewrite len_app in G; lens; lia).
        left. exists out, room. split; [apply de_none; intros (a & b & E); destruct a; [destruct bnd; easy|easy]|]. auto. }
    destruct (first_of_dec bnd s) as [(a & s1 & F)|NF].
    2:{ left. exists out, room. split; [now apply de_none|]. split; [auto|]. split; [auto|]. unfold cs at 1. rewrite Eb, text_not_found by auto. reflexivity. }
    assert (E1 : text_find_after (cs body) bnd (len pre) (len body) = Ok (len (pre ++ a ++ bnd))).
    { unfold cs. rewrite Eb, (find_at bnd pre s [] a s1) by auto. f_equal. rewrite !len_app. lia. }
    rewrite E1. cbn [bind]. replace (len (pre ++ a ++ bnd) <? 0) with false by (lens; lia).
    assert (Eb1 : body = (pre ++ a ++ bnd) ++ s1) by (destruct F as (-> & _); rewrite Eb; now rewrite <- !app_assoc).
    destruct (first_of_dec bnd s1) as [(p & q & F1)|NF].
    2:{ left. exists out, room. split; [eapply de_last; eauto|]. split; [auto|]. split; [auto|].
        replace (text_find_after (cs body) bnd (len (pre ++ a ++ bnd)) (len body)) with (Ok (-1)); [reflexivity|].
        symmetry. unfold cs. rewrite Eb1. now rewrite text_not_found by auto. }
    assert (E2 : text_find_after (cs body) bnd (len (pre ++ a ++ bnd)) (len body) = Ok (len (pre ++ a ++ bnd) + len p + len bnd)).
    { unfold cs. rewrite Eb1. now rewrite (find_at bnd _ s1 [] p q) by auto. }
    rewrite E2. cbn [bind]. replace (len (pre ++ a ++ bnd) + len p + len bnd <? 0) with false by (lens; lia).
    replace (len (pre ++ a ++ bnd) + len p + len bnd - len (pre ++ a ++ bnd) - len bnd) with (len p) by lia.
    assert (Lb : len body = len (pre ++ a ++ bnd) + len p + len bnd + len q) by (rewrite Eb1 at 1; rewrite len_app, (first_len _ _ _ _ F1); lia).
    assert (Lab : 2 <= len (pre ++ a ++ bnd)) by (rewrite !len_app; lens; lia).
    rewrite to_int_id by (lens; lia).
    assert (E3 : memcpy (map Some old) 0 (cs body) (len (pre ++ a ++ bnd)) (len p) = Ok (map Some (laid p old))).
    { unfold memcpy. replace (slice (cs body) (len (pre ++ a ++ bnd)) (len p)) with (Ok (map Some p)).
      2:{ destruct F1 as (F1 & _). rewrite Eb1, F1 at 1. unfold cs. rewrite !map_app with (l := pre ++ a ++ bnd), map_app with (l := p), <- !app_assoc.
          symmetry. now rewrite slice_ok by (now rewrite len_map). }
      cbn [bind]. rewrite write_at_0 by (rewrite !len_map; lens; lia). unfold laid. now rewrite map_length, skipn_map, <- map_app. }
    rewrite E3. cbn [bind].
    assert (Ll : len (laid p old) = len body + 1) by (unfold laid; rewrite len_app, len_skipn; unfold len in *; lia).
    assert (He : ends (laid p old)).
    { unfold laid. apply ends_app. apply (ends_tail (firstn (length p) old)); [|now rewrite firstn_skipn].
      intros E. apply (f_equal len) in E. rewrite len_skipn in E. change (len (@nil ascii)) with 0 in E. unfold len in *. lia. }
    destruct (part_exact e f (len body) old p out room Hm Ll He ltac:(lens; lia) No Lr) as [(out1 & room1 & PG & N1 & L1 & EP)|(NP & u & EP)]; rewrite EP; cbn [bind].
    2:{ right. split; [|eexists; reflexivity]. intros res D.
        inversion D as [? ? ? N'|? a' q' ? ? F' N'|? a' s1' p' q' c' rest' ? next' ? out1' ? F' F1' G' C' E' D']; subst s0 old0.
        - apply N'. eapply first_of_holds. exact F.
        - destruct (first_of_unique _ _ _ _ _ _ F F') as [<- <-]. apply N'. eapply first_of_holds. exact F1.
        - destruct (first_of_unique _ _ _ _ _ _ F F') as [<- <-]. destruct (first_of_unique _ _ _ _ _ _ F1 F1') as [<- <-]. now apply (NP out1'). }
    destruct (cleared_exists (laid p old) (ends_in _ He)) as (next & C). destruct (cleared_trim _ _ C) as (-> & Ln). cbn [bind].
    assert (Es1 : exists c rest, s1 = c :: rest).
    { destruct s1 as [|c rest]; [|eauto]. apply first_len in F1. change (len (@nil ascii)) with 0 in F1. lens. lia. }
    destruct Es1 as (c & rest & Es1).
    replace (len (pre ++ a ++ bnd) + 1) with (len ((pre ++ a ++ bnd) ++ [c])) by llia.
    destruct (IH ((pre ++ a ++ bnd) ++ [c]) rest next out1 room1) as [(res & room' & D & Nr & Lr' & ER)|(ND & u & ER)]; auto.
    + rewrite Eb1, Es1. now rewrite <- (app_assoc _ [c] rest).
    + apply first_len in F. rewrite Es1, len_cons in F. unfold len in *. lens. lia.
    + unfold len in *. lia.
    + eapply cleared_ends; eauto.
    + left. exists res, room'. split; [eapply de_part; eauto|]. auto.
    + right. rewrite ER. split; [|eexists; reflexivity]. intros res D.
      inversion D as [? ? ? N'|? a' q' ? ? F' N'|? a' s1' p' q' c' rest' ? next' ? out1' ? F' F1' G' C' E' D']; subst s0 old0.
      * apply N'. eapply first_of_holds. exact F.
      * destruct (first_of_unique _ _ _ _ _ _ F F') as [<- <-]. apply N'. eapply first_of_holds. exact F1.
      * destruct (first_of_unique _ _ _ _ _ _ F F') as [<- <-]. destruct (first_of_unique _ _ _ _ _ _ F1 F1') as [<- <-].
        rewrite Es1 in E'. injection E' as <- <-. rewrite <- (cleared_det _ _ _ C C') in D'. rewrite <- (gives_det _ _ _ _ _ _ _ eq_refl PG G') in D'. now apply (ND res).
Qed.

Lemma decode_exact e f bnd body : mp_md5_size e <= 128 -> no_nul bnd -> 2 <= len bnd -> len body < 2 ^ 31 ->
  (exists text, form_text bnd body text /\ no_nul text /\ len text <= len body
     /\ multipart_parse e f (cs body) bnd (len body) = Ok (cs text ++ skipn (S (length text)) (cs body), f))
  \/ ((forall text, ~ form_text bnd body text) /\ undefined (multipart_parse e f (cs body) bnd (len body))).
Proof.
  intros Hm Hn H2 Hl. unfold multipart_parse. rewrite to_nat_len. set (old := repeat NUL (S (length body))).
  assert (Ec : calloc (len body + 1) = map Some old).
  { unfold old, calloc. replace (Z.to_nat (len body + 1)) with (S (length body)) by (unfold len; lia).
    generalize (S (length body)). clear. induction n as [|n IH]; [reflexivity|]. cbn [repeat map]. now rewrite IH. }
  assert (Lc : len (calloc (len body + 1)) = len body + 1) by (rewrite len_calloc; lens; lia).
  assert (Ec2 : calloc (len body + 1) = cs [] ++ calloc (len body + 1 - 1)) by (apply calloc_cs; lens; lia).
  assert (Ho : ends old) by (exists (repeat NUL (length body)); unfold old; apply (repeat_cons (length body) NUL)).
  assert (EQ : multipart_loop (length body) e f (cs body) (calloc (len body + 1)) (calloc (len body + 1)) bnd (len body) 0
    = multipart_loop (length body) e f (cs body) (map Some old) (cs [] ++ calloc (len body + 1 - 1)) bnd (len body) 0) by (now rewrite <- Ec, <- Ec2).
  rewrite EQ. clear EQ. rewrite Ec2 in Lc.
  destruct (loop_exact e f bnd body Hm Hn H2 Hl (length body) [] body old [] (calloc (len body + 1 - 1)) eq_refl (le_n _)) as [(res & room' & D & Nr & Lr & E)|(ND & u & E)];
    [unfold old; rewrite len_repeat; unfold len; lia|exact Ho|constructor|exact Lc| |]; change (len (@nil ascii)) with 0 in E; rewrite E; cbn [bind].
  - left. exists res. split; [exact D|]. split; [exact Nr|]. rewrite len_app, len_cs in Lr. split; [lens; lia|].
    rewrite cstr_cs by exact Nr. cbn [bind]. rewrite strcpy_0 by (rewrite len_cs; lens; lia). reflexivity.
  - right. split; [exact ND|]. eexists. reflexivity.
Qed.

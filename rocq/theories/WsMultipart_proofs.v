(** WsMultipart_proofs.v - lemmas about the multipart decoder (/repo/ws.c). *)
From Verif Require Import WsMultipart Lemmas StringUtils_proofs FileUtils_proofs SpecMultipart Spec.

(** ** Texts that do not occur *)
Lemma text_without c t : forallb (fun x => negb (ceq x c)) t = true -> ~ In c t.
Proof. intros F I. rewrite forallb_forall in F. specialize (F _ I). now rewrite ceq_refl in F. Qed.
Lemma holds_part n a b c : holds n b -> holds n (a ++ b ++ c).
Proof. intros (x & y & ->). exists (a ++ x), (y ++ c). now rewrite <- !app_assoc. Qed.
Lemma holds_l n a b : holds n a -> holds n (a ++ b).
Proof. intros (x & y & ->). exists x, (y ++ b). now rewrite <- !app_assoc. Qed.
Lemma holds_r n a b : holds n b -> holds n (a ++ b).
Proof. intros (x & y & ->). exists (a ++ x), y. now rewrite <- !app_assoc. Qed.
Lemma holds_firstn n k s : holds n (firstn k s) -> holds n s.
Proof. intros H. rewrite <- (firstn_skipn k s). now apply holds_l. Qed.
Lemma holds_skipn n k s : holds n (skipn k s) -> holds n s.
Proof. intros H. rewrite <- (firstn_skipn k s). now apply holds_r. Qed.
Lemma apart n c a b : ~ In c n -> ~ holds n a -> ~ holds n b -> ~ holds n (a ++ c :: b).
Proof.
  intros Hc Ha Hb (x & y & E). apply app_eq_app in E as (l & [[Ex El]|[Ex El]]).
  - symmetry in El. apply app_eq_app in El as (k & [[En Ek]|[En Ek]]).
    + apply Ha. exists x, k. now rewrite Ex, En.
    + destruct k as [|d k].
      * apply Ha. exists x, []. rewrite app_nil_r in *. now subst.
      * inversion Ek; subst. apply Hc, in_or_app. right. now left.
  - destruct l as [|d l]; inversion El; subst.
    + destruct n as [|d n]; [apply Ha; exists [], a; reflexivity|]. cbn [app] in El. injection El as -> _. apply Hc. now left.
    + apply Hb. now exists l, y.
Qed.
Lemma free_app_nul n a b : no_nul n -> ~ holds n a -> ~ holds n b -> ~ holds n (a ++ NUL :: b).
Proof. intros Hn. apply apart. now apply no_nul_in. Qed.
Lemma free_tail n c b : ~ In c n -> n <> [] -> ~ holds n b -> ~ holds n (c :: b).
Proof.
  intros Hc Hn Hb. apply (apart n c []); auto. intros (x & y & E). destruct x; [destruct n; [easy|discriminate]|discriminate].
Qed.
Lemma free_nil n : n <> [] -> ~ holds n [].
Proof. intros Hn (x & y & E). destruct x; [destruct n; [easy|discriminate]|discriminate]. Qed.

(** ** trim keeps a text from occurring *)
Lemma wr_nul_free n t i b' : no_nul n -> ~ holds n t -> wr (map Some t) i NUL = Ok b' ->
  exists t', b' = map Some t' /\ length t' = length t /\ ~ holds n t' /\ ((exists q, t = q ++ [NUL]) -> exists q, t' = q ++ [NUL]).
Proof.
  intros Hn Hf W. destruct (Z_lt_dec i 0) as [N|N]; [unfold wr in W; rewrite write_at_neg in W by auto; discriminate|].
  destruct (Z_le_dec (len t) i) as [G|G]; [rewrite wr_oob in W by (rewrite len_map; auto); discriminate|].
  destruct (skipn (Z.to_nat i) t) as [|x r] eqn:E.
  { exfalso. apply (f_equal len) in E. rewrite len_skipn in E. unfold len at 2 in E. cbn in E. lia. }
  assert (Et : t = firstn (Z.to_nat i) t ++ x :: r) by (now rewrite <- E, firstn_skipn).
  set (a := firstn (Z.to_nat i) t) in *. assert (La : len a = i) by (unfold a; rewrite len_firstn; lia).
  rewrite Et in W. rewrite map_app in W. cbn [map] in W. rewrite wr_at in W by (now rewrite len_map). injection W as <-.
  exists (a ++ NUL :: r). split; [now rewrite map_app|]. split; [rewrite Et, !app_length; reflexivity|]. split.
  - apply free_app_nul; auto; intros H; apply Hf; rewrite Et.
    + now apply holds_l.
    + change (x :: r) with ([x] ++ r). rewrite app_assoc. now apply holds_r.
  - intros (q & Eq). rewrite Eq in Et. destruct r as [|y r] using rev_ind.
    + exists a. reflexivity.
    + exists (a ++ NUL :: r). change (a ++ x :: r ++ [y]) with (a ++ (x :: r) ++ [y]) in Et. rewrite app_assoc in Et.
      apply app_inj_tail in Et as [_ <-]. now rewrite <- app_assoc.
Qed.
Lemma first_nul t : In NUL t -> exists s r, t = s ++ NUL :: r /\ no_nul s.
Proof.
  induction t as [|c t IH]; intros H; [easy|]. destruct (ceq_spec c NUL) as [->|N]; [exists [], t; split; [reflexivity|constructor]|].
  destruct H as [H|H]; [congruence|]. destruct (IH H) as (s & r & -> & Hs). exists (c :: s), r. split; [reflexivity|now constructor].
Qed.
Lemma as_cs (s r : str) : map Some (s ++ NUL :: r) = cs s ++ map Some r.
Proof. unfold cs. rewrite map_app, <- app_assoc. reflexivity. Qed.
Lemma trim_free n t b' : no_nul n -> ~ holds n t -> (exists q, t = q ++ [NUL]) -> trim (map Some t) = Ok b' ->
  exists t', b' = map Some t' /\ length t' = length t /\ ~ holds n t' /\ exists q, t' = q ++ [NUL].
Proof.
  intros Hn Hf Hq T. unfold trim in T. apply bind_ok_inv in T as (k & Hk & T). apply bind_ok_inv in T as (i & Hi & T).
  apply bind_ok_inv in T as (b1 & B1 & T). apply bind_ok_inv in T as (n2 & _ & T). apply bind_ok_inv in T as (e & _ & T).
  assert (K : exists t1, b1 = map Some t1 /\ length t1 = length t /\ ~ holds n t1 /\ exists q, t1 = q ++ [NUL]).
  { destruct (i =? 0) eqn:Ei; [injection B1 as <-; now exists t|].
    apply bind_ok_inv in B1 as (r & Hr & B1). apply bind_ok_inv in B1 as (b2 & B2 & B1). apply bind_ok_inv in B1 as (r' & Hr' & B1).
    destruct (first_nul t) as (s & r0 & -> & Hs); [destruct Hq as (q & ->); apply in_or_app; right; now left|].
    rewrite as_cs in Hk. rewrite strlen_cs in Hk by auto. injection Hk as <-.
    assert (Hi' : 0 < i <= len s).
    { clear - Hi Ei. assert (G : forall k i0 b i, lscan k i0 b = Ok i -> i0 <= i <= i0 + Z.of_nat k).
      { induction k as [|k IH]; intros i0 b i1 E; cbn [lscan] in E; [injection E as <-; lia|].
        apply bind_ok_inv in E as (c & _ & E). destruct (isspace c); [apply IH in E; lia|injection E as <-; lia]. }
      apply G in Hi. rewrite to_nat_len, len_length in Hi. lia. }
    clear Hi Ei. set (l := firstn (Z.to_nat i) s) in *. set (m := skipn (Z.to_nat i) s) in *.
    assert (Es : s = l ++ m) by (symmetry; apply firstn_skipn). assert (Ll : len l = i) by (unfold l; rewrite len_firstn; lia).
    assert (Nm : no_nul m) by (now apply no_nul_skipn).
    rewrite Es in Hr, B2. rewrite <- app_assoc in Hr, B2. rewrite map_app, as_cs in Hr. rewrite from_app in Hr by (now rewrite len_map).
    rewrite strlen_cs in Hr by auto. injection Hr as <-.
    unfold memcpy in B2. rewrite !map_app in B2. rewrite slice_ok in B2 by (now rewrite len_map). cbn [bind] in B2.
    rewrite write_at_0 in B2 by (rewrite !len_app, !len_map; pose proof (len_nonneg _ l); pose proof (len_nonneg _ (NUL :: r0)); lia).
    assert (B3 : b2 = map Some (m ++ skipn (length m) (s ++ NUL :: r0))).
    { rewrite map_app, <- skipn_map, Es, <- app_assoc, !map_app. rewrite map_length in B2. congruence. }
    clear B2. subst b2.
    assert (Lm : (length m <= length s)%nat) by (rewrite Es, app_length; lia).
    rewrite skipn_app in Hr', B1. replace (length m - length s)%nat with O in Hr', B1 by lia. cbn [skipn] in Hr', B1.
    set (u := skipn (length m) s) in *. assert (Lu : len u = i) by (unfold u; rewrite len_skipn; rewrite Es at 1; rewrite len_app; unfold len in *; lia).
    assert (Nu : no_nul u) by (now apply no_nul_skipn).
    assert (R : r' = len m).
    { rewrite app_assoc in Hr'. set (w := m ++ u) in *. assert (Nw : no_nul w) by (unfold w; apply no_nul_app; auto).
      rewrite <- (firstn_skipn (Z.to_nat i) w) in Hr'. rewrite <- app_assoc, map_app, as_cs in Hr'.
      assert (Lw : len w = len m + i) by (unfold w; rewrite len_app; lia).
      rewrite from_app in Hr' by (rewrite len_map, len_firstn; pose proof (len_nonneg _ m); lia).
      rewrite strlen_cs in Hr' by (now apply no_nul_skipn). injection Hr' as <-. rewrite len_skipn. pose proof (len_nonneg _ m). lia. }
    subst r'. assert (Eu : exists x u', u = x :: u') by (destruct u as [|x u']; [cbn in Lu; lia|eauto]). destruct Eu as (x & u' & Eu).
    rewrite Eu in B1. cbn [app] in B1. rewrite map_app in B1. cbn [map] in B1. rewrite wr_at in B1 by (now rewrite len_map). injection B1 as <-.
    exists (m ++ NUL :: u' ++ NUL :: r0). split; [now rewrite (map_app Some m)|]. split.
    { assert (L2 : length s = (length m + length u)%nat) by (apply (f_equal (@length ascii)) in Es; rewrite app_length in Es; unfold len in *; lia).
      rewrite Eu in L2. rewrite !app_length. cbn [length] in *. rewrite !app_length. cbn [length]. lia. }
    assert (Su : s = firstn (length m) s ++ u) by (symmetry; apply firstn_skipn). split.
    - apply free_app_nul; [auto| |].
      + intros H. apply Hf, holds_l. rewrite Es. now apply holds_r.
      + intros H. apply Hf. rewrite Su, Eu. rewrite <- app_assoc. apply holds_r. change (x :: u') with ([x] ++ u'). rewrite <- app_assoc. now apply holds_r.
    - destruct Hq as (q & Eq). destruct r0 as [|y r0 _] using rev_ind; [exists (m ++ NUL :: u'); now rewrite <- app_assoc|].
      change (s ++ NUL :: r0 ++ [y]) with (s ++ (NUL :: r0) ++ [y]) in Eq. rewrite app_assoc in Eq. apply app_inj_tail in Eq as [_ ->].
      exists (m ++ NUL :: u' ++ NUL :: r0). rewrite <- !app_assoc. cbn [app]. now rewrite <- !app_assoc. }
  destruct K as (t1 & -> & L1 & F1 & Q1). destruct (wr_nul_free n t1 _ b' Hn F1 T) as (t' & -> & L' & F' & Q').
  exists t'. split; [reflexivity|]. split; [congruence|]. split; auto.
Qed.

(** ** The first empty line *)
Definition plain_line (l : str) : Prop := l <> [] /\ ~ In CR l.
Lemma skip_line l rest a b : ~ In CR l -> l ++ CRLF ++ rest = a ++ CRLF ++ CRLF ++ b ->
  (a = l /\ rest = CRLF ++ b) \/ exists a', a = l ++ CRLF ++ a' /\ rest = a' ++ CRLF ++ CRLF ++ b.
Proof.
  intros Hl. revert a. induction l as [|c l IH]; intros a E.
  - destruct a as [|c1 [|c2 a]].
    + left. split; [reflexivity|]. now inversion E.
    + cbn in E. inversion E.
    + right. cbn in E. inversion E; subst. exists a. split; reflexivity.
  - destruct a as [|c1 a]; [exfalso; apply Hl; left; now inversion E|]. cbn [app] in E. inversion E as [[E1 E2]]. subst c1.
    destruct (IH ltac:(intros I; apply Hl; now right) a E2) as [[-> ->]|(a' & -> & ->)]; [left; auto|right; exists a'; auto].
Qed.
Lemma first_blank body : forall ls l a b, plain_line l -> Forall plain_line ls ->
  l ++ CRLF ++ flat_map (fun x => x ++ CRLF) ls ++ CRLF ++ body = a ++ CRLF ++ CRLF ++ b ->
  len (l ++ CRLF ++ flat_map (fun x => x ++ CRLF) ls) - 2 <= len a.
Proof.
  induction ls as [|l2 ls IH]; intros l a b [_ Hl] Hls E.
  - cbn [flat_map app] in *. apply skip_line in E as [[-> _]|(a' & -> & _)]; auto; rewrite !len_app; change (len CRLF) with 2; rewrite ?len_nil; [|pose proof (len_nonneg _ a')]; lia.
  - cbn [flat_map] in *. inversion Hls as [|? ? [Hne H2] H3]; subst. rewrite <- !app_assoc in E.
    apply skip_line in E as [[-> E]|(a' & -> & E)]; auto.
    + exfalso. destruct l2 as [|c l2]; [easy|]. apply H2. left. now inversion E.
    + specialize (IH l2 a' b (conj Hne H2) H3 E). revert IH. rewrite !len_app. lia.
Qed.

(** ** Searching *)
Lemma match_at_long needle : forall pre suf rest, (length needle <= length suf)%nat ->
  match_at (map Some (pre ++ suf) ++ rest) (len pre) needle = Ok (prefixb needle suf).
Proof.
  induction needle as [|x n IH]; intros pre suf rest H; [reflexivity|]. destruct suf as [|y suf]; [cbn in H; lia|].
  cbn [match_at prefixb]. replace (rd _ (len pre)) with (Ok y).
  2:{ rewrite map_app, <- app_assoc. cbn [map app]. now rewrite rd_at by now rewrite len_map. }
  cbn [bind]. destruct (ceq_spec y x) as [->|N].
  - rewrite ceq_refl. cbn [andb]. replace (len pre + 1) with (len (pre ++ [x])) by llia.
    replace (pre ++ x :: suf) with ((pre ++ [x]) ++ suf) by (now rewrite <- app_assoc). apply IH. cbn in H. lia.
  - rewrite ceq_neq by congruence. reflexivity.
Qed.
Lemma find_here needle q rest k : needle <> [] -> forall p pre, (forall a b, p ++ needle ++ q = a ++ needle ++ b -> (length p <= length a)%nat) ->
  find_loop (length p + S k) (map Some (pre ++ p ++ needle ++ q) ++ rest) needle (len pre) = Ok (len pre + len p + len needle).
Proof.
  intros Hne. induction p as [|c p IH]; intros pre H; cbn [length Nat.add find_loop].
  - rewrite match_at_long by (rewrite !app_length; lia). cbn [app bind].
    rewrite (proj2 (prefixb_spec _ _)) by (now exists q). f_equal. llia.
  - rewrite match_at_long by (rewrite !app_length; lia). cbn [bind].
    destruct (prefixb needle ((c :: p) ++ needle ++ q)) eqn:E.
    { exfalso. apply prefixb_spec in E as (r & E). specialize (H [] r E). cbn in H. lia. }
    replace (len pre + 1) with (len (pre ++ [c])) by llia.
    replace (pre ++ (c :: p) ++ needle ++ q) with ((pre ++ [c]) ++ p ++ needle ++ q) by (now rewrite <- app_assoc).
    rewrite IH; [f_equal; llia|]. intros a b Ea. specialize (H (c :: a) b). cbn in H. rewrite Ea in H. specialize (H eq_refl). lia.
Qed.
Lemma text_find_here needle p pre q rest bytes : needle <> [] -> len pre + len p < bytes ->
  (forall a b, p ++ needle ++ q = a ++ needle ++ b -> (length p <= length a)%nat) ->
  text_find_after (map Some (pre ++ p ++ needle ++ q) ++ rest) needle (len pre) bytes = Ok (len pre + len p + len needle).
Proof.
  intros Hne Hb H. unfold text_find_after. replace (Z.to_nat (bytes - len pre)) with (length p + S (Z.to_nat (bytes - len pre - len p - 1)))%nat.
  - now apply find_here.
  - unfold len in *. lia.
Qed.
Lemma text_not_found needle pre s rest : no_nul needle -> needle <> [] -> ~ holds needle s ->
  text_find_after (map Some (pre ++ s) ++ Some NUL :: rest) needle (len pre) (len (pre ++ s)) = Ok (-1).
Proof.
  intros Hn Hne Hf. rewrite text_find_after_eq; auto using len_nonneg. destruct (_ <=? _); [reflexivity|]. rewrite to_nat_len, skipn_app, skipn_all, Nat.sub_diag.
  cbn [app skipn]. rewrite (proj2 (strstr_none _ _)); [reflexivity|]. intros a b E. apply Hf. now exists a, b.
Qed.
(** A boundary after a line end. *)
Lemma boundary_first bnd part q : bnd <> [] -> ~ In LF bnd -> part = [] \/ (exists w, part = w ++ [LF]) /\ ~ holds bnd part ->
  forall a b, part ++ bnd ++ q = a ++ bnd ++ b -> (length part <= length a)%nat.
Proof.
  intros Hne Hlf [->|((w & ->) & Hf)] a b E; [cbn; lia|].
  apply app_eq_app in E as (l & [[Ep El]|[Ea _]]); [|subst a; rewrite !app_length; lia].
  destruct l as [|c l] using rev_ind; [rewrite app_nil_r in Ep; rewrite Ep; lia|].
  exfalso. rewrite app_assoc in Ep. apply app_inj_tail in Ep as [Ew <-]. apply app_eq_app in El as (k & [[Eb Ek]|[Ekl Ek]]).
  - apply Hlf. rewrite Eb. apply in_or_app. left. apply in_or_app. right. now left.
  - apply Hf. exists a, k. rewrite Ew, <- !app_assoc. f_equal. exact Ekl.
Qed.

(** ** One part *)
Definition head_text : str := CRLF ++ L "Content-Disposition: ".
Lemma part_shape x : part_of x = head_text ++ FORM_DATA_NAME ++ fd_name x ++ [DQ] ++ CRLF ++ flat_map (fun l => l ++ CRLF) (fd_lines x) ++ CRLF ++ fd_value x ++ CRLF.
Proof. unfold part_of, disposition, head_text, FORM_DATA_NAME. rewrite <- !app_assoc. reflexivity. Qed.
Lemma visible_cut n more : exists c q, n ++ DQ :: more = visible n ++ c :: q /\ Forall chopped (visible n) /\ ~ chopped c.
Proof.
  induction n as [|d n IH].
  - exists DQ, more. split; [reflexivity|]. split; [constructor|]. unfold chopped. vm_compute. intros [H _]. discriminate.
  - cbn [visible]. destruct ((34 <? code d) && (code d <? 128)) eqn:E.
    + destruct IH as (c & q & E1 & E2 & E3). exists c, q. split; [cbn [app]; now rewrite E1|]. split; [|auto]. constructor; [|auto]. unfold chopped. lia.
    + exists d, (n ++ DQ :: more). split; [reflexivity|]. split; [constructor|]. unfold chopped. lia.
Qed.
(** The place of the first empty line. *)
Lemma data_place x : Forall plain_line (fd_lines x) -> ~ In CR (fd_name x) -> exists z, part_of x = z ++ (CRLF ++ CRLF) ++ fd_value x ++ CRLF
  /\ forall q a b, z ++ (CRLF ++ CRLF) ++ q = a ++ (CRLF ++ CRLF) ++ b -> (length z <= length a)%nat.
Proof.
  intros Hl Hn.
  assert (Z : exists z, disposition (fd_name x) ++ CRLF ++ flat_map (fun l => l ++ CRLF) (fd_lines x) = z ++ CRLF).
  { destruct (fd_lines x) as [|l ls _] using rev_ind; [exists (disposition (fd_name x)); now rewrite app_nil_r|].
    exists (disposition (fd_name x) ++ CRLF ++ flat_map (fun l => l ++ CRLF) ls ++ l). rewrite flat_map_app. cbn [flat_map]. now rewrite app_nil_r, <- !app_assoc. }
  destruct Z as (z & Ez). exists (CRLF ++ z). split.
  - transitivity (CRLF ++ (disposition (fd_name x) ++ CRLF ++ flat_map (fun l => l ++ CRLF) (fd_lines x)) ++ CRLF ++ fd_value x ++ CRLF).
    + unfold part_of. now rewrite <- !app_assoc.
    + rewrite Ez. now rewrite <- !app_assoc.
  - intros q a b E. rewrite <- !app_assoc in E. apply (skip_line []) in E as [[-> E]|(a' & -> & E)]; [| |auto].
    + exfalso. destruct z as [|c z]; [destruct (fd_name x); discriminate Ez|]. inversion E; subst. discriminate Ez.
    + rewrite (app_assoc z), <- Ez, <- !app_assoc in E. apply first_blank in E; auto.
      * apply (f_equal len) in Ez. revert E Ez. rewrite !len_app. change (len CRLF) with 2. rewrite !app_length. unfold len. change (length CRLF) with 2%nat. cbn [length]. lia.
      * split; [discriminate|]. unfold disposition. intros I. apply in_app_or in I as [I|I]; [revert I; now apply text_without|].
        cbn [app In] in I. destruct I as [I|I]; [discriminate|]. apply in_app_or in I as [I|[I|[]]]; [auto|discriminate].
Qed.

Lemma part_free n x : n <> [] -> ~ In CR n -> ~ In LF n -> ~ holds n (disposition (fd_name x)) -> Forall (fun l => ~ holds n l) (fd_lines x) ->
  ~ holds n (fd_value x) -> ~ holds n (part_of x) /\ exists w, part_of x = w ++ [LF] /\ ~ holds n w.
Proof.
  intros Hne Hcr Hlf Hd Hl Hv. assert (N : ~ holds n []) by now apply free_nil.
  assert (E : exists w, part_of x = w ++ [LF] /\ ~ holds n w).
  { exists (CRLF ++ disposition (fd_name x) ++ CRLF ++ flat_map (fun l => l ++ CRLF) (fd_lines x) ++ CRLF ++ fd_value x ++ [CR]).
    split; [unfold part_of; rewrite <- !app_assoc; reflexivity|]. unfold CRLF. cbn [app].
    apply free_tail; auto. apply free_tail; auto. apply apart; auto. apply free_tail; auto.
    induction Hl as [|l ls H1 _ IH]; cbn [flat_map app].
    - apply free_tail; auto. apply free_tail; auto. apply apart; auto.
    - rewrite <- !app_assoc. cbn [app]. apply apart; auto. apply free_tail; auto. }
  destruct E as (w & Ew & Hw). split; [|eauto]. rewrite Ew. apply apart; auto.
Qed.
Lemma skipn_skipn_plus A (l : list A) : forall a b, skipn a (skipn b l) = skipn (b + a) l.
Proof. intros a b. revert l. induction b as [|b IH]; intros l; [reflexivity|]. destruct l; [now rewrite !skipn_nil|]. cbn [skipn Nat.add]. apply IH. Qed.
Lemma calloc_app a b : 0 <= a -> 0 <= b -> calloc (a + b) = calloc a ++ calloc b.
Proof. intros Ha Hb. unfold calloc. rewrite Z2Nat.inj_add by auto. apply repeat_app. Qed.
Lemma to_calloc (head w rest : str) n : len w <= n ->
  memcpy (calloc (n + 1)) 0 (map Some (head ++ w ++ rest)) (len head) (len w) = Ok (map Some w ++ calloc (n - len w + 1)).
Proof.
  intros H. replace (n + 1) with (len w + (n - len w + 1)) by lia. rewrite calloc_app by (pose proof (len_nonneg _ w); lia).
  rewrite !map_app.
  pose proof (memcpy_ok [] (calloc (len w)) (calloc (n - len w + 1)) (map Some head) (map Some w) (map Some rest) (len w)) as M.
  rewrite (len_map _ _ _ head) in M. apply M; [now rewrite len_map|]. rewrite map_length. unfold calloc. rewrite repeat_length, to_nat_len. reflexivity.
Qed.
Definition amp (s : str) : str := match s with [] => [] | _ => L "&" end.
Lemma part_field e f bnd x stale s room : clean_field bnd x -> (exists q, stale = q ++ [NUL]) -> ~ holds FILENAME stale ->
  no_nul s -> len (amp s ++ pair_of x) <= len room ->
  part_parse e f (cs s ++ room) (map Some (part_of x ++ stale)) (len (part_of x))
  = Ok (cs (s ++ amp s ++ pair_of x) ++ skipn (length (amp s ++ pair_of x)) room, f).
Proof.
  intros (Cd & Cl & Nv & Bv & Fv) (q0 & Eq) Hst Hs Hroom.
  destruct Cd as (_ & Nd & CRd & LFd & _ & Fd).
  assert (Nn : no_nul (fd_name x)). { unfold disposition in Nd. apply no_nul_app in Nd as [_ Nd]. apply no_nul_app in Nd as [_ Nd]. apply no_nul_app in Nd. tauto. }
  assert (CRn : ~ In CR (fd_name x)). { intros I. apply CRd. unfold disposition. apply in_or_app. right. apply in_or_app. right. apply in_or_app. now left. }
  assert (Pl : Forall plain_line (fd_lines x)) by (eapply Forall_impl; [|exact Cl]; intros l (H1 & _ & H2 & _); split; auto).
  assert (Np : no_nul (part_of x)).
  { unfold part_of. apply no_nul_app. split; [apply no_nul_dec_b; reflexivity|]. apply no_nul_app. split; [exact Nd|]. apply no_nul_app. split; [apply no_nul_dec_b; reflexivity|].
    apply no_nul_app. split; [|apply no_nul_app; split; [apply no_nul_dec_b; reflexivity|apply no_nul_app; split; [exact Nv|apply no_nul_dec_b; reflexivity]]].
    clear - Cl. induction Cl as [|l ls (_ & H & _) _ IH]; cbn [flat_map]; [constructor|]. apply no_nul_app. split; [|exact IH]. apply no_nul_app. split; [exact H|apply no_nul_dec_b; reflexivity]. }
  destruct (part_free FILENAME x) as (Pf & w & Ew & Hw); auto; [discriminate|now apply text_without|now apply text_without| |].
  { eapply Forall_impl; [|exact Cl]. intros l (_ & _ & _ & _ & _ & H). exact H. }
  destruct (first_nul stale) as (u & r0 & -> & Nu); [rewrite Eq; apply in_or_app; right; now left|].
  assert (Fu : ~ holds FILENAME u) by (intros H; apply Hst; now apply holds_l).
  unfold part_parse.
  assert (Edata : map Some (part_of x ++ u ++ NUL :: r0) = cs (part_of x ++ u) ++ map Some r0) by (rewrite app_assoc; apply as_cs).
  assert (E1 : strlen (map Some (part_of x ++ u ++ NUL :: r0)) = Ok (len (part_of x ++ u))) by (rewrite Edata; apply strlen_cs; apply no_nul_app; auto).
  assert (E2 : text_find_after (map Some (part_of x ++ u ++ NUL :: r0)) FORM_DATA_NAME 0 (len (part_of x ++ u)) = Ok 40).
  { rewrite app_assoc, map_app. cbn [map]. rewrite text_find_after_eq by (try lia; try discriminate; apply no_nul_dec_b; reflexivity).
    rewrite part_shape at 2. rewrite <- !app_assoc. cbn [Z.to_nat skipn].
    replace (len (part_of x ++ u) <=? 0) with false by (symmetry; apply Z.leb_gt; rewrite part_shape; unfold len; rewrite !app_length; cbn [length]; change (length head_text) with 23%nat; lia).
    reflexivity. }
  set (w1 := fd_name x ++ [DQ] ++ CRLF ++ flat_map (fun l => l ++ CRLF) (fd_lines x) ++ CRLF ++ fd_value x ++ CRLF).
  assert (S1 : part_of x = (head_text ++ FORM_DATA_NAME) ++ w1) by (rewrite part_shape; unfold w1; now rewrite <- !app_assoc).
  assert (L1 : len (head_text ++ FORM_DATA_NAME) = 40) by reflexivity.
  assert (Nw1 : no_nul w1) by (rewrite S1 in Np; apply no_nul_app in Np; tauto).
  assert (E3 : strlen (from (map Some (part_of x ++ u ++ NUL :: r0)) 40) = Ok (len (w1 ++ u))).
  { rewrite S1, <- app_assoc, map_app, from_app by (now rewrite len_map). rewrite app_assoc, as_cs. apply strlen_cs. apply no_nul_app. auto. }
  assert (L2 : 0 < len w1) by (unfold w1; rewrite !len_app; change (len [DQ]) with 1; pose proof (len_nonneg _ (fd_name x));
     pose proof (len_nonneg _ (CRLF ++ flat_map (fun l => l ++ CRLF) (fd_lines x) ++ CRLF ++ fd_value x ++ CRLF)); rewrite !len_app in *; lia).
  rewrite E1. cbn [bind]. rewrite E2. cbn [bind]. change (40 <? 1) with false. cbv iota. rewrite E3. cbn [bind].
  replace (len (w1 ++ u) <=? 0) with false by (symmetry; apply Z.leb_gt; rewrite len_app; pose proof (len_nonneg _ u); lia).
  assert (L3 : len (part_of x) - 40 = len w1) by (rewrite S1, len_app, L1; lia). rewrite L3.
  assert (E4 : memcpy (calloc (len (part_of x) + 1)) 0 (map Some (part_of x ++ u ++ NUL :: r0)) 40 (len w1) = Ok (map Some w1 ++ calloc (40 + 1))).
  { rewrite S1 at 2. rewrite <- app_assoc. rewrite <- L1 at 1. rewrite to_calloc by lia. do 3 f_equal. lia. }
  rewrite E4. cbn [bind]. change (calloc (40 + 1)) with (Some NUL :: calloc 40). rewrite wr_at by (now rewrite len_map). cbn [bind].
  destruct (visible_cut (fd_name x) (CRLF ++ flat_map (fun l => l ++ CRLF) (fd_lines x) ++ CRLF ++ fd_value x ++ CRLF)) as (c & q & Ec & Hc1 & Hc2).
  assert (Ew1 : w1 = visible (fd_name x) ++ c :: q) by exact Ec.
  assert (E5 : chop_string (map Some w1 ++ Some NUL :: calloc 40) = Ok (cs (visible (fd_name x)) ++ cs q ++ calloc 40)).
  { change (map Some w1 ++ Some NUL :: calloc 40) with (map Some w1 ++ [Some NUL] ++ calloc 40). rewrite app_assoc. fold (cs w1). rewrite Ew1. apply chop_cut; auto. now rewrite <- Ew1. }
  rewrite E5. cbn [bind]. assert (Nvis : no_nul (visible (fd_name x))) by (rewrite Ew1 in Nw1; apply no_nul_app in Nw1; tauto).
  rewrite cstr_cs by auto. cbn [bind].
  destruct (data_place x Pl CRn) as (z & Ez & Hz).
  assert (E6 : text_find_after (map Some (part_of x ++ u ++ NUL :: r0)) (CRLF ++ CRLF) 0 (len (part_of x)) = Ok (len z + 4)).
  { rewrite Ez. rewrite <- !app_assoc. rewrite (app_assoc CRLF CRLF).
    pose proof (text_find_here (CRLF ++ CRLF) z [] (fd_value x ++ CRLF ++ u ++ NUL :: r0) [] (len (z ++ CRLF ++ CRLF ++ fd_value x ++ CRLF))) as H.
    rewrite app_nil_r in H. cbn [app] in H. change (len (@nil ascii)) with 0 in H. rewrite H; [f_equal; change (len (CRLF ++ CRLF)) with 4; lia|discriminate| |].
    - rewrite !len_app. change (len CRLF) with 2. pose proof (len_nonneg _ (fd_value x)). lia.
    - intros a b E. now apply (Hz (fd_value x ++ CRLF ++ u ++ NUL :: r0) a b). }
  rewrite E6. cbn [bind]. rewrite strlen_cs by auto. cbn [bind].
  assert (E7 : (if 0 <? len s then strcat (cs s ++ room) (L "&") else Ok (cs s ++ room)) = Ok (cs (s ++ amp s) ++ skipn (length (amp s)) room)).
  { destruct s as [|c0 s0]; [reflexivity|]. replace (0 <? len (c0 :: s0)) with true by (symmetry; apply Z.ltb_lt; rewrite len_cons; pose proof (len_nonneg _ s0); lia).
    cbn [amp]. rewrite strcat_cs; auto. cbn [amp] in Hroom. rewrite len_app in Hroom. pose proof (len_nonneg _ (pair_of x)). lia. }
  rewrite E7. cbn [bind].
  assert (E8 : text_find_after (map Some (part_of x ++ u ++ NUL :: r0)) FILENAME 0 (len (part_of x ++ u)) = Ok (-1)).
  { rewrite app_assoc, map_app. cbn [map]. pose proof (text_not_found FILENAME [] (part_of x ++ u) (map Some r0)) as H.
    change ([] ++ part_of x ++ u) with (part_of x ++ u) in H. change (len (@nil ascii)) with 0 in H. apply H; [apply no_nul_dec_b; reflexivity|discriminate|].
    rewrite Ew, <- app_assoc. apply apart; auto. now apply text_without. }
  rewrite E8. cbn [bind]. replace (0 <? len z + 4) with true by (symmetry; apply Z.ltb_lt; pose proof (len_nonneg _ z); lia). change (0 <? -1) with false. cbv iota.
  assert (L4 : len (part_of x) - (len z + 4) - 2 = len (fd_value x)) by (rewrite Ez, !len_app; change (len CRLF) with 2; lia). rewrite L4.
  assert (E9 : memcpy (calloc (len (part_of x) + 1)) 0 (map Some (part_of x ++ u ++ NUL :: r0)) (len z + 4) (len (fd_value x)) = Ok (map Some (fd_value x) ++ calloc (len (part_of x) - len (fd_value x) + 1))).
  { rewrite Ez at 2. rewrite <- !app_assoc, (app_assoc CRLF), (app_assoc z). replace (len z + 4) with (len (z ++ CRLF ++ CRLF)) by (rewrite len_app; reflexivity).
    apply to_calloc. rewrite Ez, !len_app. change (len CRLF) with 2. pose proof (len_nonneg _ z). lia. }
  rewrite E9. cbn [bind]. rewrite calloc_cs by (rewrite Ez, !len_app; change (len CRLF) with 2; pose proof (len_nonneg _ z); lia).
  rewrite app_assoc. fold (cs (fd_value x)). rewrite cs_nil. change (map Some (fd_value x) ++ [Some NUL]) with (cs (fd_value x)). rewrite cstr_cs by auto. cbn [bind].
  rewrite strcat_cs.
  - cbn [bind]. rewrite skipn_skipn_plus, (app_length (amp s)), <- app_assoc. reflexivity.
  - apply no_nul_app. split; [auto|]. destruct s; [constructor|apply no_nul_dec_b; reflexivity].
  - change (len (pair_of x) <= len (skipn (length (amp s)) room)). rewrite len_skipn. rewrite len_app in Hroom. unfold len in *. lia.
Qed.

(** ** What the part buffer shows after a part *)
Lemma trimmed_front l d v t : Forall blank l -> (exists c d', d = c :: d' /\ ~ blank c) -> (exists d' c, d = d' ++ [c] /\ ~ blank c) ->
  trimmed (l ++ d ++ v) t -> exists w, t = d ++ w.
Proof.
  intros Hl (c & d' & Ed & Hc) (d2 & c2 & Ed2 & Hc2) (l0 & r0 & E & Hl0 & Hr0 & Ht & _).
  assert (K : d ++ v = t ++ r0).
  { apply app_eq_app in E as (x & [[Ex Er]|[Ex Er]]).
    - destruct x as [|y x]; [now rewrite Er|]. assert (By : blank y) by (rewrite Ex in Hl; apply Forall_app in Hl as [_ Hl]; now inversion Hl).
      destruct t as [|z t]; [|injection Er as -> _; exfalso; now apply (Ht y t)].
      cbn [app] in Er. rewrite Er, Ed in Hr0. inversion Hr0 as [|? ? _ Hr1]. apply Forall_app in Hr1 as [_ Hr1]. now inversion Hr1.
    - destruct x as [|y x]; [exact Er|]. rewrite Ed in Er. injection Er as <- _. rewrite Ex in Hl0. apply Forall_app in Hl0 as [_ Hl0]. now inversion Hl0. }
  apply app_eq_app in K as (y & [[Ey Er]|[Ey Er]]); [|eauto].
  destruct y as [|y0 y _] using rev_ind; [exists []; now rewrite app_nil_r in *|].
  rewrite Ed2, app_assoc in Ey. apply app_inj_tail in Ey as [_ ->]. rewrite Er in Hr0. apply Forall_app in Hr0 as [Hr0 _]. apply Forall_app in Hr0 as [_ Hr0]. now inversion Hr0.
Qed.
Lemma trim_shows l d r t' : Forall blank l -> no_nul l -> no_nul d -> (exists c d', d = c :: d' /\ ~ blank c) -> (exists d' c, d = d' ++ [c] /\ ~ blank c) ->
  (exists q, r = q ++ [NUL]) -> trim (map Some (l ++ d ++ r)) = Ok (map Some t') -> exists w, t' = d ++ w.
Proof.
  intros Hl Nl Nd H1 H2 (q & ->) T. destruct (first_nul (q ++ [NUL])) as (u & r1 & E & Hu); [apply in_or_app; right; now left|].
  rewrite E in T. assert (Nv : no_nul (l ++ d ++ u)) by (rewrite !no_nul_app; auto).
  replace (l ++ d ++ u ++ NUL :: r1) with ((l ++ d ++ u) ++ NUL :: r1) in T by (now rewrite <- !app_assoc). rewrite as_cs in T.
  destruct (trim_holds (l ++ d ++ u) (map Some r1) Nv) as (t & junk & E1 & Ht & _). rewrite E1 in T. injection T as T.
  apply trimmed_front in Ht as (w & ->); auto. unfold cs in T. rewrite map_app, <- !app_assoc in T.
  exists (skipn (length d) t'). assert (F : firstn (length d) (map Some t') = map Some d) by (rewrite <- T; rewrite <- (map_length Some d), firstn_app, firstn_all, Nat.sub_diag, firstn_O; apply app_nil_r).
  rewrite firstn_map in F. apply (f_equal (map (fun o => match o with Some c => c | None => NUL end))) in F. rewrite !map_map, !map_id in F. rewrite <- F at 1. symmetry. apply firstn_skipn.
Qed.

(** ** The loop *)
Definition gap_ok (bnd gap : str) : Prop := gap = [] \/ (exists w, gap = w ++ [LF]) /\ ~ holds bnd gap.
Definition old_ok (body t : str) : Prop := length t = S (length body) /\ (exists q, t = q ++ [NUL]) /\ ~ holds FILENAME t.
Lemma part_cr x : exists w, part_of x = CR :: w ++ [LF].
Proof.
  exists (LF :: disposition (fd_name x) ++ CRLF ++ flat_map (fun l => l ++ CRLF) (fd_lines x) ++ CRLF ++ fd_value x ++ [CR]).
  unfold part_of. change CRLF with [CR; LF]. cbn [app]. repeat (rewrite <- !app_assoc; cbn [app]). reflexivity.
Qed.
Lemma ends_skipn (t : str) k : (exists q, t = q ++ [NUL]) -> (k < length t)%nat -> exists q, skipn k t = q ++ [NUL].
Proof.
  intros (q & ->) H. rewrite app_length in H. cbn [length] in H. exists (skipn k q). rewrite skipn_app. f_equal.
  replace (k - length q)%nat with O by lia. reflexivity.
Qed.
Lemma to_int_id z : 0 <= z < 2 ^ 31 -> to_int z = z.
Proof. intros H. unfold to_int. rewrite Z.mod_small; lia. Qed.
Lemma loop_step k e f bnd body before gap x q t s room : clean_boundary bnd -> len body < 2 ^ 31 ->
  body = before ++ gap ++ bnd ++ part_of x ++ bnd ++ q -> gap_ok bnd gap -> clean_field bnd x -> old_ok body t ->
  no_nul s -> len (amp s ++ pair_of x) <= len room ->
  exists t', (old_ok body t' /\ exists w, t' = disposition (fd_name x) ++ w) /\
  multipart_loop (S k) e f (map Some body ++ [Some NUL]) (map Some t) (cs s ++ room) bnd (len body) (len before)
  = multipart_loop k e f (map Some body ++ [Some NUL]) (map Some t') (cs (s ++ amp s ++ pair_of x) ++ skipn (length (amp s ++ pair_of x)) room)
      bnd (len body) (len (before ++ gap ++ bnd ++ [CR])).
Proof.
  intros (Bne & Bn & Bcr & Blf) Hlen Eb Hg Hx (Lt & Ht & Ft) Hs Hroom.
  pose proof Hx as ((_ & _ & _ & _ & Bd & Fd) & Cl & _ & Bv & Fv).
  destruct (part_free bnd x) as (Pb & wb & Ewb & _); auto. { eapply Forall_impl; [|exact Cl]. now intros l (_ & _ & _ & _ & H & _). }
  destruct (part_free FILENAME x) as (Pf & w & Ew & Hw); auto; [discriminate|now apply text_without|now apply text_without| |].
  { eapply Forall_impl; [|exact Cl]. now intros l (_ & _ & _ & _ & _ & H). }
  set (start := before ++ gap ++ bnd).
  assert (Lb : 0 < len bnd) by (destruct bnd; [easy|rewrite len_cons; pose proof (len_nonneg _ bnd); lia]).
  assert (LL : len body = len start + len (part_of x) + len bnd + len q) by (rewrite Eb; unfold start; rewrite !len_app; lia).
  pose proof (len_nonneg _ before). pose proof (len_nonneg _ gap). pose proof (len_nonneg _ q). pose proof (len_nonneg _ (part_of x)).
  assert (Lst : len start = len before + len gap + len bnd) by (unfold start; rewrite !len_app; lia).
  assert (E1 : text_find_after (map Some body ++ [Some NUL]) bnd (len before) (len body) = Ok (len start)).
  { rewrite Lst. rewrite Eb at 1. apply text_find_here; auto; [lia|]. intros a b E. now apply (boundary_first bnd gap (part_of x ++ bnd ++ q)) in E. }
  assert (E2 : text_find_after (map Some body ++ [Some NUL]) bnd (len start) (len body) = Ok (len start + len (part_of x) + len bnd)).
  { rewrite Eb at 1. replace (before ++ gap ++ bnd ++ part_of x ++ bnd ++ q) with (start ++ part_of x ++ bnd ++ q) by (unfold start; now rewrite <- !app_assoc).
    apply text_find_here; auto; [lia|]. intros a b E. apply (boundary_first bnd (part_of x) q) in E; auto. right. split; [eauto|exact Pb]. }
  assert (Lp : (length (part_of x) < length t)%nat) by (unfold len in *; lia).
  set (old := skipn (length (part_of x)) t).
  assert (E3 : memcpy (map Some t) 0 (map Some body ++ [Some NUL]) (len start) (len (part_of x)) = Ok (map Some (part_of x ++ old))).
  { rewrite Eb. replace (before ++ gap ++ bnd ++ part_of x ++ bnd ++ q) with (start ++ part_of x ++ bnd ++ q) by (unfold start; now rewrite <- !app_assoc).
    rewrite !map_app, <- !app_assoc. unfold memcpy. rewrite slice_ok by (now rewrite len_map). cbn [bind].
    rewrite write_at_0 by (rewrite !len_map; unfold len; lia). rewrite map_length. unfold old. now rewrite skipn_map. }
  assert (Eold : exists q, old = q ++ [NUL]) by (now apply ends_skipn).
  assert (Fold : ~ holds FILENAME old) by (intros X; apply Ft; now apply holds_skipn in X).
  assert (T : exists b', trim (map Some (part_of x ++ old)) = Ok b').
  { destruct (first_nul (part_of x ++ old)) as (s1 & r1 & -> & Hs1); [destruct Eold as (q1 & ->); apply in_or_app; right; apply in_or_app; right; now left|].
    rewrite as_cs. destruct (trim_holds s1 (map Some r1) Hs1) as (? & ? & E & _). eauto. }
  destruct T as (b' & T). destruct (trim_free FILENAME (part_of x ++ old) b') as (t' & -> & Lt' & Ft' & Et'); auto.
  { apply no_nul_dec_b; reflexivity. }
  { rewrite Ew, <- app_assoc. apply apart; auto. now apply text_without. }
  { destruct Eold as (q1 & ->). exists (part_of x ++ q1). now rewrite <- app_assoc. }
  exists t'. split.
  { split; [split; [|split; auto]; rewrite Lt', app_length; unfold old; rewrite skipn_length; lia|].
    pose proof Hx as ((_ & Nd & _) & _).
    apply (trim_shows CRLF (disposition (fd_name x)) ((CRLF ++ flat_map (fun l => l ++ CRLF) (fd_lines x) ++ CRLF ++ fd_value x ++ CRLF) ++ old)); auto.
    - repeat constructor; cbn; tauto.
    - apply no_nul_dec_b. reflexivity.
    - exists "C"%char, (L "ontent-Disposition: form-data; name=" ++ [DQ] ++ fd_name x ++ [DQ]). split; [reflexivity|]. intros B. cbn in B. intuition discriminate.
    - exists (L "Content-Disposition: form-data; name=" ++ [DQ] ++ fd_name x), DQ. split; [unfold disposition; now rewrite <- !app_assoc|]. intros B. cbn in B. intuition discriminate.
    - destruct Eold as (q1 & ->). rewrite app_assoc. eauto.
    - rewrite <- T. unfold part_of. now rewrite <- !app_assoc. }
  cbn [multipart_loop]. replace (len before <? len body) with true by lia. rewrite E1. cbn [bind]. replace (len start <? 0) with false by lia.
  rewrite E2. cbn [bind]. replace (len start + len (part_of x) + len bnd <? 0) with false by lia.
  replace (len start + len (part_of x) + len bnd - len start - len bnd) with (len (part_of x)) by lia.
  rewrite to_int_id by lia. rewrite E3. cbn [bind].
  rewrite (part_field e f bnd x old s room) by auto. cbn [bind]. rewrite T. cbn [bind].
  do 2 f_equal. unfold start. rewrite !len_app. change (len [CR]) with 1. lia.
Qed.
Fixpoint added (s : str) (xs : list field) : str :=
  match xs with [] => [] | x :: xs' => amp s ++ pair_of x ++ added (s ++ amp s ++ pair_of x) xs' end.
Lemma visible_no_nul n : no_nul n -> no_nul (visible n).
Proof. induction 1 as [|c n Hc _ IH]; cbn [visible]; [constructor|]. destruct (_ && _); [now constructor|constructor]. Qed.
Lemma pair_no_nul bnd x : clean_field bnd x -> no_nul (pair_of x).
Proof.
  intros ((_ & Nd & _) & _ & Nv & _). unfold disposition in Nd. apply no_nul_app in Nd as [_ Nd]. apply no_nul_app in Nd as [_ Nd]. apply no_nul_app in Nd as [Nn _].
  unfold pair_of. apply no_nul_app. split; [now apply visible_no_nul|]. apply no_nul_app. split; [apply no_nul_dec_b; reflexivity|exact Nv].
Qed.
Lemma amp_no_nul s : no_nul (amp s).
Proof. destruct s; [constructor|apply no_nul_dec_b; reflexivity]. Qed.
Lemma loop_fields e f bnd body q : clean_boundary bnd -> len body < 2 ^ 31 -> forall xs k before gap t s room,
  body = before ++ gap ++ flat_map (fun x => bnd ++ part_of x) xs ++ bnd ++ q -> gap_ok bnd gap -> Forall (clean_field bnd) xs -> old_ok body t ->
  no_nul s -> len (added s xs) <= len room ->
  exists t' before' gap', (old_ok body t' /\ (xs = [] -> t' = t) /\ forall ys y, xs = ys ++ [y] -> exists w, t' = disposition (fd_name y) ++ w) /\ gap_ok bnd gap' /\ body = before' ++ gap' ++ bnd ++ q /\
  multipart_loop (length xs + k) e f (map Some body ++ [Some NUL]) (map Some t) (cs s ++ room) bnd (len body) (len before)
  = multipart_loop k e f (map Some body ++ [Some NUL]) (map Some t') (cs (s ++ added s xs) ++ skipn (length (added s xs)) room)
      bnd (len body) (len before').
Proof.
  intros Hb Hlen. induction xs as [|x xs IH]; intros k before gap t s room Eb Hg Hx Ht Hs Hroom.
  - exists t, before, gap. split; [split; [auto|split; [auto|intros ys y E; now destruct ys]]|]. split; [auto|]. split; [exact Eb|]. cbn [added length skipn]. now rewrite app_nil_r.
  - inversion Hx as [|? ? Hx1 Hx2]; subst x0 l. cbn [flat_map added length] in *.
    assert (Er : exists r, flat_map (fun x => bnd ++ part_of x) xs ++ bnd ++ q = bnd ++ r).
    { destruct xs as [|y ys]; [now exists q|]. cbn [flat_map]. rewrite <- !app_assoc. eauto. }
    destruct Er as (r & Er).
    destruct (loop_step (length xs + k) e f bnd body before gap x r t s room) as (t1 & (Ht1 & Sh1) & E1); auto.
    { rewrite Eb, <- !app_assoc. now rewrite Er. }
    { rewrite !len_app in Hroom. rewrite len_app. pose proof (len_nonneg _ (added (s ++ amp s ++ pair_of x) xs)). lia. }
    destruct (part_cr x) as (w & Ew).
    destruct (IH k (before ++ gap ++ bnd ++ [CR]) (w ++ [LF]) t1 (s ++ amp s ++ pair_of x) (skipn (length (amp s ++ pair_of x)) room)) as (t2 & before' & gap' & (Ht2 & St2 & Sh2) & Hg2 & Eb2 & E2); auto.
    { rewrite Eb, <- !app_assoc. rewrite Ew. cbn [app]. now rewrite <- !app_assoc. }
    { right. split; [eauto|]. pose proof Hx1 as ((_ & _ & _ & _ & Bd & _) & Cl & _ & Bv & _). destruct Hb as (Bne & Bn & Bcr & Blf).
      destruct (part_free bnd x) as (Pb & _); auto. { eapply Forall_impl; [|exact Cl]. now intros l (_ & _ & _ & _ & H & _). }
      intros X. apply Pb. rewrite Ew. change (CR :: w ++ [LF]) with ([CR] ++ w ++ [LF]). now apply holds_r. }
    { apply no_nul_app. split; [auto|]. apply no_nul_app. split; [apply amp_no_nul|eapply pair_no_nul; eauto]. }
    { rewrite len_skipn. rewrite !len_app in *. unfold len in *. rewrite app_length. lia. }
    exists t2, before', gap'. split.
    { split; [auto|]. split; [discriminate|]. intros ys y Ey. destruct xs as [|x1 xs].
      - rewrite St2 by reflexivity. destruct ys as [|? ys]; [injection Ey as <-; exact Sh1|injection Ey as _ Ey; now destruct ys].
      - destruct ys as [|? ys]; [discriminate|]. injection Ey as _ Ey. now apply (Sh2 ys). }
    split; [auto|]. split; [auto|]. cbn [Nat.add]. rewrite E1, E2. rewrite skipn_skipn_plus, <- !app_assoc.
    repeat f_equal. rewrite !app_length. lia.
Qed.
Lemma loop_end k e f bnd body before gap q t s room : clean_boundary bnd -> body = before ++ gap ++ bnd ++ q -> gap_ok bnd gap -> ~ holds bnd q ->
  multipart_loop k e f (map Some body ++ [Some NUL]) t (cs s ++ room) bnd (len body) (len before) = Ok (cs s ++ room, f).
Proof.
  intros (Bne & Bn & Bcr & Blf) Eb Hg Hq. pose proof (len_nonneg _ before). pose proof (len_nonneg _ gap). pose proof (len_nonneg _ q).
  assert (Lb : 0 < len bnd) by (destruct bnd; [easy|rewrite len_cons; pose proof (len_nonneg _ bnd); lia]).
  assert (LL : len body = len before + len gap + len bnd + len q) by (rewrite Eb, !len_app; lia).
  assert (E1 : text_find_after (map Some body ++ [Some NUL]) bnd (len before) (len body) = Ok (len (before ++ gap ++ bnd))).
  { rewrite !len_app, Z.add_assoc. rewrite Eb at 1. apply text_find_here; auto; [lia|]. intros a b E. now apply (boundary_first bnd gap q) in E. }
  assert (E2 : text_find_after (map Some body ++ [Some NUL]) bnd (len (before ++ gap ++ bnd)) (len body) = Ok (-1)).
  { replace body with ((before ++ gap ++ bnd) ++ q) by (rewrite Eb; now rewrite <- !app_assoc). now apply text_not_found. }
  destruct k; cbn [multipart_loop]; replace (len before <? len body) with true by lia; rewrite E1; cbn [bind];
    (replace (len (before ++ gap ++ bnd) <? 0) with false by (rewrite !len_app; lia)); rewrite E2; reflexivity.
Qed.

(** ** The whole body *)
Lemma added_amp s xs : s <> [] -> added s xs = flat_map (fun y => L "&" ++ pair_of y) xs.
Proof.
  revert s. induction xs as [|x xs IH]; intros s Hs; [reflexivity|]. cbn [added flat_map]. rewrite IH by (intros E; apply app_eq_nil in E; tauto).
  destruct s; [easy|]. cbn [amp]. now rewrite app_assoc.
Qed.
Lemma added_form xs : added [] xs = form_of xs.
Proof.
  destruct xs as [|x xs]; [reflexivity|]. cbn [added form_of amp app]. rewrite added_amp; [reflexivity|].
  unfold pair_of. intros E. apply app_eq_nil in E as [_ E]. discriminate.
Qed.
Lemma visible_le n : len (visible n) <= len n.
Proof. induction n as [|c n IH]; cbn [visible]; [lia|]. destruct (_ && _); rewrite ?len_cons; [lia|]. change (len (@nil ascii)) with 0. pose proof (len_nonneg _ n). lia. Qed.
Lemma pair_le x : len (pair_of x) + 1 <= len (part_of x).
Proof.
  unfold pair_of, part_of, disposition. rewrite !len_app. pose proof (visible_le (fd_name x)). pose proof (len_nonneg _ (flat_map (fun l => l ++ CRLF) (fd_lines x))).
  change (len (L "=")) with 1. change (len CRLF) with 2. change (len [DQ]) with 1. change (len (L "Content-Disposition: form-data; name=")) with 37. lia.
Qed.
Lemma added_le bnd s xs : len (added s xs) <= len (flat_map (fun x => bnd ++ part_of x) xs).
Proof.
  revert s. induction xs as [|x xs IH]; intros s; [cbn; lia|]. cbn [added flat_map]. rewrite !len_app. specialize (IH (s ++ amp s ++ pair_of x)).
  pose proof (pair_le x). pose proof (len_nonneg _ bnd). assert (len (amp s) <= 1) by (destruct s; cbn; lia). lia.
Qed.
Lemma parts_count bnd xs : len xs <= len (flat_map (fun x => bnd ++ part_of x) xs).
Proof.
  induction xs as [|x xs IH]; [cbn; lia|]. cbn [flat_map]. rewrite len_cons, !len_app. pose proof (pair_le x). pose proof (len_nonneg _ (pair_of x)). pose proof (len_nonneg _ bnd). lia.
Qed.
Lemma holds_nuls n k : n <> [] -> no_nul n -> ~ holds n (repeat NUL k).
Proof.
  intros Hne Hn (a & b & E). destruct n as [|c n]; [easy|]. assert (I : In c (repeat NUL k)) by (rewrite E; apply in_or_app; right; now left).
  apply repeat_spec in I. subst c. inversion Hn. easy.
Qed.
Lemma fields_then e f pre bnd xs q : clean_boundary bnd -> clean_preamble bnd pre -> Forall (clean_field bnd) xs -> len (body_of pre bnd xs q) < 2 ^ 31 ->
  exists k t before gap, (old_ok (body_of pre bnd xs q) t /\ forall ys y, xs = ys ++ [y] -> exists w, t = disposition (fd_name y) ++ w) /\ gap_ok bnd gap /\ body_of pre bnd xs q = before ++ gap ++ bnd ++ q /\
  multipart_loop (Z.to_nat (len (body_of pre bnd xs q))) e f (map Some (body_of pre bnd xs q) ++ [Some NUL])
    (calloc (len (body_of pre bnd xs q) + 1)) (calloc (len (body_of pre bnd xs q) + 1)) bnd (len (body_of pre bnd xs q)) 0
  = multipart_loop (S k) e f (map Some (body_of pre bnd xs q) ++ [Some NUL]) (map Some t)
      (cs (form_of xs) ++ calloc (len (body_of pre bnd xs q) - len (form_of xs))) bnd (len (body_of pre bnd xs q)) (len before).
Proof.
  intros Hb Hp Hx Hlen. set (body := body_of pre bnd xs q) in *.
  assert (Lb : 0 < len bnd) by (destruct Hb; destruct bnd; [easy|rewrite len_cons; pose proof (len_nonneg _ bnd); lia]).
  assert (LL : len body = len pre + len (flat_map (fun x => bnd ++ part_of x) xs) + len bnd + len q) by (unfold body, body_of; rewrite !len_app; lia).
  pose proof (len_nonneg _ pre). pose proof (len_nonneg _ q). pose proof (parts_count bnd xs) as PC. pose proof (added_le bnd [] xs) as AL. rewrite added_form in AL.
  destruct (loop_fields e f bnd body q Hb Hlen xs (S (Z.to_nat (len body) - length xs - 1)) [] pre (repeat NUL (Z.to_nat (len body + 1))) [] (calloc (len body)))
    as (t & before & gap & (Ht & _ & Sh) & Hg & Eb & E); auto.
  - split; [rewrite repeat_length; unfold len; lia|]. split.
    + exists (repeat NUL (Z.to_nat (len body))). replace (Z.to_nat (len body + 1)) with (Z.to_nat (len body) + 1)%nat by (unfold len; lia). apply repeat_app.
    + apply holds_nuls; [discriminate|apply no_nul_dec_b; reflexivity].
  - rewrite added_form. unfold calloc. unfold len at 2. rewrite repeat_length. unfold len in *. lia.
  - exists (Z.to_nat (len body) - length xs - 1)%nat, t, before, gap. split; [auto|]. split; [auto|]. split; [auto|].
    rewrite added_form in E. cbn [app] in E.
    replace (length xs + S (Z.to_nat (len body) - length xs - 1))%nat with (Z.to_nat (len body)) in E by (unfold len in *; lia).
    change (len (@nil ascii)) with 0 in E.
    replace (cs [] ++ calloc (len body)) with (calloc (len body + 1)) in E
      by (rewrite (calloc_cs (len body + 1)) by (pose proof (len_nonneg _ body); lia); do 2 f_equal; lia).
    replace (map Some (repeat NUL (Z.to_nat (len body + 1)))) with (calloc (len body + 1)) in E.
    2:{ unfold calloc. clear. induction (Z.to_nat (len body + 1)); cbn; congruence. }
    rewrite E. do 2 f_equal. replace (len body) with (len (form_of xs) + (len body - len (form_of xs))) at 1 by lia.
    rewrite calloc_app by (try apply len_nonneg; lia). rewrite skipn_app. unfold calloc at 2. rewrite repeat_length, to_nat_len, Nat.sub_diag. cbn [skipn].
    rewrite skipn_all2; [reflexivity|]. unfold calloc. rewrite repeat_length, to_nat_len. lia.
Qed.
Lemma form_no_nul bnd xs : Forall (clean_field bnd) xs -> no_nul (form_of xs).
Proof.
  intros H. destruct H as [|x xs H1 H2]; [constructor|]. cbn [form_of]. apply no_nul_app. split; [eapply pair_no_nul; eauto|].
  induction H2 as [|y ys H3 _ IH]; cbn [flat_map]; [constructor|]. apply no_nul_app. split; [|exact IH]. apply no_nul_app. split; [apply no_nul_dec_b; reflexivity|eapply pair_no_nul; eauto].
Qed.
Lemma multipart_fields e f pre bnd xs q : clean_boundary bnd -> clean_preamble bnd pre -> Forall (clean_field bnd) xs -> ~ holds bnd q ->
  len (body_of pre bnd xs q) < 2 ^ 31 ->
  multipart_parse e f (map Some (body_of pre bnd xs q) ++ [Some NUL]) bnd (len (body_of pre bnd xs q))
  = Ok (cs (form_of xs) ++ skipn (S (length (form_of xs))) (map Some (body_of pre bnd xs q) ++ [Some NUL]), f).
Proof.
  intros Hb Hp Hx Hq Hlen. destruct (fields_then e f pre bnd xs q Hb Hp Hx Hlen) as (k & t & before & gap & _ & Hg & Eb & E).
  unfold multipart_parse. rewrite E. pose proof (added_le bnd [] xs) as AL. rewrite added_form in AL.
  assert (LL : len (form_of xs) <= len (body_of pre bnd xs q)) by (unfold body_of; rewrite !len_app; pose proof (len_nonneg _ pre); pose proof (len_nonneg _ q); pose proof (len_nonneg _ bnd); lia).
  set (body := body_of pre bnd xs q) in *. rewrite (loop_end (S k) e f bnd body before gap q) by auto. cbn [bind].
  rewrite cstr_cs by (eapply form_no_nul; eauto). cbn [bind]. rewrite strcpy_0; [reflexivity|]. rewrite len_app, len_map. change (len [Some NUL]) with 1. lia.
Qed.

(** ** Parts without a name *)
Lemma part_nameless e f tf t n : (exists q, t = q ++ [NUL]) -> ~ holds FORM_DATA_NAME t -> part_parse e f tf (map Some t) n = Ok (tf, f).
Proof.
  intros (q & Eq) H. destruct (first_nul t) as (s & r & -> & Hs); [rewrite Eq; apply in_or_app; right; now left|].
  unfold part_parse. rewrite as_cs at 1. rewrite strlen_cs by auto. cbn [bind]. pose proof (text_not_found FORM_DATA_NAME [] s (map Some r)) as T.
  change (len (@nil ascii)) with 0 in T. cbn [app] in T. change (s ++ NUL :: r) with (s ++ [NUL] ++ r). rewrite map_app. cbn [app map]. rewrite T; [reflexivity|apply no_nul_dec_b; reflexivity|discriminate|].
  intros X. apply H. now apply holds_l.
Qed.
Lemma loop_skip k e f bnd body before gap p q t tf : clean_boundary bnd -> len body < 2 ^ 31 ->
  body = before ++ gap ++ bnd ++ p ++ bnd ++ q -> gap_ok bnd gap -> nameless bnd p -> old_ok body t -> ~ holds FORM_DATA_NAME t ->
  exists t', old_ok body t' /\ ~ holds FORM_DATA_NAME t' /\
  multipart_loop (S k) e f (map Some body ++ [Some NUL]) (map Some t) tf bnd (len body) (len before)
  = multipart_loop k e f (map Some body ++ [Some NUL]) (map Some t') tf bnd (len body) (len (before ++ gap ++ bnd) + 1).
Proof.
  intros (Bne & Bn & Bcr & Blf) Hlen Eb Hg ((w & Ep) & Pb & Pn & Pf) (Lt & Ht & Ft) Nt.
  set (start := before ++ gap ++ bnd).
  assert (Lb : 0 < len bnd) by (destruct bnd; [easy|rewrite len_cons; pose proof (len_nonneg _ bnd); lia]).
  assert (LL : len body = len start + len p + len bnd + len q) by (rewrite Eb; unfold start; rewrite !len_app; lia).
  pose proof (len_nonneg _ before). pose proof (len_nonneg _ gap). pose proof (len_nonneg _ q). pose proof (len_nonneg _ p).
  assert (Lst : len start = len before + len gap + len bnd) by (unfold start; rewrite !len_app; lia).
  assert (E1 : text_find_after (map Some body ++ [Some NUL]) bnd (len before) (len body) = Ok (len start)).
  { rewrite Lst. rewrite Eb at 1. apply text_find_here; auto; [lia|]. intros a b E. now apply (boundary_first bnd gap (p ++ bnd ++ q)) in E. }
  assert (Eb' : body = start ++ p ++ bnd ++ q) by (rewrite Eb; unfold start; now rewrite <- !app_assoc).
  assert (E2 : text_find_after (map Some body ++ [Some NUL]) bnd (len start) (len body) = Ok (len start + len p + len bnd)).
  { rewrite Eb' at 1. apply text_find_here; auto; [lia|]. intros a b E. apply (boundary_first bnd p q) in E; auto. right. eauto. }
  assert (Lp : (length p < length t)%nat) by (unfold len in *; lia).
  set (old := skipn (length p) t).
  assert (E3 : memcpy (map Some t) 0 (map Some body ++ [Some NUL]) (len start) (len p) = Ok (map Some (p ++ old))).
  { rewrite Eb'. rewrite !map_app, <- !app_assoc. unfold memcpy. rewrite slice_ok by (now rewrite len_map). cbn [bind].
    rewrite write_at_0 by (rewrite !len_map; unfold len in *; lia). rewrite map_length. unfold old. now rewrite skipn_map. }
  assert (Eold : exists q, old = q ++ [NUL]) by (now apply ends_skipn).
  assert (F : forall n, ~ In LF n -> ~ holds n p -> ~ holds n t -> ~ holds n (p ++ old)).
  { intros n F1 F2 F3. rewrite Ep, <- app_assoc. apply apart; auto.
    - intros X. apply F2. rewrite Ep. now apply holds_l.
    - intros X. apply F3. now apply holds_skipn in X. }
  assert (Fn : ~ holds FORM_DATA_NAME (p ++ old)) by (apply F; auto; now apply text_without).
  assert (Ff : ~ holds FILENAME (p ++ old)) by (apply F; auto; now apply text_without).
  assert (Eq : exists q, p ++ old = q ++ [NUL]) by (destruct Eold as (q1 & ->); exists (p ++ q1); now rewrite <- app_assoc).
  assert (T : exists b', trim (map Some (p ++ old)) = Ok b').
  { destruct (first_nul (p ++ old)) as (s1 & r1 & -> & Hs1); [destruct Eq as (q1 & ->); apply in_or_app; right; now left|].
    rewrite as_cs. destruct (trim_holds s1 (map Some r1) Hs1) as (? & ? & E & _). eauto. }
  destruct T as (b' & T). destruct (trim_free FILENAME (p ++ old) b') as (t' & -> & Lt' & Ft' & Et'); auto; [apply no_nul_dec_b; reflexivity|].
  destruct (trim_free FORM_DATA_NAME (p ++ old) (map Some t')) as (t2 & E4 & _ & Fn' & _); auto; [apply no_nul_dec_b; reflexivity|].
  assert (t2 = t') as ->. { apply (f_equal (map (fun o => match o with Some c => c | None => NUL end))) in E4. rewrite !map_map, !map_id in E4. congruence. }
  exists t'. split.
  { split; [|split; auto]. rewrite Lt', app_length. unfold old. rewrite skipn_length. lia. }
  split; [exact Fn'|].
  cbn [multipart_loop]. replace (len before <? len body) with true by lia. rewrite E1. cbn [bind]. replace (len start <? 0) with false by lia.
  rewrite E2. cbn [bind]. replace (len start + len p + len bnd <? 0) with false by lia.
  replace (len start + len p + len bnd - len start - len bnd) with (len p) by lia.
  rewrite to_int_id by lia. rewrite E3. cbn [bind]. rewrite part_nameless by auto. cbn [bind]. rewrite T. reflexivity.
Qed.
Lemma loop_nameless e f bnd body r tf : clean_boundary bnd -> len body < 2 ^ 31 -> forall ps k before gap t,
  body = before ++ gap ++ flat_map (fun p => bnd ++ p) ps ++ bnd ++ r -> gap_ok bnd gap -> Forall (nameless bnd) ps -> old_ok body t -> ~ holds FORM_DATA_NAME t ->
  exists t' before' gap', old_ok body t' /\ gap_ok bnd gap' /\ body = before' ++ gap' ++ bnd ++ r /\
  multipart_loop (length ps + k) e f (map Some body ++ [Some NUL]) (map Some t) tf bnd (len body) (len before)
  = multipart_loop k e f (map Some body ++ [Some NUL]) (map Some t') tf bnd (len body) (len before').
Proof.
  intros Hb Hlen. induction ps as [|p ps IH]; intros k before gap t Eb Hg Hx Ht Nt.
  - exists t, before, gap. auto.
  - inversion Hx as [|? ? Hx1 Hx2]; subst x l. cbn [flat_map length] in *.
    assert (Er : exists r', flat_map (fun p => bnd ++ p) ps ++ bnd ++ r = bnd ++ r').
    { destruct ps as [|y ys]; [now exists r|]. cbn [flat_map]. rewrite <- !app_assoc. eauto. }
    destruct Er as (r' & Er).
    destruct (loop_skip (length ps + k) e f bnd body before gap p r' t tf) as (t1 & Ht1 & Nt1 & E1); auto.
    { rewrite Eb, <- !app_assoc. now rewrite Er. }
    pose proof Hx1 as ((w & Ew) & Pb & _).
    assert (Ec : exists c g, p = c :: g /\ gap_ok bnd g).
    { destruct w as [|c w]; [exists LF, []; split; [exact Ew|now left]|]. exists c, (w ++ [LF]). split; [exact Ew|]. right. split; [eauto|].
      intros X. apply Pb. rewrite Ew. change ((c :: w) ++ [LF]) with ([c] ++ w ++ [LF]). now apply holds_r. }
    destruct Ec as (c & g & Ec & Hg').
    destruct (IH k (before ++ gap ++ bnd ++ [c]) g t1) as (t2 & before' & gap' & Ht2 & Hg2 & Eb2 & E2); auto.
    { rewrite Eb, <- !app_assoc. rewrite Ec. reflexivity. }
    exists t2, before', gap'. split; [auto|]. split; [auto|]. split; [auto|]. cbn [Nat.add]. rewrite E1, <- E2. f_equal. rewrite !len_app. change (len [c]) with 1. lia.
Qed.
Lemma nameless_count bnd ps xs : (0 < length bnd)%nat ->
  (length ps <= length (flat_map (fun p : str => bnd ++ p) ps))%nat /\ (length xs <= length (flat_map (fun x => bnd ++ part_of x) xs))%nat.
Proof.
  intros Hb. split; [induction ps as [|p ps IH]|induction xs as [|x xs IH]]; cbn [flat_map length]; try lia; rewrite !app_length; lia.
Qed.
Lemma multipart_nameless e f pre bnd ps xs q : clean_boundary bnd -> clean_preamble bnd pre -> Forall (nameless bnd) ps -> Forall (clean_field bnd) xs -> ~ holds bnd q ->
  len (nameless_then pre bnd ps xs q) < 2 ^ 31 ->
  multipart_parse e f (map Some (nameless_then pre bnd ps xs q) ++ [Some NUL]) bnd (len (nameless_then pre bnd ps xs q))
  = Ok (cs (form_of xs) ++ skipn (S (length (form_of xs))) (map Some (nameless_then pre bnd ps xs q) ++ [Some NUL]), f).
Proof.
  intros Hb Hp Hn Hx Hq Hlen. set (body := nameless_then pre bnd ps xs q) in *.
  assert (Lb : 0 < len bnd) by (destruct Hb; destruct bnd; [easy|rewrite len_cons; pose proof (len_nonneg _ bnd); lia]).
  assert (LL : len body = len pre + len (flat_map (fun p => bnd ++ p) ps) + len (flat_map (fun x => bnd ++ part_of x) xs) + len bnd + len q) by (unfold body, nameless_then; rewrite !len_app; lia).
  pose proof (len_nonneg _ pre). pose proof (len_nonneg _ q). pose proof (added_le bnd [] xs) as AL. rewrite added_form in AL.
  destruct (nameless_count bnd ps xs) as (C1 & C2); [unfold len in *; lia|].
  assert (Er : exists r, flat_map (fun x => bnd ++ part_of x) xs ++ bnd ++ q = bnd ++ r).
  { destruct xs as [|y ys]; [now exists q|]. cbn [flat_map]. rewrite <- !app_assoc. eauto. }
  destruct Er as (r & Er).
  set (k := (Z.to_nat (len body) - length ps - length xs)%nat).
  assert (Ek : Z.to_nat (len body) = (length ps + (length xs + k))%nat) by (unfold k; unfold len in *; lia).
  destruct (loop_nameless e f bnd body r (calloc (len body + 1)) Hb Hlen ps (length xs + k) [] pre (repeat NUL (Z.to_nat (len body + 1)))) as (t & b1 & g1 & Ht & Hg1 & Eb1 & E1); auto.
  - unfold body, nameless_then. rewrite Er. reflexivity.
  - split; [rewrite repeat_length; unfold len; lia|]. split.
    + exists (repeat NUL (Z.to_nat (len body))). replace (Z.to_nat (len body + 1)) with (Z.to_nat (len body) + 1)%nat by (unfold len; lia). apply repeat_app.
    + apply holds_nuls; [discriminate|apply no_nul_dec_b; reflexivity].
  - apply holds_nuls; [discriminate|apply no_nul_dec_b; reflexivity].
  - assert (Hc : calloc (len body + 1) = cs [] ++ calloc (len body)) by (rewrite (calloc_cs (len body + 1)) by (pose proof (len_nonneg _ body); lia); do 2 f_equal; lia).
    destruct (loop_fields e f bnd body q Hb Hlen xs k b1 g1 t [] (calloc (len body))) as (t2 & b2 & g2 & (Ht2 & _) & Hg2 & Eb2 & E2); auto.
    + now rewrite Er.
    + rewrite added_form. unfold calloc. unfold len at 2. rewrite repeat_length. unfold len in *. pose proof (len_nonneg _ (flat_map (fun p => bnd ++ p) ps)). unfold len in *. lia.
    + unfold multipart_parse. rewrite Ek. change (len (@nil ascii)) with 0 in E1.
      replace (calloc (len body + 1)) with (map Some (repeat NUL (Z.to_nat (len body + 1)))) at 1.
      2:{ unfold calloc. clear. induction (Z.to_nat (len body + 1)); cbn; congruence. }
      rewrite E1, Hc, E2. rewrite added_form. cbn [app]. rewrite (loop_end k e f bnd body b2 g2 q) by auto. cbn [bind].
      rewrite cstr_cs by (eapply form_no_nul; eauto). cbn [bind]. rewrite strcpy_0; [reflexivity|]. rewrite len_app, len_map. change (len [Some NUL]) with 1.
      pose proof (len_nonneg _ (flat_map (fun p => bnd ++ p) ps)). lia.
Qed.

(** ** Parts that make the decoder undefined *)
Lemma undef_bind A B (x : outcome A) (k : A -> outcome B) : (forall a, x = Ok a -> undefined (k a)) -> undefined (bind x k).
Proof. intros H. destruct x as [a|u]; [now apply H|now exists u]. Qed.
Lemma find_holds n p rest a b : n <> [] -> p = a ++ n ++ b ->
  exists d, text_find_after (map Some (p ++ rest)) n 0 (len p) = Ok d /\ len n <= d <= len a + len n.
Proof.
  intros Hne E. destruct (strstr (p ++ rest) n) as [k|] eqn:F.
  - apply strstr_some in F as ((z & r & Ez & Lz) & Hmin).
    assert (Ha : (k <= length a)%nat). { apply (Hmin a (b ++ rest)). rewrite E. now rewrite <- !app_assoc. }
    assert (0 < length n)%nat by (destruct n; [easy|cbn; lia]).
    pose proof (text_find_here n z [] r [] (len p)) as T. change (len (@nil ascii)) with 0 in T. rewrite app_nil_r in T. cbn [app] in T. rewrite <- Ez in T.
    exists (0 + len z + len n). split.
    + apply T; auto.
      * assert (len p = len a + len n + len b) by (rewrite E, !len_app; lia). unfold len in *. lia.
      * intros a0 b0 E0. rewrite Lz. apply (Hmin a0 b0). exact E0.
    + unfold len in *. lia.
  - exfalso. apply (proj1 (strstr_none _ _) F a (b ++ rest)). rewrite E. now rewrite <- !app_assoc.
Qed.
Lemma md5sum_small md5 n data off k : n <= 128 -> undefined (md5sum md5 (malloc n) data off k).
Proof.
  intros Hn. unfold md5sum. apply undef_bind. intros m0 _. apply undef_bind. intros msg _. apply undef_bind. intros m _.
  apply undef_bind. intros o Ho. unfold memcpy in Ho. apply bind_ok_inv in Ho as (l & _ & Ho). apply write_at_len in Ho.
  rewrite wr_oob; [eexists; reflexivity|]. change (EVP_MAX_MD_SIZE * 2) with 128. unfold len. rewrite Ho. unfold malloc. rewrite repeat_length. lia.
Qed.
Lemma save_small e f tf field sf data ds n : mp_md5_size e <= 128 -> undefined (save_tmp_file e f tf field sf data ds n).
Proof.
  intros H. unfold save_tmp_file. apply undef_bind. intros o1 _. apply undef_bind. intros o2 _. apply undef_bind. intros o3 _. apply undef_bind. intros orig _.
  apply undef_bind. intros m Hm. exfalso. destruct (md5sum_small (mp_md5 e) (mp_md5_size e) data ds (n - ds - 2) H) as (u & E). rewrite E in Hm. discriminate.
Qed.
Lemma text_prefix (h d stale : str) : no_nul h -> (exists q, stale = q ++ [NUL]) ->
  exists u r, (h ++ d) ++ stale = (h ++ u) ++ NUL :: r /\ no_nul (h ++ u).
Proof.
  intros Hh (q & ->). destruct (first_nul (d ++ q ++ [NUL])) as (u & r & E & Hu); [apply in_or_app; right; apply in_or_app; right; now left|].
  exists u, r. rewrite <- !app_assoc, E. split; [reflexivity|]. apply no_nul_app. auto.
Qed.
Lemma part_reaches e f tf h d stale a b za zb : no_nul h -> (exists q, stale = q ++ [NUL]) ->
  h = a ++ FORM_DATA_NAME ++ b -> b <> [] -> h ++ d = za ++ (CRLF ++ CRLF) ++ zb ->
  exists ds sf, 0 < ds /\
    text_find_after (map Some ((h ++ d) ++ stale)) (CRLF ++ CRLF) 0 (len (h ++ d)) = Ok ds /\
    (holds FILENAME h -> 0 < sf) /\
    ((sf <= 0 -> len (h ++ d) - ds - 2 < 0) -> mp_md5_size e <= 128 -> undefined (part_parse e f tf (map Some ((h ++ d) ++ stale)) (len (h ++ d)))).
Proof.
  intros Hh Hst Ea Hb Ez. destruct (text_prefix h d stale Hh Hst) as (u & r & Et & Hv).
  destruct (find_holds (CRLF ++ CRLF) (h ++ d) stale za zb) as (ds & Eds & Hds); [discriminate|exact Ez|]. change (len (CRLF ++ CRLF)) with 4 in Hds.
  assert (En : strlen (map Some ((h ++ d) ++ stale)) = Ok (len (h ++ u))) by (rewrite Et, as_cs; now apply strlen_cs).
  destruct (find_holds FORM_DATA_NAME (h ++ u) (NUL :: r) a (b ++ u)) as (st & Est & Hst'); [discriminate|rewrite Ea; now rewrite <- !app_assoc|].
  rewrite <- Et in Est. change (len FORM_DATA_NAME) with 17 in Hst'.
  assert (Lb : 0 < len b) by (destruct b; [easy|rewrite len_cons; pose proof (len_nonneg _ b); lia]).
  assert (Lh : len h = len a + 17 + len b) by (rewrite Ea, !len_app; change (len FORM_DATA_NAME) with 17; lia).
  assert (Em : exists m, strlen (from (map Some ((h ++ d) ++ stale)) st) = Ok m /\ 0 < m).
  { exists (len (h ++ u) - st). pose proof (len_nonneg _ u). pose proof (len_nonneg _ a). rewrite len_app. split; [|lia].
    rewrite Et, as_cs. rewrite <- (firstn_skipn (Z.to_nat st) (h ++ u)) at 1.
    assert (Lf : len (firstn (Z.to_nat st) (h ++ u)) = st) by (unfold len; rewrite firstn_length, app_length; unfold len in *; lia).
    assert (Ls : len (skipn (Z.to_nat st) (h ++ u)) = len h + len u - st) by (rewrite len_skipn; rewrite len_app; unfold len in *; lia).
    unfold cs. rewrite map_app, <- !app_assoc, from_app by (now rewrite len_map). rewrite app_assoc. rewrite <- Ls. apply strlen_cs.
    rewrite <- (firstn_skipn (Z.to_nat st) (h ++ u)) in Hv. apply no_nul_app in Hv. tauto. }
  destruct Em as (m & Em & Hm).
  assert (Esf : exists sf, (holds FILENAME h -> 0 < sf) /\ (text_find_after (map Some ((h ++ d) ++ stale)) FILENAME 0 (len (h ++ u)) = Ok sf)).
  { destruct (strstr (h ++ u) FILENAME) as [k|] eqn:F.
    - apply strstr_some in F as ((z & y & E & _) & _). destruct (find_holds FILENAME (h ++ u) (NUL :: r) z y) as (sf & E1 & E2); [discriminate|exact E|].
      exists sf. rewrite Et. split; [|exact E1]. intros _. change (len FILENAME) with 12 in E2. lia.
    - exists (-1). split.
      + intros (z & y & E). exfalso. apply (proj1 (strstr_none _ _) F z (y ++ u)). rewrite E. now rewrite <- !app_assoc.
      + rewrite Et, map_app. cbn [map]. pose proof (text_not_found FILENAME [] (h ++ u) (map Some r)) as H.
        change ([] ++ h ++ u) with (h ++ u) in H. change (len (@nil ascii)) with 0 in H. apply H; [apply no_nul_dec_b; reflexivity|discriminate|].
        intros (z & y & E). now apply (proj1 (strstr_none _ _) F z y). }
  destruct Esf as (sf & Hsf & Esf).
  exists ds, sf. split; [lia|]. split; [exact Eds|]. split; [exact Hsf|]. intros Hneg Hmd.
  unfold part_parse. rewrite En. cbn [bind]. rewrite Est. cbn [bind]. replace (st <? 1) with false by lia. rewrite Em. cbn [bind]. replace (m <=? 0) with false by lia.
  apply undef_bind. intros f0 _. apply undef_bind. intros f1 _. apply undef_bind. intros f2 _. apply undef_bind. intros field _.
  rewrite Eds. cbn [bind]. apply undef_bind. intros tl _. apply undef_bind. intros tf' _. rewrite Esf. cbn [bind].
  replace (0 <? ds) with true by lia. destruct (Z.ltb_spec 0 sf) as [S|S]; [now apply save_small|].
  apply undef_bind. intros v Hvv. exfalso. unfold memcpy in Hvv. apply bind_ok_inv in Hvv as (l & Hl & _). unfold slice in Hl.
  replace (len (h ++ d) - ds - 2 <? 0) with true in Hl by (specialize (Hneg S); lia). discriminate.
Qed.
Lemma loop_reach_at k e f bnd body before gap p q t tf : clean_boundary bnd -> len body < 2 ^ 31 ->
  body = before ++ gap ++ bnd ++ p ++ bnd ++ q -> gap_ok bnd gap -> old_ok body t ->
  (forall a b, p ++ bnd ++ q = a ++ bnd ++ b -> (length p <= length a)%nat) ->
  undefined (part_parse e f tf (map Some (p ++ skipn (length p) t)) (len p)) ->
  undefined (multipart_loop (S k) e f (map Some body ++ [Some NUL]) (map Some t) tf bnd (len body) (len before)).
Proof.
  intros (Bne & Bn & Bcr & Blf) Hlen Eb Hg (Lt & Ht & Ft) Hp U.
  set (start := before ++ gap ++ bnd).
  assert (Lb : 0 < len bnd) by (destruct bnd; [easy|rewrite len_cons; pose proof (len_nonneg _ bnd); lia]).
  assert (LL : len body = len start + len p + len bnd + len q) by (rewrite Eb; unfold start; rewrite !len_app; lia).
  pose proof (len_nonneg _ before). pose proof (len_nonneg _ gap). pose proof (len_nonneg _ q). pose proof (len_nonneg _ p).
  assert (Lst : len start = len before + len gap + len bnd) by (unfold start; rewrite !len_app; lia).
  assert (E1 : text_find_after (map Some body ++ [Some NUL]) bnd (len before) (len body) = Ok (len start)).
  { rewrite Lst. rewrite Eb at 1. apply text_find_here; auto; [lia|]. intros a b E. now apply (boundary_first bnd gap (p ++ bnd ++ q)) in E. }
  assert (Eb' : body = start ++ p ++ bnd ++ q) by (rewrite Eb; unfold start; now rewrite <- !app_assoc).
  assert (E2 : text_find_after (map Some body ++ [Some NUL]) bnd (len start) (len body) = Ok (len start + len p + len bnd)).
  { rewrite Eb' at 1. apply text_find_here; auto; lia. }
  assert (E3 : memcpy (map Some t) 0 (map Some body ++ [Some NUL]) (len start) (len p) = Ok (map Some (p ++ skipn (length p) t))).
  { rewrite Eb'. rewrite !map_app, <- !app_assoc. unfold memcpy. rewrite slice_ok by (now rewrite len_map). cbn [bind].
    rewrite write_at_0 by (rewrite !len_map; unfold len in *; lia). rewrite map_length. now rewrite skipn_map. }
  cbn [multipart_loop]. replace (len before <? len body) with true by lia. rewrite E1. cbn [bind]. replace (len start <? 0) with false by lia.
  rewrite E2. cbn [bind]. replace (len start + len p + len bnd <? 0) with false by lia.
  replace (len start + len p + len bnd - len start - len bnd) with (len p) by lia.
  rewrite to_int_id by lia. rewrite E3. cbn [bind].
  destruct U as (u & E). rewrite E. now exists u.
Qed.
Lemma loop_reach k e f bnd body before gap p q t tf : clean_boundary bnd -> len body < 2 ^ 31 ->
  body = before ++ gap ++ bnd ++ p ++ bnd ++ q -> gap_ok bnd gap -> old_ok body t ->
  (forall a b, p ++ bnd ++ q = a ++ bnd ++ b -> (length p <= length a)%nat) ->
  (forall stale, (exists q, stale = q ++ [NUL]) -> undefined (part_parse e f tf (map Some (p ++ stale)) (len p))) ->
  undefined (multipart_loop (S k) e f (map Some body ++ [Some NUL]) (map Some t) tf bnd (len body) (len before)).
Proof.
  intros Hb Hlen Eb Hg Hold Hp U. eapply loop_reach_at; eauto. destruct Hold as (Lt & Ht & _). apply U. apply ends_skipn; auto. rewrite Lt, Eb, !app_length. lia.
Qed.
Lemma multipart_undefined e f pre bnd xs p q : clean_boundary bnd -> clean_preamble bnd pre -> Forall (clean_field bnd) xs ->
  len (body_of pre bnd xs (p ++ bnd ++ q)) < 2 ^ 31 ->
  (forall a b, p ++ bnd ++ q = a ++ bnd ++ b -> (length p <= length a)%nat) ->
  (forall tf stale, (exists q, stale = q ++ [NUL]) -> undefined (part_parse e f tf (map Some (p ++ stale)) (len p))) ->
  undefined (multipart_parse e f (map Some (body_of pre bnd xs (p ++ bnd ++ q)) ++ [Some NUL]) bnd (len (body_of pre bnd xs (p ++ bnd ++ q)))).
Proof.
  intros Hb Hp Hx Hlen H1 U. destruct (fields_then e f pre bnd xs (p ++ bnd ++ q) Hb Hp Hx Hlen) as (k & t & before & gap & (Ht & _) & Hg & Eb & E).
  unfold multipart_parse. rewrite E. destruct (loop_reach k e f bnd (body_of pre bnd xs (p ++ bnd ++ q)) before gap p q t (cs (form_of xs) ++ calloc (len (body_of pre bnd xs (p ++ bnd ++ q)) - len (form_of xs)))) as (u & E1); auto.
  rewrite E1. now exists u.
Qed.
(** A short part without a name after a field: the field's name is still there. *)
Lemma part_stale e f tf n w p : no_nul p -> no_nul (disposition n) -> len p <= 21 -> ~ holds FORM_DATA_NAME p -> (exists q, disposition n ++ w = q ++ [NUL]) ->
  undefined (part_parse e f tf (map Some (p ++ skipn (length p) (disposition n ++ w))) (len p)).
Proof.
  intros Np Nd Lp Hp (q & Eq). set (hd := L "Content-Disposition: ") in *.
  assert (Ed : disposition n = hd ++ FORM_DATA_NAME ++ n ++ [DQ]) by (unfold disposition, FORM_DATA_NAME; now rewrite <- !app_assoc).
  assert (Lh : length hd = 21%nat) by reflexivity.
  assert (Hw : exists u r, w = u ++ NUL :: r /\ no_nul u).
  { destruct (first_nul w) as (u & r & -> & Hu); [|eauto]. destruct w as [|x w _] using rev_ind.
    - rewrite app_nil_r in Eq. unfold disposition in Eq. rewrite !app_assoc in Eq. apply app_inj_tail in Eq as [_ E]. discriminate.
    - rewrite app_assoc in Eq. apply app_inj_tail in Eq as [_ ->]. apply in_or_app. right. now left. }
  destruct Hw as (u & r & -> & Nu).
  set (v := skipn (length p) hd ++ FORM_DATA_NAME ++ n ++ [DQ] ++ u).
  assert (Es : p ++ skipn (length p) (disposition n ++ u ++ NUL :: r) = (p ++ v) ++ NUL :: r).
  { rewrite Ed, <- !app_assoc, skipn_app. replace (length p - length hd)%nat with 0%nat by (unfold len in *; lia). cbn [skipn]. unfold v. now rewrite <- !app_assoc. }
  assert (Nv : no_nul (p ++ v)).
  { rewrite Ed in Nd. rewrite !no_nul_app in Nd. unfold v. rewrite !no_nul_app. split; [auto|]. split; [now apply no_nul_skipn|]. tauto. }
  rewrite Es. set (b := map Some ((p ++ v) ++ NUL :: r)).
  assert (E1 : strlen b = Ok (len (p ++ v))) by (unfold b; rewrite as_cs; now apply strlen_cs).
  assert (Lv : len (p ++ v) = 38 + len n + 1 + len u).
  { unfold v. rewrite !len_app. change (len FORM_DATA_NAME) with 17. change (len [DQ]) with 1. rewrite len_skipn. unfold len in *. lia. }
  assert (E2 : exists d, text_find_after b FORM_DATA_NAME 0 (len (p ++ v)) = Ok d /\ len p < d <= 38).
  { unfold b. destruct (strstr (p ++ v) FORM_DATA_NAME) as [k|] eqn:F.
    - apply strstr_some in F as ((z & y & Ez & Lz) & Hmin). assert (Hk : (k <= 21)%nat).
      { apply Nat.le_trans with (length (p ++ skipn (length p) hd)); [|rewrite app_length, skipn_length; unfold len in *; lia].
        apply (Hmin _ (n ++ [DQ] ++ u)). unfold v. now rewrite <- !app_assoc. }
      exists (len z + 17). split.
      + pose proof (text_find_here FORM_DATA_NAME z [] (y ++ NUL :: r) [] (len (p ++ v))) as T. change (len (@nil ascii)) with 0 in T. change (len FORM_DATA_NAME) with 17 in T.
        rewrite Ez in T |- *. rewrite <- !app_assoc in *. rewrite app_nil_r in T. cbn [app Z.add] in T |- *. apply T; [discriminate| |].
        * rewrite !len_app. change (len FORM_DATA_NAME) with 17. pose proof (len_nonneg _ y). lia.
        * intros a0 b0 E0. rewrite Lz. assert (Ha : (length a0 < length z)%nat -> exists b1, p ++ v = a0 ++ FORM_DATA_NAME ++ b1).
          { intros Hl. rewrite Ez. exists (skipn (length a0 + 17) (z ++ FORM_DATA_NAME ++ y)).
            assert (Ex : a0 ++ FORM_DATA_NAME = firstn (length a0 + 17) (z ++ FORM_DATA_NAME ++ y)).
            { replace (a0 ++ FORM_DATA_NAME) with (firstn (length a0 + 17) (a0 ++ FORM_DATA_NAME ++ b0)).
              - rewrite <- E0. rewrite (app_assoc z), (app_assoc z FORM_DATA_NAME y), app_assoc. rewrite (firstn_app _ ((z ++ FORM_DATA_NAME) ++ y)).
                replace (length a0 + 17 - length ((z ++ FORM_DATA_NAME) ++ y))%nat with 0%nat; [now rewrite firstn_O, app_nil_r|].
                rewrite !app_length. change (length FORM_DATA_NAME) with 17%nat. lia.
              - rewrite app_assoc, firstn_app. replace (length a0 + 17 - length (a0 ++ FORM_DATA_NAME))%nat with 0%nat by (rewrite app_length; change (length FORM_DATA_NAME) with 17%nat; lia).
                rewrite firstn_O, app_nil_r. apply firstn_all2. rewrite app_length. change (length FORM_DATA_NAME) with 17%nat. lia. }
            rewrite (app_assoc a0), Ex. symmetry. apply firstn_skipn. }
          destruct (Nat.lt_ge_cases (length a0) (length z)) as [Hl|Hl]; [|lia]. destruct (Ha Hl) as (b1 & E3). apply (Hmin a0 b1). exact E3.
      + split; [|unfold len in *; lia]. destruct (Z.le_gt_cases (len z + 17) (len p)) as [Hle|]; [|lia]. exfalso. apply Hp.
        rewrite app_assoc in Ez. apply app_eq_app in Ez as (l & [[Ez El]|[Ez El]]); [exists z, l; now rewrite Ez, <- app_assoc|].
        assert (l = []) as ->. { destruct l; [reflexivity|]. apply (f_equal (@length ascii)) in Ez. rewrite !app_length in Ez. change (length FORM_DATA_NAME) with 17%nat in Ez. cbn [length] in Ez. unfold len in *. lia. }
        exists z, []. rewrite app_nil_r in *. congruence.
    - exfalso. apply (proj1 (strstr_none _ _) F (p ++ skipn (length p) hd) (n ++ [DQ] ++ u)). unfold v. now rewrite <- !app_assoc. }
  destruct E2 as (d & E2 & Hd).
  assert (E3 : exists m, strlen (from b d) = Ok m /\ 0 < m).
  { pose proof (len_nonneg _ n). pose proof (len_nonneg _ u). pose proof (len_nonneg _ p).
    exists (len (p ++ v) - d). split; [|lia]. unfold b. rewrite as_cs. rewrite <- (firstn_skipn (Z.to_nat d) (p ++ v)) at 1.
    assert (Lf : len (firstn (Z.to_nat d) (p ++ v)) = d) by (rewrite len_firstn; lia).
    assert (Ls : len (skipn (Z.to_nat d) (p ++ v)) = len (p ++ v) - d) by (rewrite len_skipn; lia).
    unfold cs. rewrite map_app, <- !app_assoc, from_app by (now rewrite len_map). rewrite app_assoc. rewrite <- Ls. apply strlen_cs.
    now apply no_nul_skipn. }
  destruct E3 as (m & E3 & Hm). pose proof (len_nonneg _ p).
  unfold part_parse. rewrite E1. cbn [bind]. rewrite E2. cbn [bind]. replace (d <? 1) with false by lia. rewrite E3. cbn [bind]. replace (m <=? 0) with false by lia.
  apply undef_bind. intros f0 H0. exfalso. unfold memcpy in H0. apply bind_ok_inv in H0 as (l & Hl & _). unfold slice in Hl. replace (len p - d <? 0) with true in Hl by lia. discriminate.
Qed.
Lemma multipart_stale e f pre bnd xs x p q : clean_boundary bnd -> clean_preamble bnd pre -> Forall (clean_field bnd) (xs ++ [x]) ->
  no_nul p -> len p <= 21 -> ~ holds FORM_DATA_NAME p ->
  (forall a b, p ++ bnd ++ q = a ++ bnd ++ b -> (length p <= length a)%nat) ->
  len (body_of pre bnd (xs ++ [x]) (p ++ bnd ++ q)) < 2 ^ 31 ->
  undefined (multipart_parse e f (map Some (body_of pre bnd (xs ++ [x]) (p ++ bnd ++ q)) ++ [Some NUL]) bnd (len (body_of pre bnd (xs ++ [x]) (p ++ bnd ++ q)))).
Proof.
  intros Hb Hp Hx Np Lp Hf H1 Hlen. destruct (fields_then e f pre bnd (xs ++ [x]) (p ++ bnd ++ q) Hb Hp Hx Hlen) as (k & t & before & gap & (Ht & Sh) & Hg & Eb & E).
  unfold multipart_parse. rewrite E. set (body := body_of pre bnd (xs ++ [x]) (p ++ bnd ++ q)) in *.
  destruct (Sh xs x eq_refl) as (w & Ew).
  destruct (loop_reach_at k e f bnd body before gap p q t (cs (form_of (xs ++ [x])) ++ calloc (len body - len (form_of (xs ++ [x]))))) as (u & E1); auto.
  { rewrite Ew. destruct Ht as (_ & Hq & _). rewrite Ew in Hq. apply part_stale; auto. apply Forall_app in Hx as [_ Hx]. inversion Hx as [|? ? ((_ & N & _) & _) _]. exact N. }
  rewrite E1. now exists u.
Qed.
Lemma multipart_len (e : mpenv) (f : fs) pre bnd xs q :
  len (cs (form_of xs) ++ skipn (S (length (form_of xs))) (map Some (body_of pre bnd xs q) ++ [Some NUL])) = len (body_of pre bnd xs q) + 1.
Proof.
  pose proof (added_le bnd [] xs) as AL. rewrite added_form in AL.
  assert (LL : len (form_of xs) <= len (body_of pre bnd xs q)) by (unfold body_of; rewrite !len_app; pose proof (len_nonneg _ pre); pose proof (len_nonneg _ q); pose proof (len_nonneg _ bnd); lia).
  unfold len in *. rewrite app_length, skipn_length, cs_length, app_length, map_length. cbn [length]. lia.
Qed.
Lemma first_found n p rest z y : n <> [] -> p = z ++ n ++ y -> (forall a b, p = a ++ n ++ b -> (length z <= length a)%nat) ->
  text_find_after (map Some (p ++ rest)) n 0 (len p) = Ok (len z + len n).
Proof.
  intros Hne E H. pose proof (text_find_here n z [] (y ++ rest) [] (len p)) as T. change (len (@nil ascii)) with 0 in T. rewrite app_nil_r in T. cbn [app] in T.
  assert (Ln : (0 < length n)%nat) by (destruct n; [easy|cbn; lia]).
  replace (p ++ rest) with (z ++ n ++ y ++ rest) by (rewrite E; now rewrite <- !app_assoc). rewrite T; auto.
  - rewrite E, !len_app. unfold len. lia.
  - intros a b E1. destruct (Nat.le_gt_cases (length z) (length a)) as [G|G]; [exact G|].
    apply (H a (firstn (length p - length a - length n) b)).
    apply (f_equal (firstn (length p))) in E1. replace (z ++ n ++ y ++ rest) with (p ++ rest) in E1 by (rewrite E; now rewrite <- !app_assoc).
    rewrite firstn_app, firstn_all, Nat.sub_diag, firstn_O, app_nil_r in E1. rewrite E1 at 1.
    assert (Lp : length p = (length z + length n + length y)%nat) by (rewrite E, !app_length; lia).
    rewrite firstn_app, firstn_all2 by lia. f_equal. rewrite firstn_app, firstn_all2 by lia. reflexivity.
Qed.
Lemma part_no_nul bnd x : clean_line bnd (disposition (fd_name x)) -> Forall (clean_line bnd) (fd_lines x) -> no_nul (fd_value x) -> no_nul (part_of x).
Proof.
  intros (_ & Nd & _) Cl Nv. unfold part_of. apply no_nul_app. split; [apply no_nul_dec_b; reflexivity|]. apply no_nul_app. split; [exact Nd|]. apply no_nul_app. split; [apply no_nul_dec_b; reflexivity|].
  apply no_nul_app. split; [|apply no_nul_app; split; [apply no_nul_dec_b; reflexivity|apply no_nul_app; split; [exact Nv|apply no_nul_dec_b; reflexivity]]].
  induction Cl as [|l ls (_ & H & _) _ IH]; cbn [flat_map]; [constructor|]. apply no_nul_app. split; [|exact IH]. apply no_nul_app. split; [exact H|apply no_nul_dec_b; reflexivity].
Qed.
Lemma part_blank x : holds (CRLF ++ CRLF) (part_of x).
Proof.
  unfold part_of. apply holds_r. apply holds_r. destruct (fd_lines x) as [|l ls _] using rev_ind.
  - exists [], (fd_value x ++ CRLF). cbn [flat_map app]. now rewrite <- !app_assoc.
  - apply holds_r. rewrite flat_map_app. cbn [flat_map]. rewrite app_nil_r, <- !app_assoc. do 2 apply holds_r. exists [], (fd_value x ++ CRLF). cbn [app]. now rewrite <- !app_assoc.
Qed.
Definition holdsb (n h : str) : bool := match strstr h n with Some _ => true | None => false end.
Lemma not_holds_dec n h : holdsb n h = false -> ~ holds n h.
Proof. unfold holdsb. intros H (a & b & E). destruct (strstr h n) eqn:F; [discriminate|]. now apply (proj1 (strstr_none _ _) F a b). Qed.
Definition linesb (bnd l : str) : bool :=
  negb (forallb (fun _ => false) l) && forallb (fun c => negb (ceq c NUL)) l && forallb (fun c => negb (ceq c CR)) l && forallb (fun c => negb (ceq c LF)) l
  && negb (holdsb bnd l) && negb (holdsb filename_mark l).
Lemma clean_line_dec bnd l : linesb bnd l = true -> clean_line bnd l.
Proof.
  unfold linesb. rewrite !andb_true_iff, !negb_true_iff. intros (((((H1 & H2) & H3) & H4) & H5) & H6).
  split; [intros ->; discriminate|]. split; [now apply no_nul_dec_b|]. split; [now apply text_without|]. split; [now apply text_without|]. split; now apply not_holds_dec.
Qed.
Lemma clean_field_dec bnd x : linesb bnd (disposition (fd_name x)) && forallb (linesb bnd) (fd_lines x) && forallb (fun c => negb (ceq c NUL)) (fd_value x)
  && negb (holdsb bnd (fd_value x)) && negb (holdsb filename_mark (fd_value x)) = true -> clean_field bnd x.
Proof.
  rewrite !andb_true_iff, !negb_true_iff. intros ((((H1 & H2) & H3) & H4) & H5). split; [now apply clean_line_dec|].
  split; [rewrite forallb_forall in H2; apply Forall_forall; intros l I; apply clean_line_dec; auto|].
  split; [now apply no_nul_dec_b|]. split; now apply not_holds_dec.
Qed.

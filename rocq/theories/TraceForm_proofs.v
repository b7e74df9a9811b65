(** TraceForm_proofs.v - the log messages of multipart forms made of nameless parts and fields;
    the steps are those of WsMultipart_proofs. *)
From Verif Require Import Trace Lemmas StringUtils_proofs WsRequest_proofs Trace_proofs WsMultipart_proofs SpecJson SpecMultipart SpecLog SpecTrace Spec.

Definition note_before (ms : list note) (x : outcome (buf * fs * list note)) : outcome (buf * fs * list note) :=
  '(tf, f, ms') <- x;; Ok (tf, f, ms ++ ms').
Lemma note_nil x : note_before [] x = x.
Proof. unfold note_before. now destruct x as [[[tf f] ms]|]. Qed.
Lemma note_note a b x : note_before a (note_before b x) = note_before (a ++ b) x.
Proof. unfold note_before. destruct x as [[[tf f] ms]|]; cbn [bind]; [now rewrite app_assoc|reflexivity]. Qed.

Lemma part_t_plain e ip f tf td n tf' a st sf : part_parse e f tf td n = Ok (tf', f) -> strlen td = Ok a ->
  text_find_after td FORM_DATA_NAME 0 a = Ok st -> 1 <= st -> text_find_after td FILENAME 0 a = Ok sf -> sf <= 0 ->
  part_parse_t e ip f tf td n = Ok (tf', f, []).
Proof.
  intros E E1 E2 H E3 H3. destruct (part_t e ip f tf td n) as (ms & Et). rewrite E in Et. cbn [bind] in Et. rewrite Et. f_equal. f_equal.
  unfold part_parse_t in Et. cbv zeta in Et. rewrite E1 in Et. cbn [bind] in Et. rewrite E2 in Et. cbn [bind] in Et. replace (st <? 1) with false in Et by lia.
  apply bind_ok_inv in Et as (m & _ & Et). destruct (m <=? 0); [now injection Et|]. do 7 (apply bind_ok_inv in Et as (? & _ & Et)). rewrite E3 in Et. cbn [bind] in Et.
  match type of Et with (if ?c then _ else _) = _ => destruct c end; [|now injection Et]. replace (0 <? sf) with false in Et by lia.
  do 3 (apply bind_ok_inv in Et as (? & _ & Et)). now injection Et.
Qed.
Lemma part_field_t e ip f bnd x stale s room : clean_field bnd x -> (exists q, stale = q ++ [NUL]) -> ~ holds FILENAME stale ->
  no_nul s -> len (amp s ++ pair_of x) <= len room ->
  part_parse_t e ip f (cs s ++ room) (map Some (part_of x ++ stale)) (len (part_of x))
  = Ok (cs (s ++ amp s ++ pair_of x) ++ skipn (length (amp s ++ pair_of x)) room, f, []).
Proof.
  intros C. pose proof C as (Cd & Cl & Nv & Bv & Fv). intros Hq Hst Hs Hroom. pose proof Hq as (q0 & Eq).
  pose proof (part_field e f bnd x stale s room C Hq Hst Hs Hroom) as Main.
  destruct Cd as (_ & Nd & CRd & LFd & _ & Fd).
  assert (Nn : no_nul (fd_name x)). { unfold disposition in Nd. apply no_nul_app in Nd as [_ Nd]. apply no_nul_app in Nd as [_ Nd]. apply no_nul_app in Nd. tauto. }
  assert (CRn : ~ In CR (fd_name x)). { intros I. apply CRd. unfold disposition. apply in_or_app. right. apply in_or_app. right. apply in_or_app. now left. }
  assert (Pl : Forall plain_line (fd_lines x)) by (eapply Forall_impl; [|exact Cl]; intros l (H1 & _ & H2 & _); split; auto).
  assert (Np : no_nul (part_of x)).
  { unfold part_of. apply no_nul_app. split; [apply no_nul_dec_b; reflexivity|]. apply no_nul_app. split; [exact Nd|]. apply no_nul_app. split; [apply no_nul_dec_b; reflexivity|].
    apply no_nul_app. split; [|apply no_nul_app; split; [apply no_nul_dec_b; reflexivity|apply no_nul_app; split; [exact Nv|apply no_nul_dec_b; reflexivity]]].
    clear - Cl. induction Cl as [|l ls (_ & H & _) _ IH]; cbn [flat_map]; [constructor|]. apply no_nul_app. split; [|exact IH]. apply no_nul_app. split; [exact H|apply no_nul_dec_b; reflexivity]. }
  destruct (part_free FILENAME x) as (Pf & w & Ew & Hw); auto; [discriminate|now apply text_without|now apply text_without| |].
  { eapply Forall_impl; [|exact Cl]. intros l (_ & _ & _ & _ & _ & H). exact H. }
  destruct (first_nul stale) as (u & r0 & -> & Nu); [rewrite Eq; apply in_or_app; right; now left|].
  assert (Fu : ~ holds FILENAME u) by (intros H; apply Hst; now apply holds_l).
  assert (Edata : map Some (part_of x ++ u ++ NUL :: r0) = cs (part_of x ++ u) ++ map Some r0) by (rewrite app_assoc; apply as_cs).
  assert (E1 : strlen (map Some (part_of x ++ u ++ NUL :: r0)) = Ok (len (part_of x ++ u))) by (rewrite Edata; apply strlen_cs; apply no_nul_app; auto).
  assert (E2 : text_find_after (map Some (part_of x ++ u ++ NUL :: r0)) FORM_DATA_NAME 0 (len (part_of x ++ u)) = Ok 40).
  { rewrite app_assoc, map_app. cbn [map]. rewrite text_find_after_eq by (try lia; try discriminate; apply no_nul_dec_b; reflexivity).
    rewrite part_shape at 2. rewrite <- !app_assoc. cbn [Z.to_nat skipn].
    replace (len (part_of x ++ u) <=? 0) with false by (symmetry; apply Z.leb_gt; rewrite part_shape; unfold len; rewrite !app_length; cbn [length]; change (length head_text) with 23%nat; lia).
    reflexivity. }
  eapply part_t_plain; [exact Main|exact E1|exact E2|lia| |].
  { pose proof (text_not_found FILENAME [] (part_of x ++ u) (map Some r0)) as T. change (len (@nil ascii)) with 0 in T. cbn [app] in T.
    rewrite app_assoc, map_app. cbn [map]. apply T; [apply no_nul_dec_b; reflexivity|discriminate|].
    rewrite Ew, <- app_assoc. apply apart; auto. now apply text_without. }
  lia.
Qed.
Lemma loop_step_t k e ip f bnd body before gap x q t s room : clean_boundary bnd -> len body < 2 ^ 31 ->
  body = before ++ gap ++ bnd ++ part_of x ++ bnd ++ q -> gap_ok bnd gap -> clean_field bnd x -> old_ok body t ->
  no_nul s -> len (amp s ++ pair_of x) <= len room ->
  exists t', (old_ok body t' /\ exists w, t' = disposition (fd_name x) ++ w) /\
  multipart_loop_t (S k) e ip f (map Some body ++ [Some NUL]) (map Some t) (cs s ++ room) bnd (len body) (len before)
  = note_before [] (multipart_loop_t k e ip f (map Some body ++ [Some NUL]) (map Some t') (cs (s ++ amp s ++ pair_of x) ++ skipn (length (amp s ++ pair_of x)) room)
      bnd (len body) (len (before ++ gap ++ bnd ++ [CR]))).
Proof.
  intros (Bne & Bn & Bcr & Blf) Hlen Eb Hg Hx (Lt & Ht & Ft) Hs Hroom.
  pose proof Hx as ((_ & _ & _ & _ & Bd & Fd) & Cl & _ & Bv & Fv).
  destruct (part_free bnd x) as (Pb & wb & Ewb & _); auto. { eapply Forall_impl; [|exact Cl]. now intros l (_ & _ & _ & _ & H & _). }
  destruct (part_free FILENAME x) as (Pf & w & Ew & Hw); auto; [discriminate|now apply text_without|now apply text_without| |].
  { eapply Forall_impl; [|exact Cl]. now intros l (_ & _ & _ & _ & _ & H). }
  set (start := before ++ gap ++ bnd).
  assert (Lb : 0 < len bnd) by (destruct bnd; [easy|rewrite len_cons; pose proof (len_nonneg _ bnd); lia]).
  assert (LL : len body = len start + len (part_of x) + len bnd + len q) by (rewrite Eb; unfold start; rewrite !len_app; lia).
  pose proof (len_nonneg _ before). pose proof (len_nonneg _ gap). pose proof (len_nonneg _ q). pose proof (len_nonneg _ (part_of x)).
  assert (Lst : len start = len before + len gap + len bnd) by (unfold start; rewrite !len_app; lia).
  assert (E1 : text_find_after (map Some body ++ [Some NUL]) bnd (len before) (len body) = Ok (len start)).
  { rewrite Lst. rewrite Eb at 1. apply text_find_here; auto; [lia|]. intros a b E. now apply (boundary_first bnd gap (part_of x ++ bnd ++ q)) in E. }
  assert (E2 : text_find_after (map Some body ++ [Some NUL]) bnd (len start) (len body) = Ok (len start + len (part_of x) + len bnd)).
  { rewrite Eb at 1. replace (before ++ gap ++ bnd ++ part_of x ++ bnd ++ q) with (start ++ part_of x ++ bnd ++ q) by (unfold start; now rewrite <- !app_assoc).
    apply text_find_here; auto; [lia|]. intros a b E. apply (boundary_first bnd (part_of x) q) in E; auto. right. split; [eauto|exact Pb]. }
  assert (Lp : (length (part_of x) < length t)%nat) by (unfold len in *; lia).
  set (old := skipn (length (part_of x)) t).
  assert (E3 : memcpy (map Some t) 0 (map Some body ++ [Some NUL]) (len start) (len (part_of x)) = Ok (map Some (part_of x ++ old))).
  { rewrite Eb. replace (before ++ gap ++ bnd ++ part_of x ++ bnd ++ q) with (start ++ part_of x ++ bnd ++ q) by (unfold start; now rewrite <- !app_assoc).
    rewrite !map_app, <- !app_assoc. unfold memcpy. rewrite slice_ok by (now rewrite len_map). cbn [bind].
    rewrite write_at_0 by (rewrite !len_map; unfold len; lia). rewrite map_length. unfold old. now rewrite skipn_map. }
  assert (Eold : exists q, old = q ++ [NUL]) by (now apply ends_skipn).
  assert (Fold : ~ holds FILENAME old) by (intros X; apply Ft; now apply holds_skipn in X).
  assert (T : exists b', trim (map Some (part_of x ++ old)) = Ok b').
  { destruct (first_nul (part_of x ++ old)) as (s1 & r1 & -> & Hs1); [destruct Eold as (q1 & ->); apply in_or_app; right; apply in_or_app; right; now left|].
    rewrite as_cs. destruct (trim_holds s1 (map Some r1) Hs1) as (? & ? & E & _). eauto. }
  destruct T as (b' & T). destruct (trim_free FILENAME (part_of x ++ old) b') as (t' & -> & Lt' & Ft' & Et'); auto.
  { apply no_nul_dec_b; reflexivity. }
  { rewrite Ew, <- app_assoc. apply apart; auto. now apply text_without. }
  { destruct Eold as (q1 & ->). exists (part_of x ++ q1). now rewrite <- app_assoc. }
  exists t'. split.
  { split; [split; [|split; auto]; rewrite Lt', app_length; unfold old; rewrite skipn_length; lia|].
    pose proof Hx as ((_ & Nd & _) & _).
    apply (trim_shows CRLF (disposition (fd_name x)) ((CRLF ++ flat_map (fun l => l ++ CRLF) (fd_lines x) ++ CRLF ++ fd_value x ++ CRLF) ++ old)); auto.
    - repeat constructor; cbn; tauto.
    - apply no_nul_dec_b. reflexivity.
    - exists "C"%char, (L "ontent-Disposition: form-data; name=" ++ [DQ] ++ fd_name x ++ [DQ]). split; [reflexivity|]. intros B. cbn in B. intuition discriminate.
    - exists (L "Content-Disposition: form-data; name=" ++ [DQ] ++ fd_name x), DQ. split; [unfold disposition; now rewrite <- !app_assoc|]. intros B. cbn in B. intuition discriminate.
    - destruct Eold as (q1 & ->). rewrite app_assoc. eauto.
    - rewrite <- T. unfold part_of. now rewrite <- !app_assoc. }
  cbn [multipart_loop_t]. replace (len before <? len body) with true by lia. rewrite E1. cbn [bind]. replace (len start <? 0) with false by lia.
  rewrite E2. cbn [bind]. replace (len start + len (part_of x) + len bnd <? 0) with false by lia.
  replace (len start + len (part_of x) + len bnd - len start - len bnd) with (len (part_of x)) by lia.
  rewrite to_int_id by lia. rewrite E3. cbn [bind].
  rewrite (part_field_t e ip f bnd x old s room) by auto. cbn [bind]. rewrite T. cbn [bind].
  unfold note_before. do 2 f_equal. unfold start. rewrite !len_app. change (len [CR]) with 1. lia.
Qed.
Lemma loop_fields_t e ip f bnd body q : clean_boundary bnd -> len body < 2 ^ 31 -> forall xs k before gap t s room,
  body = before ++ gap ++ flat_map (fun x => bnd ++ part_of x) xs ++ bnd ++ q -> gap_ok bnd gap -> Forall (clean_field bnd) xs -> old_ok body t ->
  no_nul s -> len (added s xs) <= len room ->
  exists t' before' gap', (old_ok body t' /\ (xs = [] -> t' = t) /\ forall ys y, xs = ys ++ [y] -> exists w, t' = disposition (fd_name y) ++ w) /\ gap_ok bnd gap' /\ body = before' ++ gap' ++ bnd ++ q /\
  multipart_loop_t (length xs + k) e ip f (map Some body ++ [Some NUL]) (map Some t) (cs s ++ room) bnd (len body) (len before)
  = multipart_loop_t k e ip f (map Some body ++ [Some NUL]) (map Some t') (cs (s ++ added s xs) ++ skipn (length (added s xs)) room)
      bnd (len body) (len before').
Proof.
  intros Hb Hlen. induction xs as [|x xs IH]; intros k before gap t s room Eb Hg Hx Ht Hs Hroom.
  - exists t, before, gap. split; [split; [auto|split; [auto|intros ys y E; now destruct ys]]|]. split; [auto|]. split; [exact Eb|]. cbn [added length skipn]. now rewrite app_nil_r.
  - inversion Hx as [|? ? Hx1 Hx2]; subst x0 l. cbn [flat_map added length] in *.
    assert (Er : exists r, flat_map (fun x => bnd ++ part_of x) xs ++ bnd ++ q = bnd ++ r).
    { destruct xs as [|y ys]; [now exists q|]. cbn [flat_map]. rewrite <- !app_assoc. eauto. }
    destruct Er as (r & Er).
    destruct (loop_step_t (length xs + k) e ip f bnd body before gap x r t s room) as (t1 & (Ht1 & Sh1) & E1); auto.
    { rewrite Eb, <- !app_assoc. now rewrite Er. }
    { rewrite !len_app in Hroom. rewrite len_app. pose proof (len_nonneg _ (added (s ++ amp s ++ pair_of x) xs)). lia. }
    destruct (part_cr x) as (w & Ew).
    destruct (IH k (before ++ gap ++ bnd ++ [CR]) (w ++ [LF]) t1 (s ++ amp s ++ pair_of x) (skipn (length (amp s ++ pair_of x)) room)) as (t2 & before' & gap' & (Ht2 & St2 & Sh2) & Hg2 & Eb2 & E2); auto.
    { rewrite Eb, <- !app_assoc. rewrite Ew. cbn [app]. now rewrite <- !app_assoc. }
    { right. split; [eauto|]. pose proof Hx1 as ((_ & _ & _ & _ & Bd & _) & Cl & _ & Bv & _). destruct Hb as (Bne & Bn & Bcr & Blf).
      destruct (part_free bnd x) as (Pb & _); auto. { eapply Forall_impl; [|exact Cl]. now intros l (_ & _ & _ & _ & H & _). }
      intros X. apply Pb. rewrite Ew. change (CR :: w ++ [LF]) with ([CR] ++ w ++ [LF]). now apply holds_r. }
    { apply no_nul_app. split; [auto|]. apply no_nul_app. split; [apply amp_no_nul|eapply pair_no_nul; eauto]. }
    { rewrite len_skipn. rewrite !len_app in *. unfold len in *. rewrite app_length. lia. }
    exists t2, before', gap'. split.
    { split; [auto|]. split; [discriminate|]. intros ys y Ey. destruct xs as [|x1 xs].
      - rewrite St2 by reflexivity. destruct ys as [|? ys]; [injection Ey as <-; exact Sh1|injection Ey as _ Ey; now destruct ys].
      - destruct ys as [|? ys]; [discriminate|]. injection Ey as _ Ey. now apply (Sh2 ys). }
    split; [auto|]. split; [auto|]. cbn [Nat.add]. rewrite E1, E2, note_nil. rewrite skipn_skipn_plus, <- !app_assoc.
    repeat f_equal. rewrite !app_length. lia.
Qed.
Lemma loop_end_t k e ip f bnd body before gap q t s room : clean_boundary bnd -> body = before ++ gap ++ bnd ++ q -> gap_ok bnd gap -> ~ holds bnd q ->
  multipart_loop_t k e ip f (map Some body ++ [Some NUL]) t (cs s ++ room) bnd (len body) (len before) = Ok (cs s ++ room, f, []).
Proof.
  intros (Bne & Bn & Bcr & Blf) Eb Hg Hq. pose proof (len_nonneg _ before). pose proof (len_nonneg _ gap). pose proof (len_nonneg _ q).
  assert (Lb : 0 < len bnd) by (destruct bnd; [easy|rewrite len_cons; pose proof (len_nonneg _ bnd); lia]).
  assert (LL : len body = len before + len gap + len bnd + len q) by (rewrite Eb, !len_app; lia).
  assert (E1 : text_find_after (map Some body ++ [Some NUL]) bnd (len before) (len body) = Ok (len (before ++ gap ++ bnd))).
  { rewrite !len_app, Z.add_assoc. rewrite Eb at 1. apply text_find_here; auto; [lia|]. intros a b E. now apply (boundary_first bnd gap q) in E. }
  assert (E2 : text_find_after (map Some body ++ [Some NUL]) bnd (len (before ++ gap ++ bnd)) (len body) = Ok (-1)).
  { replace body with ((before ++ gap ++ bnd) ++ q) by (rewrite Eb; now rewrite <- !app_assoc). now apply text_not_found. }
  destruct k; cbn [multipart_loop_t]; replace (len before <? len body) with true by lia; rewrite E1; cbn [bind];
    (replace (len (before ++ gap ++ bnd) <? 0) with false by (rewrite !len_app; lia)); rewrite E2; reflexivity.
Qed.
Lemma part_nameless_t e ip f tf t n : (exists q, t = q ++ [NUL]) -> ~ holds FORM_DATA_NAME t -> part_parse_t e ip f tf (map Some t) n = Ok (tf, f, [no_form_data ip]).
Proof.
  intros (q & Eq) H. destruct (first_nul t) as (s & r & -> & Hs); [rewrite Eq; apply in_or_app; right; now left|].
  unfold part_parse_t. rewrite as_cs at 1. rewrite strlen_cs by auto. cbn [bind]. pose proof (text_not_found FORM_DATA_NAME [] s (map Some r)) as T.
  change (len (@nil ascii)) with 0 in T. cbn [app] in T. change (s ++ NUL :: r) with (s ++ [NUL] ++ r). rewrite map_app. cbn [app map]. rewrite T; [reflexivity|apply no_nul_dec_b; reflexivity|discriminate|].
  intros X. apply H. now apply holds_l.
Qed.
Lemma loop_skip_t k e ip f bnd body before gap p q t tf : clean_boundary bnd -> len body < 2 ^ 31 ->
  body = before ++ gap ++ bnd ++ p ++ bnd ++ q -> gap_ok bnd gap -> nameless bnd p -> old_ok body t -> ~ holds FORM_DATA_NAME t ->
  exists t', old_ok body t' /\ ~ holds FORM_DATA_NAME t' /\
  multipart_loop_t (S k) e ip f (map Some body ++ [Some NUL]) (map Some t) tf bnd (len body) (len before)
  = note_before [no_form_data ip] (multipart_loop_t k e ip f (map Some body ++ [Some NUL]) (map Some t') tf bnd (len body) (len (before ++ gap ++ bnd) + 1)).
Proof.
  intros (Bne & Bn & Bcr & Blf) Hlen Eb Hg ((w & Ep) & Pb & Pn & Pf) (Lt & Ht & Ft) Nt.
  set (start := before ++ gap ++ bnd).
  assert (Lb : 0 < len bnd) by (destruct bnd; [easy|rewrite len_cons; pose proof (len_nonneg _ bnd); lia]).
  assert (LL : len body = len start + len p + len bnd + len q) by (rewrite Eb; unfold start; rewrite !len_app; lia).
  pose proof (len_nonneg _ before). pose proof (len_nonneg _ gap). pose proof (len_nonneg _ q). pose proof (len_nonneg _ p).
  assert (Lst : len start = len before + len gap + len bnd) by (unfold start; rewrite !len_app; lia).
  assert (E1 : text_find_after (map Some body ++ [Some NUL]) bnd (len before) (len body) = Ok (len start)).
  { rewrite Lst. rewrite Eb at 1. apply text_find_here; auto; [lia|]. intros a b E. now apply (boundary_first bnd gap (p ++ bnd ++ q)) in E. }
  assert (Eb' : body = start ++ p ++ bnd ++ q) by (rewrite Eb; unfold start; now rewrite <- !app_assoc).
  assert (E2 : text_find_after (map Some body ++ [Some NUL]) bnd (len start) (len body) = Ok (len start + len p + len bnd)).
  { rewrite Eb' at 1. apply text_find_here; auto; [lia|]. intros a b E. apply (boundary_first bnd p q) in E; auto. right. eauto. }
  assert (Lp : (length p < length t)%nat) by (unfold len in *; lia).
  set (old := skipn (length p) t).
  assert (E3 : memcpy (map Some t) 0 (map Some body ++ [Some NUL]) (len start) (len p) = Ok (map Some (p ++ old))).
  { rewrite Eb'. rewrite !map_app, <- !app_assoc. unfold memcpy. rewrite slice_ok by (now rewrite len_map). cbn [bind].
    rewrite write_at_0 by (rewrite !len_map; unfold len in *; lia). rewrite map_length. unfold old. now rewrite skipn_map. }
  assert (Eold : exists q, old = q ++ [NUL]) by (now apply ends_skipn).
  assert (F : forall n, ~ In LF n -> ~ holds n p -> ~ holds n t -> ~ holds n (p ++ old)).
  { intros n F1 F2 F3. rewrite Ep, <- app_assoc. apply apart; auto.
    - intros X. apply F2. rewrite Ep. now apply holds_l.
    - intros X. apply F3. now apply holds_skipn in X. }
  assert (Fn : ~ holds FORM_DATA_NAME (p ++ old)) by (apply F; auto; now apply text_without).
  assert (Ff : ~ holds FILENAME (p ++ old)) by (apply F; auto; now apply text_without).
  assert (Eq : exists q, p ++ old = q ++ [NUL]) by (destruct Eold as (q1 & ->); exists (p ++ q1); now rewrite <- app_assoc).
  assert (T : exists b', trim (map Some (p ++ old)) = Ok b').
  { destruct (first_nul (p ++ old)) as (s1 & r1 & -> & Hs1); [destruct Eq as (q1 & ->); apply in_or_app; right; now left|].
    rewrite as_cs. destruct (trim_holds s1 (map Some r1) Hs1) as (? & ? & E & _). eauto. }
  destruct T as (b' & T). destruct (trim_free FILENAME (p ++ old) b') as (t' & -> & Lt' & Ft' & Et'); auto; [apply no_nul_dec_b; reflexivity|].
  destruct (trim_free FORM_DATA_NAME (p ++ old) (map Some t')) as (t2 & E4 & _ & Fn' & _); auto; [apply no_nul_dec_b; reflexivity|].
  assert (t2 = t') as ->. { apply (f_equal (map (fun o => match o with Some c => c | None => NUL end))) in E4. rewrite !map_map, !map_id in E4. congruence. }
  exists t'. split.
  { split; [|split; auto]. rewrite Lt', app_length. unfold old. rewrite skipn_length. lia. }
  split; [exact Fn'|].
  cbn [multipart_loop_t]. replace (len before <? len body) with true by lia. rewrite E1. cbn [bind]. replace (len start <? 0) with false by lia.
  rewrite E2. cbn [bind]. replace (len start + len p + len bnd <? 0) with false by lia.
  replace (len start + len p + len bnd - len start - len bnd) with (len p) by lia.
  rewrite to_int_id by lia. rewrite E3. cbn [bind]. rewrite part_nameless_t by auto. cbn [bind]. rewrite T. reflexivity.
Qed.
Lemma loop_nameless_t e ip f bnd body r tf : clean_boundary bnd -> len body < 2 ^ 31 -> forall ps k before gap t,
  body = before ++ gap ++ flat_map (fun p => bnd ++ p) ps ++ bnd ++ r -> gap_ok bnd gap -> Forall (nameless bnd) ps -> old_ok body t -> ~ holds FORM_DATA_NAME t ->
  exists t' before' gap', old_ok body t' /\ gap_ok bnd gap' /\ body = before' ++ gap' ++ bnd ++ r /\
  multipart_loop_t (length ps + k) e ip f (map Some body ++ [Some NUL]) (map Some t) tf bnd (len body) (len before)
  = note_before (repeat (no_form_data ip) (length ps)) (multipart_loop_t k e ip f (map Some body ++ [Some NUL]) (map Some t') tf bnd (len body) (len before')).
Proof.
  intros Hb Hlen. induction ps as [|p ps IH]; intros k before gap t Eb Hg Hx Ht Nt.
  - exists t, before, gap. cbn [length repeat]. rewrite note_nil. auto.
  - inversion Hx as [|? ? Hx1 Hx2]; subst x l. cbn [flat_map length] in *.
    assert (Er : exists r', flat_map (fun p => bnd ++ p) ps ++ bnd ++ r = bnd ++ r').
    { destruct ps as [|y ys]; [now exists r|]. cbn [flat_map]. rewrite <- !app_assoc. eauto. }
    destruct Er as (r' & Er).
    destruct (loop_skip_t (length ps + k) e ip f bnd body before gap p r' t tf) as (t1 & Ht1 & Nt1 & E1); auto.
    { rewrite Eb, <- !app_assoc. now rewrite Er. }
    pose proof Hx1 as ((w & Ew) & Pb & _).
    assert (Ec : exists c g, p = c :: g /\ gap_ok bnd g).
    { destruct w as [|c w]; [exists LF, []; split; [exact Ew|now left]|]. exists c, (w ++ [LF]). split; [exact Ew|]. right. split; [eauto|].
      intros X. apply Pb. rewrite Ew. change ((c :: w) ++ [LF]) with ([c] ++ w ++ [LF]). now apply holds_r. }
    destruct Ec as (c & g & Ec & Hg').
    destruct (IH k (before ++ gap ++ bnd ++ [c]) g t1) as (t2 & before' & gap' & Ht2 & Hg2 & Eb2 & E2); auto.
    { rewrite Eb, <- !app_assoc. rewrite Ec. reflexivity. }
    exists t2, before', gap'. split; [auto|]. split; [auto|]. split; [auto|]. cbn [Nat.add]. rewrite E1. cbn [repeat]. change (no_form_data ip :: repeat (no_form_data ip) (length ps)) with ([no_form_data ip] ++ repeat (no_form_data ip) (length ps)). rewrite <- note_note, <- E2. f_equal. f_equal. rewrite !len_app. change (len [c]) with 1. lia.
Qed.
Lemma multipart_nameless_t e ip f pre bnd ps xs q : clean_boundary bnd -> clean_preamble bnd pre -> Forall (nameless bnd) ps -> Forall (clean_field bnd) xs -> ~ holds bnd q ->
  len (nameless_then pre bnd ps xs q) < 2 ^ 31 ->
  multipart_parse_t e ip f (map Some (nameless_then pre bnd ps xs q) ++ [Some NUL]) bnd (len (nameless_then pre bnd ps xs q))
  = Ok (cs (form_of xs) ++ skipn (S (length (form_of xs))) (map Some (nameless_then pre bnd ps xs q) ++ [Some NUL]), f, repeat (no_form_data ip) (length ps)).
Proof.
  intros Hb Hp Hn Hx Hq Hlen. set (body := nameless_then pre bnd ps xs q) in *.
  assert (Lb : 0 < len bnd) by (destruct Hb; destruct bnd; [easy|rewrite len_cons; pose proof (len_nonneg _ bnd); lia]).
  assert (LL : len body = len pre + len (flat_map (fun p => bnd ++ p) ps) + len (flat_map (fun x => bnd ++ part_of x) xs) + len bnd + len q) by (unfold body, nameless_then; rewrite !len_app; lia).
  pose proof (len_nonneg _ pre). pose proof (len_nonneg _ q). pose proof (added_le bnd [] xs) as AL. rewrite added_form in AL.
  destruct (nameless_count bnd ps xs) as (C1 & C2); [unfold len in *; lia|].
  assert (Er : exists r, flat_map (fun x => bnd ++ part_of x) xs ++ bnd ++ q = bnd ++ r).
  { destruct xs as [|y ys]; [now exists q|]. cbn [flat_map]. rewrite <- !app_assoc. eauto. }
  destruct Er as (r & Er).
  set (k := (Z.to_nat (len body) - length ps - length xs)%nat).
  assert (Ek : Z.to_nat (len body) = (length ps + (length xs + k))%nat) by (unfold k; unfold len in *; lia).
  destruct (loop_nameless_t e ip f bnd body r (calloc (len body + 1)) Hb Hlen ps (length xs + k) [] pre (repeat NUL (Z.to_nat (len body + 1)))) as (t & b1 & g1 & Ht & Hg1 & Eb1 & E1); auto.
  - unfold body, nameless_then. rewrite Er. reflexivity.
  - split; [rewrite repeat_length; unfold len; lia|]. split.
    + exists (repeat NUL (Z.to_nat (len body))). replace (Z.to_nat (len body + 1)) with (Z.to_nat (len body) + 1)%nat by (unfold len; lia). apply repeat_app.
    + apply holds_nuls; [discriminate|apply no_nul_dec_b; reflexivity].
  - apply holds_nuls; [discriminate|apply no_nul_dec_b; reflexivity].
  - assert (Hc : calloc (len body + 1) = cs [] ++ calloc (len body)) by (rewrite (calloc_cs (len body + 1)) by (pose proof (len_nonneg _ body); lia); do 2 f_equal; lia).
    destruct (loop_fields_t e ip f bnd body q Hb Hlen xs k b1 g1 t [] (calloc (len body))) as (t2 & b2 & g2 & (Ht2 & _) & Hg2 & Eb2 & E2); auto.
    + now rewrite Er.
    + rewrite added_form. unfold calloc. unfold len at 2. rewrite repeat_length. unfold len in *. pose proof (len_nonneg _ (flat_map (fun p => bnd ++ p) ps)). unfold len in *. lia.
    + unfold multipart_parse_t. rewrite Ek. change (len (@nil ascii)) with 0 in E1.
      replace (calloc (len body + 1)) with (map Some (repeat NUL (Z.to_nat (len body + 1)))) at 1.
      2:{ unfold calloc. clear. induction (Z.to_nat (len body + 1)); cbn; congruence. }
      rewrite E1, Hc, E2. rewrite added_form. cbn [app]. rewrite (loop_end_t k e ip f bnd body b2 g2 q) by auto. unfold note_before. cbn [bind]. rewrite app_nil_r.
      rewrite cstr_cs by (eapply form_no_nul; eauto). cbn [bind]. rewrite strcpy_0; [reflexivity|]. rewrite len_app, len_map. change (len [Some NUL]) with 1.
      pose proof (len_nonneg _ (flat_map (fun p => bnd ++ p) ps)). lia.
Qed.
Lemma nameless_step v f ip more pre bnd ps xs tail : clean_boundary bnd -> clean_preamble bnd pre -> Forall (nameless bnd) ps -> Forall (clean_field bnd) xs ->
  ~ holds bnd tail -> 2 <= len bnd -> len (nameless_then pre bnd ps xs tail) < 2 ^ 31 ->
  exists form, form_step v f ip (nameless_then pre bnd ps xs tail ++ more) (len (nameless_then pre bnd ps xs tail)) bnd
    = Ok (form, f, repeat (no_form_data ip) (length ps)).
Proof.
  intros Hb Hp Hn Hx Ht H2 Hl. unfold form_step. cbv zeta.
  replace (0 <? len (nameless_then pre bnd ps xs tail)) with true by (unfold nameless_then; rewrite !len_app; pose proof (len_nonneg _ pre); pose proof (len_nonneg _ (flat_map (fun p => bnd ++ p) ps)); pose proof (len_nonneg _ (flat_map (fun x => bnd ++ part_of x) xs)); pose proof (len_nonneg _ tail); lia).
  rewrite to_nat_len, read_body_enough by (rewrite app_length; lia). cbn [fst]. rewrite firstn_app, firstn_all, Nat.sub_diag, firstn_O, app_nil_r.
  replace (2 <=? len bnd) with true by lia. rewrite multipart_nameless_t by auto. cbn [bind]. eauto.
Qed.

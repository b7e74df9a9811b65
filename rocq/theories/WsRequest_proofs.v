(** WsRequest_proofs.v - lemmas about request reading and dispatch. *)
From Verif Require Import WsRequest Lemmas StringUtils_proofs ConfParser_proofs HttpUtils_proofs WsConn_proofs SpecJson SpecHttp SpecConn SpecReq Spec.

(** ** get_line *)
Lemma line_of_exists size : 1 <= size -> forall s, exists l rest, line_of size s l rest.
Proof.
  intros Hs. assert (A : forall n s, exists l rest, s = l ++ rest /\ len l <= Z.of_nat n /\
    ((exists l', l = l' ++ [LF] /\ ~ In LF l') \/ (~ In LF l /\ (len l = Z.of_nat n \/ rest = [])))).
  { induction n as [|n IH]; intros s.
    - exists [], s. split; [reflexivity|]. split; [cbn; lia|]. right. split; [easy|left; reflexivity].
    - destruct s as [|c s]; [exists [], []; split; [reflexivity|]; split; [cbn; lia|]; right; split; [easy|auto]|].
      destruct (ascii_dec c LF) as [->|N].
      + exists [LF], s. split; [reflexivity|]. split; [cbn; lia|]. left. exists []. split; [reflexivity|easy].
      + destruct (IH s) as (l & rest & -> & Hl & H). exists (c :: l), rest. split; [reflexivity|].
        split; [rewrite len_cons; lia|]. destruct H as [(l' & -> & H)|(H1 & H2)].
        * left. exists (c :: l'). split; [reflexivity|]. cbn. intros [|]; auto.
        * right. split; [cbn; intros [|]; auto|]. destruct H2 as [H2|H2]; [left; rewrite len_cons; lia|auto]. }
  intros s. destruct (A (Z.to_nat (size - 1)) s) as (l & rest & E & Hl & H). exists l, rest.
  replace (Z.of_nat (Z.to_nat (size - 1))) with (size - 1) in * by lia. split; auto.
Qed.

Lemma skipn_at {A} (b : list A) : forall n, (n < length b)%nat -> exists x, skipn n b = x :: skipn (S n) b.
Proof.
  induction b as [|y b IH]; intros n H; [cbn in H; lia|].
  destruct n as [|n]; [exists y; reflexivity|]. apply IH. cbn in H. lia.
Qed.

Lemma get_line_loop_eq l : forall pre rest b size,
  line_of size (pre ++ l ++ rest) (pre ++ l) rest -> ~ In LF pre -> len (pre ++ l) <= len b ->
  get_line_loop (l ++ rest) (map Some pre ++ skipn (length pre) b) (len pre) size
    = Ok (len (pre ++ l), map Some (pre ++ l) ++ skipn (length (pre ++ l)) b, rest).
Proof.
  induction l as [|c l IH]; intros pre rest b size (E & Hl & H) Hp Hb.
  - rewrite app_nil_r in *. cbn [app]. destruct H as [(l' & -> & _)|(_ & [H|H])].
    + elim Hp. apply in_or_app. right. now left.
    + destruct rest; cbn [get_line_loop]; now replace (len pre <? size - 1) with false by lia.
    + subst. cbn [get_line_loop]. now destruct (len pre <? size - 1).
  - assert (Hlt : len pre < size - 1) by (rewrite len_app, len_cons in Hl; lens; lia).
    assert (Hlb : (length pre < length b)%nat) by (unfold len in Hb; rewrite app_length in Hb; cbn in Hb; lia).
    cbn [app get_line_loop]. replace (len pre <? size - 1) with true by lia.
    destruct (skipn_at b (length pre) Hlb) as (x & Sx). rewrite Sx. rewrite wr_at by (now rewrite len_map). cbn [bind].
    replace (map Some pre ++ Some c :: skipn (S (length pre)) b)
      with (map Some (pre ++ [c]) ++ skipn (length (pre ++ [c])) b).
    2:{ rewrite map_app, <- app_assoc, app_length. replace (length pre + length [c])%nat with (S (length pre)) by (cbn; lia). reflexivity. }
    destruct (ceq_spec c LF) as [->|N].
    + assert (l = []).
      { destruct H as [(l' & X & N)|(N & _)].
        - destruct l as [|y l] using rev_ind; [reflexivity|]. exfalso. clear IHl.
          rewrite app_comm_cons, app_assoc in X. apply app_inj_tail in X as [X _]. apply N. rewrite <- X.
          apply in_or_app. right. now left.
        - elim N. apply in_or_app. right. now left. }
      subst l. f_equal. f_equal. f_equal. rewrite len_app. reflexivity.
    + replace (len pre + 1) with (len (pre ++ [c])) by (rewrite len_app; reflexivity).
      replace (pre ++ c :: l) with ((pre ++ [c]) ++ l) by now rewrite <- app_assoc.
      apply IH.
      * split; [now rewrite <- !app_assoc|]. now rewrite <- !app_assoc.
      * intros I. apply in_app_or in I as [I|[I|[]]]; auto.
      * now rewrite <- app_assoc.
Qed.

Lemma get_line_eq size s l rest b : line_of size s l rest -> len l + 1 <= len b ->
  get_line s b size = Ok (len l, cs l ++ skipn (S (length l)) b, rest).
Proof.
  intros H Hb. unfold get_line. pose proof H as (-> & _). pose proof (get_line_loop_eq l [] rest b size) as G.
  cbn [app length skipn map] in G. change (len []) with 0 in G. rewrite G by (auto; lia). cbn [bind].
  destruct (skipn_at b (length l)) as (x & Sx); [unfold len in Hb; lia|]. rewrite Sx, wr_at by (now rewrite len_map). cbn [bind]. unfold cs. now rewrite <- app_assoc.
Qed.

Lemma get_line_loop_len : forall s b i size n b' s', get_line_loop s b i size = Ok (n, b', s') -> length b' = length b.
Proof.
  induction s as [|c s IH]; intros b i size n b' s' H; cbn [get_line_loop] in H.
  - destruct (i <? size - 1); inv H; reflexivity.
  - destruct (i <? size - 1); [|inv H; reflexivity]. apply bind_ok_inv in H as (b1 & W & H). apply wr_len in W.
    destruct (ceq c LF); [inv H; auto|]. apply IH in H. congruence.
Qed.
Lemma get_line_loop_le : forall s b i size n b' s', 0 <= i -> get_line_loop s b i size = Ok (n, b', s') ->
  exists l, s = l ++ s' /\ n = i + len l.
Proof.
  induction s as [|c s IH]; intros b i size n b' s' Hi H; cbn [get_line_loop] in H.
  - exists []. destruct (i <? size - 1); inv H; split; auto; cbn; lia.
  - destruct (i <? size - 1); [|inv H; exists []; split; auto; cbn; lia]. apply bind_ok_inv in H as (b1 & W & H).
    destruct (ceq c LF); [inv H; exists [c]; split; auto; reflexivity|].
    apply IH in H as (l & -> & ->); [|lia]. exists (c :: l). split; auto. rewrite len_cons. lia.
Qed.

Lemma get_line_loop_oob l : forall pre rest b size,
  line_of size (pre ++ l ++ rest) (pre ++ l) rest -> ~ In LF pre -> len pre <= len b -> len b < len (pre ++ l) ->
  get_line_loop (l ++ rest) (map Some pre ++ skipn (length pre) b) (len pre) size = UB OobWrite.
Proof.
  induction l as [|c l IH]; intros pre rest b size (E & Hl & H) Hp Hpb Hb.
  - rewrite app_nil_r in Hb. lia.
  - assert (Hlt : len pre < size - 1) by (rewrite len_app, len_cons in Hl; lens; lia).
    cbn [app get_line_loop]. replace (len pre <? size - 1) with true by lia.
    destruct (Z.eq_dec (len pre) (len b)) as [Q|Q].
    { rewrite wr_oob; [reflexivity|]. rewrite len_app, len_map, len_skipn. unfold len in *. lia. }
    destruct (skipn_at b (length pre)) as (x & Sx); [unfold len in *; lia|]. rewrite Sx, wr_at by (now rewrite len_map). cbn [bind].
    replace (map Some pre ++ Some c :: skipn (S (length pre)) b)
      with (map Some (pre ++ [c]) ++ skipn (length (pre ++ [c])) b).
    2:{ rewrite map_app, <- app_assoc, app_length. replace (length pre + length [c])%nat with (S (length pre)) by (cbn; lia). reflexivity. }
    destruct (ceq_spec c LF) as [->|N].
    + exfalso. assert (l = []).
      { destruct H as [(l' & X & N)|(N & _)].
        - destruct l as [|y l] using rev_ind; [reflexivity|]. exfalso. clear IHl.
          rewrite app_comm_cons, app_assoc in X. apply app_inj_tail in X as [X _]. apply N. rewrite <- X.
          apply in_or_app. right. now left.
        - elim N. apply in_or_app. right. now left. }
      subst l. rewrite len_app in Hb. change (len [LF]) with 1 in Hb. lia.
    + replace (len pre + 1) with (len (pre ++ [c])) by (rewrite len_app; reflexivity).
      assert (X : pre ++ c :: l = (pre ++ [c]) ++ l) by now rewrite <- app_assoc. rewrite X in *.
      apply IH; [split; [now rewrite <- !app_assoc|now rewrite <- !app_assoc in *]| | |exact Hb].
      * intros I. apply in_app_or in I as [I|[I|[]]]; auto.
      * rewrite len_app. change (len [c]) with 1. lia.
Qed.

Lemma get_line_oob size s l rest b : line_of size s l rest -> len b < len l + 1 ->
  undefined (get_line s b size).
Proof.
  intros H Hb. pose proof H as (-> & _). destruct (Z.eq_dec (len l) (len b)) as [Q|Q].
  - exists OobWrite. unfold get_line. pose proof (get_line_loop_eq l [] rest b size) as G.
    cbn [app length skipn map] in G. change (len []) with 0 in G. rewrite G by (auto; lia). cbn [bind].
    rewrite wr_oob; [reflexivity|]. rewrite len_app, len_map, len_skipn. unfold len in *. lia.
  - exists OobWrite. unfold get_line. pose proof (get_line_loop_oob l [] rest b size) as G.
    cbn [app length skipn map] in G. change (len []) with 0 in G. rewrite G; auto; [lens; lia|lia].
Qed.

Lemma line_of_unique size s l1 r1 l2 r2 : line_of size s l1 r1 -> line_of size s l2 r2 -> l1 = l2 /\ r1 = r2.
Proof.
  intros H1 H2. set (b := repeat (Some NUL) (S (length s)) : buf).
  assert (B : forall l r, line_of size s l r -> len l + 1 <= len b).
  { intros l r (-> & _). unfold b. rewrite len_repeat, app_length. unfold len. lia. }
  pose proof (get_line_eq _ _ _ _ b H1 (B _ _ H1)) as E1. pose proof (get_line_eq _ _ _ _ b H2 (B _ _ H2)) as E2.
  rewrite E1 in E2. inv E2. split; [|reflexivity]. destruct H1 as (E & _). destruct H2 as (E' & _). rewrite E in E'.
  now apply app_inv_tail in E'.
Qed.

Lemma line_of_nonempty size s l rest : 2 <= size -> line_of size s l rest -> s <> [] -> l <> [].
Proof.
  intros Hs (E & Hl & H) N ->. destruct H as [(l' & X & _)|(_ & [H|H])].
  - now destruct l'.
  - change (len []) with 0 in H. lia.
  - subst. now elim N.
Qed.

(** ** Sequences of lines *)
Lemma pieces_exist size : 2 <= size -> forall s, exists ls, pieces size s ls.
Proof.
  intros Hs s. remember (length s) as n. assert (Hn : (length s <= n)%nat) by lia. clear Heqn.
  revert s Hn. induction n as [|n IH]; intros s Hn.
  - destruct s; [|cbn in Hn; lia]. exists []. constructor.
  - destruct s as [|c s]; [exists []; constructor|]. destruct (line_of_exists size ltac:(lia) (c :: s)) as (l & rest & H).
    assert (N : l <> []) by (eapply line_of_nonempty; eauto; discriminate).
    destruct (IH rest) as (ls & Hls).
    { destruct H as (E & _). apply (f_equal (@length _)) in E. rewrite app_length in E. destruct l; [easy|]. cbn in *. lia. }
    exists (l :: ls). eapply pc_line; eauto.
Qed.
Lemma pieces_unique size s ls : pieces size s ls -> forall ls', pieces size s ls' -> ls' = ls.
Proof.
  induction 1 as [|s l rest ls N H P IH]; intros ls' H'.
  - inv H'; [reflexivity|]. destruct H0 as (E & _). destruct l; easy.
  - inv H'. { destruct H as (E & _). destruct l; easy. }
    destruct (line_of_unique _ _ _ _ _ _ H H1) as [-> ->]. f_equal. auto.
Qed.
Lemma pieces_concat size s ls : pieces size s ls -> concat ls = s.
Proof. induction 1 as [|s l rest ls N (-> & _) P IH]; [reflexivity|]. cbn. now rewrite IH. Qed.

Lemma shows_next b l l' : shows b l -> len l' + 1 <= len b -> shows (cs l' ++ skipn (S (length l')) b) l'.
Proof.
  intros (st & ->) H. exists (skipn (S (length l')) (l ++ NUL :: st)). f_equal.
  unfold cs. rewrite <- skipn_map, map_app, <- app_assoc. reflexivity.
Qed.

Lemma read_lines_eq size s ls : 2 <= size -> pieces size s ls -> forall b k, size <= len b -> (length ls < k)%nat ->
  exists l b', read_lines k s b size = Ok (l ++ [(0, b')]) /\
    Forall2 (fun x line => fst x = len line /\ length (snd x) = length b /\ (no_nul line -> cstr (snd x) = Ok line)) l ls.
Proof.
  intros Hs. induction 1 as [|s l rest ls N H P IH]; intros b k Hb Hk; (destruct k as [|k]; [cbn in Hk; lia|]).
  - exists []. cbn [read_lines].
    rewrite (get_line_eq size [] [] []); [|split; [reflexivity|split; [cbn; lia|right; split; [easy|auto]]]|cbn; lia].
    cbn [bind]. change (len []) with 0. eexists. split; [reflexivity|constructor].
  - cbn [read_lines]. assert (Hl : len l + 1 <= len b) by (destruct H as (_ & X & _); lia).
    rewrite (get_line_eq size s l rest) by auto. cbn [bind].
    replace (len l =? 0) with false by (destruct l; [easy|rewrite len_cons; lens; lia]).
    assert (LB : length (cs l ++ skipn (S (length l)) b) = length b).
    { rewrite app_length, cs_length, skipn_length. unfold len in Hl. lia. }
    destruct (IH (cs l ++ skipn (S (length l)) b) k) as (ll & b' & E & F); [unfold len in *; lia|cbn in Hk; lia|].
    rewrite E. cbn [bind]. eexists (_ :: ll), b'. split; [reflexivity|]. constructor.
    + cbn [fst snd]. split; [reflexivity|]. split; [exact LB|]. intros Hn. now apply cstr_cs.
    + rewrite LB in F. exact F.
Qed.

Lemma get_line_inv s b size n b' s' : get_line s b size = Ok (n, b', s') ->
  (exists l, s = l ++ s' /\ n = len l) /\ length b' = length b.
Proof.
  unfold get_line. intros H. apply bind_ok_inv in H as (((i & b1) & s1) & H & H').
  apply bind_ok_inv in H' as (b2 & W & H'). inv H'. split.
  - apply get_line_loop_le in H as (l & -> & ->); [|lia]. exists l. split; auto.
  - apply wr_len in W. apply get_line_loop_len in H. congruence.
Qed.

(** ** The header loop ends by itself *)
Lemma header_line_stream h h' : header_line h = Ok h' -> hs_stream h' = hs_stream h.
Proof.
  unfold header_line. intros H.
  apply bind_ok_inv in H as (x1 & _ & H). apply bind_ok_inv in H as (x2 & _ & H). apply bind_ok_inv in H as (x3 & _ & H).
  apply bind_ok_inv in H as (x4 & _ & H). apply bind_ok_inv in H as ((x5 & x6) & _ & H). apply bind_ok_inv in H as (x7 & _ & H).
  apply bind_ok_inv in H as (x8 & _ & H). inv H. reflexivity.
Qed.

Lemma bind_ext_ok A B (x : outcome A) (f g : A -> outcome B) :
  (forall a, x = Ok a -> f a = g a) -> bind x f = bind x g.
Proof. intros H. destruct x; cbn; auto. Qed.

Lemma header_loop_fuel : forall k k' s b h n, get_line s b 1024 = Ok (n, hs_buf h, hs_stream h) ->
  (length s <= k)%nat -> (length s <= k')%nat -> header_loop k n h = header_loop k' n h.
Proof.
  induction k as [|k IH]; intros k' s b h n G Hk Hk'.
  - apply get_line_inv in G as ((l & E & ->) & _). destruct s; [|cbn in Hk; lia]. symmetry in E.
    apply app_eq_nil in E as (-> & _). destruct k'; reflexivity.
  - apply get_line_inv in G as ((l & E & Hn) & _).
    destruct k' as [|k'].
    { destruct s; [|cbn in Hk'; lia]. symmetry in E. apply app_eq_nil in E as (-> & _). subst. reflexivity. }
    cbn [header_loop]. destruct (0 <? n) eqn:N; [|reflexivity].
    apply bind_ext_ok. intros e1 _. destruct e1; [reflexivity|].
    apply bind_ext_ok. intros e2 _. destruct e2; [reflexivity|].
    apply bind_ext_ok. intros h1 H1. apply header_line_stream in H1.
    apply bind_ext_ok. intros ((n' & b') & s') G'.
    assert (L : (length (hs_stream h1) < length s)%nat).
    { rewrite H1. rewrite E, app_length. destruct l; [cbn in Hn; lia|cbn; lia]. }
    apply (IH k' (hs_stream h1) (hs_buf h1)); [exact G'|lia|lia].
Qed.

(** ** The request line *)
Lemma word_scan_eq : forall w pre c r k, Forall (fun c => ~ blank c) w -> blank c -> (length w <= k)%nat ->
  word_scan k (map Some pre ++ map Some w ++ Some c :: r) (len pre) = Ok (w, len pre + len w).
Proof.
  induction w as [|x w IH]; intros pre c r k Hw Hc Hk.
  - assert (R : rd (map Some pre ++ map Some [] ++ Some c :: r) (len pre) = Ok c) by (apply rd_at; now rewrite len_map).
    apply isspace_blank in Hc. change (len []) with 0. rewrite Z.add_0_r. destruct k; cbn [word_scan]; rewrite R; cbn [bind]; now rewrite Hc.
  - inv Hw. destruct k as [|k]; [cbn in Hk; lia|]. cbn [word_scan map app].
    rewrite (rd_at (map Some pre) x) by (now rewrite len_map). cbn [bind]. apply isspace_not_blank in H1. rewrite H1.
    replace (len pre + 1) with (len (pre ++ [x])) by (rewrite len_app; reflexivity).
    replace (map Some pre ++ Some x :: map Some w ++ Some c :: r) with (map Some (pre ++ [x]) ++ map Some w ++ Some c :: r)
      by (rewrite map_app, <- app_assoc; reflexivity).
    rewrite IH; auto; [|cbn in Hk; lia]. cbn [bind]. do 2 f_equal. llia.
Qed.

Lemma word_scan_cut : forall k w pre r, Forall (fun c => ~ blank c) w -> length w = S k ->
  word_scan k (map Some pre ++ map Some w ++ r) (len pre) = Ok (firstn k w, len pre + Z.of_nat k).
Proof.
  induction k as [|k IH]; intros w pre r Hw Hl; (destruct w as [|x w]; [discriminate Hl|]); inv Hw; cbn [word_scan].
  - cbn [map app]. rewrite (rd_at (map Some pre) x) by (now rewrite len_map). cbn [bind]. apply isspace_not_blank in H1. rewrite H1.
    now rewrite Z.add_0_r.
  - cbn [map app]. rewrite (rd_at (map Some pre) x) by (now rewrite len_map). cbn [bind]. apply isspace_not_blank in H1. rewrite H1.
    replace (len pre + 1) with (len (pre ++ [x])) by (rewrite len_app; reflexivity).
    replace (map Some pre ++ Some x :: map Some w ++ r) with (map Some (pre ++ [x]) ++ map Some w ++ r)
      by (rewrite map_app, <- app_assoc; reflexivity).
    rewrite IH; auto. cbn [bind firstn]. do 2 f_equal. llia.
Qed.

Lemma skip_space_eq : forall l pre c r fuel, Forall blank l -> ~ blank c -> (length l <= fuel)%nat ->
  len pre + len l <= 1024 ->
  skip_space fuel (map Some pre ++ map Some l ++ Some c :: r) (len pre) = Ok (len pre + len l).
Proof.
  induction l as [|x l IH]; intros pre c r fuel Hl Hc Hf Hlen.
  - assert (R : rd (map Some pre ++ map Some [] ++ Some c :: r) (len pre) = Ok c) by (apply rd_at; now rewrite len_map).
    apply isspace_not_blank in Hc. change (len []) with 0. rewrite Z.add_0_r. destruct fuel; cbn [skip_space]; rewrite R; cbn [bind]; now rewrite Hc.
  - inv Hl. destruct fuel as [|k]; [cbn in Hf; lia|]. cbn [skip_space map app].
    rewrite (rd_at (map Some pre) x) by (now rewrite len_map). cbn [bind]. apply isspace_blank in H1. rewrite H1.
    rewrite len_cons in Hlen. pose proof (len_nonneg _ l). replace (len pre <? 1024) with true by lia. cbn [andb].
    replace (len pre + 1) with (len (pre ++ [x])) by (rewrite len_app; reflexivity).
    replace (map Some pre ++ Some x :: map Some l ++ Some c :: r) with (map Some (pre ++ [x]) ++ map Some l ++ Some c :: r)
      by (rewrite map_app, <- app_assoc; reflexivity).
    rewrite IH; auto; [|cbn in Hf; lia|llia].
    f_equal. llia.
Qed.

Lemma url_scan_eq : forall w pre c r k, Forall (fun c => ~ blank c) w -> blank c -> len pre + len w <= 1024 ->
  url_scan k (map Some pre ++ map Some w ++ Some c :: r) (len pre) = Ok (firstn k w).
Proof.
  induction w as [|x w IH]; intros pre c r k Hw Hc Hl.
  - assert (R : rd (map Some pre ++ map Some [] ++ Some c :: r) (len pre) = Ok c) by (apply rd_at; now rewrite len_map).
    apply isspace_blank in Hc. destruct k; cbn [url_scan]; rewrite R; cbn [bind]; now rewrite Hc.
  - inv Hw. rewrite len_cons in Hl. pose proof (len_nonneg _ w). apply isspace_not_blank in H1.
    destruct k as [|k]; cbn [url_scan map app]; rewrite (rd_at (map Some pre) x) by (now rewrite len_map); cbn [bind]; rewrite H1; [reflexivity|].
    replace (len pre <? 1024) with true by lia.
    replace (len pre + 1) with (len (pre ++ [x])) by (rewrite len_app; reflexivity).
    replace (map Some pre ++ Some x :: map Some w ++ Some c :: r) with (map Some (pre ++ [x]) ++ map Some w ++ Some c :: r)
      by (rewrite map_app, <- app_assoc; reflexivity).
    rewrite IH; auto. llia.
Qed.

(** No blank up to the end of what is scanned. *)
Lemma url_scan_open : forall k w pre r, Forall (fun c => ~ blank c) w -> length w = S k -> len pre + len w <= 1024 ->
  url_scan k (map Some pre ++ map Some w ++ r) (len pre) = Ok (firstn k w).
Proof.
  induction k as [|k IH]; intros w pre r Hw Hl Hle; (destruct w as [|x w]; [discriminate Hl|]); inv Hw;
    cbn [url_scan map app]; rewrite (rd_at (map Some pre) x) by (now rewrite len_map); cbn [bind];
    apply isspace_not_blank in H1; rewrite H1; [reflexivity|].
  rewrite len_cons in Hle. pose proof (len_nonneg _ w). replace (len pre <? 1024) with true by lia.
  replace (len pre + 1) with (len (pre ++ [x])) by (rewrite len_app; reflexivity).
  replace (map Some pre ++ Some x :: map Some w ++ r) with (map Some (pre ++ [x]) ++ map Some w ++ r)
    by (rewrite map_app, <- app_assoc; reflexivity).
  rewrite IH; auto. llia.
Qed.
Lemma url_scan_oob : forall w pre k, Forall (fun c => ~ blank c) w -> (length w <= k)%nat -> len pre + len w <= 1024 ->
  url_scan k (map Some pre ++ map Some w) (len pre) = UB OobRead.
Proof.
  induction w as [|x w IH]; intros pre k Hw Hl Hle.
  - destruct k; cbn [url_scan map]; rewrite rd_oob; auto; rewrite app_nil_r, len_map; lia.
  - inv Hw. destruct k as [|k]; [cbn in Hl; lia|]. cbn [url_scan map app].
    rewrite (rd_at (map Some pre) x) by (now rewrite len_map); cbn [bind]. apply isspace_not_blank in H1; rewrite H1.
    rewrite len_cons in Hle. pose proof (len_nonneg _ w). replace (len pre <? 1024) with true by lia.
    replace (len pre + 1) with (len (pre ++ [x])) by (rewrite len_app; reflexivity).
    replace (map Some pre ++ Some x :: map Some w) with (map Some (pre ++ [x]) ++ map Some w)
      by (rewrite map_app, <- app_assoc; reflexivity).
    rewrite IH; auto; [cbn in Hl; lia|]. llia.
Qed.

Lemma word_buf m : len m <= 254 -> write_at (malloc 255) 0 (map Some m ++ [Some NUL]) = Ok (cs m ++ skipn (S (length m)) (malloc 255)).
Proof.
  intros H. change (map Some m ++ [Some NUL]) with (cs m). rewrite write_at_0; [now rewrite cs_length|].
  rewrite len_cs, len_malloc. lia.
Qed.

Lemma upto_nul_cstr s r : cstr (map Some s ++ Some NUL :: r) = Ok (upto_nul s).
Proof.
  induction s as [|c s IH]; [reflexivity|]. cbn. destruct (ceq_spec c NUL); [reflexivity|].
  rewrite IH. reflexivity.
Qed.

Lemma firstn_no_nul2 n s : no_nul s -> no_nul (firstn n s).
Proof. apply no_nul_firstn. Qed.

Lemma line_start line : no_nul line -> 2 <= len line ->
  exists rl, wr (cs line) (len line - 2) NUL = Ok rl /\ cstr rl = Ok (firstn (length line - 2) line).
Proof.
  intros Hn Hl. replace (cs line) with (cs (firstn (length line - 2) line ++ skipn (length line - 2) line)) by now rewrite firstn_skipn.
  destruct (skipn (length line - 2) line) as [|c t] eqn:E.
  { apply (f_equal (@length _)) in E. rewrite skipn_length in E. unfold len in Hl. cbn in E. lia. }
  rewrite cs_app. cbn [cs map app]. eexists. split.
  - apply wr_at. rewrite len_map, len_firstn. unfold len in *. lia.
  - rewrite cstr_map; auto.
Qed.

Lemma parse_request_line_eq m c rest st : let line := m ++ c :: rest in
  no_nul line -> Forall (fun c => ~ blank c) m -> blank c -> len m <= 254 -> 2 <= len line ->
  parse_request_line (cs line ++ st) = Ok (firstn (length line - 2) line, m, len m).
Proof.
  intros line Hn Hm Hc Hl H2. unfold parse_request_line. rewrite cstr_cs by auto. cbn [bind].
  destruct (line_start line Hn H2) as (rl & -> & E). cbn [bind]. rewrite E. cbn [bind].
  replace (cs line ++ st) with (map Some [] ++ map Some m ++ Some c :: map Some rest ++ [Some NUL] ++ st).
  2:{ unfold line, cs. rewrite map_app. cbn [map]. appn. reflexivity. }
  change 0 with (len (@nil ascii)). rewrite word_scan_eq; auto; [|unfold len in Hl; lia]. cbn [bind]. change (len []) with 0. rewrite Z.add_0_l.
  rewrite word_buf by auto. cbn [bind]. rewrite cstr_cs; [reflexivity|].
  unfold line in Hn. apply no_nul_app in Hn. tauto.
Qed.

Lemma parse_url_eq m sp u c rest st : no_nul u -> Forall blank sp -> word u -> blank c ->
  len (m ++ sp ++ u) <= 1024 -> (length sp <= 1024)%nat ->
  parse_url (map Some (m ++ sp ++ u ++ c :: rest) ++ st) (len m) = Ok (firstn 254 u).
Proof.
  intros Hn Hsp (Hne & _ & Hu) Hc Hl Hs. unfold parse_url. destruct u as [|x u]; [easy|]. inv Hu.
  replace (map Some (m ++ sp ++ (x :: u) ++ c :: rest) ++ st)
    with (map Some m ++ map Some sp ++ Some x :: map Some u ++ Some c :: map Some rest ++ st).
  2:{ rewrite !map_app. cbn [map]. appn. reflexivity. }
  rewrite skip_space_eq; auto; [|llia]. cbn [bind].
  replace (len m + len sp) with (len (m ++ sp)) by llia.
  replace (map Some m ++ map Some sp ++ Some x :: map Some u ++ Some c :: map Some rest ++ st)
    with (map Some (m ++ sp) ++ map Some (x :: u) ++ Some c :: map Some rest ++ st).
  2:{ rewrite !map_app. cbn [map]. appn. reflexivity. }
  rewrite url_scan_eq; auto; [|rewrite !len_app in *; lia]. cbn [bind].
  rewrite word_buf by (rewrite len_firstn; lia). cbn [bind]. apply cstr_cs. now apply no_nul_firstn.
Qed.

Lemma nul_not_blank : ~ blank NUL.
Proof. unfold blank. cbn. intuition discriminate. Qed.
Lemma firstn_app_repeat (u : str) k n : (k <= length u + n)%nat -> firstn k (u ++ repeat NUL n) = firstn k u ++ repeat NUL (k - length u).
Proof.
  intros H. rewrite firstn_app. f_equal.
  revert n H. generalize (length u). intros l n H. destruct (Nat.le_ge_cases k l).
  - replace (k - l)%nat with O by lia. reflexivity.
  - assert (E : forall j n, (j <= n)%nat -> firstn j (repeat NUL n) = repeat NUL j).
    { clear. induction j as [|j IH]; intros [|n] H; cbn; auto; try lia. f_equal. apply IH. lia. }
    apply E. lia.
Qed.

(** No blank after the URL: the zeroes after the line are scanned too. *)
Lemma parse_url_open m sp u n : no_nul u -> Forall blank sp -> Forall (fun c => ~ blank c) u ->
  len (m ++ sp ++ u) + Z.of_nat n = 1024 -> (1 <= n)%nat ->
  parse_url (map Some (m ++ sp ++ u ++ repeat NUL n)) (len m)
  = if len (m ++ sp) <=? 769 then Ok (firstn 254 u) else UB OobRead.
Proof.
  intros Hn Hsp Hu Hl Hn1. unfold parse_url.
  assert (W : Forall (fun c => ~ blank c) (u ++ repeat NUL n)).
  { apply Forall_app. split; auto. apply Forall_forall. intros x Hx. apply repeat_spec in Hx. subst. apply nul_not_blank. }
  assert (S : skip_space 1024 (map Some (m ++ sp ++ u ++ repeat NUL n)) (len m) = Ok (len (m ++ sp))).
  { destruct (u ++ repeat NUL n) as [|x w] eqn:E.
    { apply app_eq_nil in E as (_ & E). destruct n; [lia|discriminate]. }
    inv W. rewrite !map_app. cbn [map]. rewrite skip_space_eq; auto.
    - f_equal. llia.
    - unfold len in Hl. rewrite !app_length in Hl. lia.
    - rewrite !len_app in Hl. lens. lia. }
  rewrite S. cbn [bind].
  assert (LW : len (m ++ sp) + len (u ++ repeat NUL n) = 1024) by (rewrite !len_app in *; rewrite len_repeat; lia).
  replace (map Some (m ++ sp ++ u ++ repeat NUL n)) with (map Some (m ++ sp) ++ map Some (u ++ repeat NUL n)).
  2:{ rewrite <- map_app. f_equal. now rewrite <- app_assoc. }
  destruct (len (m ++ sp) <=? 769) eqn:C.
  - set (w := u ++ repeat NUL n) in *. rewrite <- (firstn_skipn 255 w) at 1. rewrite (map_app Some (firstn 255 w)).
    rewrite url_scan_open.
    + cbn [bind]. rewrite firstn_firstn. change (Init.Nat.min 254 255) with 254%nat. 
      rewrite word_buf by (rewrite len_firstn; lia). cbn [bind]. unfold cs. rewrite <- app_assoc. cbn [app].
      rewrite upto_nul_cstr. f_equal. unfold w. rewrite firstn_app_repeat.
      * destruct (254 - length u)%nat eqn:E; cbn [repeat].
        -- rewrite app_nil_r. apply upto_nul_id. now apply no_nul_firstn.
        -- apply upto_nul_stop. now apply no_nul_firstn.
      * unfold len in LW. unfold w in LW. rewrite (app_length u), repeat_length in LW. unfold len in C. lia.
    + apply Forall_forall. intros x Hx. rewrite Forall_forall in W. apply W. rewrite <- (firstn_skipn 255 w). apply in_or_app. now left.
    + rewrite firstn_length. unfold len in *. lia.
    + rewrite len_firstn. lia.
  - rewrite url_scan_oob; [reflexivity|exact W|unfold len in *; lia|lia].
Qed.

(** ** Header lines *)
Lemma from_tail n line t st : tail_at n line t -> from (cs line ++ st) (Z.of_nat n) = cs t ++ st.
Proof.
  intros (h & -> & Hl). rewrite cs_app, <- app_assoc. apply from_app. rewrite len_map. unfold len. lia.
Qed.

(** A fixed-size field filled by strncpy. *)
Definition filled (n : nat) (t : str) : buf := map Some (firstn n t) ++ repeat (Some NUL) (n - length t).

Lemma strncpy_filled d t r n : no_nul t -> len d = Z.of_nat n ->
  strncpy d (cs t ++ r) (Z.of_nat n) = Ok (filled n t).
Proof.
  intros Hn Hd. unfold strncpy. rewrite Nat2Z.id, cstrn_cs by auto. cbn [bind].
  rewrite firstn_length. replace (n - Nat.min n (length t))%nat with (n - length t)%nat by lia.
  change (map Some (firstn n t) ++ repeat (Some NUL) (n - length t)) with (filled n t).
  assert (Lf : length (filled n t) = n).
  { unfold filled. rewrite app_length, map_length, firstn_length, repeat_length. lia. }
  rewrite write_at_0 by (unfold len in *; lia). rewrite skipn_all2 by (unfold len in *; lia). now rewrite app_nil_r.
Qed.
Lemma filled_short n t : len t < Z.of_nat n -> exists r, filled n t = cs t ++ r.
Proof.
  intros H. unfold filled, len in *. rewrite firstn_all2 by lia. destruct (n - length t)%nat eqn:E; [lia|].
  exists (repeat (Some NUL) n0). unfold cs. now rewrite <- app_assoc.
Qed.
Lemma filled_holds n t : no_nul t -> len t < Z.of_nat n -> cstr (filled n t) = Ok t.
Proof. intros Hn H. destruct (filled_short n t H) as (r & ->). now apply cstr_cs. Qed.
Lemma filled_long n t : no_nul t -> Z.of_nat n <= len t -> cstr (filled n t) = UB OobRead.
Proof.
  intros Hn H. unfold filled, len in *. replace (n - length t)%nat with O by lia. cbn [repeat]. rewrite app_nil_r.
  apply (no_nul_firstn n) in Hn. induction Hn as [|c s Hc Hs IH]; [reflexivity|]. cbn. rewrite ceq_neq by auto. now rewrite IH.
Qed.

Lemma entry_cs t : len t <= 1022 -> exists r, entry t = cs t ++ r.
Proof.
  intros H. unfold entry, len in *. rewrite firstn_all2 by lia.
  destruct (1023 - length t)%nat eqn:E; [lia|]. exists (repeat (Some NUL) n ++ [None]). unfold cs. rewrite <- app_assoc. reflexivity.
Qed.

Definition stored (nv : str * str) : header := mkHeader (filled 64 (fst nv)) (filled 256 (snd nv)).

Lemma trimmed_len s t : trimmed s t -> len t <= len s.
Proof. intros (l & r & -> & _). llia. Qed.

Lemma field_facts line nv : no_nul line -> field_of line nv ->
  no_nul (fst nv) /\ no_nul (snd nv) /\ len (fst nv) < len line /\ len (snd nv) < len line /\ no_blank_edges (snd nv).
Proof.
  intros Hn (a & b & (-> & _) & Ha & Hb). apply no_nul_app in Hn as [Na Nb]. apply no_nul_cons in Nb as [_ Nb].
  split; [exact (trimmed_no_nul _ _ Na Ha)|]. split; [exact (trimmed_no_nul _ _ Nb Hb)|].
  pose proof (trimmed_len _ _ Ha). pose proof (trimmed_len _ _ Hb). destruct Hb as (l & r & _ & _ & _ & E).
  split; [llia|]. split; [llia|exact E].
Qed.

Lemma store_header_eq line st fs fs' : no_nul line -> len line <= 1023 -> tells_fields line fs fs' ->
  store_header (cs line ++ st) (map stored (firstn 20 fs)) = Ok (map stored (firstn 20 fs')).
Proof.
  intros Hn Hl H. unfold store_header. rewrite len_map, len_firstn. unfold HTTP_MAX_HEADERS.
  destruct H as [(Hc & ->)|(nv & Hf & ->)].
  - destruct (exists_trimmed line) as (t & Ht). rewrite (split_once_none line t) by auto. cbn [bind].
    now destruct (_ <? 20).
  - destruct (Z.min (Z.of_nat 20) (len fs) <? 20) eqn:E.
    + destruct (field_facts line nv Hn Hf) as (N1 & N2 & L1 & L2 & E2).
      pose proof Hf as (a & b & Hcut & Ha & Hb). rewrite (split_once_cut line a b (fst nv) (snd nv)) by auto. cbn [bind].
      destruct (entry_cs (fst nv) ltac:(lia)) as (r1 & ->). destruct (entry_cs (snd nv) ltac:(lia)) as (r2 & ->).
      change HTTP_MAX_HEADER_NAME with (Z.of_nat 64). rewrite strncpy_filled by (auto; rewrite len_calloc; lia). cbn [bind].
      rewrite trim_fixed by auto. cbn [bind]. change HTTP_MAX_HEADER_VALUE with (Z.of_nat 256).
      rewrite strncpy_filled by (auto; rewrite len_calloc; lia). cbn [bind].
      f_equal. assert (F : (length fs < 20)%nat) by (unfold len in E; lia).
      rewrite (firstn_all2 fs) by lia. rewrite firstn_all2 by (rewrite app_length; cbn; lia). now rewrite map_app.
    + f_equal. rewrite firstn_app. assert (F : (20 <= length fs)%nat) by (unfold len in E; lia).
      replace (20 - length fs)%nat with O by lia. cbn [firstn]. now rewrite app_nil_r.
Qed.

Ltac sw r Hr := match goal with |- context [startswith (cs ?s ++ ?st) ?p] =>
  destruct (startswith_eq s st p) as (r & -> & Hr); [auto|apply no_nul_dec_b; reflexivity|]; cbn [bind] end.

Lemma take_content_type_eq line st x x' : no_nul line -> tells_type line x x' ->
  take_content_type (cs line ++ st) x = Ok x'.
Proof.
  intros Hn H. unfold take_content_type. sw r Hr. destruct H as [(H & ->)|(H & t & a & Ht & Ha & ->)].
  - destruct r; [exfalso; apply H, Hr; auto|reflexivity].
  - destruct r; [|apply Hr in H; discriminate]. change 14 with (Z.of_nat 14). rewrite (from_tail _ _ _ _ Ht).
    assert (Nt : no_nul t) by (destruct Ht as (h & -> & _); apply no_nul_app in Hn; tauto).
    destruct Ha as [(b & Ha)|(Ha & ->)].
    + now rewrite (rtrim_cut t ";" a b) by auto.
    + now rewrite rtrim_none by auto.
Qed.

Lemma take_length_eq line st x x' : no_nul line -> tells_length line x x' ->
  take_length (cs line ++ st) x = Ok x'.
Proof.
  intros Hn H. unfold take_length. sw r Hr. destruct H as [(H & ->)|(H & t & Ht & Ha)].
  - destruct r; [exfalso; apply H, Hr; auto|reflexivity].
  - destruct r; [|apply Hr in H; discriminate]. change 16 with (Z.of_nat 16). rewrite (from_tail _ _ _ _ Ht).
    assert (Nt : no_nul t) by (destruct Ht as (h & -> & _); apply no_nul_app in Hn; tauto).
    rewrite cstr_cs by auto. cbn [bind]. now rewrite (atoi_int _ _ Ha).
Qed.

(** Searching up to case. *)
Lemma ci_equal_lower p q : ci_equal p q <-> map tolower q = map tolower p.
Proof.
  split.
  - induction 1 as [|a b p q H F IH]; [reflexivity|]. cbn. f_equal; [|exact IH]. symmetry. apply ceq_true. now apply tolower_same_iff.
  - revert q. induction p as [|a p IH]; intros [|b q] H; try discriminate; [constructor|]. cbn in H. inversion H as [[H1 H2]].
    constructor; [|apply IH; exact H2]. apply tolower_same_iff. now apply ceq_true.
Qed.
Lemma map_app_inv {A B} (f : A -> B) s u v : map f s = u ++ v -> exists a b, s = a ++ b /\ map f a = u /\ map f b = v.
Proof.
  revert u. induction s as [|c s IH]; intros u H.
  - symmetry in H. apply app_eq_nil in H as [-> ->]. exists [], []. auto.
  - destruct u as [|x u]; [exists [], (c :: s); auto|]. cbn in H. inversion H as [[H1 H2]].
    destruct (IH u H2) as (a & b & -> & E1 & E2). exists (c :: a), b. cbn. split; [auto|]. split; congruence.
Qed.
Lemma strcasestr_some s p a b : ci_cut p s a b -> strcasestr s p = Some (length a) /\ skipn (length a + length p) s = b.
Proof.
  intros (q & -> & E & M). split.
  - unfold strcasestr. destruct (strstr _ _) as [n|] eqn:S.
    + apply strstr_some in S as ((x & y & S & Hx) & Min). f_equal.
      apply map_app_inv in S as (a1 & b1 & S1 & A1 & B1). apply map_app_inv in B1 as (q1 & b2 & -> & Q1 & B2).
      specialize (M a1 q1 b2 S1 ltac:(now apply ci_equal_lower)).
      specialize (Min (map tolower a) (map tolower b)). rewrite map_length in Min.
      assert (length x = length a1) by (rewrite <- A1; now rewrite map_length).
      assert (n <= length a)%nat. { apply Min. rewrite !map_app. do 2 f_equal. now apply ci_equal_lower. }
      unfold len in M. lia.
    + exfalso. rewrite strstr_none in S. apply (S (map tolower a) (map tolower b)). rewrite !map_app. do 2 f_equal.
      now apply ci_equal_lower.
  - apply Forall2_length in E. rewrite E. rewrite app_assoc. rewrite <- app_length. rewrite skipn_app, skipn_all, Nat.sub_diag. reflexivity.
Qed.
Lemma strcasestr_none s p : (forall a q b, s = a ++ q ++ b -> ~ ci_equal p q) -> strcasestr s p = None.
Proof.
  intros H. unfold strcasestr. apply strstr_none. intros a b E.
  apply map_app_inv in E as (a1 & b1 & -> & _ & E). apply map_app_inv in E as (q & b2 & -> & E & _).
  apply (H a1 q b2); auto. now apply ci_equal_lower.
Qed.

Lemma take_boundary_eq line st x x' : no_nul line -> tells_boundary line x x' ->
  take_boundary (cs line ++ st) x = Ok x'.
Proof.
  intros Hn H. unfold take_boundary. change (L "Content-Type: multipart/form-data") with form_data.
  destruct (startswith_eq line st form_data) as (r & -> & Hr); [auto|apply no_nul_dec_b; reflexivity|]. cbn [bind].
  destruct H as [(H & ->)|(H & a & b & Hc & Hb & Ht)].
  - destruct r; [|reflexivity]. rewrite cstr_cs by auto. cbn [bind].
    destruct H as [H|H]; [exfalso; apply H, Hr; auto|]. now rewrite (strcasestr_none _ _ H).
  - destruct r; [|apply Hr in H; discriminate]. rewrite cstr_cs by auto. cbn [bind].
    pose proof (strcasestr_some _ _ _ _ Hc) as [E S]. rewrite E. change (length (L "boundary=")) with 9%nat in S. rewrite S.
    rewrite fits_ok by (rewrite len_app; change (len (L "--")) with 2; lia). cbn [bind].
    apply trim_str_ok; [|exact Ht]. apply no_nul_app. split; [apply no_nul_dec_b; reflexivity|].
    destruct Hc as (q & -> & _). apply no_nul_app in Hn as [_ Hn]. apply no_nul_app in Hn. tauto.
Qed.
Lemma take_boundary_oob line st x a b : no_nul line -> ci_prefix form_data line -> ci_cut (L "boundary=") line a b -> 98 <= len b ->
  take_boundary (cs line ++ st) x = UB OobWrite.
Proof.
  intros Hn H Hc Hb. unfold take_boundary. change (L "Content-Type: multipart/form-data") with form_data.
  destruct (startswith_eq line st form_data) as (r & -> & Hr); [auto|apply no_nul_dec_b; reflexivity|]. cbn [bind].
  destruct r; [|apply Hr in H; discriminate]. rewrite cstr_cs by auto. cbn [bind].
  pose proof (strcasestr_some _ _ _ _ Hc) as [E S]. rewrite E. change (length (L "boundary=")) with 9%nat in S. rewrite S.
  rewrite fits_oob by (rewrite len_app; change (len (L "--")) with 2; lia). reflexivity.
Qed.

(** Cells that are all initialised. *)
Definition init (b : buf) : Prop := exists s, b = map Some s.
Lemma init_app a b : init (a ++ b) <-> init a /\ init b.
Proof.
  split.
  - intros (s & E). symmetry in E. apply map_app_inv in E as (x & y & -> & <- & <-). split; eexists; reflexivity.
  - intros ((x & ->) & (y & ->)). exists (x ++ y). now rewrite map_app.
Qed.
Lemma init_firstn n b : init b -> init (firstn n b).
Proof. intros H. rewrite <- (firstn_skipn n b) in H. apply init_app in H. tauto. Qed.
Lemma init_skipn n b : init b -> init (skipn n b).
Proof. intros H. rewrite <- (firstn_skipn n b) in H. apply init_app in H. tauto. Qed.
Lemma init_write b i l b' : write_at b i l = Ok b' -> init b -> init l -> init b'.
Proof.
  unfold write_at. destruct (_ && _); [|discriminate]. intros E Hb Hl. inv E.
  apply init_app. split; [now apply init_firstn|]. apply init_app. split; [auto|now apply init_skipn].
Qed.
Lemma init_memcpy d i s j n d' : memcpy d i s j n = Ok d' -> init d -> init s -> init d'.
Proof.
  unfold memcpy, slice. intros H Hd Hs. apply bind_ok_inv in H as (l & H & W).
  destruct (n <? 0); [discriminate|]. destruct (_ && _); [|discriminate]. inv H.
  eapply init_write; eauto. now apply init_firstn, init_skipn.
Qed.
Lemma init_wr b i c b' : wr b i c = Ok b' -> init b -> init b'.
Proof. unfold wr. intros H Hb. eapply init_write; eauto. exists [c]. reflexivity. Qed.
Lemma init_trim b b' : trim b = Ok b' -> init b -> init b'.
Proof.
  unfold trim. intros H Hb. apply bind_ok_inv in H as (n & _ & H). apply bind_ok_inv in H as (i & _ & H).
  apply bind_ok_inv in H as (b1 & H1 & H). apply bind_ok_inv in H as (n2 & _ & H). apply bind_ok_inv in H as (e & _ & H).
  eapply init_wr; eauto. destruct (i =? 0); [inv H1; auto|].
  apply bind_ok_inv in H1 as (r & _ & H1). apply bind_ok_inv in H1 as (b2 & M & H1). apply bind_ok_inv in H1 as (r' & _ & H1).
  eapply init_wr; eauto. eapply init_memcpy; eauto.
Qed.

Lemma trim_shows line t st : no_nul line -> trimmed line t ->
  exists st', trim (cs line ++ map Some st) = Ok (cs t ++ map Some st') /\ length (cs t ++ map Some st') = length (cs line ++ map Some st).
Proof.
  intros Hn Ht. destruct (trim_holds line (map Some st) Hn) as (t' & junk & E & Ht' & Lj & _).
  rewrite (trimmed_unique _ _ _ Ht' Ht) in *.
  assert (I : init (cs t ++ junk ++ map Some st)).
  { eapply init_trim; [exact E|]. exists (line ++ NUL :: st). unfold cs. rewrite map_app, <- app_assoc. reflexivity. }
  apply init_app in I as [_ I]. destruct I as (st' & I). exists st'. rewrite I in E. split; [exact E|].
  rewrite <- I, app_assoc, app_length, Lj, app_length. reflexivity.
Qed.

(** A string followed by at least one NUL. *)
Lemma cstr_map_pad s k n r : no_nul s -> (length (map (@Some ascii) s ++ repeat (Some NUL) k) < n)%nat -> 
  cstr ((map Some s ++ repeat (Some NUL) k) ++ skipn (length (map (@Some ascii) s ++ repeat (Some NUL) k)) (repeat (Some NUL) n) ++ r) = Ok s.
Proof.
  intros Hs H. destruct k as [|k].
  - cbn [repeat] in *. rewrite app_nil_r in *. destruct (skipn_at (repeat (Some NUL) n) (length (map (@Some ascii) s))) as (x & E); [rewrite repeat_length; auto|].
    assert (X : x = Some NUL).
    { assert (I : In x (repeat (Some NUL) n)) by (rewrite <- (firstn_skipn (length (map (@Some ascii) s)) (repeat (Some NUL) n)); apply in_or_app; right; rewrite E; now left).
      now apply repeat_spec in I. }
    rewrite E, X. cbn [app]. now apply cstr_map.
  - cbn [repeat]. rewrite <- app_assoc. cbn [app]. now apply cstr_map.
Qed.

Lemma take_ip_same line st x : no_nul line -> ~ ci_prefix (L "X-Real-IP:") line ->
  take_ip (cs line ++ st) x = Ok (x, cs line ++ st).
Proof.
  intros Hn H. unfold take_ip. sw r Hr. destruct r; [exfalso; apply H, Hr; auto|reflexivity].
Qed.
Lemma take_ip_new line st x u t : no_nul line -> ci_prefix (L "X-Real-IP:") line -> trimmed line u -> tail_at 11 u t ->
  exists st', take_ip (cs line ++ map Some st) x = Ok (firstn 24 t, cs u ++ map Some st')
    /\ length (cs u ++ map Some st') = length (cs line ++ map Some st).
Proof.
  intros Hn H Hu Ht. destruct (trim_shows line u st Hn Hu) as (st' & E & Ls). exists st'. split; [|exact Ls].
  unfold take_ip. sw r Hr. destruct r; [|apply Hr in H; discriminate]. rewrite E. cbn [bind].
  change 11 with (Z.of_nat 11). rewrite (from_tail _ _ _ _ Ht).
  assert (Nt : no_nul t) by (apply trimmed_no_nul in Hu; auto; destruct Ht as (h & -> & _); apply no_nul_app in Hu; tauto).
  unfold strncpy. change (Z.to_nat 24) with 24%nat. rewrite cstrn_cs by auto. cbn [bind].
  rewrite write_at_0.
  2:{ rewrite len_app, len_map, len_repeat, len_firstn, len_calloc, firstn_length. unfold len. lia. }
  cbn [bind]. unfold calloc. change (Z.to_nat 26) with 26%nat.
  rewrite <- (app_nil_r (skipn _ _)). rewrite cstr_map_pad; [reflexivity|now apply no_nul_firstn|].
  rewrite app_length, map_length, repeat_length, firstn_length. lia.
Qed.

Lemma same_letter_meet a b y : same_letter a y -> same_letter b y -> tolower a = tolower b.
Proof.
  intros H1 H2. apply tolower_same_iff, ceq_true in H1. apply tolower_same_iff, ceq_true in H2. congruence.
Qed.
Fixpoint differ (p q : str) : bool :=
  match p, q with
  | x :: p', y :: q' => negb (ceq (tolower x) (tolower y)) || differ p' q'
  | _, _ => false
  end.
Lemma ci_differ p q s : differ p q = true -> ci_prefix p s -> ci_prefix q s -> False.
Proof.
  revert q s. induction p as [|x p IH]; intros [|y q] s H Hp Hq; try discriminate.
  destruct s as [|z s]; [now apply ci_prefix_cons_nil in Hp|].
  apply ci_prefix_cons in Hp as [H1 H2]. apply ci_prefix_cons in Hq as [H3 H4]. cbn [differ] in H.
  rewrite (same_letter_meet _ _ _ H1 H3), ceq_refl in H. cbn in H. eauto.
Qed.
Lemma ci_prefix_len p s : ci_prefix p s -> len p <= len s.
Proof. intros (q & r & -> & E). apply Forall2_length in E. unfold len. rewrite app_length. lia. Qed.
Lemma ci_prefix_app p s r : ci_prefix p (s ++ r) -> len p <= len s -> ci_prefix p s.
Proof.
  revert s. induction p as [|x p IH]; intros s H L; [apply ci_prefix_nil|].
  destruct s as [|y s]; [rewrite len_cons in L; change (len []) with 0 in L; lens; lia|].
  cbn [app] in H. apply ci_prefix_cons in H as [H1 H2]. apply ci_prefix_cons. split; auto. apply IH; auto.
  rewrite !len_cons in L. lia.
Qed.
Lemma ci_prefix_app_l p s r : ci_prefix p s -> ci_prefix p (s ++ r).
Proof. intros (a & b & -> & E). exists a, (b ++ r). split; [now rewrite <- app_assoc|exact E]. Qed.
Lemma trimmed_prefix x p line u : trimmed line u -> ci_prefix (x :: p) line -> (forall y, same_letter x y -> ~ blank y) ->
  exists r, line = u ++ r.
Proof.
  intros (l & r & -> & Hl & _) H N. destruct l as [|c l]; [exists r; reflexivity|]. inv Hl.
  cbn in H. apply ci_prefix_cons in H as [H _]. exfalso. exact (N c H H2).
Qed.

Lemma session_header line st : no_nul line -> exists r, startswithany (cs line ++ st) COOKIE_HEADERS = Ok r /\ (r = true <-> session_line line).
Proof.
  intros Hn. destruct (startswithany_eq line st [L "X-Session:"; L "Authorization:"] (Some []) Hn) with (more := @nil (option str)) as (r & E & Hr); auto.
  { repeat constructor; try (apply no_nul_dec_b; reflexivity); discriminate. }
  exists r. split; [exact E|]. rewrite Hr. unfold session_line. split.
  - intros (p & [<-|[<-|[]]] & H); auto.
  - intros [H|H]; eexists; (split; [|exact H]); cbn; auto.
Qed.

(** The session buffer. *)
Definition holds_session (b : buf) (s : str) : Prop := exists junk, b = cs s ++ junk /\ no_nul s /\ len b = 64.

Lemma take_session_same line st b : no_nul line -> ~ session_line line -> take_session (cs line ++ st) b = Ok b.
Proof.
  intros Hn H. unfold take_session. destruct (session_header line st Hn) as (r & -> & Hr). cbn [bind].
  destruct r; [exfalso; apply H, Hr; auto|reflexivity].
Qed.
Lemma take_session_new line st b t s : no_nul line -> session_line line -> tail_at 10 line t -> len t <= 63 -> trimmed t s ->
  len b = 64 -> exists b', take_session (cs line ++ st) b = Ok b' /\ holds_session b' s.
Proof.
  intros Hn H Ht Hl Hs Hb. unfold take_session. destruct (session_header line st Hn) as (r & -> & Hr). cbn [bind].
  destruct r; [|apply Hr in H; discriminate]. change 10 with (Z.of_nat 10). rewrite (from_tail _ _ _ _ Ht).
  assert (Nt : no_nul t) by (destruct Ht as (h & -> & _); apply no_nul_app in Hn; tauto).
  change MAX_SESSION with (Z.of_nat 64). rewrite strncpy_filled by (auto; lia). cbn [bind].
  destruct (filled_short 64 t ltac:(lia)) as (rr & E).
  assert (Lf : len (filled 64 t) = 64).
  { unfold filled, len. rewrite app_length, map_length, firstn_length, repeat_length. lia. }
  rewrite E in *. destruct (trim_holds t rr Nt) as (s' & junk & -> & Hs' & Lj & Ns).
  rewrite (trimmed_unique _ _ _ Hs' Hs) in *. eexists. split; [reflexivity|]. exists (junk ++ rr). split; [reflexivity|]. split; [auto|].
  unfold len in *. rewrite app_assoc, app_length, Lj. rewrite app_length in Lf. exact Lf.
Qed.
Lemma take_session_oob line st b t : no_nul line -> session_line line -> tail_at 10 line t -> 64 <= len t -> len b = 64 ->
  take_session (cs line ++ st) b = UB OobRead.
Proof.
  intros Hn H Ht Hl Hb. unfold take_session. destruct (session_header line st Hn) as (r & -> & Hr). cbn [bind].
  destruct r; [|apply Hr in H; discriminate]. change 10 with (Z.of_nat 10). rewrite (from_tail _ _ _ _ Ht).
  assert (Nt : no_nul t) by (destruct Ht as (h & -> & _); apply no_nul_app in Hn; tauto).
  change MAX_SESSION with (Z.of_nat 64). rewrite strncpy_filled by (auto; lia). cbn [bind].
  unfold trim, strlen. rewrite filled_long by (auto; lia). reflexivity.
Qed.

Lemma take_cookie_same line st b : no_nul line -> ~ ci_prefix (L "Cookie:") line -> take_cookie (cs line ++ st) b = Ok b.
Proof. intros Hn H. unfold take_cookie. sw r Hr. destruct r; [exfalso; apply H, Hr; auto|reflexivity]. Qed.
Lemma session_first b s : holds_session b s -> exists c, rd b 0 = Ok c /\ (ceq c NUL = true <-> s = []).
Proof.
  intros (junk & -> & Hn & _). destruct s as [|c s].
  - exists NUL. split; [apply (rd_at []); reflexivity|]. split; auto.
  - exists c. split; [apply (rd_at []); reflexivity|]. apply no_nul_cons in Hn as [Hc _]. split; [|discriminate].
    intros E. apply ceq_true in E. now elim Hc.
Qed.
Lemma take_cookie_kept line st b s : no_nul line -> holds_session b s -> s <> [] -> take_cookie (cs line ++ st) b = Ok b.
Proof.
  intros Hn Hb Hs. unfold take_cookie. sw r Hr. destruct r; [|reflexivity].
  destruct (session_first b s Hb) as (c & -> & Hc). cbn [bind]. destruct (ceq c NUL); [|reflexivity]. elim Hs. now apply Hc.
Qed.
Lemma take_cookie_new line st b t : no_nul line -> ci_prefix (L "Cookie:") line -> tail_at 18 line t -> holds_session b [] ->
  exists b', take_cookie (cs line ++ st) b = Ok b' /\ holds_session b' (if len t <=? 63 then t else []).
Proof.
  intros Hn H Ht Hb. unfold take_cookie. sw r Hr. destruct r; [|apply Hr in H; discriminate].
  destruct (session_first b [] Hb) as (c & -> & Hc). cbn [bind]. replace (ceq c NUL) with true by (symmetry; now apply Hc).
  change 18 with (Z.of_nat 18). rewrite (from_tail _ _ _ _ Ht).
  assert (Nt : no_nul t) by (destruct Ht as (h & -> & _); apply no_nul_app in Hn; tauto).
  rewrite cstr_cs by auto. cbn [bind]. unfold MAX_SESSION. replace (len t <? 64) with (len t <=? 63) by lia.
  destruct (len t <=? 63) eqn:E; [|exists b; auto]. destruct Hb as (junk & -> & _ & Lb).
  rewrite strcpy_0 by lia. eexists. split; [reflexivity|]. eexists. split; [reflexivity|]. split; [auto|].
  unfold len in *. rewrite app_length, cs_length, skipn_length. lia.
Qed.

(** What the loop's state holds. *)
Definition rep (h : hstate) (x : told) : Prop :=
  hs_headers h = map stored (firstn 20 (td_fields x)) /\ Forall (fun nv => no_nul (fst nv) /\ no_nul (snd nv)) (td_fields x)
  /\ hs_content_type h = td_type x /\ hs_boundary h = td_boundary x /\ hs_length h = td_length x
  /\ hs_ip h = td_ip x /\ holds_session (hs_session h) (td_session x).
Definition line_in (b : buf) (line : str) : Prop := exists st, b = cs line ++ map Some st /\ len b = 1024.

Lemma tells_session_eq line line2 st b x x' : no_nul line2 -> tells_session line x x' ->
  (line2 = line \/ (~ session_line line2 /\ ~ ci_prefix (L "Cookie:") line2 /\ ~ session_line line /\ ~ ci_prefix (L "Cookie:") line)) ->
  holds_session b x ->
  exists b1 b2, take_session (cs line2 ++ st) b = Ok b1 /\ take_cookie (cs line2 ++ st) b1 = Ok b2 /\ holds_session b2 x'.
Proof.
  intros Hn H D Hb. destruct D as [->|(D1 & D2 & D3 & D4)].
  - assert (DJ : session_line line -> ~ ci_prefix (L "Cookie:") line).
    { intros [Q|Q] C; [apply (ci_differ (L "X-Session:") (L "Cookie:") line)|apply (ci_differ (L "Authorization:") (L "Cookie:") line)]; auto. }
    destruct H as [(S & t & Ht & Hl & Hs)|[(C & -> & t & Ht & Hx)|[(C & Hx & ->)|(S & C & ->)]]].
    + destruct (take_session_new line st b t x' Hn S Ht Hl Hs) as (b1 & E & H1); [destruct Hb as (? & _ & _ & ?); auto|].
      exists b1, b1. split; [exact E|]. split; [|exact H1]. apply take_cookie_same; auto.
    + destruct (take_cookie_new line st b t Hn C Ht Hb) as (b2 & E & H2). exists b, b2.
      split; [apply take_session_same; auto; intros Q; exact (DJ Q C)|]. split; [exact E|].
      destruct Hx as [(Q & ->)|(Q & ->)]; [replace (len t <=? 63) with true in H2 by lia|replace (len t <=? 63) with false in H2 by lia]; exact H2.
    + exists b, b. split; [apply take_session_same; auto; intros Q; exact (DJ Q C)|]. split; [|exact Hb].
      eapply take_cookie_kept; eauto.
    + exists b, b. split; [now apply take_session_same|]. split; [now apply take_cookie_same|exact Hb].
  - exists b, b. split; [now apply take_session_same|]. split; [now apply take_cookie_same|].
    destruct H as [(S & _)|[(C & _)|[(C & _)|(_ & _ & ->)]]]; try contradiction. exact Hb.
Qed.

Lemma header_line_eq h line x x' : line_in (hs_buf h) line -> no_nul line -> rep h x -> tells line x x' ->
  exists h' line', header_line h = Ok h' /\ line_in (hs_buf h') line' /\ rep h' x' /\ hs_stream h' = hs_stream h.
Proof.
  intros (st & Eb & Lb) Hn (R1 & R2 & R3 & R4 & R5 & R6 & R7) (T1 & T2 & T3 & T4 & T5 & T6).
  assert (Ll : len line <= 1023).
  { rewrite Eb, len_app, len_cs, len_map in Lb. lens. lia. }
  unfold header_line. rewrite Eb, R1. rewrite (store_header_eq line _ _ _ Hn Ll T1). cbn [bind].
  rewrite R3, (take_content_type_eq line _ _ _ Hn T2). cbn [bind].
  rewrite R4, (take_boundary_eq line _ _ _ Hn T3). cbn [bind].
  rewrite R5, (take_length_eq line _ _ _ Hn T4). cbn [bind]. rewrite R6.
  assert (F : Forall (fun nv => no_nul (fst nv) /\ no_nul (snd nv)) (td_fields x')).
  { destruct T1 as [(_ & ->)|(nv & Hf & ->)]; [exact R2|]. apply Forall_app. split; [exact R2|]. constructor; [|constructor].
    destruct (field_facts _ _ Hn Hf) as (? & ? & _). auto. }
  destruct T5 as [(N & E5)|(P & u & t & Hu & Ht & E5)].
  - rewrite take_ip_same by auto. cbn [bind].
    destruct (tells_session_eq line line (map Some st) (hs_session h) _ _ Hn T6 (or_introl eq_refl) R7) as (b1 & b2 & -> & E2 & Hb2).
    cbn [bind]. rewrite E2. cbn [bind]. eexists _, line. split; [reflexivity|]. cbn [hs_buf hs_stream].
    split; [exists st; rewrite <- Eb; auto|]. split; [|reflexivity].
    unfold rep. cbn [hs_headers hs_content_type hs_boundary hs_length hs_ip hs_session]. rewrite E5. auto 10.
  - destruct (take_ip_new line st (td_ip x) u t Hn P Hu Ht) as (st' & -> & Ls). cbn [bind].
    assert (Pu : ci_prefix (L "X-Real-IP:") u).
    { destruct (trimmed_prefix _ _ _ _ Hu P) as (r & ->).
      - intros y Hy. apply tolower_same_iff, ceq_true in Hy. intros B. unfold blank in B. cbn in B.
        destruct B as [<-|[<-|[<-|[<-|[<-|[<-|[]]]]]]]; vm_compute in Hy; discriminate Hy.
      - eapply ci_prefix_app; eauto. destruct Ht as (hh & -> & Lh). change (len (L "X-Real-IP:")) with 10. rewrite len_app. unfold len. rewrite Lh. lia. }
    assert (Dj : forall l, ci_prefix (L "X-Real-IP:") l -> ~ session_line l /\ ~ ci_prefix (L "Cookie:") l).
    { intros l Q. split; [intros [S|S]|intros C]; (eapply ci_differ; [|exact Q|eassumption]); reflexivity. }
    destruct (Dj u Pu) as [D1 D2]. destruct (Dj line P) as [D3 D4].
    assert (Nu : no_nul u) by (eapply trimmed_no_nul; eauto).
    destruct (tells_session_eq line u (map Some st') (hs_session h) _ _ Nu T6 (or_intror (conj D1 (conj D2 (conj D3 D4)))) R7) as (b1 & b2 & -> & E2 & Hb2).
    cbn [bind]. rewrite E2. cbn [bind]. eexists _, u. split; [reflexivity|]. cbn [hs_buf hs_stream].
    split; [exists st'; split; [reflexivity|]; rewrite Eb in Lb; unfold len in *; lia|]. split; [|reflexivity].
    unfold rep. cbn [hs_headers hs_content_type hs_boundary hs_length hs_ip hs_session]. rewrite E5. auto 10.
Qed.

Lemma line_in_next b l l' : line_in b l -> len l' <= 1023 -> line_in (cs l' ++ skipn (S (length l')) b) l'.
Proof.
  intros (st & -> & Lb) H. destruct (shows_next (cs l ++ map Some st) l l') as (st' & E); [exists st; reflexivity|lia|].
  exists st'. split; [exact E|]. unfold len in *. rewrite app_length, cs_length, skipn_length. lia.
Qed.

Lemma strcmp_lit p l st : no_nul p -> no_nul l -> strcmp_eq (cs p) (cs l ++ st) = Ok (str_eqb p l).
Proof. intros Hp Hl. rewrite <- (app_nil_r (cs p)). now apply strcmp_eq_cs. Qed.

Lemma header_loop_eq s x x' after : section s x x' after -> forall fuel l b h n,
  get_line s b 1024 = Ok (n, hs_buf h, hs_stream h) -> line_in b l -> (length s <= fuel)%nat -> rep h x ->
  exists h', header_loop fuel n h = Ok h' /\ rep h' x' /\ hs_stream h' = after.
Proof.
  induction 1 as [x|s l0 rest x Hl Hb|s l0 rest x x1 x' after Hl Hne Hnb Hn T S IH]; intros fuel l b h n G Lb Hf R.
  - pose proof Lb as (st & _ & L1024). rewrite (get_line_eq 1024 [] [] []) in G; [|split; [reflexivity|split; [cbn; lia|right; split; [easy|auto]]]|cbn; lia].
    inversion G as [[G1 G2 G3]]. exists h. split; [destruct fuel; reflexivity|]. auto.
  - pose proof Lb as (st & _ & L1024). pose proof Hl as (_ & Hle & _).
    rewrite (get_line_eq 1024 _ _ _ _ Hl) in G by lia.
    assert (G1 : n = len l0) by congruence. assert (G2 : cs l0 ++ skipn (Datatypes.S (length l0)) b = hs_buf h) by congruence.
    assert (G3 : rest = hs_stream h) by congruence. subst n. clear G. exists h. split; [|auto].
    assert (Hn : no_nul l0) by (destruct Hb as [-> | ->]; apply no_nul_dec_b; reflexivity).
    destruct fuel; cbn [header_loop]; replace (0 <? len l0) with true by (destruct Hb as [-> | ->]; reflexivity);
      rewrite <- G2, !strcmp_lit by (auto; apply no_nul_dec_b; reflexivity); cbn [bind];
      destruct Hb as [-> | ->]; reflexivity.
  - pose proof Lb as (st & _ & L1024). pose proof Hl as (Es & Hle & _).
    rewrite (get_line_eq 1024 _ _ _ _ Hl) in G by lia.
    assert (G1 : n = len l0) by congruence. assert (G2 : cs l0 ++ skipn (Datatypes.S (length l0)) b = hs_buf h) by congruence.
    assert (G3 : rest = hs_stream h) by congruence. subst n. clear G.
    assert (P : 0 < len l0) by (destruct l0; [easy|rewrite len_cons; lens; lia]).
    destruct fuel as [|fuel]; [rewrite Es, app_length in Hf; unfold len in P; lia|].
    cbn [header_loop]. replace (0 <? len l0) with true by lia.
    pose proof (line_in_next b l l0 Lb ltac:(lia)) as L1. rewrite G2 in L1. destruct L1 as (st1 & E1 & L1').
    rewrite E1, !strcmp_lit by (auto; apply no_nul_dec_b; reflexivity). cbn [bind].
    assert (B1 : str_eqb [LF] l0 = false) by (apply str_eqb_neq; intros <-; apply Hnb; now left). rewrite B1.
    assert (B2 : str_eqb CRLF l0 = false) by (apply str_eqb_neq; intros <-; apply Hnb; now right). rewrite B2.
    destruct (header_line_eq h l0 x x1) as (h1 & l1 & E & Lh & R1 & St); auto; [exists st1; auto|].
    rewrite E. cbn [bind]. rewrite St, <- G3. destruct (line_of_exists 1024 ltac:(lia) rest) as (l2 & r2 & Hl2).
    pose proof Lh as (st2 & _ & L2). pose proof Hl2 as (_ & Hle2 & _).
    pose proof (get_line_eq 1024 _ _ _ (hs_buf h1) Hl2 ltac:(lia)) as G'. rewrite G'. cbn [bind].
    destruct (IH fuel l1 (hs_buf h1) (mkH (cs l2 ++ skipn (Datatypes.S (length l2)) (hs_buf h1)) r2 (hs_headers h1) (hs_content_type h1)
        (hs_boundary h1) (hs_length h1) (hs_ip h1) (hs_session h1)) (len l2)) as (h' & E' & R' & A'); auto.
    + rewrite Es, app_length in Hf. unfold len in P. lia.
    + exists h'. auto.
Qed.

Lemma rep_stores h x : rep h x -> stores h x.
Proof.
  intros (R1 & R2 & R3 & R4 & R5 & R6 & R7). split; [|split; [|repeat split; auto]].
  - intros F. rewrite R1. assert (R2' : Forall (fun nv => no_nul (fst nv) /\ no_nul (snd nv)) (firstn 20 (td_fields x))).
    { apply Forall_forall. intros y Hy. rewrite Forall_forall in R2. apply R2. rewrite <- (firstn_skipn 20 (td_fields x)). apply in_or_app. now left. }
    clear R1. induction F as [|nv l (F1 & F2) F IH]; [constructor|]. inv R2'. cbn [map]. constructor; [|apply IH; auto].
    destruct H1 as [N1 N2]. split; cbn [stored h_name h_value]; apply filled_holds; auto; lia.
  - rewrite R1, len_map, len_firstn. reflexivity.
  - destruct R7 as (j & -> & Hs & _). now apply cstr_cs.
  - destruct R7 as (j & _ & _ & Hs). exact Hs.
Qed.

(** ** The request line as a whole *)
Lemma asks_parse stream m u line s1 : asks stream m u line s1 ->
  exists b, get_line stream (calloc 1024) 1024 = Ok (len line, b, s1) /\ line_in b line
    /\ parse_request_line b = Ok (firstn (length line - 2) line, m, len m)
    /\ parse_url b (len m) = Ok (firstn 254 u).
Proof.
  intros (Hl & Hn & Hm & Hu & Lm & sp & c & rest & E & Nsp & Hsp & Hc). pose proof Hl as (_ & Hle & _).
  rewrite (get_line_eq 1024 stream line s1 (calloc 1024) Hl) by (rewrite len_calloc; lia).
  eexists. split; [reflexivity|]. destruct sp as [|c0 sp]; [easy|]. pose proof Hu as (Nu & _ & _). destruct u as [|u0 u]; [easy|].
  split; [|split].
  - exists (skipn (S (length line)) (repeat NUL 1024)). split.
    + f_equal. rewrite <- skipn_map. reflexivity.
    + rewrite len_app, len_cs, len_skipn, len_calloc by lia. unfold len in *. lia.
  - rewrite E. apply (parse_request_line_eq m c0 (sp ++ (u0 :: u) ++ c :: rest)).
    + rewrite E in Hn. exact Hn.
    + apply Hm.
    + now inv Hsp.
    + lia.
    + autorewrite with len in *. lens. lia.
  - unfold cs. rewrite E, <- app_assoc. apply parse_url_eq; auto.
    + apply Hu.
    + rewrite E in Hle. autorewrite with len in *. lens. lia.
    + rewrite E in Hle. rewrite !len_app in Hle. unfold len in Hle. lia.
Qed.

Lemma upto_seen s : forall t, seen_as s t -> upto_nul s = t.
Proof.
  induction s as [|c s IH]; intros t (Hn & [E|(r & E)]).
  - now subst.
  - destruct t; discriminate E.
  - subst. clear IH. induction Hn as [|x t' Hx Hn IH]; [reflexivity|]. cbn. rewrite ceq_neq by auto. now rewrite IH.
  - destruct t as [|x t]; inversion E; subst; [reflexivity|]. apply no_nul_cons in Hn as [Hx Hn]. cbn.
    rewrite ceq_neq by auto. f_equal. apply IH. split; auto. right. eexists. reflexivity.
Qed.

Lemma short_line_oob v f t socket peer stream line s1 seen : line_of 1024 stream line s1 -> seen_as line seen -> len seen < 2 ->
  undefined (accept_request v f t socket peer stream).
Proof.
  intros Hl Hs H2. unfold accept_request, new_request, fits.
  destruct (len peer + 1 <=? 24); [|eexists; reflexivity]. cbn [bind]. pose proof Hl as (_ & Hle & _).
  rewrite (get_line_eq 1024 stream line s1 (calloc 1024) Hl) by (rewrite len_calloc; lia). cbn [bind].
  unfold parse_request_line.
  replace (cs line ++ skipn (S (length line)) (calloc 1024)) with (map Some line ++ Some NUL :: skipn (S (length line)) (calloc 1024))
    by (unfold cs; now rewrite <- app_assoc).
  rewrite upto_nul_cstr. cbn [bind].
  rewrite (upto_seen _ _ Hs). unfold wr. rewrite write_at_neg by lia. eexists. reflexivity.
Qed.

(** A method of more than 254 bytes is cut, and the URL is what follows at once. *)
Lemma long_method w c rest st : let line := w ++ c :: rest in
  no_nul line -> Forall (fun c => ~ blank c) w -> blank c -> 254 < len w -> len line <= 1023 ->
  parse_request_line (cs line ++ st) = Ok (firstn (length line - 2) line, firstn 254 w, 254)
  /\ parse_url (cs line ++ st) 254 = Ok (firstn 254 (skipn 254 w)).
Proof.
  intros line Hn Hw Hc Hl H3. split.
  - unfold parse_request_line. rewrite cstr_cs by auto. cbn [bind].
    destruct (line_start line Hn) as (rl & -> & E). { unfold line. rewrite len_app, len_cons. lens. lia. }
    cbn [bind]. rewrite E. cbn [bind].
    assert (A : cs line ++ st = map Some [] ++ map Some (firstn 255 w) ++ map Some (skipn 255 w) ++ map Some (c :: rest) ++ [Some NUL] ++ st).
    { unfold line, cs. cbn [map app]. rewrite (app_assoc (map Some (firstn 255 w))), <- map_app, firstn_skipn, map_app. appn. reflexivity. }
    rewrite A. change 0 with (len (@nil ascii)). rewrite word_scan_cut.
    + cbn [bind]. change (len []) with 0. rewrite Z.add_0_l. rewrite firstn_firstn, Nat.min_l by lia.
      rewrite word_buf by (rewrite len_firstn; lia). cbn [bind]. rewrite cstr_cs; [reflexivity|].
      apply no_nul_firstn. unfold line in Hn. apply no_nul_app in Hn. tauto.
    + apply Forall_forall. intros x Hx. rewrite Forall_forall in Hw. apply Hw. rewrite <- (firstn_skipn 255 w). apply in_or_app. now left.
    + rewrite firstn_length. unfold len in Hl. lia.
  - replace (cs line ++ st) with (map Some (firstn 254 w ++ [] ++ skipn 254 w ++ c :: rest) ++ Some NUL :: st).
    2:{ unfold line, cs. cbn [app]. rewrite (app_assoc (firstn 254 w)), firstn_skipn. now rewrite <- app_assoc. }
    replace 254 with (len (firstn 254 w)) at 1 by (rewrite len_firstn; lia).
    assert (Nw : no_nul (skipn 254 w)) by (apply no_nul_skipn; unfold line in Hn; apply no_nul_app in Hn; tauto).
    apply parse_url_eq; auto.
    + split; [|split; auto].
      * intros X. apply (f_equal (@length _)) in X. rewrite skipn_length in X. unfold len in Hl. cbn in X. lia.
      * apply Forall_forall. intros x Hx. rewrite Forall_forall in Hw. apply Hw. rewrite <- (firstn_skipn 254 w). apply in_or_app. now right.
    + cbn [app]. rewrite firstn_skipn. unfold line in H3. rewrite len_app, len_cons in H3. lens. lia.
    + cbn. lia.
Qed.

(** ** Bodies *)
Lemma read_body_enough n : forall s c, (n <= length s)%nat -> read_body n s c = (firstn n s, skipn n s).
Proof.
  induction n as [|n IH]; intros s c H; [reflexivity|]. destruct s as [|x s]; [cbn in H; lia|].
  cbn [read_body firstn skipn]. rewrite IH by (cbn in H; lia). reflexivity.
Qed.
Lemma read_body_end n : forall c, read_body n [] c = (repeat c n, []).
Proof. induction n as [|n IH]; intros c; [reflexivity|]. cbn. now rewrite IH. Qed.
Lemma read_body_short s : forall n c, (length s <= n)%nat -> read_body n s c = (s ++ repeat (last s c) (n - length s), []).
Proof.
  induction s as [|x s IH]; intros n c H.
  - rewrite read_body_end. cbn. now rewrite Nat.sub_0_r.
  - destruct n as [|n]; [cbn in H; lia|]. cbn [read_body]. rewrite IH by (cbn in H; lia). cbn [app length Nat.sub].
    do 3 f_equal. f_equal. clear. revert x. induction s as [|y s IH]; intros x; [reflexivity|]. cbn [last] in *. destruct s; [reflexivity|apply (IH x)].
Qed.

(** ** Header lines given by name *)
Lemma named p h v : ci_equal p h -> ci_prefix p (h ++ v) /\ tail_at (length p) (h ++ v) v.
Proof.
  intros H. split; [exists h, v; auto|]. exists h. split; [reflexivity|]. apply Forall2_length in H. auto.
Qed.
Lemma ci_prefix_part p q s : ci_prefix (p ++ q) s -> ci_prefix p s.
Proof.
  intros (a & b & -> & E). apply Forall2_app_inv_l in E as (a1 & a2 & E1 & E2 & ->). exists a1, (a2 ++ b).
  split; [now rewrite <- app_assoc|exact E1].
Qed.
Lemma ci_no_nul p h : ci_equal p h -> no_nul p -> no_nul h.
Proof.
  induction 1 as [|a b p h H F IH]; intros Hn; [constructor|]. apply no_nul_cons in Hn as [Ha Hn]. apply no_nul_cons. split; auto.
  intros ->. apply Ha. destruct H as [->|[H|H]]; [reflexivity| |]; exfalso;
    vm_compute in H; repeat (destruct H as [H|H]; [discriminate|]); exact H.
Qed.

(** For concrete cases. *)
Lemma not_blank_char x : forallb (fun c => negb (ceq c x)) [HT; LF; VT; FF; CR; SP] = true -> ~ blank x.
Proof. intros F I. rewrite forallb_forall in F. specialize (F _ I). now rewrite ceq_refl in F. Qed.
Lemma not_in_text (x : ascii) (l : str) : forallb (fun c => negb (ceq c x)) l = true -> ~ In x l.
Proof. intros F I. rewrite forallb_forall in F. specialize (F _ I). now rewrite ceq_refl in F. Qed.
Lemma not_ci_prefix p s : differ p s = true -> ~ ci_prefix p s.
Proof. intros D H. exact (ci_differ p s s D H (ci_prefix_refl s)). Qed.

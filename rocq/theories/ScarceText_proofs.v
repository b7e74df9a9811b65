(** ScarceText_proofs.v - the proofs of C109. *)
From Verif Require Import Lemmas ScarceText SpecScarceText Spec.

(** ** Running with some blocks refused *)
Definition meets {K A} (ok : K -> bool) (W : K -> Prop) (x y : outcome A) : Prop :=
  ((exists k, W k /\ ok k = false) /\ undefined x) \/ ((forall k, W k -> ok k = true) /\ x = y) \/ (undefined x /\ undefined y).

Lemma meets_given {K A} (ok : K -> bool) W (x y : outcome A) : meets ok W x y -> if_given ok W x y.
Proof.
  intros [((k & Hk & E) & U)|[(H & ->)|(U & U')]]; split; auto.
  - intros H. now rewrite (H k Hk) in E.
  - intros [U|(k & Hk & E)]; [exact U|]. now rewrite (H k Hk) in E.
  - intros _ v E. destruct U' as (e & U'). congruence.
Qed.
Lemma meets_same {K A} (ok : K -> bool) (x : outcome A) : meets ok (fun _ => False) x x.
Proof. right. left. split; [intros k []|reflexivity]. Qed.
Lemma meets_ub {K A} (ok : K -> bool) W u u' : @meets K A ok W (UB u) (UB u').
Proof. right. right. split; eexists; reflexivity. Qed.
Lemma meets_weak {K A} (ok : K -> bool) (W W' : K -> Prop) (x y : outcome A) : meets ok W x y -> (forall k, W k <-> W' k) -> meets ok W' x y.
Proof.
  intros [((k & Hk & E) & U)|[(H & E)|U]] I.
  - left. split; [exists k; split; [now apply I|exact E]|exact U].
  - right. left. split; [|exact E]. intros k Hk. apply H, I, Hk.
  - right. right. exact U.
Qed.
Lemma meets_bind {K A B} (ok : K -> bool) W1 W2 (x y : outcome A) (f g : A -> outcome B) :
  meets ok W1 x y -> (forall a, y = Ok a -> meets ok W2 (f a) (g a)) -> meets ok (fun k => W1 k \/ W2 k) (bind x f) (bind y g).
Proof.
  intros [((k & Hk & E) & e & ->)|[(H & ->)|((e & ->) & e' & ->)]] F; cbn [bind].
  - left. split; [exists k; auto|exists e; reflexivity].
  - destruct y as [a|e]; cbn [bind]; [|right; right; split; eexists; reflexivity].
    destruct (F a eq_refl) as [((k & Hk & E) & U)|[(H' & E)|U]].
    + left. split; [exists k; auto|exact U].
    + right. left. split; [|exact E]. intros k [Hk|Hk]; auto.
    + right. right. exact U.
  - right. right. split; eexists; reflexivity.
Qed.
(** The same step of both. *)
Lemma meets_step {K A B} (ok : K -> bool) W (x : outcome A) (f g : A -> outcome B) :
  (forall a, x = Ok a -> meets ok W (f a) (g a)) -> meets ok W (bind x f) (bind x g).
Proof.
  intros H. destruct x as [a|e]; cbn [bind]; [now apply H|apply meets_ub].
Qed.
(** A block that is used. *)
Lemma meets_used {A} ok q W (x y : outcome A) : meets ok W x y -> meets ok (fun k => k = q \/ W k) (_ <- used ok q;; x) y.
Proof.
  intros H. unfold used. destruct (ok q) eqn:E; cbn [bind].
  - destruct H as [((k & Hk & Ek) & U)|[(H & E')|U]].
    + left. split; [exists k; auto|exact U].
    + right. left. split; [|exact E']. intros k [->|Hk]; auto.
    + right. right. exact U.
  - left. split; [exists q; auto|]. eexists. reflexivity.
Qed.

(** ** join *)
Lemma loop_meets ok delim a : forall i b,
  meets ok (fun k => exists j s, nth_error a j = Some (Some s) /\ (k = KCopy (i + j) \/ k = KJoined))
    (join_loop_s ok i a delim b) (join_loop a delim b).
Proof.
  induction a as [|p a IH]; intros i b; cbn [join_loop_s join_loop].
  - eapply meets_weak; [apply meets_same|]. intros k. split; [intros []|]. intros ([|j] & s & H & _); discriminate.
  - destruct p as [s|].
    + eapply meets_weak; [apply meets_used, meets_used, meets_step; intros b1 _; apply meets_step; intros b2 _; apply IH|].
      intros k. cbv beta. split.
      * intros [->|[->|(j & x & H & E)]].
        -- exists 0%nat, s. rewrite Nat.add_0_r. auto.
        -- exists 0%nat, s. auto.
        -- exists (S j), x. split; [exact H|]. rewrite Nat.add_succ_r. exact E.
      * intros ([|j] & x & H & E).
        -- rewrite Nat.add_0_r in E. tauto.
        -- right. right. exists j, x. split; [exact H|]. rewrite Nat.add_succ_r in E. exact E.
    + eapply meets_weak; [apply IH|]. intros k. cbv beta. split.
      * intros (j & x & H & E). exists (S j), x. split; [exact H|]. rewrite Nat.add_succ_r. exact E.
      * intros ([|j] & x & H & E); [discriminate|]. exists j, x. split; [exact H|]. rewrite Nat.add_succ_r in E. exact E.
Qed.

Lemma join_meets ok a size delim : 1 <= size -> (size = 1 -> ok KOnly = true) ->
  meets ok (join_wants (firstn (Z.to_nat size) a)) (join_s ok (Some a) size delim) (j <- join (Some a) size delim;; Ok (Some j)).
Proof.
  intros Hs H1. unfold join_s, join. replace (size <=? 0) with false by lia.
  destruct a as [|[s0|] a]; [apply meets_ub| |].
  2: { cbn [bind]. eapply meets_weak; [apply meets_same|]. intros k. split; [intros []|].
       replace (Z.to_nat size) with (S (Z.to_nat (size - 1))) by lia. cbn [firstn]. destruct 1; discriminate. }
  destruct (size =? 1) eqn:E1.
  - assert (size = 1) as -> by lia. cbn [bind]. unfold returned. rewrite (H1 eq_refl). right. left. split; [|reflexivity].
    change (firstn (Z.to_nat 1) (Some s0 :: a)) with [Some s0]. intros k Hk. destruct Hk; try discriminate. now apply H1.
  - destruct (len (Some s0 :: a) <? size) eqn:El; [apply meets_ub|].
    set (a' := firstn (Z.to_nat size) (Some s0 :: a)).
    assert (Hl : length a' = Z.to_nat size). { unfold a'. rewrite firstn_length. unfold len in El. lia. }
    assert (Sh : exists p t, a' = Some s0 :: p :: t).
    { unfold a'. replace (Z.to_nat size) with (S (S (Z.to_nat (size - 2)))) by lia.
      destruct a as [|p a]; [cbn in El; unfold len in El; cbn in El; lia|]. cbn [firstn]. eauto. }
    clearbody a'. destruct Sh as (p & t & Sh).
    destruct (exists_last (l := a')) as (l & x & Ex); [rewrite Sh; discriminate|].
    assert (Ll : length l = Z.to_nat (size - 1)) by (rewrite Ex, app_length in Hl; cbn in Hl; lia).
    assert (F : firstn (Z.to_nat (size - 1)) a' = l).
    { rewrite Ex, <- Ll, firstn_app, Nat.sub_diag, firstn_all, firstn_O, app_nil_r. reflexivity. }
    assert (N : nth_error a' (Z.to_nat (size - 1)) = Some x).
    { rewrite Ex, nth_error_app2 by lia. rewrite Ll, Nat.sub_diag. reflexivity. }
    rewrite F, N. rewrite bind_assoc.
    assert (N0 : exists s, nth_error l 0 = Some (Some s)).
    { destruct l as [|y l]; [cbn in Ll; lia|]. exists s0. rewrite Ex in Sh. cbn [app] in Sh. cbn [nth_error]. congruence. }
    destruct N0 as (s1 & N0).
    destruct x as [x|].
    + eapply meets_weak; [eapply meets_bind; [apply loop_meets|intros b _]|].
      * rewrite bind_assoc. apply meets_used, meets_step. intros b2 _. rewrite bind_assoc. apply meets_step. intros y _.
        apply meets_same.
      * intros k. cbv beta. cbn [Nat.add]. split.
        -- intros [(j & s & H & [->| ->])|[->|[]]].
           ++ eapply jw_copy; [exact Sh|]. rewrite Ex, nth_error_app1; [exact H|]. apply nth_error_Some. congruence.
           ++ eapply jw_joined. exact Sh.
           ++ eapply jw_copy; [exact Sh|exact N].
        -- intros Hk. destruct Hk as [s E|s q u E|s q u i y E H].
           ++ rewrite Sh in E. discriminate.
           ++ left. exists 0%nat, s1. auto.
           ++ rewrite Ex in H. destruct (Nat.lt_ge_cases i (length l)) as [Hi|Hi].
              ** rewrite nth_error_app1 in H by exact Hi. left. eauto.
              ** right. left. rewrite nth_error_app2 in H by exact Hi. f_equal.
                 destruct (i - length l)%nat as [|n] eqn:D; [lia|]. destruct n; discriminate.
    + (* the last is NULL *)
      right. right. split.
      * destruct (join_loop_s ok 0 l delim _); cbn [bind]; eexists; reflexivity.
      * destruct (join_loop l delim _); cbn [bind]; eexists; reflexivity.
Qed.
Lemma join_none ok a size delim s t : size = 1 -> a = Some s :: t -> ok KOnly = false -> join_s ok (Some a) size delim = Ok None.
Proof. intros -> -> E. cbn. unfold returned. now rewrite E. Qed.

(** join where its result is read. *)
Lemma joined_meets {B} ok a size delim (f g : jstr -> outcome B) W : 1 <= size ->
  (forall j, join (Some a) size delim = Ok j -> meets ok W (f j) (g j)) ->
  meets ok (fun k => join_wants (firstn (Z.to_nat size) a) k \/ W k)
    (j' <- join_s ok (Some a) size delim;; j <- joined j';; f j) (j <- join (Some a) size delim;; g j).
Proof.
  intros Hs H. destruct (Z.eq_dec size 1) as [E1|N1].
  - destruct (ok KOnly) eqn:E.
    + replace (j <- join (Some a) size delim;; g j) with
        (j' <- (j <- join (Some a) size delim;; Ok (Some j));; j <- joined j';; g j)
        by (destruct (join (Some a) size delim); reflexivity).
      apply meets_bind; [apply join_meets; auto|]. intros j' Ej. apply bind_ok_inv in Ej as (j & Ej & E').
      injection E' as <-. cbn [joined bind]. auto.
    + destruct a as [|[s|] a].
      * subst size. apply meets_ub.
      * rewrite (join_none ok (Some s :: a) size delim s a) by auto. cbn [bind joined]. left. split; [|eexists; reflexivity].
        exists KOnly. split; [left|exact E]. eapply jw_only. subst size. reflexivity.
      * subst size. unfold join_s, join in *. cbn [Z.leb Z.compare bind joined] in *.
        eapply meets_weak; [apply H; reflexivity|]. intros k. split; [auto|]. intros [Hk|Hk]; [|exact Hk].
        exfalso. change (firstn (Z.to_nat 1) (None :: a)) with [@None str] in Hk. destruct Hk; discriminate.
  - replace (j <- join (Some a) size delim;; g j) with
      (j' <- (j <- join (Some a) size delim;; Ok (Some j));; j <- joined j';; g j)
      by (destruct (join (Some a) size delim); reflexivity).
    apply meets_bind; [apply join_meets; auto; lia|]. intros j' Ej. apply bind_ok_inv in Ej as (j & Ej & E').
    injection E' as <-. cbn [joined bind]. auto.
Qed.

(** ** The JSON texts *)
Lemma strings_meets ok a size : 1 <= size ->
  meets ok (strings_wants (firstn (Z.to_nat size) a)) (json_array_of_strings_s ok (Some a) size)
    (s <- json_array_of_strings (Some a) size;; Ok (Some s)).
Proof.
  intros Hs. unfold json_array_of_strings_s, json_array_of_strings. replace (size <? 1) with false by lia.
  destruct (len a <? size) eqn:El; [apply meets_ub|].
  eapply meets_weak.
  - apply meets_used. rewrite bind_assoc. apply meets_step. intros b0 _. rewrite bind_assoc.
    apply joined_meets; [lia|]. intros j _. rewrite bind_assoc. apply meets_step. intros b1 _. rewrite bind_assoc. apply meets_step.
    intros b2 _. rewrite bind_assoc. apply meets_step. intros [] _. apply meets_same.
  - intros k. cbv beta. split.
    + intros [->|[Hk|[]]]; [apply sw_text|now apply sw_join].
    + destruct 1; auto.
Qed.
Lemma entities_meets ok a : meets ok (entities_wants a) (json_array_of_entities_s ok a) (json_array_of_entities a).
Proof.
  unfold json_array_of_entities_s, json_array_of_entities. destruct (len a =? 0) eqn:El.
  - assert (a = []) as -> by (destruct a; [reflexivity|rewrite len_cons in El; pose proof (len_nonneg _ a); lia]).
    eapply meets_weak; [apply meets_used, meets_same|]. intros k. split; [intros [->|[]]; constructor|].
    destruct 1 as [|N|k []]; auto; try discriminate; contradiction.
  - assert (N : a <> []) by (intros ->; discriminate). assert (H : 1 <= len a) by (pose proof (len_nonneg _ a); lia).
    eapply meets_weak.
    + apply meets_used, joined_meets; [exact H|]. intros j _. apply meets_used, meets_step. intros b0 _. apply meets_step. intros b1 _.
      apply meets_step. intros b2 _. apply meets_step. intros [] _. apply meets_same.
    + assert (F : firstn (Z.to_nat (len a)) a = a). { unfold len. rewrite Nat2Z.id. apply firstn_all. }
      rewrite F. intros k. cbv beta. split.
      * intros [->|[Hk|[->|[]]]]; [now apply ew_pointers|now apply ew_join|apply ew_text].
      * destruct 1; auto.
Qed.
Lemma used_meets {A} ok (x y : outcome A) : x = (_ <- used ok KText;; y) -> meets ok (fun k => k = KText) x y.
Proof. intros ->. eapply meets_weak; [apply meets_used, meets_same|]. intros k. tauto. Qed.
Lemma ints_loop_meets ok size l : forall i b, 0 <= i ->
  meets ok (fun k => exists j, (j < length l)%nat /\ k = KInt (Z.to_nat i + j)) (ints_loop_s ok l i size b) (ints_loop l i size b).
Proof.
  induction l as [|v l IH]; intros i b Hi; cbn [ints_loop_s ints_loop].
  - eapply meets_weak; [apply meets_same|]. intros k. split; [intros []|]. cbn [length]. intros (j & H & _). lia.
  - eapply meets_weak.
    + apply meets_used, meets_step. intros s _. apply meets_step. intros b1 _. apply meets_step. intros b2 _. apply IH. lia.
    + intros k. cbv beta. replace (Z.to_nat (i + 1)) with (S (Z.to_nat i)) by lia. cbn [length]. split.
      * intros [->|(j & H & ->)]; [exists 0%nat; rewrite Nat.add_0_r; split; [lia|reflexivity]|].
        exists (S j). split; [lia|]. f_equal. lia.
      * intros ([|j] & H & ->); [left; now rewrite Nat.add_0_r|]. right. exists j. split; [lia|]. f_equal. lia.
Qed.
Lemma ints_meets ok a size : 1 <= size ->
  meets ok (ints_wants size) (json_array_of_ints_s ok (Some a) size) (s <- json_array_of_ints (Some a) size;; Ok (Some s)).
Proof.
  intros Hs. unfold json_array_of_ints_s, json_array_of_ints. replace (size <? 1) with false by lia.
  destruct (len a <? size) eqn:El; [apply meets_ub|].
  eapply meets_weak.
  - apply meets_used. rewrite bind_assoc. apply meets_step. intros b0 _. rewrite bind_assoc. apply meets_bind.
    + apply ints_loop_meets. lia.
    + intros b1 _. rewrite bind_assoc. apply meets_step. intros b2 _. apply meets_same.
  - assert (Hl : length (firstn (Z.to_nat size) a) = Z.to_nat size). { rewrite firstn_length. unfold len in El. lia. }
    intros k. cbv beta. rewrite Hl. cbn [Nat.add]. split.
    + intros [->|[(j & H & ->)|[]]]; [apply iw_text|apply iw_int]. lia.
    + intros Hk. destruct Hk as [|i H]; [auto|]. right. left. exists i. split; [lia|reflexivity].
Qed.

(** ** Routes *)
Lemma route_meets ok t template h f : meets ok (route_wants template) (router_add_route_s ok t template h f) (router_add_route t template h f).
Proof.
  unfold router_add_route_s, router_add_route. destruct (strchr template "{") as [n|] eqn:E.
  - assert (I : In "{"%char template). { destruct (in_dec ascii_dec "{"%char template) as [I|I]; [exact I|]. apply strchr_none in I. congruence. }
    eapply meets_weak.
    + apply meets_used, meets_bind; [apply meets_used, meets_same|]. intros [[ty prefix] param] _. apply meets_same.
    + intros k. cbv beta. split.
      * intros [->|[[->|[]]|[]]]; [apply rw_matcher|now apply rw_template].
      * destruct 1; auto.
  - apply strchr_none in E. eapply meets_weak.
    + apply meets_used, meets_same.
    + intros k. cbv beta. split; [intros [->|[]]; apply rw_matcher|]. destruct 1; [auto|contradiction].
Qed.

(** JsonUtils_proofs.v - lemmas about JsonUtils.v and the JSON reader. *)
From Verif Require Import Spec.
From Verif Require Export SpecJson StringUtils_proofs JsonUtils.

Lemma aeqb_ceq a b : Ascii.eqb a b = ceq a b.
Proof. reflexivity. Qed.
Ltac aeq := unfold ceq in *; repeat match goal with
  | |- context [Ascii.eqb ?a ?b] => destruct (Ascii.eqb_spec a b); subst
  | H : context [Ascii.eqb ?a ?b] |- _ => destruct (Ascii.eqb_spec a b); subst
  end; try discriminate; try congruence.

(** ** The reader: strings *)
Lemma jstring_plain s r : plain s -> jstring (s ++ DQ :: r) = Some (s, r).
Proof.
  induction 1 as [|c s (H1 & H2 & H3) _ IH]; [reflexivity|].
  cbn [app jstring].
  replace (Ascii.eqb c DQ) with false by (symmetry; now apply Ascii.eqb_neq).
  replace (Ascii.eqb c "\") with false by (symmetry; now apply Ascii.eqb_neq).
  replace (code c <? 32) with false by lia. now rewrite IH.
Qed.

Lemma jstring_app s x rest r : jstring s = Some (x, rest) -> jstring (s ++ r) = Some (x, rest ++ r).
Proof.
  remember (length s) as n. assert (Hn : (length s <= n)%nat) by lia. clear Heqn.
  revert s x Hn; induction n as [|n IH]; intros s x Hn H.
  { destruct s; [discriminate|cbn in Hn; lia]. }
  destruct s as [|c t]; [discriminate|]. cbn in Hn. cbn [jstring app] in *.
  destruct (Ascii.eqb c DQ); [now inv H|].
  destruct (Ascii.eqb c "\").
  - destruct t as [|e t1]; [discriminate|]. cbn [app].
    destruct (Ascii.eqb e "u").
    + destruct t1 as [|h1 [|h2 [|h3 [|h4 t2]]]]; try discriminate. cbn [app].
      destruct (hex4 h1 h2 h3 h4); [|discriminate].
      destruct (jstring t2) as [[y q]|] eqn:E; [|discriminate]. inv H.
      rewrite (IH t2 y); auto. cbn in Hn. lia.
    + destruct (simple_escape e); [|discriminate].
      destruct (jstring t1) as [[y q]|] eqn:E; [|discriminate]. inv H.
      rewrite (IH t1 y); auto. cbn in Hn. lia.
  - destruct (code c <? 32); [discriminate|].
    destruct (jstring t) as [[y q]|] eqn:E; [|discriminate]. inv H.
    rewrite (IH t y); auto. lia.
Qed.

(** ** The reader: white space *)
Lemma skip_ws_app s c t r : skip_ws s = c :: t -> skip_ws (s ++ r) = c :: t ++ r.
Proof.
  induction s as [|x s IH]; cbn [skip_ws app]; [discriminate|]. destruct (ws x); auto. intros H. now inv H.
Qed.
Lemma skip_ws_nil_app s r : skip_ws s = [] -> skip_ws (s ++ r) = skip_ws r.
Proof. induction s as [|x s IH]; cbn [skip_ws app]; auto. destruct (ws x); [auto|discriminate]. Qed.
Lemma skip_ws_stop c t : ws c = false -> skip_ws (c :: t) = c :: t.
Proof. intros H. cbn [skip_ws]. now rewrite H. Qed.

(** ** The reader: what may follow a value *)
Definition closer (c : ascii) : bool := ceq c "," || ceq c "]" || ceq c "}".
Definition follow (r : str) : Prop := match r with [] => True | c :: _ => closer c = true end.

Lemma closer_facts c : closer c = true ->
  ws c = false /\ digit c = false /\ Ascii.eqb c "." = false /\ Ascii.eqb c "e" = false /\ Ascii.eqb c "E" = false.
Proof.
  unfold closer. rewrite !orb_true_iff, !ceq_true. intros [[-> | ->] | ->]; repeat split; reflexivity.
Qed.

(** [r] may be appended to a text whose reading left [rest]. *)
Definition fok (rest r : str) : Prop := rest = [] -> follow r.

Lemma digits_app s d rest r : digits s = (d, rest) -> fok rest r -> digits (s ++ r) = (d, rest ++ r).
Proof.
  intros H F. revert d rest H F; induction s as [|c s IH]; intros d rest H F.
  - cbn in H. inv H. cbn [app]. specialize (F eq_refl). destruct r as [|c r]; [reflexivity|].
    apply closer_facts in F as (_ & F & _). cbn. now rewrite F.
  - cbn [digits app] in *. destruct (digit c); [|now inv H].
    destruct (digits s) as [d' r']. inv H. now rewrite (IH d' rest eq_refl).
Qed.

Lemma fraction_app s f rest r : fraction s = Some (f, rest) -> fok rest r ->
  fraction (s ++ r) = Some (f, rest ++ r) /\ fok s r.
Proof.
  intros H F. destruct s as [|c s].
  - cbn in H. inv H. specialize (F eq_refl). split; [|easy]. destruct r as [|c r]; [reflexivity|].
    apply closer_facts in F as (_ & _ & F & _). cbn. now rewrite F.
  - split; [|easy]. cbn [fraction app] in *. destruct (Ascii.eqb c "."); [|now inv H].
    destruct (digits s) as [d q] eqn:E. destruct d; [discriminate|]. inv H.
    now rewrite (digits_app _ _ _ _ E F).
Qed.

Lemma exponent_app s e rest r : exponent s = Some (e, rest) -> fok rest r ->
  exponent (s ++ r) = Some (e, rest ++ r) /\ fok s r.
Proof.
  intros H F. destruct s as [|c s].
  - cbn in H. inv H. specialize (F eq_refl). split; [|easy]. destruct r as [|c r]; [reflexivity|].
    apply closer_facts in F as (_ & _ & _ & F1 & F2). cbn. now rewrite F1, F2.
  - split; [|easy]. cbn [exponent app] in *. destruct (Ascii.eqb c "e" || Ascii.eqb c "E"); [|now inv H].
    destruct s as [|x y].
    + cbn in H. discriminate.
    + cbn [app]. destruct (Ascii.eqb x "+" || Ascii.eqb x "-").
      * destruct (digits y) as [d q] eqn:E. destruct d; [discriminate|]. inv H.
        now rewrite (digits_app _ _ _ _ E F).
      * change (x :: y ++ r) with ((x :: y) ++ r).
        destruct (digits (x :: y)) as [d q] eqn:E. destruct d; [discriminate|]. inv H.
        now rewrite (digits_app _ _ _ _ E F).
Qed.

Lemma jnumber_app s v rest r : jnumber s = Some (v, rest) -> fok rest r -> jnumber (s ++ r) = Some (v, rest ++ r).
Proof.
  unfold jnumber. intros H F. destruct s as [|c s]; [cbn in H; discriminate|]. cbn [app].
  set (p := if Ascii.eqb c "-" then (true, s) else (false, c :: s)) in H.
  assert (P : (if Ascii.eqb c "-" then (true, s ++ r) else (false, c :: s ++ r)) = (fst p, snd p ++ r)).
  { unfold p. destruct (Ascii.eqb c "-"); reflexivity. }
  rewrite P. destruct p as [neg s1]. cbn [fst snd].
  destruct (digits s1) as [d s2] eqn:E.
  destruct d as [|d0 more]; [discriminate|].
  destruct (Ascii.eqb d0 "0" && negb match more with [] => true | _ :: _ => false end) eqn:Z0; [discriminate|].
  destruct (fraction s2) as [[f s3]|] eqn:Ef; [|discriminate].
  destruct (exponent s3) as [[e s4]|] eqn:Ee; [|discriminate].
  assert (s4 = rest) as -> by (destruct f, e; congruence).
  destruct (exponent_app _ _ _ _ Ee F) as [Ee' F3].
  destruct (fraction_app _ _ _ _ Ef F3) as [Ef' F2].
  rewrite (digits_app _ _ _ _ E F2), Z0, Ef', Ee'. destruct f, e; now inv H.
Qed.

Lemma combine_app_long A B (k : list A) (s r : list B) : (length k <= length s)%nat ->
  combine k (s ++ r) = combine k s.
Proof.
  revert s; induction k as [|x k IH]; intros [|y s] H; cbn in *; auto; try lia.
  f_equal. apply IH. lia.
Qed.

Lemma keyword_app k v s w rest r : keyword k v s = Some (w, rest) -> keyword k v (s ++ r) = Some (w, rest ++ r).
Proof.
  unfold keyword. destruct (length k <=? length s)%nat eqn:E.
  2:{ rewrite andb_false_r. discriminate. }
  apply Nat.leb_le in E. rewrite combine_app_long by auto.
  replace (length k <=? length (s ++ r))%nat with true.
  2:{ symmetry. apply Nat.leb_le. rewrite app_length. lia. }
  destruct (forallb _ _); [|discriminate]. cbn [andb]. intros H. inv H.
  rewrite skipn_app. now replace (length k - length s)%nat with O by lia.
Qed.

(** More fuel and more text after a value do not change what is read. *)
Lemma reader_mono n : forall m, (n <= m)%nat ->
  (forall s v rest r, jvalue n s = Some (v, rest) -> fok rest r -> jvalue m (s ++ r) = Some (v, rest ++ r)) /\
  (forall s v rest r, jelements n s = Some (v, rest) -> jelements m (s ++ r) = Some (v, rest ++ r)) /\
  (forall s v rest r, jmembers n s = Some (v, rest) -> jmembers m (s ++ r) = Some (v, rest ++ r)).
Proof.
  induction n as [|n IH]; intros m Hm; [repeat split; intros; discriminate|].
  destruct m as [|m]; [lia|]. apply le_S_n in Hm. specialize (IH m Hm) as (IHv & IHe & IHm).
  assert (IHv' : forall s v rest r c t, jvalue n s = Some (v, rest) -> skip_ws rest = c :: t ->
            jvalue m (s ++ r) = Some (v, rest ++ r)).
  { intros s v rest r c t H N. apply IHv; auto. intros ->. discriminate. }
  repeat split.
  - intros s v rest r H F. cbn [jvalue] in *.
    destruct (skip_ws s) as [|c t] eqn:Es; [discriminate|]. rewrite (skip_ws_app _ _ _ r Es).
    destruct (Ascii.eqb c DQ).
    { destruct (jstring t) as [[x q]|] eqn:E; [|discriminate]. inv H. now rewrite (jstring_app _ _ _ r E). }
    destruct (Ascii.eqb c "[").
    { destruct (skip_ws t) as [|d q] eqn:Et; [discriminate|]. rewrite (skip_ws_app _ _ _ r Et).
      destruct (Ascii.eqb d "]"); [now inv H|].
      destruct (jelements n t) as [[l q']|] eqn:E; [|discriminate]. inv H. now rewrite (IHe _ _ _ r E). }
    destruct (Ascii.eqb c "{").
    { destruct (skip_ws t) as [|d q] eqn:Et; [discriminate|]. rewrite (skip_ws_app _ _ _ r Et).
      destruct (Ascii.eqb d "}"); [now inv H|].
      destruct (jmembers n t) as [[l q']|] eqn:E; [|discriminate]. inv H. now rewrite (IHm _ _ _ r E). }
    change (c :: t ++ r) with ((c :: t) ++ r).
    destruct (Ascii.eqb c "t"); [now apply keyword_app|].
    destruct (Ascii.eqb c "f"); [now apply keyword_app|].
    destruct (Ascii.eqb c "n"); [now apply keyword_app|].
    now apply jnumber_app.
  - intros s v rest r H. cbn [jelements] in *.
    destruct (jvalue n s) as [[x q]|] eqn:E; [|discriminate].
    destruct (skip_ws q) as [|c t] eqn:Eq; [discriminate|].
    rewrite (IHv' _ _ _ r _ _ E Eq), (skip_ws_app _ _ _ r Eq).
    destruct (Ascii.eqb c "]"); [now inv H|]. destruct (Ascii.eqb c ","); [|discriminate].
    destruct (jelements n t) as [[l q']|] eqn:E2; [|discriminate]. inv H. now rewrite (IHe _ _ _ r E2).
  - intros s v rest r H. cbn [jmembers] in *.
    destruct (skip_ws s) as [|k t] eqn:Es; [discriminate|]. rewrite (skip_ws_app _ _ _ r Es).
    destruct (negb (Ascii.eqb k DQ)); [discriminate|].
    destruct (jstring t) as [[x q]|] eqn:E; [|discriminate]. rewrite (jstring_app _ _ _ r E).
    destruct (skip_ws q) as [|c r1] eqn:Eq; [discriminate|]. rewrite (skip_ws_app _ _ _ r Eq).
    destruct (negb (Ascii.eqb c ":")); [discriminate|].
    destruct (jvalue n r1) as [[w r2]|] eqn:Ev; [|discriminate].
    destruct (skip_ws r2) as [|c2 r3] eqn:E2; [discriminate|].
    rewrite (IHv' _ _ _ r _ _ Ev E2), (skip_ws_app _ _ _ r E2).
    destruct (Ascii.eqb c2 "}"); [now inv H|]. destruct (Ascii.eqb c2 ","); [|discriminate].
    destruct (jmembers n r3) as [[l q']|] eqn:E3; [|discriminate]. inv H. now rewrite (IHm _ _ _ r E3).
Qed.

Lemma jvalue_mono n m s v rest r : jvalue n s = Some (v, rest) -> (n <= m)%nat -> fok rest r ->
  jvalue m (s ++ r) = Some (v, rest ++ r).
Proof. intros H L F. destruct (reader_mono n m L) as (A & _). auto. Qed.
Lemma jelements_mono n m s v rest r : jelements n s = Some (v, rest) -> (n <= m)%nat ->
  jelements m (s ++ r) = Some (v, rest ++ r).
Proof. intros H L. destruct (reader_mono n m L) as (_ & A & _). auto. Qed.
Lemma jmembers_mono n m s v rest r : jmembers n s = Some (v, rest) -> (n <= m)%nat ->
  jmembers m (s ++ r) = Some (v, rest ++ r).
Proof. intros H L. destruct (reader_mono n m L) as (_ & _ & A). auto. Qed.

(** A value does not begin with a closing bracket. *)
Lemma jvalue_start n s v r : jvalue n s = Some (v, r) ->
  exists c t, skip_ws s = c :: t /\ Ascii.eqb c "]" = false.
Proof.
  destruct n; [discriminate|]. cbn [jvalue]. destruct (skip_ws s) as [|c t]; [discriminate|].
  intros H. exists c, t. split; auto. destruct (Ascii.eqb_spec c "]"); auto. subst c. discriminate.
Qed.

(** ** Arrays *)

(** [s] is the text of [v]. *)
Definition reads (s : str) (v : json) : Prop := json_read s = Some v.

Lemma reads_inv s v : reads s v -> exists r, jvalue (2 * length s + 2) s = Some (v, r) /\ skip_ws r = [].
Proof.
  unfold reads, json_read. destruct (jvalue _ s) as [[w r]|]; [|discriminate].
  destruct (skip_ws r) eqn:E; [|discriminate]. intros H. inv H. eauto.
Qed.

Lemma jelements_read l vs r n : l <> [] -> Forall2 reads l vs -> 
  (2 * length (separated (L ",") l) + 3 <= n)%nat ->
  jelements n (separated (L ",") l ++ L "]" ++ r) = Some (vs, r).
Proof.
  intros Hne H. revert n Hne; induction H as [|s v l vs Hs Hl IH]; intros n Hne Hn; [easy|].
  apply reads_inv in Hs as (q & E & Q).
  destruct n as [|n]; [lia|].
  destruct l as [|s2 l].
  - inv Hl. cbn [separated] in *. cbn [jelements].
    rewrite (jvalue_mono _ n _ _ _ (L "]" ++ r) E) by (try lia; intros ->; reflexivity).
    rewrite (skip_ws_nil_app q) by auto. reflexivity.
  - change (separated (L ",") (s :: s2 :: l)) with (s ++ L "," ++ separated (L ",") (s2 :: l)) in *.
    rewrite !app_length in Hn. change (length (L ",")) with 1%nat in Hn.
    cbn [jelements]. rewrite <- !app_assoc.
    erewrite (jvalue_mono _ n _ _ _ _ E) by (try lia; intros ->; reflexivity).
    rewrite (skip_ws_nil_app q) by auto. cbn. change [","%char] with (L ","). change ["]"%char] with (L "]").
    change ("]"%char :: r) with (L "]" ++ r). rewrite IH; auto; try easy. lia.
Qed.

Lemma skip_ws_first s c t r : skip_ws s = c :: t -> exists t', skip_ws (s ++ r) = c :: t'.
Proof. intros H. rewrite (skip_ws_app _ _ _ r H). eauto. Qed.

Lemma array_read l vs : Forall2 reads l vs -> reads (L "[" ++ separated (L ",") l ++ L "]") (JArr vs).
Proof.
  intros H. unfold reads, json_read.
  destruct H as [|s v l vs Hs Hl]; [reflexivity|].
  pose proof Hs as Hs'. apply reads_inv in Hs' as (q & E & Q).
  destruct (jvalue_start _ _ _ _ E) as (c & t & Sc & Nc).
  set (text := separated (L ",") (s :: l)).
  assert (St : exists t', skip_ws (text ++ L "]") = c :: t').
  { destruct l as [|s2 l].
    - unfold text. cbn [separated]. eapply skip_ws_first; eauto.
    - unfold text. change (separated (L ",") (s :: s2 :: l)) with (s ++ L "," ++ separated (L ",") (s2 :: l)).
      rewrite <- app_assoc. eapply skip_ws_first; eauto. }
  destruct St as (t' & St).
  assert (Len : length (L "[" ++ text ++ L "]") = S (S (length text))).
  { rewrite !app_length. cbn [length L list_ascii_of_string]. lia. }
  rewrite Len. replace (2 * S (S (length text)) + 2)%nat with (S (2 * length text + 5)) by lia.
  cbn [jvalue]. change (L "[" ++ text ++ L "]") with ("["%char :: text ++ L "]").
  rewrite skip_ws_stop by reflexivity. cbn [Ascii.eqb Bool.eqb].
  change (Ascii.eqb "[" DQ) with false. change (Ascii.eqb "[" "[") with true. cbv iota.
  rewrite St, Nc.
  rewrite <- (app_nil_r (L "]")).
  rewrite (jelements_read (s :: l) (v :: vs) []); [reflexivity|easy|now constructor|].
  fold text. lia.
Qed.

Lemma plain_reads s : plain s -> reads ([DQ] ++ s ++ [DQ]) (JStr s).
Proof.
  intros H. unfold reads, json_read.
  replace (2 * length ([DQ] ++ s ++ [DQ]) + 2)%nat with (S (2 * length s + 5))
    by (rewrite !app_length; cbn [length]; lia).
  cbn [jvalue app]. rewrite skip_ws_stop by reflexivity. change (Ascii.eqb DQ DQ) with true. cbv iota.
  now rewrite jstring_plain.
Qed.

(** ** Decimal integers *)
Lemma digit_char_code d : 0 <= d <= 9 -> code (digit_char d) = 48 + d.
Proof.
  intros H. unfold code, digit_char. rewrite N_ascii_embedding; lia.
Qed.
Lemma digit_char_digit d : 0 <= d <= 9 -> digit (digit_char d) = true.
Proof. intros H. unfold digit. rewrite digit_char_code by auto. lia. Qed.

Lemma value_of_digits_app a b acc : value_of_digits acc (a ++ b) = value_of_digits (value_of_digits acc a) b.
Proof. revert acc; induction a; intros acc; cbn [app value_of_digits]; auto. Qed.

Lemma rev_digits_spec fuel : forall n, 0 <= n < 10 ^ Z.of_nat fuel -> (fuel > 0)%nat ->
  let d := rev (rev_digits fuel n) in
  Forall (fun c => digit c = true) d
  /\ value_of_digits 0 d = n
  /\ (exists c t, d = c :: t /\ (c = "0"%char -> n = 0 /\ t = []))
  /\ (forall k, 1 <= k -> n < 10 ^ k -> len d <= k).
Proof.
  induction fuel as [|f IH]; intros n Hn Hf; [lia|]. cbn [rev_digits].
  destruct (n <? 10) eqn:E.
  - cbn [rev app]. repeat split.
    + constructor; [apply digit_char_digit; lia|constructor].
    + cbn. rewrite digit_char_code by lia. lia.
    + exists (digit_char n), []. split; [reflexivity|]. intros C. split; auto.
      apply (f_equal code) in C. rewrite digit_char_code in C by lia. change (code "0") with 48 in C. lia.
    + intros k Hk _. change (len [digit_char n]) with 1. lia.
  - assert (Hq : 0 <= n / 10 < 10 ^ Z.of_nat f).
    { rewrite Nat2Z.inj_succ, Z.pow_succ_r in Hn by lia. split; [lia|].
      apply Z.div_lt_upper_bound; lia. }
    assert (Hf' : (f > 0)%nat).
    { destruct f; [|lia]. change (10 ^ Z.of_nat 0) with 1 in Hq. lia. }
    destruct (IH (n / 10) Hq Hf') as (D & V & (c & t & Ec & Hc) & B).
    cbn [rev]. set (d := rev (rev_digits f (n / 10))) in *. repeat split.
    + apply Forall_app. split; auto. constructor; [apply digit_char_digit; lia|constructor].
    + rewrite value_of_digits_app, V. cbn [value_of_digits]. rewrite digit_char_code by lia. lia.
    + exists c, (t ++ [digit_char (n mod 10)]). split; [now rewrite Ec|].
      intros C. destruct (Hc C) as [Z0 _]. lia.
    + intros k Hk Hlt. assert (1 < k).
      { destruct (Z.eq_dec k 1) as [->|]; [|lia]. change (10 ^ 1) with 10 in Hlt. lia. }
      rewrite len_app. change (len [digit_char (n mod 10)]) with 1.
      specialize (B (k - 1)). assert (len d <= k - 1); [|lia]. apply B; [lia|].
      replace k with (Z.succ (k - 1)) in Hlt by lia. rewrite Z.pow_succ_r in Hlt by lia.
      apply Z.div_lt_upper_bound; lia.
Qed.

Lemma dec_nat_spec n : 0 <= n ->
  Forall (fun c => digit c = true) (dec_nat n)
  /\ value_of_digits 0 (dec_nat n) = n
  /\ (exists c t, dec_nat n = c :: t /\ (c = "0"%char -> n = 0 /\ t = []))
  /\ (forall k, 1 <= k -> n < 10 ^ k -> len (dec_nat n) <= k).
Proof.
  intros Hn. apply (rev_digits_spec (S (Z.to_nat (Z.log2 n)))); [|lia].
  split; [auto|]. rewrite Nat2Z.inj_succ, Z2Nat.id by apply Z.log2_nonneg.
  destruct (Z.eq_dec n 0) as [->|].
  - change (Z.log2 0) with 0. change (10 ^ Z.succ 0) with 10. lia.
  - apply Z.lt_le_trans with (2 ^ Z.succ (Z.log2 n)).
    + apply Z.log2_spec. lia.
    + apply Z.pow_le_mono_l. pose proof (Z.log2_nonneg n). lia.
Qed.

Lemma digits_all d r : Forall (fun c => digit c = true) d ->
  match r with [] => True | c :: _ => digit c = false end -> digits (d ++ r) = (d, r).
Proof.
  intros H Hr. induction H as [|c d Hc _ IH]; cbn [app digits].
  - destruct r; [reflexivity|]. cbn [digits]. now rewrite Hr.
  - now rewrite Hc, IH.
Qed.

Lemma jnumber_dec z : jnumber (dec z) = Some (JInt z, []).
Proof.
  assert (A : forall n, 0 <= n -> forall neg, 
    match dec_nat n with
      | [] => None
      | c :: more =>
        if Ascii.eqb c "0" && negb (match more with [] => true | _ => false end) then None
        else Some (JInt (if neg : bool then - value_of_digits 0 (dec_nat n) else value_of_digits 0 (dec_nat n)), @nil ascii)
      end = Some (JInt (if neg then - n else n), [])).
  { intros n Hn neg. destruct (dec_nat_spec n Hn) as (_ & V & (c & t & E & Hc) & _).
    rewrite V, E. destruct (Ascii.eqb_spec c "0"); [|destruct neg; reflexivity].
    destruct (Hc e) as [-> ->]. destruct neg; reflexivity. }
  unfold dec. destruct (z <? 0) eqn:E.
  - unfold jnumber. change (Ascii.eqb "-" "-") with true. cbv iota beta.
    pose proof (dec_nat_spec (- z) ltac:(lia)) as (D & _).
    pose proof (digits_all (dec_nat (- z)) [] D I) as Dg. rewrite app_nil_r in Dg. rewrite Dg.
    specialize (A (- z) ltac:(lia) true). destruct (dec_nat (- z)) as [|c more]; [discriminate|].
    destruct (Ascii.eqb c "0" && _); [discriminate|]. cbn [fraction exponent].
    rewrite A. f_equal. f_equal. f_equal. lia.
  - unfold jnumber.
    pose proof (dec_nat_spec z ltac:(lia)) as (D & _).
    pose proof (digits_all (dec_nat z) [] D I) as Dg. rewrite app_nil_r in Dg.
    specialize (A z ltac:(lia) false).
    assert (M : forall c t, dec_nat z = c :: t -> Ascii.eqb c "-" = false).
    { intros c t Ec. rewrite Ec in D. inv D. destruct (Ascii.eqb_spec c "-"); auto. subst. discriminate. }
    destruct (dec_nat z) as [|c more] eqn:Ez; [discriminate|].
    rewrite (M c more eq_refl). rewrite Dg.
    destruct (Ascii.eqb c "0" && _); [discriminate|]. cbn [fraction exponent]. exact A.
Qed.

Lemma dec_start z : exists c t, dec z = c :: t /\ (c = "-"%char \/ digit c = true).
Proof.
  unfold dec. destruct (z <? 0) eqn:E.
  - eexists _, _. split; [reflexivity|]. now left.
  - pose proof (dec_nat_spec z ltac:(lia)) as (D & _ & (c & t & Ec & _) & _).
    exists c, t. split; auto. right. rewrite Ec in D. now inv D.
Qed.

Lemma number_start c : (c = "-"%char \/ digit c = true) ->
  (ws c || Ascii.eqb c DQ || Ascii.eqb c "[" || Ascii.eqb c "{" || Ascii.eqb c "t" || Ascii.eqb c "f" || Ascii.eqb c "n") = false.
Proof.
  intros H. destruct (_ || _) eqn:E; auto. exfalso.
  rewrite !orb_true_iff, !Ascii.eqb_eq in E. unfold ws in E. rewrite existsb_exists in E.
  destruct H as [-> | H].
  - repeat destruct E as [E|E]; try discriminate. destruct E as (x & I & E).
    apply Ascii.eqb_eq in E as <-. vm_compute in I. intuition discriminate.
  - repeat destruct E as [E|E]; subst; try discriminate. destruct E as (x & I & E).
    apply Ascii.eqb_eq in E as <-. vm_compute in I. intuition subst; discriminate.
Qed.

Lemma dec_reads z : reads (dec z) (JInt z).
Proof.
  unfold reads, json_read.
  destruct (dec_start z) as (c & t & E & Hc). apply number_start in Hc.
  rewrite !orb_false_iff in Hc. destruct Hc as ((((((H1 & H2) & H3) & H4) & H5) & H6) & H7).
  replace (2 * length (dec z) + 2)%nat with (S (2 * length (dec z) + 1)) by lia. cbn [jvalue].
  pose proof (jnumber_dec z) as N. rewrite E in *. rewrite skip_ws_stop by auto.
  rewrite H2, H3, H4, H5, H6, H7, N. reflexivity.
Qed.

Lemma digits_no_nul d : Forall (fun c => digit c = true) d -> no_nul d.
Proof. intros H. eapply Forall_impl; [|exact H]. intros c Hc ->. discriminate. Qed.
Lemma dec_nat_no_nul n : 0 <= n -> no_nul (dec_nat n).
Proof. intros H. apply digits_no_nul, dec_nat_spec, H. Qed.
Lemma dec_no_nul z : no_nul (dec z).
Proof.
  unfold dec. destruct (z <? 0) eqn:E; [apply no_nul_cons; split; [discriminate|]|];
  apply dec_nat_no_nul; lia.
Qed.
Lemma dec_int_len z : int_min <= z <= int_max -> len (dec z) <= 11.
Proof.
  unfold int_min, int_max. change (2 ^ 31) with 2147483648. intros H. unfold dec.
  destruct (z <? 0) eqn:E.
  - rewrite len_cons. assert (len (dec_nat (- z)) <= 10); [|lia].
    apply dec_nat_spec; lia.
  - assert (len (dec_nat z) <= 10); [|lia]. apply dec_nat_spec; lia.
Qed.

(** ** json_array_of_strings *)
Lemma len_separated d l : l <> [] -> len (separated d l) = total_len (map Some l) + (len l - 1) * len d.
Proof.
  induction l as [|s l IH]; [easy|]. intros _. destruct l as [|s2 l].
  - cbn [separated map total_len]. change (len [s]) with 1. lia.
  - change (separated d (s :: s2 :: l)) with (s ++ d ++ separated d (s2 :: l)).
    rewrite !len_app, IH by easy. cbn [map total_len]. rewrite (len_cons _ s). lia.
Qed.

Lemma separated_quoted l : l <> [] ->
  JSON_ARRAY_STR_BEGIN ++ separated JSON_ARRAY_STR_SEP l ++ JSON_ARRAY_STR_END
  = L "[" ++ separated (L ",") (map (fun s => [DQ] ++ s ++ [DQ]) l) ++ L "]".
Proof.
  intros Hne. change JSON_ARRAY_STR_BEGIN with (L "[" ++ [DQ]). rewrite <- app_assoc. f_equal.
  change JSON_ARRAY_STR_END with ([DQ] ++ L "]"). rewrite !app_assoc. f_equal.
  induction l as [|s l IH]; [easy|]. destruct l as [|s2 l]; [reflexivity|].
  specialize (IH ltac:(easy)).
  change (separated JSON_ARRAY_STR_SEP (s :: s2 :: l)) with (s ++ ([DQ] ++ L "," ++ [DQ]) ++ separated JSON_ARRAY_STR_SEP (s2 :: l)).
  change (separated (L ",") (map (fun s => [DQ] ++ s ++ [DQ]) (s :: s2 :: l)))
    with (([DQ] ++ s ++ [DQ]) ++ L "," ++ separated (L ",") (map (fun s => [DQ] ++ s ++ [DQ]) (s2 :: l))).
  rewrite <- IH. rewrite <- !app_assoc. reflexivity.
Qed.

Lemma array_of_strings_eq l : Forall no_nul l ->
  json_array_of_strings (Some (map Some l)) (len l)
  = Ok (L "[" ++ separated (L ",") (map (fun s => [DQ] ++ s ++ [DQ]) l) ++ L "]").
Proof.
  intros Hn. unfold json_array_of_strings. destruct l as [|s l]; [reflexivity|].
  set (l' := s :: l) in *. assert (Hne : l' <> []) by easy.
  assert (1 <= len l') by (unfold l'; llia).
  replace (len l' <? 1) with false by lia. rewrite len_map. rewrite Z.ltb_irrefl.
  rewrite to_nat_len. rewrite <- (map_length Some l') at 1. rewrite firstn_all.
  rewrite join_map by (auto; apply no_nul_dec_b; reflexivity).
  change (len JSON_ARRAY_STR_BEGIN) with 2. change (len JSON_ARRAY_STR_END) with 2.
  change (len JSON_ARRAY_STR_SEP) with 3.
  pose proof (total_len_nonneg (map Some l')).
  set (n := 2 + 2 + len l' * 3 + 2 + total_len (map Some l')).
  assert (Hs : len (separated JSON_ARRAY_STR_SEP l') = total_len (map Some l') + (len l' - 1) * 3)
    by (now rewrite len_separated).
  assert (Ns : no_nul (separated JSON_ARRAY_STR_SEP l'))
    by (apply no_nul_separated; [apply no_nul_dec_b; reflexivity|auto]).
  rewrite strcpy_0.
  2:{ rewrite len_calloc. change (len JSON_ARRAY_STR_BEGIN) with 2. unfold n. lia. }
  cbn [bind jcontent free_jstr].
  rewrite strcat_cs.
  2:{ apply no_nul_dec_b; reflexivity. }
  2:{ rewrite len_skipn, len_calloc. change (Z.of_nat (S (length JSON_ARRAY_STR_BEGIN))) with 3. unfold n. lia. }
  cbn [bind]. rewrite strcat_cs.
  2:{ apply no_nul_app; split; [apply no_nul_dec_b; reflexivity|auto]. }
  2:{ rewrite !len_skipn, len_calloc. change (Z.of_nat (S (length JSON_ARRAY_STR_BEGIN))) with 3.
      change (len JSON_ARRAY_STR_END) with 2. change (Z.of_nat (length ?x)) with (len x).
      fold (len (separated JSON_ARRAY_STR_SEP l')). unfold n. lia. }
  cbn [bind]. rewrite cstr_cs.
  2:{ apply no_nul_app; split; [apply no_nul_app; split; [apply no_nul_dec_b; reflexivity|auto]|apply no_nul_dec_b; reflexivity]. }
  f_equal. rewrite <- app_assoc. now apply separated_quoted.
Qed.

Lemma array_of_strings_null t size : 1 <= size <= len t + 1 ->
  json_array_of_strings (Some (None :: t)) size = UB BadFree.
Proof.
  intros H. unfold json_array_of_strings. replace (size <? 1) with false by lia.
  replace (len (None :: t) <? size) with false by (rewrite len_cons; lia).
  change (len JSON_ARRAY_STR_BEGIN) with 2. change (len JSON_ARRAY_STR_END) with 2.
  change (len JSON_ARRAY_STR_SEP) with 3.
  pose proof (total_len_nonneg (firstn (Z.to_nat size) (None :: t))) as HT.
  set (n := 2 + 2 + size * 3 + 2 + total_len (firstn (Z.to_nat size) (None :: t))) in *.
  unfold join. replace (size <=? 0) with false by lia.
  rewrite strcpy_0.
  2:{ rewrite len_calloc. change (len JSON_ARRAY_STR_BEGIN) with 2. unfold n. lia. }
  cbn [bind jcontent].
  rewrite strcat_cs.
  2:{ apply no_nul_dec_b; reflexivity. }
  2:{ rewrite len_nil. lens. lia. }
  cbn [bind]. rewrite strcat_cs; [reflexivity| |].
  - apply no_nul_dec_b; reflexivity.
  - rewrite !len_skipn, len_calloc. change (Z.of_nat (S (length JSON_ARRAY_STR_BEGIN))) with 3.
    change (len JSON_ARRAY_STR_END) with 2. change (Z.of_nat (length (@nil ascii))) with 0. unfold n. lia.
Qed.

(** ** json_array_of_ints *)
Lemma ints_loop_eq l : Forall (fun z => int_min <= z <= int_max) l -> forall i size s r,
  i + len l = size -> no_nul s -> 12 * len l <= len r ->
  exists r', ints_loop l i size (cs s ++ r) = Ok (cs (s ++ separated (L ",") (map dec l)) ++ r')
    /\ len r - 12 * len l <= len r' /\ (l <> [] -> len r - 12 * len l + 1 <= len r').
Proof.
  induction 1 as [|z l Hz Hl IH]; intros i size s r Hi Hs Hr.
  - exists r. cbn [ints_loop map separated]. rewrite app_nil_r. repeat split; [|easy]. llia.
  - rewrite len_cons in *. cbn [ints_loop]. pose proof (dec_int_len z Hz) as Hd.
    pose proof (len_nonneg _ l). pose proof (len_nonneg _ (dec z)).
    unfold MAX_INT_STRING_LEN. rewrite fits_ok by lia. cbn [bind].
    rewrite strcat_cs by (auto; lia). cbn [bind].
    destruct l as [|z2 l].
    + replace (i <? size - 1) with false by (change (len (@nil Z)) with 0 in Hi; lia).
      cbn [ints_loop bind map separated]. eexists. split; [reflexivity|].
      rewrite len_skipn. change (Z.of_nat (length (dec z))) with (len (dec z)).
      change (len (@nil Z)) with 0 in *. lia.
    + replace (i <? size - 1) with true by (rewrite len_cons in Hi; pose proof (len_nonneg _ l); lia).
      rewrite strcat_cs.
      2:{ apply no_nul_app; split; [auto|apply dec_no_nul]. }
      2:{ rewrite len_skipn. change (Z.of_nat (length (dec z))) with (len (dec z)). change (len (L ",")) with 1. lia. }
      cbn [bind].
      edestruct (IH (i + 1) size) as (r' & E & L1 & L2); [lia| |
        |exists r'; rewrite E; split].
      * apply no_nul_app; split; [apply no_nul_app; split; [auto|apply dec_no_nul]|apply no_nul_dec_b; reflexivity].
      * rewrite !len_skipn. change (Z.of_nat (length (dec z))) with (len (dec z)).
        change (Z.of_nat (length (L ","))) with 1. lia.
      * f_equal. f_equal. f_equal.
        change (separated (L ",") (map dec (z :: z2 :: l))) with (dec z ++ L "," ++ separated (L ",") (map dec (z2 :: l))).
        now rewrite <- !app_assoc.
      * rewrite !len_skipn in L1, L2. change (Z.of_nat (length (dec z))) with (len (dec z)) in L1, L2.
        change (Z.of_nat (length (L ","))) with 1 in L1, L2. specialize (L2 ltac:(easy)). lia.
Qed.

Lemma array_of_ints_eq l : Forall (fun z => int_min <= z <= int_max) l ->
  json_array_of_ints (Some l) (len l) = Ok (L "[" ++ separated (L ",") (map dec l) ++ L "]").
Proof.
  intros H. unfold json_array_of_ints. destruct l as [|z l]; [reflexivity|]. set (l' := z :: l) in *.
  assert (1 <= len l') by (unfold l'; llia).
  replace (len l' <? 1) with false by lia. rewrite Z.ltb_irrefl, to_nat_len, firstn_all.
  change (MAX_INT_STRING_LEN + 2) with 34.
  rewrite strcat_calloc by (change (len JSON_ARRAY_BEGIN) with 1; lia). cbn [bind].
  edestruct (ints_loop_eq l' H 0 (len l') JSON_ARRAY_BEGIN) as (r' & E & _ & L2); [lia| | |rewrite E; clear E].
  - apply no_nul_dec_b; reflexivity.
  - rewrite len_skipn, len_calloc. change (Z.of_nat (S (length JSON_ARRAY_BEGIN))) with 2. lia.
  - cbn [bind]. specialize (L2 ltac:(easy)). rewrite len_skipn, len_calloc in L2.
    change (Z.of_nat (S (length JSON_ARRAY_BEGIN))) with 2 in L2.
    assert (N : no_nul (JSON_ARRAY_BEGIN ++ separated (L ",") (map dec l'))).
    { apply no_nul_app; split; [apply no_nul_dec_b; reflexivity|]. apply no_nul_separated.
      - apply no_nul_dec_b; reflexivity.
      - apply Forall_map, Forall_forall. intros; apply dec_no_nul. }
    rewrite strcat_cs; auto. 2:{ change (len JSON_ARRAY_END) with 1. lia. }
    cbn [bind]. rewrite cstr_cs; [now rewrite <- app_assoc|].
    apply no_nul_app; split; [auto|apply no_nul_dec_b; reflexivity].
Qed.

(** ** json_array_of_entities *)
Lemma array_of_entities_eq l : Forall no_nul l ->
  json_array_of_entities (map Some l) = Ok (L "[" ++ separated (L ",") l ++ L "]").
Proof.
  intros H. unfold json_array_of_entities. rewrite len_map.
  destruct l as [|s l]; [reflexivity|]. set (l' := s :: l) in *.
  assert (1 <= len l') by (unfold l'; llia). replace (len l' =? 0) with false by lia.
  rewrite join_map by (auto; try easy; apply no_nul_dec_b; reflexivity). cbn [bind jcontent free_jstr].
  assert (N : no_nul (separated (L ",") l')) by (apply no_nul_separated; [apply no_nul_dec_b; reflexivity|auto]).
  set (x := separated (L ",") l') in *. change (len JSON_ARRAY_BEGIN) with 1. change (len JSON_ARRAY_END) with 1.
  lens. rewrite strcpy_0 by (rewrite len_malloc; change (len JSON_ARRAY_BEGIN) with 1; lia). cbn [bind].
  rewrite strcat_cs.
  2:{ apply no_nul_dec_b; reflexivity. }
  2:{ rewrite len_skipn, len_malloc. change (Z.of_nat (S (length JSON_ARRAY_BEGIN))) with 2. lia. }
  cbn [bind]. rewrite strcat_cs.
  2:{ apply no_nul_app; split; [apply no_nul_dec_b; reflexivity|auto]. }
  2:{ rewrite !len_skipn, len_malloc. change (Z.of_nat (S (length JSON_ARRAY_BEGIN))) with 2.
      change (Z.of_nat (length x)) with (len x). change (len JSON_ARRAY_END) with 1. lia. }
  cbn [bind]. replace (if len x =? 0 then Ok tt else Ok tt) with (Ok tt) by (destruct (len x =? 0); reflexivity).
  cbn [bind]. rewrite cstr_cs; [now rewrite <- app_assoc|].
  apply no_nul_app; split; [apply no_nul_app; split; [|auto]|]; apply no_nul_dec_b; reflexivity.
Qed.

Lemma array_of_entities_null l : json_array_of_entities (None :: l) = Ok (L "[]").
Proof.
  unfold json_array_of_entities. pose proof (len_nonneg _ l). replace (len (None :: l) =? 0) with false by (rewrite len_cons; lia).
  unfold join. replace (len (None :: l) <=? 0) with false by (rewrite len_cons; lia). cbn [bind jcontent]. change (len JSON_ARRAY_BEGIN) with 1. change (len JSON_ARRAY_END) with 1. lens.
  rewrite strcpy_0 by (rewrite len_malloc; change (len JSON_ARRAY_BEGIN) with 1; rewrite len_cons; lia). cbn [bind].
  rewrite strcat_cs.
  2:{ apply no_nul_dec_b; reflexivity. }
  2:{ rewrite len_skipn, len_malloc. change (Z.of_nat (S (length JSON_ARRAY_BEGIN))) with 2. rewrite len_cons. change (len (@nil ascii)) with 0. lia. }
  cbn [bind]. rewrite strcat_cs.
  2:{ apply no_nul_dec_b; reflexivity. }
  2:{ rewrite !len_skipn, len_malloc. change (Z.of_nat (S (length JSON_ARRAY_BEGIN))) with 2. change (Z.of_nat (@length ascii [])) with 0. rewrite len_cons. change (len JSON_ARRAY_END) with 1. lia. }
  cbn [bind]. change (len (@nil ascii) =? 0) with true. cbv iota. cbn [bind]. rewrite cstr_cs; [reflexivity|]. apply no_nul_dec_b; reflexivity.
Qed.
(** A NULL behind the first is left out, but one at the end is undefined. *)
Lemma array_of_entities_gaps a s0 sl : Forall ptr_no_nul a -> nth_error a 0 = Some (Some s0) -> nth_error a (length a - 1) = Some (Some sl) ->
  json_array_of_entities a = Ok (L "[" ++ separated (L ",") (present a) ++ L "]").
Proof.
  intros Ha H0 Hl. destruct a as [|p a]; [discriminate|]. injection H0 as ->. destruct a as [|q a].
  - change (json_array_of_entities (map Some [s0]) = Ok (L "[" ++ separated (L ",") [s0] ++ L "]")). apply array_of_entities_eq. constructor; [|constructor]. inversion Ha as [|? ? H]. now apply H.
  - set (b := Some s0 :: q :: a) in *. assert (L2 : 2 <= len b) by (unfold b; rewrite !len_cons; pose proof (len_nonneg _ a); lia).
    unfold json_array_of_entities. replace (len b =? 0) with false by lia.
    rewrite (join_many b (len b) (L ",") s0 sl); [|apply no_nul_dec_b; reflexivity|auto|lia|reflexivity|].
    2:{ rewrite <- Hl. f_equal. unfold len. lia. }
    rewrite to_nat_len, firstn_all. cbn [bind jcontent free_jstr]. set (x := separated (L ",") (present b)).
    assert (N : no_nul x). { unfold x. apply no_nul_separated; [apply no_nul_dec_b; reflexivity|]. clear -Ha. induction Ha as [|[s|] l H _ IH]; cbn [present]; auto. }
    change (len JSON_ARRAY_BEGIN) with 1. change (len JSON_ARRAY_END) with 1.
    rewrite strcpy_0 by (rewrite len_malloc; change (len JSON_ARRAY_BEGIN) with 1; pose proof (len_nonneg _ x); lia). cbn [bind].
    pose proof (len_nonneg _ x).
    rewrite strcat_cs.
    2:{ apply no_nul_dec_b; reflexivity. }
    2:{ rewrite len_skipn, len_malloc. change (Z.of_nat (S (length JSON_ARRAY_BEGIN))) with 2. lia. }
    cbn [bind]. rewrite strcat_cs.
    2:{ apply no_nul_app; split; [apply no_nul_dec_b; reflexivity|auto]. }
    2:{ rewrite !len_skipn, len_malloc. change (Z.of_nat (S (length JSON_ARRAY_BEGIN))) with 2.
        change (Z.of_nat (length x)) with (len x). change (len JSON_ARRAY_END) with 1. lia. }
    cbn [bind]. replace (if len x =? 0 then Ok tt else Ok tt) with (Ok tt) by (destruct (len x =? 0); reflexivity).
    cbn [bind]. rewrite cstr_cs; [now rewrite <- app_assoc|].
    apply no_nul_app; split; [apply no_nul_app; split; [|auto]|]; apply no_nul_dec_b; reflexivity.
Qed.
Lemma array_of_entities_last a s0 : Forall ptr_no_nul a -> nth_error a 0 = Some (Some s0) -> nth_error a (length a - 1) = Some None ->
  json_array_of_entities a = UB NullDeref.
Proof.
  intros Ha H0 Hl. destruct a as [|p a]; [discriminate|]. injection H0 as ->. destruct a as [|q a]; [discriminate|].
  set (b := Some s0 :: q :: a) in *. assert (L2 : 2 <= len b) by (unfold b; rewrite !len_cons; pose proof (len_nonneg _ a); lia).
  unfold json_array_of_entities. replace (len b =? 0) with false by lia.
  rewrite (join_last_null b (len b) (L ",") s0); [reflexivity|apply no_nul_dec_b; reflexivity|auto|lia|reflexivity|].
  rewrite <- Hl. f_equal. unfold len. lia.
Qed.

(** ** key/value fragments *)
Lemma strcpy_cstr b s : no_nul s -> len s + 1 <= len b -> (x <- strcpy b 0 s;; cstr x) = Ok s.
Proof. intros Hn Hl. rewrite strcpy_0 by auto. cbn [bind]. now apply cstr_cs. Qed.

Lemma key_value_eq k v : no_nul k -> no_nul v ->
  json_key_value k (Some v) = Ok (([DQ] ++ k ++ [DQ]) ++ L ":" ++ [DQ] ++ v ++ [DQ]).
Proof.
  intros Hk Hv. unfold json_key_value.
  replace (([DQ] ++ k ++ [DQ]) ++ L ":" ++ [DQ] ++ v ++ [DQ])
     with ([DQ] ++ k ++ [DQ; ":"%char; DQ] ++ v ++ [DQ]) by now rewrite <- !app_assoc.
  apply strcpy_cstr.
  - repeat (apply no_nul_app; split; auto); apply no_nul_dec_b; reflexivity.
  - rewrite len_calloc. llia.
Qed.

Lemma key_raw_eq k v : no_nul k -> no_nul v -> len v <= 32 ->
  json_key_raw k v = Ok (([DQ] ++ k ++ [DQ]) ++ L ":" ++ v).
Proof.
  intros Hk Hv Hl. unfold json_key_raw, MAX_INT_STR.
  replace (([DQ] ++ k ++ [DQ]) ++ L ":" ++ v)
     with ([DQ] ++ k ++ [DQ; ":"%char] ++ v) by now rewrite <- !app_assoc.
  apply strcpy_cstr.
  - repeat (apply no_nul_app; split; auto); apply no_nul_dec_b; reflexivity.
  - rewrite len_calloc. llia.
Qed.

(** A fragment [f] denotes the member [m] of an object (blanks [w] may precede it). *)
Definition fragment (f : str) (m : str * json) : Prop :=
  exists w k t, skip_ws w = [] /\ plain k /\ f = w ++ ([DQ] ++ k ++ [DQ]) ++ L ":" ++ t
                /\ fst m = k /\ reads t (snd m).

Lemma jmembers_read l ms r n : l <> [] -> Forall2 fragment l ms ->
  (2 * length (separated (L ",") l) + 3 <= n)%nat ->
  jmembers n (separated (L ",") l ++ L "}" ++ r) = Some (ms, r).
Proof.
  intros Hne H. revert n Hne; induction H as [|f [mk mv] l ms Hs Hl IH]; intros n Hne Hn; [easy|].
  destruct Hs as (w & k & t & Hw & Hk & -> & Ek & Ht). cbn in Ek, Ht. subst mk.
  apply reads_inv in Ht as (q & E & Q).
  destruct n as [|n]; [lia|].
  destruct l as [|s2 l].
  - inv Hl. cbn [separated] in *. rewrite !app_length in Hn. cbn [length L list_ascii_of_string] in Hn.
    cbn [jmembers]. rewrite <- !app_assoc. rewrite (skip_ws_nil_app w) by auto. cbn [app].
    rewrite skip_ws_stop by reflexivity. change (Ascii.eqb DQ DQ) with true. cbn [negb].
    rewrite jstring_plain by auto. cbn [L list_ascii_of_string app].
    rewrite skip_ws_stop by reflexivity. change (Ascii.eqb ":" ":") with true. cbn [negb].
    rewrite (jvalue_mono _ n _ _ _ ("}"%char :: r) E) by (try lia; intros ->; reflexivity).
    rewrite (skip_ws_nil_app q) by auto. reflexivity.
  - set (tl := separated (L ",") (s2 :: l)) in *.
    change (separated (L ",") ((w ++ ([DQ] ++ k ++ [DQ]) ++ L ":" ++ t) :: s2 :: l))
      with ((w ++ ([DQ] ++ k ++ [DQ]) ++ L ":" ++ t) ++ L "," ++ tl) in *.
    rewrite !app_length in Hn. cbn [length L list_ascii_of_string] in Hn.
    cbn [jmembers]. rewrite <- !app_assoc. rewrite (skip_ws_nil_app w) by auto. cbn [app].
    rewrite skip_ws_stop by reflexivity. change (Ascii.eqb DQ DQ) with true. cbn [negb].
    rewrite jstring_plain by auto. cbn [L list_ascii_of_string app].
    rewrite skip_ws_stop by reflexivity. change (Ascii.eqb ":" ":") with true. cbn [negb].
    erewrite (jvalue_mono _ n _ _ _ _ E) by (try lia; intros ->; reflexivity).
    rewrite (skip_ws_nil_app q) by auto. rewrite skip_ws_stop by reflexivity.
    change (Ascii.eqb "," "}") with false. change (Ascii.eqb "," ",") with true. cbv iota.
    change ("}"%char :: r) with (L "}" ++ r). rewrite IH; auto; try easy. lia.
Qed.

Lemma object_read l ms : Forall2 fragment l ms -> reads (L "{" ++ separated (L ",") l ++ L "}") (JObj ms).
Proof.
  intros H. unfold reads, json_read.
  destruct H as [|f m l ms Hs Hl]; [reflexivity|].
  set (text := separated (L ",") (f :: l)).
  assert (St : exists t', skip_ws (text ++ L "}") = DQ :: t').
  { destruct Hs as (w & k & t & Hw & _ & -> & _). unfold text. destruct l as [|s2 l].
    - cbn [separated]. rewrite <- !app_assoc, skip_ws_nil_app by auto. cbn [app].
      rewrite skip_ws_stop by reflexivity. eauto.
    - change (separated (L ",") ((w ++ ([DQ] ++ k ++ [DQ]) ++ L ":" ++ t) :: s2 :: l))
      with ((w ++ ([DQ] ++ k ++ [DQ]) ++ L ":" ++ t) ++ L "," ++ separated (L ",") (s2 :: l)).
      rewrite <- !app_assoc, skip_ws_nil_app by auto. cbn [app].
      rewrite skip_ws_stop by reflexivity. eauto. }
  destruct St as (t' & St).
  assert (Len : length (L "{" ++ text ++ L "}") = S (S (length text))).
  { rewrite !app_length. cbn [length L list_ascii_of_string]. lia. }
  rewrite Len. replace (2 * S (S (length text)) + 2)%nat with (S (2 * length text + 5)) by lia.
  cbn [jvalue]. change (L "{" ++ text ++ L "}") with ("{"%char :: text ++ L "}").
  rewrite skip_ws_stop by reflexivity.
  change (Ascii.eqb "{" DQ) with false. change (Ascii.eqb "{" "[") with false.
  change (Ascii.eqb "{" "{") with true. cbv iota.
  rewrite St. change (Ascii.eqb DQ "}") with false. cbv iota.
  rewrite <- (app_nil_r (L "}")).
  rewrite (jmembers_read (f :: l) (m :: ms) []); [reflexivity|easy|now constructor|].
  fold text. lia.
Qed.

Lemma fragment_str k v : plain k -> plain v ->
  fragment (([DQ] ++ k ++ [DQ]) ++ L ":" ++ [DQ] ++ v ++ [DQ]) (k, JStr v).
Proof. intros Hk Hv. exists [], k, ([DQ] ++ v ++ [DQ]). repeat split; auto. now apply plain_reads. Qed.
Lemma fragment_int k z : plain k -> fragment (([DQ] ++ k ++ [DQ]) ++ L ":" ++ dec z) (k, JInt z).
Proof. intros Hk. exists [], k, (dec z). repeat split; auto. apply dec_reads. Qed.
Lemma fragment_bool k (b : bool) : plain k ->
  fragment (([DQ] ++ k ++ [DQ]) ++ L ":" ++ (if b then L "true" else L "false")) (k, JBool b).
Proof. intros Hk. exists [], k, (if b then L "true" else L "false"). repeat split; auto. destruct b; reflexivity. Qed.

Lemma plain_no_nul s : plain s -> no_nul s.
Proof. intros H. eapply Forall_impl; [|exact H]. intros c (H1 & _) ->. now cbn in H1. Qed.

(** ** The boundary of the round trip *)
Lemma app_eq_len A (a b c d : list A) : a ++ b = c ++ d -> length a = length c -> a = c /\ b = d.
Proof.
  revert c; induction a as [|x a IH]; intros [|y c] E H; try discriminate; [now split|].
  cbn in E. inv E. destruct (IH c) as [-> ->]; auto.
Qed.

(** A string literal's raw text: its content is not longer, and as long only if the raw text is plain. *)
Lemma utf8_len z : len (utf8 z) <= 3.
Proof. unfold utf8. destruct (z <? 128), (z <? 2048); cbn; lia. Qed.

Lemma jstring_raw s x r : jstring s = Some (x, r) ->
  exists raw, s = raw ++ DQ :: r /\ len x <= len raw /\ (len x = len raw -> raw = x /\ plain x).
Proof.
  remember (length s) as n. assert (Hn : (length s <= n)%nat) by lia. clear Heqn.
  revert s x Hn; induction n as [|n IH]; intros s x Hn H.
  { destruct s; [discriminate|cbn in Hn; lia]. }
  destruct s as [|c t]; [discriminate|]. cbn in Hn. cbn [jstring app] in *.
  destruct (Ascii.eqb_spec c DQ).
  { inv H. exists []. repeat split; [now cbn|constructor]. }
  destruct (Ascii.eqb_spec c "\").
  - destruct t as [|e1 t1]; [discriminate|].
    destruct (Ascii.eqb_spec e1 "u").
    + destruct t1 as [|h1 [|h2 [|h3 [|h4 t2]]]]; try discriminate.
      destruct (hex4 h1 h2 h3 h4) as [z|]; [|discriminate].
      destruct (jstring t2) as [[y q]|] eqn:E; [|discriminate]. inv H.
      destruct (IH t2 y) as (raw & -> & L1 & _); auto. { cbn in Hn. lia. }
      exists ("\"%char :: "u"%char :: h1 :: h2 :: h3 :: h4 :: raw). pose proof (utf8_len z).
      rewrite len_app, !len_cons. repeat split; lia.
    + destruct (simple_escape e1); [|discriminate].
      destruct (jstring t1) as [[y q]|] eqn:E; [|discriminate]. inv H.
      destruct (IH t1 y) as (raw & -> & L1 & _); auto. { cbn in Hn. lia. }
      exists ("\"%char :: e1 :: raw). rewrite !len_cons. repeat split; lia.
  - destruct (code c <? 32) eqn:Ec; [discriminate|].
    destruct (jstring t) as [[y q]|] eqn:E; [|discriminate]. inv H.
    destruct (IH t y) as (raw & -> & L1 & L2); auto. { lia. }
    exists (c :: raw). rewrite !len_cons. split; [reflexivity|]. split; [lia|].
    intros HL. destruct L2 as [-> Hp]; [lia|]. split; auto. constructor; auto. repeat split; auto. lia.
Qed.

Lemma array_one_iff s : reads (L "[" ++ [DQ] ++ s ++ [DQ] ++ L "]") (JArr [JStr s]) <-> plain s.
Proof.
  split.
  - intros H. apply reads_inv in H as (q & E & Q).
    set (text := s ++ [DQ] ++ L "]") in *.
    destruct (2 * length (L "[" ++ [DQ] ++ text) + 2)%nat as [|n]; [discriminate|].
    cbn [jvalue] in E. change (L "[" ++ [DQ] ++ text) with ("["%char :: DQ :: text) in E.
    rewrite skip_ws_stop in E by reflexivity.
    change (Ascii.eqb "[" DQ) with false in E. change (Ascii.eqb "[" "[") with true in E. cbv iota in E.
    rewrite skip_ws_stop in E by reflexivity. change (Ascii.eqb DQ "]") with false in E. cbv iota in E.
    destruct (jelements n (DQ :: text)) as [[l r']|] eqn:El; [|discriminate]. inv E.
    destruct n as [|n]; [discriminate|]. cbn [jelements] in El.
    destruct (jvalue n (DQ :: text)) as [[v r]|] eqn:Ev; [|discriminate].
    assert (v = JStr s) as ->.
    { destruct (skip_ws r) as [|c r1]; [discriminate|]. destruct (Ascii.eqb c "]"); [now inv El|].
      destruct (Ascii.eqb c ","); [|discriminate]. destruct (jelements n r1) as [[l' ?]|]; [|discriminate].
      now inv El. }
    destruct n as [|n]; [discriminate|]. cbn [jvalue] in Ev. rewrite skip_ws_stop in Ev by reflexivity.
    change (Ascii.eqb DQ DQ) with true in Ev. cbv iota in Ev.
    destruct (jstring text) as [[x r2]|] eqn:Ej; [|discriminate]. inv Ev.
    apply jstring_raw in Ej as (raw & Et & L1 & L2). unfold text in Et.
    assert (len raw = len s).
    { destruct (Z.eq_dec (len raw) (len s)); auto. exfalso.
      assert (Et' := f_equal (@length _) Et). rewrite !app_length in Et'. cbn [length L list_ascii_of_string] in Et'.
      assert (X : length raw = length (s ++ [DQ])) by (rewrite app_length; cbn [length]; unfold len in *; lia).
      rewrite app_assoc in Et. apply app_eq_len in Et as [_ Et]; auto. discriminate. }
    destruct L2; auto.
  - intros H. rewrite (app_assoc s), (app_assoc [DQ]).
    apply (array_read [[DQ] ++ s ++ [DQ]] [JStr s]). constructor; [now apply plain_reads|constructor].
Qed.

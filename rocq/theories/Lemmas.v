(** Lemmas.v - generic lemmas about bytes, buffers and the libc model. *)
From Verif Require Export CLib.
From Coq Require Export ZifyBool ZifyNat ZifyN.
Ltac Zify.zify_post_hook ::= elim_bool_cstr; Z.div_mod_to_equations.

Ltac inv H := inversion H; subst; clear H.
Ltac all_ascii c := destruct c as [[] [] [] [] [] [] [] []].

(** Right-nested normal form of appended (and mapped) lists. *)
Ltac appn := repeat rewrite map_app; repeat rewrite <- app_assoc; cbn [map app].

(** ** Lengths *)
Lemma len_nil A : len (@nil A) = 0. Proof. reflexivity. Qed.
Lemma len_cons A (x : A) l : len (x :: l) = len l + 1.
Proof. unfold len; cbn [length]; lia. Qed.
Lemma len_app A (a b : list A) : len (a ++ b) = len a + len b.
Proof. unfold len; rewrite app_length; lia. Qed.
Lemma len_map A B (f : A -> B) l : len (map f l) = len l.
Proof. unfold len; now rewrite map_length. Qed.
Lemma len_rev A (l : list A) : len (rev l) = len l.
Proof. unfold len; now rewrite rev_length. Qed.
Lemma len_repeat A (x : A) n : len (repeat x n) = Z.of_nat n.
Proof. unfold len; now rewrite repeat_length. Qed.
Lemma len_nonneg A (l : list A) : 0 <= len l.
Proof. unfold len; lia. Qed.
Lemma len_cs s : len (cs s) = len s + 1.
Proof. unfold cs; rewrite len_app, len_map, len_cons, len_nil; lia. Qed.
Lemma len_0 A (l : list A) : len l = 0 -> l = [].
Proof. destruct l; [easy|]; rewrite len_cons; pose proof (len_nonneg _ l); lia. Qed.
Lemma to_nat_len A (l : list A) : Z.to_nat (len l) = length l.
Proof. unfold len; lia. Qed.
Lemma len_length A (l : list A) : Z.of_nat (length l) = len l.
Proof. reflexivity. Qed.
Lemma len_firstn A n (l : list A) : len (firstn n l) = Z.min (Z.of_nat n) (len l).
Proof. unfold len; rewrite firstn_length; lia. Qed.
Lemma len_skipn A n (l : list A) : len (skipn n l) = Z.max 0 (len l - Z.of_nat n).
Proof. unfold len; rewrite skipn_length; lia. Qed.
Lemma len_malloc n : len (malloc n) = Z.max 0 n.
Proof. unfold malloc; rewrite len_repeat; lia. Qed.
Lemma len_calloc n : len (calloc n) = Z.max 0 n.
Proof. unfold calloc; rewrite len_repeat; lia. Qed.

Global Hint Rewrite len_nil len_cons len_app len_map len_rev len_repeat len_cs len_firstn
  len_skipn len_malloc len_calloc to_nat_len : len.

Ltac lens := repeat match goal with
  | |- context [len ?l] => lazymatch goal with
     | H : 0 <= len l |- _ => fail
     | _ => pose proof (len_nonneg _ l) end
  | _ : context [len ?l] |- _ => lazymatch goal with
     | H : 0 <= len l |- _ => fail
     | _ => pose proof (len_nonneg _ l) end
  end.
Ltac llia := try (autorewrite with len in *); lens; lia.

(** ** Characters *)
Lemma ceq_true a b : ceq a b = true <-> a = b.
Proof. apply Ascii.eqb_eq. Qed.
Lemma ceq_false a b : ceq a b = false <-> a <> b.
Proof. apply Ascii.eqb_neq. Qed.
Lemma ceq_refl a : ceq a a = true.
Proof. now apply ceq_true. Qed.
Lemma ceq_spec a b : reflect (a = b) (ceq a b).
Proof. apply Ascii.eqb_spec. Qed.
Lemma ceq_neq a b : a <> b -> ceq a b = false.
Proof. apply ceq_false. Qed.
Lemma code_range c : 0 <= code c <= 255.
Proof. unfold code; pose proof (N_ascii_bounded c); lia. Qed.
Lemma code_inj a b : code a = code b -> a = b.
Proof.
  unfold code; intros H.
  rewrite <- (ascii_N_embedding a), <- (ascii_N_embedding b). f_equal. lia.
Qed.
Lemma schar_range c : -128 <= schar c <= 127.
Proof. unfold schar; pose proof (code_range c); destruct (code c <? 128) eqn:?; lia. Qed.

(** ** no_nul *)
Lemma no_nul_nil : no_nul [].
Proof. constructor. Qed.
Lemma no_nul_cons c s : no_nul (c :: s) <-> c <> NUL /\ no_nul s.
Proof. unfold no_nul; split; [inversion 1; auto | intros []; now constructor]. Qed.
Lemma no_nul_app a b : no_nul (a ++ b) <-> no_nul a /\ no_nul b.
Proof. apply Forall_app. Qed.
Lemma no_nul_sub a b c : no_nul (a ++ b ++ c) -> no_nul b.
Proof. rewrite !no_nul_app; tauto. Qed.
Lemma no_nul_firstn n s : no_nul s -> no_nul (firstn n s).
Proof. intros H; rewrite <- (firstn_skipn n s) in H; apply no_nul_app in H; tauto. Qed.
Lemma no_nul_skipn n s : no_nul s -> no_nul (skipn n s).
Proof. intros H; rewrite <- (firstn_skipn n s) in H; apply no_nul_app in H; tauto. Qed.
Lemma no_nul_in s : no_nul s <-> ~ In NUL s.
Proof.
  unfold no_nul; rewrite Forall_forall; split.
  - intros H I; exact (H _ I eq_refl).
  - intros H c I ->; auto.
Qed.
Lemma no_nul_dec_b s : forallb (fun c => negb (ceq c NUL)) s = true -> no_nul s.
Proof.
  rewrite forallb_forall; intros H; apply no_nul_in; intros I.
  specialize (H _ I); now rewrite ceq_refl in H.
Qed.
Global Hint Resolve no_nul_nil no_nul_firstn no_nul_skipn : core.
Ltac nonul := first [ assumption | apply no_nul_dec_b; vm_compute; reflexivity
  | repeat (rewrite no_nul_app || rewrite no_nul_cons); repeat split; auto;
    first [ assumption | discriminate | apply no_nul_dec_b; vm_compute; reflexivity ] ].

(** ** Outcomes *)
Lemma bind_Ok A B (a : A) (f : A -> outcome B) : bind (Ok a) f = f a.
Proof. reflexivity. Qed.
Lemma bind_UB A B u (f : A -> outcome B) : bind (UB u) f = UB u.
Proof. reflexivity. Qed.
Lemma bind_ok_inv A B (x : outcome A) (f : A -> outcome B) b :
  bind x f = Ok b -> exists a, x = Ok a /\ f a = Ok b.
Proof. destruct x; cbn; [eauto | discriminate]. Qed.
Lemma bind_assoc A B C (x : outcome A) (f : A -> outcome B) (g : B -> outcome C) :
  bind (bind x f) g = bind x (fun a => bind (f a) g).
Proof. now destruct x. Qed.
Lemma bind_ext A B (x : outcome A) (f g : A -> outcome B) :
  (forall a, f a = g a) -> bind x f = bind x g.
Proof. destruct x; cbn; auto. Qed.

(** ** Buffers *)
Lemma cs_nil : cs [] = [Some NUL]. Proof. reflexivity. Qed.
Lemma cs_cons c s : cs (c :: s) = Some c :: cs s. Proof. reflexivity. Qed.
Lemma cs_app a b : cs (a ++ b) = map Some a ++ cs b.
Proof. unfold cs; now rewrite map_app, app_assoc. Qed.
Lemma cs_length s : length (cs s) = S (length s).
Proof. unfold cs; rewrite app_length, map_length; cbn; lia. Qed.

Lemma cstr_cs s r : no_nul s -> cstr (cs s ++ r) = Ok s.
Proof.
  induction s as [|c s IH]; intros H; [reflexivity|].
  apply no_nul_cons in H as [H1 H2].
  cbn [cs map app cstr]. fold (cs s).
  change (map Some s ++ [Some NUL]) with (cs s). rewrite (ceq_neq _ _ H1), IH by auto. reflexivity.
Qed.
Lemma cstr_cs0 s : no_nul s -> cstr (cs s) = Ok s.
Proof. intros; rewrite <- (app_nil_r (cs s)); now apply cstr_cs. Qed.
Lemma cstr_map s r : no_nul s -> cstr (map Some s ++ Some NUL :: r) = Ok s.
Proof. intros; change (Some NUL :: r) with ([Some NUL] ++ r); rewrite app_assoc; now apply cstr_cs. Qed.

Lemma cstr_inv b s : cstr b = Ok s -> no_nul s /\ exists r, b = cs s ++ r.
Proof.
  revert s; induction b as [|[c|] b IH]; intros s H; cbn in H; try discriminate.
  destruct (ceq_spec c NUL) as [->|N].
  - inv H. split; [auto|]. now exists b.
  - apply bind_ok_inv in H as (s' & H1 & H2). inv H2.
    destruct (IH _ H1) as (Hn & r & ->). split.
    + now apply no_nul_cons.
    + now exists r.
Qed.

Lemma strlen_cs s r : no_nul s -> strlen (cs s ++ r) = Ok (len s).
Proof. intros; unfold strlen; now rewrite cstr_cs. Qed.
Lemma strlen_cs0 s : no_nul s -> strlen (cs s) = Ok (len s).
Proof. intros; unfold strlen; now rewrite cstr_cs0. Qed.
Lemma strlen_inv b n : strlen b = Ok n -> exists s r, no_nul s /\ b = cs s ++ r /\ n = len s.
Proof.
  unfold strlen; intros H; apply bind_ok_inv in H as (s & H1 & H2); inv H2.
  apply cstr_inv in H1 as (? & r & ->); eauto.
Qed.

Lemma rd_at a c (r : buf) i : i = len a -> rd (a ++ Some c :: r) i = Ok c.
Proof.
  intros ->. unfold rd.
  replace ((0 <=? len a) && (len a <? len (a ++ Some c :: r))) with true by llia.
  rewrite to_nat_len, nth_error_app2, Nat.sub_diag by lia. reflexivity.
Qed.
Lemma rd_map s (r : buf) i :
  0 <= i < len s -> rd (map Some s ++ r) i = Ok (nth (Z.to_nat i) s NUL).
Proof.
  intros H. unfold rd.
  replace ((0 <=? i) && (i <? len (map Some s ++ r))) with true by llia.
  rewrite nth_error_app1 by (rewrite map_length; unfold len in *; lia).
  rewrite nth_error_map, (nth_error_nth' s NUL) by (unfold len in *; lia). reflexivity.
Qed.
Lemma rd_cs s (r : buf) i :
  0 <= i < len s -> rd (cs s ++ r) i = Ok (nth (Z.to_nat i) s NUL).
Proof. intros; unfold cs; rewrite <- app_assoc; now apply rd_map. Qed.
Lemma rd_oob (b : buf) i : len b <= i -> rd b i = UB OobRead.
Proof. intros; unfold rd; now replace ((0 <=? i) && (i <? len b)) with false by llia. Qed.
Lemma rd_neg (b : buf) i : i < 0 -> rd b i = UB OobRead.
Proof. intros; unfold rd; now replace ((0 <=? i) && (i <? len b)) with false by llia. Qed.

Lemma write_at_app a (m l r : buf) i :
  i = len a -> length m = length l -> write_at (a ++ m ++ r) i l = Ok (a ++ l ++ r).
Proof.
  intros -> H. unfold write_at.
  replace ((0 <=? len a) && (len a + len l <=? len (a ++ m ++ r))) with true
    by (autorewrite with len; lens; unfold len in *; lia).
  rewrite to_nat_len, firstn_app, Nat.sub_diag, firstn_all, firstn_O, app_nil_r.
  rewrite skipn_app, (skipn_all2 a) by lia.
  replace (length a + length l - length a)%nat with (length m) by lia.
  rewrite skipn_app, skipn_all, Nat.sub_diag. reflexivity.
Qed.
Lemma wr_at a x (r : buf) i c : i = len a -> wr (a ++ x :: r) i c = Ok (a ++ Some c :: r).
Proof. intros; unfold wr; change (x :: r) with ([x] ++ r); now rewrite write_at_app. Qed.
Lemma write_at_oob (b : buf) i l : len b < i + len l -> write_at b i l = UB OobWrite.
Proof. intros; unfold write_at; now replace ((0 <=? i) && (i + len l <=? len b)) with false by llia. Qed.
Lemma write_at_neg (b : buf) i l : i < 0 -> write_at b i l = UB OobWrite.
Proof. intros; unfold write_at; now replace ((0 <=? i) && (i + len l <=? len b)) with false by llia. Qed.
Lemma wr_oob (b : buf) i c : len b <= i -> wr b i c = UB OobWrite.
Proof. intros; apply write_at_oob; llia. Qed.
Lemma write_at_len b i l b' : write_at b i l = Ok b' -> length b' = length b.
Proof.
  unfold write_at; destruct ((0 <=? i) && (i + len l <=? len b)) eqn:E; [|discriminate].
  intros H; inv H. rewrite !app_length, firstn_length, skipn_length. unfold len in *. lia.
Qed.
Lemma wr_len b i c b' : wr b i c = Ok b' -> length b' = length b.
Proof. apply write_at_len. Qed.
Lemma write_at_0 (b l : buf) : len l <= len b -> write_at b 0 l = Ok (l ++ skipn (length l) b).
Proof.
  intros H. rewrite <- (firstn_skipn (length l) b) at 1.
  change (firstn (length l) b ++ skipn (length l) b)
    with ([] ++ firstn (length l) b ++ skipn (length l) b).
  rewrite write_at_app; [reflexivity|reflexivity|]. rewrite firstn_length. unfold len in *. lia.
Qed.

Lemma strcpy_0 b s : len s + 1 <= len b -> strcpy b 0 s = Ok (cs s ++ skipn (S (length s)) b).
Proof. intros. unfold strcpy. rewrite write_at_0 by llia. now rewrite cs_length. Qed.
Lemma strcpy_oob b i s : len b < i + len s + 1 -> strcpy b i s = UB OobWrite.
Proof. intros; unfold strcpy; apply write_at_oob; llia. Qed.

(** strcat onto a buffer that holds [s]: defined exactly when there is room. *)
Lemma strcat_cs s r t : no_nul s -> len t <= len r ->
  strcat (cs s ++ r) t = Ok (cs (s ++ t) ++ skipn (length t) r).
Proof.
  intros Hs Hl. unfold strcat. rewrite strlen_cs by auto. cbn [bind].
  unfold strcpy, cs at 1. rewrite <- app_assoc.
  rewrite <- (firstn_skipn (length t) r) at 1. rewrite (app_assoc [Some NUL]).
  rewrite write_at_app; [|llia|].
  - unfold cs. rewrite map_app, <- !app_assoc. reflexivity.
  - unfold cs; rewrite !app_length, firstn_length, map_length. cbn. unfold len in *. lia.
Qed.
Lemma strcat_oob s r t : no_nul s -> len r < len t -> strcat (cs s ++ r) t = UB OobWrite.
Proof.
  intros Hs Hl. unfold strcat. rewrite strlen_cs by auto. cbn [bind].
  apply strcpy_oob. llia.
Qed.
Lemma strcat_calloc n t : len t + 1 <= n ->
  strcat (calloc n) t = Ok (cs t ++ skipn (S (length t)) (calloc n)).
Proof.
  intros H. assert (E : calloc n = cs [] ++ calloc (n - 1)).
  { unfold calloc, cs. replace (Z.to_nat n) with (S (Z.to_nat (n - 1))) by (lens; lia). reflexivity. }
  rewrite E at 1. rewrite strcat_cs by (auto; llia). rewrite E. reflexivity.
Qed.

Lemma slice_ok (a m r : buf) off n :
  off = len a -> n = len m -> slice (a ++ m ++ r) off n = Ok m.
Proof.
  intros -> ->. unfold slice. lens.
  replace (len m <? 0) with false by lia.
  replace ((0 <=? len a) && (len a + len m <=? len (a ++ m ++ r))) with true by llia.
  rewrite !to_nat_len, skipn_app, skipn_all, Nat.sub_diag. cbn [app skipn].
  rewrite firstn_app, Nat.sub_diag, firstn_all, firstn_O. now rewrite app_nil_r.
Qed.
Lemma from_app (a r : buf) off : off = len a -> from (a ++ r) off = r.
Proof.
  intros ->. unfold from. replace ((0 <=? len a) && (len a <=? len (a ++ r))) with true by llia.
  now rewrite to_nat_len, skipn_app, skipn_all, Nat.sub_diag.
Qed.
Lemma from_0 b : from b 0 = b.
Proof. unfold from. replace ((0 <=? 0) && (0 <=? len b)) with true by llia. reflexivity. Qed.
Lemma memcpy_ok da dm dr sa sm sr n :
  n = len sm -> length dm = length sm ->
  memcpy (da ++ dm ++ dr) (len da) (sa ++ sm ++ sr) (len sa) n = Ok (da ++ sm ++ dr).
Proof. intros -> H. unfold memcpy. rewrite slice_ok by auto. cbn [bind]. now apply write_at_app. Qed.

Lemma defined_bytes_map s : defined_bytes (map Some s) = Ok s.
Proof. induction s as [|c s IH]; cbn; [easy|]. now rewrite IH. Qed.
Lemma defined_bytes_inv l s : defined_bytes l = Ok s -> l = map Some s.
Proof.
  revert s; induction l as [|[c|] l IH]; cbn; intros s H; try discriminate.
  - now inv H.
  - apply bind_ok_inv in H as (r & H1 & H2); inv H2. cbn. f_equal. auto.
Qed.

Lemma fits_ok cap s : len s + 1 <= cap -> fits cap s = Ok s.
Proof. intros; unfold fits; now replace (len s + 1 <=? cap) with true by lia. Qed.
Lemma fits_oob cap s : cap < len s + 1 -> fits cap s = UB OobWrite.
Proof. intros; unfold fits; now replace (len s + 1 <=? cap) with false by lia. Qed.
Lemma fits_inv cap s s' : fits cap s = Ok s' -> s' = s /\ len s + 1 <= cap.
Proof. unfold fits; destruct (len s + 1 <=? cap) eqn:E; intros H; inv H; split; auto; lia. Qed.

(** ** Comparison and search on contents *)
Lemma str_eqb_eq a b : str_eqb a b = true <-> a = b.
Proof.
  revert b; induction a as [|x a IH]; destruct b as [|y b]; cbn; try easy.
  rewrite andb_true_iff, ceq_true, IH. split; [intros [-> ->]|intros H; inv H]; auto.
Qed.
Lemma str_eqb_refl a : str_eqb a a = true.
Proof. now apply str_eqb_eq. Qed.
Lemma str_eqb_neq a b : str_eqb a b = false <-> a <> b.
Proof. rewrite <- str_eqb_eq. destruct (str_eqb a b); split; congruence. Qed.
Lemma str_eqb_spec a b : reflect (a = b) (str_eqb a b).
Proof. destruct (str_eqb a b) eqn:E; constructor; [now apply str_eqb_eq | now apply str_eqb_neq]. Qed.

Lemma strcmp_eq_cs a b ra rb : no_nul a -> no_nul b ->
  strcmp_eq (cs a ++ ra) (cs b ++ rb) = Ok (str_eqb a b).
Proof.
  revert b; induction a as [|x a IH]; intros [|y b] Ha Hb.
  - reflexivity.
  - apply no_nul_cons in Hb as [Hy Hb]. rewrite cs_nil, cs_cons. cbn [app strcmp_eq str_eqb].
    rewrite ceq_neq by congruence. reflexivity.
  - apply no_nul_cons in Ha as [Hx Ha]. rewrite cs_nil, cs_cons. cbn [app strcmp_eq str_eqb].
    rewrite ceq_neq by congruence. reflexivity.
  - apply no_nul_cons in Hb as [Hy Hb]. apply no_nul_cons in Ha as [Hx Ha].
    rewrite !cs_cons. cbn [app strcmp_eq str_eqb].
    destruct (ceq_spec x y) as [->|N]; [|reflexivity].
    rewrite (ceq_neq _ _ Hy). rewrite IH by auto. reflexivity.
Qed.

Lemma prefixb_spec p s : prefixb p s = true <-> exists r, s = p ++ r.
Proof.
  revert s; induction p as [|x p IH]; intros s; cbn.
  - split; eauto.
  - destruct s as [|y s]; [split; [easy|intros [r H]; easy]|].
    rewrite andb_true_iff, ceq_true, IH. split.
    + intros [-> [r ->]]; now exists r.
    + intros [r H]; inv H; eauto.
Qed.

(** strstr: the first position where the pattern occurs. *)
Lemma strstr_some s p n : strstr s p = Some n ->
  (exists a b, s = a ++ p ++ b /\ length a = n) /\
  forall a b, s = a ++ p ++ b -> (n <= length a)%nat.
Proof.
  revert n; induction s as [|c s IH]; intros n H; cbn in H.
  - destruct (prefixb p []) eqn:E; [|easy]. inv H. apply prefixb_spec in E as [r E].
    split; [now exists [], r|]. intros; lia.
  - destruct (prefixb p (c :: s)) eqn:E.
    + inv H. apply prefixb_spec in E as [r E]. split; [now exists [], r|]. intros; lia.
    + destruct (strstr s p) as [m|] eqn:F; [|easy]. inv H.
      destruct (IH m eq_refl) as [(a & b & -> & <-) Hmin]. split.
      * now exists (c :: a), b.
      * intros [|x a'] b' Q.
        -- cbn in Q. assert (prefixb p (c :: a ++ p ++ b) = true); [|congruence].
           apply prefixb_spec. now exists b'.
        -- cbn in Q. inv Q. apply Hmin in H1. cbn. lia.
Qed.
Lemma strstr_none s p : strstr s p = None <-> forall a b, s <> a ++ p ++ b.
Proof.
  induction s as [|c s IH]; cbn.
  - destruct (prefixb p []) eqn:E.
    + split; [easy|]. intros H. apply prefixb_spec in E as [r E]. now destruct (H [] r).
    + split; [|easy]. intros _ a b Q. symmetry in Q. apply app_eq_nil in Q as [-> Q].
      apply app_eq_nil in Q as [-> ->]. easy.
  - destruct (prefixb p (c :: s)) eqn:E.
    + split; [easy|]. intros H. apply prefixb_spec in E as [r E]. now destruct (H [] r).
    + destruct (strstr s p) as [m|] eqn:F.
      * split; [easy|]. intros H. exfalso.
        apply strstr_some in F as [(a & b & -> & _) _]. now apply (H (c :: a) b).
      * split; [|easy]. intros _ [|x a] b Q.
        -- assert (prefixb p (c :: s) = true); [|congruence].
           apply prefixb_spec. now exists b.
        -- cbn in Q. inv Q. now apply (proj1 IH eq_refl a b).
Qed.
Lemma strstr_char s c : strstr s [c] = None <-> ~ In c s.
Proof.
  rewrite strstr_none. split.
  - intros H I. apply in_split in I as (a & b & ->). now apply (H a b).
  - intros H a b ->. apply H. apply in_or_app. right. now left.
Qed.

Lemma strchr_none s c : strchr s c = None <-> ~ In c s.
Proof.
  induction s as [|x s IH]; cbn; [tauto|].
  destruct (ceq_spec x c) as [->|N].
  - split; [easy|]. intros H; now destruct H; left.
  - destruct (strchr s c); cbn.
    + split; [easy|]. intros H. exfalso. destruct IH as [_ IH].
      assert (Some n = None) by (apply IH; tauto). easy.
    + split; [|easy]. intros _ [->|I]; [easy|]. now apply (proj1 IH).
Qed.
Lemma strchr_some s c n : strchr s c = Some n ->
  exists a b, s = a ++ c :: b /\ ~ In c a /\ length a = n.
Proof.
  revert n; induction s as [|x s IH]; cbn; [easy|]; intros n.
  destruct (ceq_spec x c) as [->|N].
  - intros H; inv H. now exists [], s.
  - destruct (strchr s c) eqn:E; [|easy]. intros H; inv H.
    destruct (IH _ eq_refl) as (a & b & -> & Hn & <-).
    exists (x :: a), b. cbn. intuition.
Qed.

(** ** take_while / drop_while *)
Lemma take_drop p s : take_while p s ++ drop_while p s = s.
Proof. induction s as [|c s IH]; cbn; [easy|]. destruct (p c); cbn; congruence. Qed.
Lemma take_while_all p s : Forall (fun c => p c = true) (take_while p s).
Proof. induction s as [|c s IH]; cbn; [easy|]. destruct (p c) eqn:E; auto. Qed.
Lemma drop_while_hd p s c r : drop_while p s = c :: r -> p c = false.
Proof.
  induction s as [|x s IH]; cbn; [easy|]. destruct (p x) eqn:E; auto.
  intros H; now inv H.
Qed.
Lemma drop_while_app p a b : Forall (fun c => p c = true) a ->
  drop_while p (a ++ b) = drop_while p b.
Proof. induction 1 as [|c a H _ IH]; cbn; [easy|]. now rewrite H. Qed.
Lemma take_while_app p a b : Forall (fun c => p c = true) a ->
  take_while p (a ++ b) = a ++ take_while p b.
Proof. induction 1 as [|c a H _ IH]; cbn; [easy|]. now rewrite H, IH. Qed.
Lemma drop_while_stop p s : match s with [] => True | c :: _ => p c = false end ->
  drop_while p s = s.
Proof. destruct s; cbn; [easy|]. now intros ->. Qed.
Lemma take_while_stop p s : match s with [] => True | c :: _ => p c = false end ->
  take_while p s = [].
Proof. destruct s; cbn; [easy|]. now intros ->. Qed.
Lemma drop_while_none p s : drop_while p s = [] <-> Forall (fun c => p c = true) s.
Proof.
  induction s as [|c s IH]; cbn; [easy|]. destruct (p c) eqn:E.
  - rewrite IH. split; [now constructor|now inversion 1].
  - split; [easy|]. inversion 1; congruence.
Qed.

Lemma is_delim_in d c : is_delim d c = true <-> In c d.
Proof.
  unfold is_delim. rewrite existsb_exists. split.
  - intros (x & I & E). apply ceq_true in E as ->. auto.
  - intros I; exists c. now rewrite ceq_refl.
Qed.
Lemma is_delim_not d c : is_delim d c = false <-> ~ In c d.
Proof. rewrite <- is_delim_in. destruct (is_delim d c); split; congruence. Qed.

(** strtok, described by a decomposition. *)
Lemma strtok_none d s : strtok d s = None <-> Forall (fun c => In c d) s.
Proof.
  unfold strtok. destruct (drop_while (is_delim d) s) eqn:E.
  - apply drop_while_none in E. split; [|easy]. intros _.
    eapply Forall_impl; [|exact E]. intros c; apply is_delim_in.
  - split; [easy|]. intros H. exfalso.
    assert (D : drop_while (is_delim d) s = []); [|congruence].
    apply drop_while_none. eapply Forall_impl; [|exact H]. intros c'; apply is_delim_in.
Qed.
Lemma strtok_eq d a t r : Forall (fun c => In c d) a -> t <> [] -> Forall (fun c => ~ In c d) t ->
  match r with [] => True | c :: _ => In c d end ->
  strtok d (a ++ t ++ r) = Some (t, tl r).
Proof.
  intros Ha Hne Ht Hr. unfold strtok.
  rewrite drop_while_app by (eapply Forall_impl; [|exact Ha]; intros; now apply is_delim_in).
  rewrite drop_while_stop.
  2:{ destruct t; [easy|]. inv Ht. now apply is_delim_not. }
  destruct (t ++ r) eqn:E; [destruct t; easy|]. rewrite <- E. clear E.
  assert (F : Forall (fun c => negb (is_delim d c) = true) t).
  { eapply Forall_impl; [|exact Ht]. intros c H. apply is_delim_not in H. now rewrite H. }
  rewrite take_while_app, drop_while_app by auto.
  rewrite take_while_stop, drop_while_stop.
  - now rewrite app_nil_r.
  - destruct r; [easy|]. apply is_delim_in in Hr. now rewrite Hr.
  - destruct r; [easy|]. apply is_delim_in in Hr. now rewrite Hr.
Qed.
Lemma strtok_some d s t r : strtok d s = Some (t, r) ->
  exists a r0, s = a ++ t ++ r0 /\ Forall (fun c => In c d) a /\ t <> [] /\
    Forall (fun c => ~ In c d) t /\ match r0 with [] => True | c :: _ => In c d end /\ r = tl r0.
Proof.
  unfold strtok. set (nd := fun c => negb (is_delim d c)).
  destruct (drop_while (is_delim d) s) as [|c s1] eqn:E; [easy|].
  intros H. assert (Ht : take_while nd (c :: s1) = t) by congruence.
  assert (Hr : tl (drop_while nd (c :: s1)) = r) by congruence. clear H. rewrite <- Ht, <- Hr.
  exists (take_while (is_delim d) s), (drop_while nd (c :: s1)). repeat split.
  - rewrite take_drop, <- E, take_drop. reflexivity.
  - eapply Forall_impl; [|apply take_while_all]. intros; now apply is_delim_in.
  - apply drop_while_hd in E. cbn. unfold nd at 1. rewrite E. easy.
  - eapply Forall_impl; [|apply take_while_all]. intros x Hx. unfold nd in Hx.
    apply is_delim_not. now destruct (is_delim d x).
  - destruct (drop_while nd (c :: s1)) eqn:F; [easy|]. apply drop_while_hd in F.
    unfold nd in F. apply is_delim_in. now destruct (is_delim d a).
Qed.
Lemma strtok_shorter d s t r : strtok d s = Some (t, r) -> (length r < length s)%nat.
Proof.
  intros H. apply strtok_some in H as (a & r0 & -> & _ & Hne & _ & _ & ->).
  rewrite !app_length. destruct t; [easy|]. destruct r0; cbn; lia.
Qed.

Lemma upto_nul_id s : no_nul s -> upto_nul s = s.
Proof.
  induction s as [|c s IH]; cbn; [easy|]. intros H; apply no_nul_cons in H as [H1 H2].
  now rewrite (ceq_neq _ _ H1), IH.
Qed.
Lemma upto_nul_no_nul s : no_nul (upto_nul s).
Proof.
  induction s as [|c s IH]; cbn; [auto|]. destruct (ceq_spec c NUL); auto.
  now apply no_nul_cons.
Qed.
Lemma upto_nul_stop a b : no_nul a -> upto_nul (a ++ NUL :: b) = a.
Proof.
  induction a as [|c a IH]; cbn; [easy|]. intros H; apply no_nul_cons in H as [H1 H2].
  now rewrite (ceq_neq _ _ H1), IH.
Qed.

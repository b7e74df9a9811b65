(** FailUpload_proofs.v - proofs about FailUpload.v. *)
From Verif Require Import Lemmas Log_proofs WsMultipart Effects_proofs HttpUtils_proofs FailFiles FailUpload SpecFailUpload SpecEffects SpecHttp Spec.

Lemma sb_dir tid f g p : same_but_uploads tid f g -> is_dir f p = is_dir g p.
Proof.
  intros [_ H]. specialize (H p). unfold is_dir. destruct (f p) as [[c|]|], (g p) as [[c'|]|]; try reflexivity.
  all: try (destruct H as [H1 H2]; (discriminate (H1 eq_refl) || discriminate (H2 eq_refl))).
Qed.
Lemma tmp_no_upload tid : ~ upload_name tid FILE_DOWNLOAD_TMP_DIR.
Proof. intros (d & h & _ & _ & E). apply (f_equal (@length ascii)) in E. rewrite !app_length in E. cbn in E. lia. Qed.
Lemma sb_upd tid f g p x y : same_but_uploads tid f g -> upload_name tid p -> x <> Some Dir -> y <> Some Dir -> same_but_uploads tid (upd f p x) (upd g p y).
Proof.
  intros [A B] U X Y. split.
  - intros q N. unfold upd. destruct (str_eqb q p) eqn:E; [apply str_eqb_eq in E; now subst|auto].
  - intros q. unfold upd. destruct (str_eqb q p); [tauto|auto].
Qed.
Lemma sb_right tid f g p y : same_but_uploads tid f g -> upload_name tid p -> is_dir f p = false -> y <> Some Dir -> same_but_uploads tid f (upd g p y).
Proof.
  intros H U D Y. assert (P : f p <> Some Dir) by (unfold is_dir in D; destruct (f p) as [[c|]|]; discriminate).
  destruct H as [A B]. split.
  - intros q N. unfold upd. destruct (str_eqb q p) eqn:E; [apply str_eqb_eq in E; now subst|auto].
  - intros q. unfold upd. destruct (str_eqb q p) eqn:E; [apply str_eqb_eq in E; subst; tauto|auto].
Qed.
Lemma sb_left tid f g p x : same_but_uploads tid f g -> upload_name tid p -> is_dir f p = false -> x <> Some Dir -> same_but_uploads tid (upd f p x) g.
Proof.
  intros H U D X. rewrite (sb_dir _ _ _ p H) in D. assert (P : g p <> Some Dir) by (unfold is_dir in D; destruct (g p) as [[c|]|]; discriminate).
  destruct H as [A B]. split.
  - intros q N. unfold upd. destruct (str_eqb q p) eqn:E; [apply str_eqb_eq in E; now subst|auto].
  - intros q. unfold upd. destruct (str_eqb q p) eqn:E; [apply str_eqb_eq in E; subst; tauto|auto].
Qed.
Lemma sb_made tid ok f g : same_but_uploads tid f g ->
  same_but_uploads tid (if is_dir f FILE_DOWNLOAD_TMP_DIR then f else snd (check_createdir ok f FILE_DOWNLOAD_TMP_DIR))
                       (if is_dir g FILE_DOWNLOAD_TMP_DIR then g else snd (check_createdir ok g FILE_DOWNLOAD_TMP_DIR)).
Proof.
  intros H. rewrite <- (sb_dir _ _ _ FILE_DOWNLOAD_TMP_DIR H). destruct (is_dir f FILE_DOWNLOAD_TMP_DIR) eqn:D; [exact H|]. unfold check_createdir.
  rewrite <- (sb_dir _ _ _ FILE_DOWNLOAD_TMP_DIR H), D. destruct H as [A B]. rewrite <- (A _ (tmp_no_upload tid)). destruct (f FILE_DOWNLOAD_TMP_DIR); [now split|].
  destruct ok; cbn [snd]; [|now split]. split.
  - intros q N. unfold upd. destruct (str_eqb q _); auto.
  - intros q. unfold upd. destruct (str_eqb q _); [tauto|auto].
Qed.
Lemma write_sb w tid f g p ptr off size f' : same_but_uploads tid f g -> upload_name tid p -> write_file f p ptr off size = Ok f' ->
  exists g' msgs, write_file_e w g p ptr off size = Ok (g', msgs) /\ same_but_uploads tid f' g'.
Proof.
  intros H U E. unfold write_file in E. unfold write_file_e. destruct (strlen (from ptr off)); [|discriminate]. cbn [bind] in *. rewrite <- (sb_dir _ _ _ p H).
  destruct (is_dir f p) eqn:D; cbn [orb].
  - injection E as <-. do 2 eexists. split; [reflexivity|]. rewrite (sb_dir _ _ _ p H) in D. unfold is_file, is_dir in *. destruct (g p) as [[c|]|]; try discriminate. exact H.
  - apply bind_ok_inv in E as (l & El & E). apply bind_ok_inv in E as (d & Ed & E). injection E as <-. destruct (w_opens w); cbn [negb].
    + rewrite El. cbn [bind]. rewrite Ed. cbn [bind]. do 2 eexists. split; [reflexivity|]. apply sb_upd; auto; discriminate.
    + do 2 eexists. split; [reflexivity|]. destruct (_ && _); [apply sb_upd|apply sb_left]; auto; discriminate.
Qed.

Section Parts.
Variable e : mpenv.
Hypothesis Ht : 0 <= mp_tid e.
Notation sb := (same_but_uploads (mp_tid e)).
Lemma save_sb w f g tf field sf td ds al t f' : sb f g -> save_tmp_file e f tf field sf td ds al = Ok (t, f') ->
  exists g', save_tmp_file_e w e g tf field sf td ds al = Ok (t, g') /\ sb f' g'.
Proof.
  intros S H. unfold save_tmp_file in H. unfold save_tmp_file_e. cbv zeta in *. apply bind_ok_inv in H as (o1 & -> & H). apply bind_ok_inv in H as (o2 & E2 & H).
  apply bind_ok_inv in H as (o3 & E3 & H). apply bind_ok_inv in H as (orig & E4 & H). cbn [bind]. rewrite E2. cbn [bind]. rewrite E3. cbn [bind]. rewrite E4. cbn [bind].
  apply bind_ok_inv in H as (m & H3 & H). apply bind_ok_inv in H as (s & H4 & H). pose proof (md5_hexish _ _ _ _ _ _ _ H3 H4) as Os. rewrite H3. cbn [bind]. rewrite H4. cbn [bind].
  apply bind_ok_inv in H as (tmp & H5 & H). rewrite H5. cbn [bind]. apply fits_inv in H5 as [-> _].
  apply bind_ok_inv in H as (tp & H5 & H). rewrite H5. cbn [bind]. apply fits_inv in H5 as [-> _].
  apply bind_ok_inv in H as (f2 & H6 & H). apply bind_ok_inv in H as (t' & H7 & H). assert (E : t' = t /\ f2 = f') by (split; congruence). destruct E as [-> ->].
  assert (U : upload_name (mp_tid e) (FILE_DOWNLOAD_TMP_DIR ++ L "/" ++ dec_nat (mp_tid e) ++ L "-" ++ s)).
  { exists (dec_nat (mp_tid e)), s. split; [now apply dec_nat_decimal|]. split; [exact Os|reflexivity]. }
  destruct (write_sb w (mp_tid e) _ _ _ _ _ _ _ (sb_made _ (mp_mkdir e) _ _ S) U H6) as (g' & ms & W & S').
  rewrite W. cbn [bind]. rewrite H7. cbn [bind]. eauto.
Qed.
Ltac nexts := repeat match goal with H : bind ?x _ = Ok _ |- _ => let a := fresh "a" in let E := fresh "E" in apply bind_ok_inv in H as (a & E & H); rewrite E; cbn [bind] end.
Lemma part_sb w f g tf td n t f' : sb f g -> part_parse e f tf td n = Ok (t, f') -> exists g', part_parse_e w e g tf td n = Ok (t, g') /\ sb f' g'.
Proof.
  intros S H. unfold part_parse in H. unfold part_parse_e. cbv zeta in *. nexts.
  destruct (_ <? 1); [injection H as <- <-; eauto|]. nexts. destruct (_ <=? 0); [injection H as <- <-; eauto|]. nexts.
  destruct (0 <? a6); [|injection H as <- <-; eauto]. destruct (0 <? a9); [now apply save_sb with f|]. nexts. injection H as <- <-. eauto.
Qed.
Lemma loop_sb w : forall fuel f g form tp tf bd cl ptr t f', sb f g -> multipart_loop fuel e f form tp tf bd cl ptr = Ok (t, f') ->
  exists g', multipart_loop_e fuel w e g form tp tf bd cl ptr = Ok (t, g') /\ sb f' g'.
Proof.
  induction fuel as [|k IH]; intros f g form tp tf bd cl ptr t f' S H; cbn [multipart_loop multipart_loop_e] in *;
    (destruct (ptr <? cl); [|injection H as <- <-; eauto]); apply bind_ok_inv in H as (ps & E1 & H); rewrite E1; cbn [bind]; (destruct (ps <? 0); [injection H as <- <-; eauto|]);
    apply bind_ok_inv in H as (pe & E2 & H); rewrite E2; cbn [bind]; (destruct (pe <? 0); [injection H as <- <-; eauto|]); cbv zeta in *;
    apply bind_ok_inv in H as (tp1 & E3 & H); rewrite E3; cbn [bind]; apply bind_ok_inv in H as ((tf1, f1) & H1 & H); apply bind_ok_inv in H as (tp2 & E4 & H); [discriminate|].
  destruct (part_sb (w ps) _ _ _ _ _ _ _ S H1) as (g1 & -> & S1). cbn [bind]. rewrite E4. cbn [bind]. eauto.
Qed.
Lemma parse_sb w f form bd n form' f' : multipart_parse e f form bd n = Ok (form', f') ->
  exists g', multipart_parse_e w e f form bd n = Ok (form', g') /\ sb f' g'.
Proof.
  intros H. unfold multipart_parse in H. unfold multipart_parse_e. apply bind_ok_inv in H as ((tf, f1) & H1 & H).
  destruct (loop_sb w _ _ f _ _ _ _ _ _ _ _ (conj (fun _ _ => eq_refl) (fun _ => iff_refl _)) H1) as (g' & -> & S). cbn [bind].
  apply bind_ok_inv in H as (s & E & H). rewrite E. cbn [bind]. apply bind_ok_inv in H as (fm & E' & H). rewrite E'. cbn [bind]. injection H as <- <-. eauto.
Qed.
End Parts.

(** Files stored whole. *)
Ltac ub := cbn [bind]; reflexivity.
Lemma memcpy_keeps_len d o s so n d' : memcpy d o s so n = Ok d' -> len d' = len d.
Proof. unfold memcpy. intros H. apply bind_ok_inv in H as (l & _ & H). apply write_at_len in H. unfold len. congruence. Qed.
Lemma write_whole w f p ptr off size : w_opens w = true -> len ptr <= Z.of_nat (w_taken w) ->
  bind (write_file_e w f p ptr off size) (fun x => Ok (fst x)) = write_file f p ptr off size.
Proof.
  intros W T. unfold write_file_e, write_file. rewrite W. cbn [negb]. rewrite orb_false_r. destruct (strlen (from ptr off)); [|ub]. cbn [bind].
  destruct (is_dir f p) eqn:D.
  - cbn [bind fst]. unfold is_file, is_dir in *. destruct (f p) as [[c|]|]; try discriminate. reflexivity.
  - destruct (slice ptr off size) as [l|] eqn:E; [|ub]. cbn [bind]. destruct (defined_bytes l) as [d|] eqn:F; [|ub]. cbn [bind fst].
    rewrite firstn_all2; [reflexivity|]. apply defined_bytes_inv in F. unfold slice in E. destruct (size <? 0); [discriminate|]. destruct (_ && _); [|discriminate]. injection E as E.
    rewrite <- (map_length (@Some ascii)), <- F, <- E, firstn_length, skipn_length. unfold len in T. lia.
Qed.
Lemma save_whole w e f tf field sf td ds al : w_opens w = true -> len td <= Z.of_nat (w_taken w) ->
  save_tmp_file_e w e f tf field sf td ds al = save_tmp_file e f tf field sf td ds al.
Proof.
  intros W T. unfold save_tmp_file_e, save_tmp_file. cbv zeta.
  repeat (match goal with |- bind ?x _ = bind ?x _ => destruct x as [?|]; [|ub]; cbn [bind] end).
  rewrite <- (write_whole w) by auto. destruct (write_file_e _ _ _ _ _ _) as [(f2, ms)|]; cbn [bind fst]; reflexivity.
Qed.
Lemma part_whole w e f tf td n : w_opens w = true -> len td <= Z.of_nat (w_taken w) -> part_parse_e w e f tf td n = part_parse e f tf td n.
Proof.
  intros W T. unfold part_parse_e, part_parse. cbv zeta.
  repeat (match goal with |- bind ?x _ = bind ?x _ => destruct x as [?|]; [|ub]; cbn [bind] | |- (if ?b then _ else _) = (if ?b then _ else _) => destruct b end).
  all: first [now apply save_whole|reflexivity].
Qed.
Lemma loop_whole w e : forall fuel f form tp tf bd cl ptr, (forall z, w_opens (w z) = true /\ len tp <= Z.of_nat (w_taken (w z))) ->
  multipart_loop_e fuel w e f form tp tf bd cl ptr = multipart_loop fuel e f form tp tf bd cl ptr.
Proof.
  induction fuel as [|k IH]; intros f form tp tf bd cl ptr W; cbn [multipart_loop_e multipart_loop]; (destruct (ptr <? cl); [|ub]);
    (destruct (text_find_after form bd ptr cl) as [ps|]; [|ub]); cbn [bind]; (destruct (ps <? 0); [reflexivity|]);
    (destruct (text_find_after form bd ps cl) as [pe|]; [|ub]); cbn [bind]; (destruct (pe <? 0); [reflexivity|]);
    (destruct (memcpy tp 0 form ps _) as [tp1|] eqn:E; [|ub]); cbn [bind]; apply memcpy_keeps_len in E;
    (rewrite part_whole by (rewrite ?E; apply W)); (destruct (part_parse _ _ _ _ _) as [(tf1, f1)|]; [|ub]); cbn [bind];
    (destruct (trim tp1) as [tp2|] eqn:E2; [|ub]); cbn [bind]; [reflexivity|].
  apply trim_keeps_len in E2. apply IH. intros z. rewrite E2, E. apply W.
Qed.

(** Storing one file. *)
Lemma save_exact w e f tf field sf td ds al t f' : save_tmp_file_e w e f tf field sf td ds al = Ok (t, f') ->
  exists digest name, name = L "/tmp/wayuu/" ++ dec_nat (mp_tid e) ++ L "-" ++ digest
   /\ (forall q, q <> name -> q <> L "/tmp/wayuu" -> f' q = f q)
   /\ (f name <> Some Dir -> w_opens w = true -> exists data, slice td ds (al - ds - 2) = Ok (map Some data) /\ f' name = Some (File (firstn (w_taken w) data)))
   /\ (f name <> Some Dir -> w_opens w = false -> f' name = if w_removes w then None else f name).
Proof.
  intros H. unfold save_tmp_file_e in H. cbv zeta in H. apply bind_ok_inv in H as (o1 & _ & H). apply bind_ok_inv in H as (o2 & _ & H).
  apply bind_ok_inv in H as (o3 & _ & H). apply bind_ok_inv in H as (orig & _ & H). apply bind_ok_inv in H as (m & _ & H). apply bind_ok_inv in H as (s & _ & H).
  apply bind_ok_inv in H as (tmp & H5 & H). apply fits_inv in H5 as [-> _]. apply bind_ok_inv in H as (tp & H5 & H). apply fits_inv in H5 as [-> _].
  apply bind_ok_inv in H as ((f2, ms) & W & H). apply bind_ok_inv in H as (t' & _ & H). assert (f2 = f') as -> by congruence. clear H.
  change (FILE_DOWNLOAD_TMP_DIR ++ L "/" ++ dec_nat (mp_tid e) ++ L "-" ++ s) with (L "/tmp/wayuu/" ++ dec_nat (mp_tid e) ++ L "-" ++ s) in W.
  exists s, (L "/tmp/wayuu/" ++ dec_nat (mp_tid e) ++ L "-" ++ s). split; [reflexivity|].
  assert (T : L "/tmp/wayuu/" ++ dec_nat (mp_tid e) ++ L "-" ++ s <> L "/tmp/wayuu").
  { intros E. apply (f_equal (@length ascii)) in E. rewrite !app_length in E. cbn in E. lia. }
  set (name := L "/tmp/wayuu/" ++ dec_nat (mp_tid e) ++ L "-" ++ s) in *. clearbody name.
  set (f1 := if is_dir f FILE_DOWNLOAD_TMP_DIR then f else snd (check_createdir (mp_mkdir e) f FILE_DOWNLOAD_TMP_DIR)) in *.
  assert (K : forall q, q <> L "/tmp/wayuu" -> f1 q = f q).
  { intros q N. unfold f1. destruct (is_dir f FILE_DOWNLOAD_TMP_DIR) eqn:D; [reflexivity|]. unfold check_createdir. rewrite D.
    destruct (f FILE_DOWNLOAD_TMP_DIR); [reflexivity|]. destruct (mp_mkdir e); [|reflexivity]. cbn [snd]. now apply upd_other. }
  clearbody f1. unfold write_file_e in W. apply bind_ok_inv in W as (n & _ & W). cbv zeta in W.
  assert (D : forall q, q <> name -> forall x, upd f1 name x q = f1 q) by (intros q N x; now apply upd_other).
  destruct (is_dir f1 name || negb (w_opens w)) eqn:B.
  - injection W as <- _. split; [|split].
    + intros q N M. destruct (_ && _); [rewrite D by auto|]; auto.
    + intros N O. rewrite O, orb_false_r in B. unfold is_dir in B. rewrite K in B by exact T. destruct (f name) as [[c|]|]; try discriminate. now elim N.
    + intros N O. unfold is_file. rewrite K by exact T. destruct (f name) as [[c|]|] eqn:F; [|now elim N|].
      * cbn [andb]. destruct (w_removes w); [apply ConfParser_proofs.upd_same|now rewrite K].
      * cbn [andb]. rewrite K, F by exact T. now destruct (w_removes w).
  - apply bind_ok_inv in W as (l & El & W). apply bind_ok_inv in W as (d & Ed & W). injection W as <- _. apply orb_false_elim in B as [B1 B2].
    split; [|split].
    + intros q N M. rewrite D by auto. auto.
    + intros _ _. exists d. split; [now rewrite El, (defined_bytes_inv _ _ Ed)|]. apply ConfParser_proofs.upd_same.
    + intros _ O. rewrite O in B2. discriminate.
Qed.

(** When every file opens, what is undefined is so with any number of bytes taken. *)
Definition rel {A B} (R : A -> B -> Prop) (x : outcome A) (y : outcome B) : Prop :=
  match x, y with Ok a, Ok b => R a b | UB u, UB v => u = v | _, _ => False end.
Lemma rel_bind A A' B (R : A -> A' -> Prop) (Q : B -> B -> Prop) x y k k' : rel R x y -> (forall a b, R a b -> rel Q (k a) (k' b)) -> rel Q (bind x k) (bind y k').
Proof. destruct x, y; cbn [rel bind]; auto; contradiction. Qed.
Lemma rel_same A B B' (Q : B -> B' -> Prop) (x : outcome A) k k' : (forall a, rel Q (k a) (k' a)) -> rel Q (bind x k) (bind x k').
Proof. intros H. destruct x; cbn [bind rel]; auto. Qed.
Section Opens.
Variable e : mpenv.
Hypothesis Ht : 0 <= mp_tid e.
Notation sb := (same_but_uploads (mp_tid e)).
Definition agree (x y : buf * fs) : Prop := fst x = fst y /\ sb (snd x) (snd y).
Lemma agree_pair t f g : sb f g -> rel agree (Ok (t, f)) (Ok (t, g)).
Proof. now split. Qed.
Lemma write_rel w f g p ptr off size : w_opens w = true -> sb f g -> upload_name (mp_tid e) p ->
  rel (fun a b => sb a (fst b)) (write_file f p ptr off size) (write_file_e w g p ptr off size).
Proof.
  intros W S U. unfold write_file, write_file_e. apply rel_same. intros n. cbv zeta. rewrite W, <- (sb_dir _ _ _ p S). cbn [negb]. rewrite orb_false_r.
  destruct (is_dir f p) eqn:D.
  - cbn [rel fst]. rewrite (sb_dir _ _ _ p S) in D. unfold is_file, is_dir in *. destruct (g p) as [[c|]|]; try discriminate. exact S.
  - apply rel_same. intros l. apply rel_same. intros d. cbn [rel fst]. apply sb_upd; auto; discriminate.
Qed.
Lemma save_rel w f g tf field sf td ds al : w_opens w = true -> sb f g ->
  rel agree (save_tmp_file e f tf field sf td ds al) (save_tmp_file_e w e g tf field sf td ds al).
Proof.
  intros W S. unfold save_tmp_file, save_tmp_file_e. cbv zeta. do 4 (apply rel_same; intros ?).
  destruct (md5sum _ _ _ _ _) as [m|] eqn:H3; [|reflexivity]. cbn [bind]. destruct (cstr m) as [s|] eqn:H4; [|reflexivity]. cbn [bind]. pose proof (md5_hexish _ _ _ _ _ _ _ H3 H4) as Os.
  destruct (fits 256 _) as [tmp|] eqn:H5; [|reflexivity]. cbn [bind]. apply fits_inv in H5 as [-> _]. destruct (fits _ _) as [tp|] eqn:H5; [|reflexivity]. cbn [bind]. apply fits_inv in H5 as [-> _].
  eapply rel_bind.
  - apply write_rel; [exact W|now apply sb_made|]. exists (dec_nat (mp_tid e)), s. split; [now apply dec_nat_decimal|]. split; [exact Os|reflexivity].
  - intros f2 (g2, ms) Q. cbn [fst] in Q. apply rel_same. intros t. now apply agree_pair.
Qed.
Lemma part_rel w f g tf td n : w_opens w = true -> sb f g -> rel agree (part_parse e f tf td n) (part_parse_e w e g tf td n).
Proof.
  intros W S. unfold part_parse, part_parse_e. cbv zeta. do 2 (apply rel_same; intros ?). destruct (_ <? 1); [now apply agree_pair|]. apply rel_same; intros ?.
  destruct (_ <=? 0); [now apply agree_pair|]. do 4 (apply rel_same; intros ?). apply rel_same; intros ds. do 2 (apply rel_same; intros ?). apply rel_same; intros sf.
  destruct (0 <? ds); [|now apply agree_pair]. destruct (0 <? sf); [now apply save_rel|]. do 3 (apply rel_same; intros ?). now apply agree_pair.
Qed.
Lemma loop_rel w : (forall z, w_opens (w z) = true) -> forall fuel f g form tp tf bd cl ptr, sb f g ->
  rel agree (multipart_loop fuel e f form tp tf bd cl ptr) (multipart_loop_e fuel w e g form tp tf bd cl ptr).
Proof.
  intros W. induction fuel as [|k IH]; intros f g form tp tf bd cl ptr S; cbn [multipart_loop multipart_loop_e];
    (destruct (ptr <? cl); [|now apply agree_pair]); apply rel_same; intros ps; (destruct (ps <? 0); [now apply agree_pair|]);
    apply rel_same; intros pe; (destruct (pe <? 0); [now apply agree_pair|]); cbv zeta; apply rel_same; intros tp1;
    (eapply rel_bind; [now apply part_rel|]); intros (t1, f1) (t2, g1) [E Q]; cbn [fst snd] in E, Q; subst t2; apply rel_same; intros tp2; [reflexivity|now apply IH].
Qed.
Lemma parse_rel w f form bd n : (forall z, w_opens (w z) = true) -> rel agree (multipart_parse e f form bd n) (multipart_parse_e w e f form bd n).
Proof.
  intros W. unfold multipart_parse, multipart_parse_e. eapply rel_bind.
  - apply loop_rel; [exact W|]. split; [reflexivity|intros; apply iff_refl].
  - intros (t1, f1) (t2, g1) [E Q]; cbn [fst snd] in E, Q; subst t2. do 2 (apply rel_same; intros ?). now apply agree_pair.
Qed.
End Opens.

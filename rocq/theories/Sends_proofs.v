(** Sends_proofs.v - lemmas about sending. *)
From Verif Require Import Base Lemmas HttpUtils HttpUtils_proofs Sends SpecConf SpecHttp SpecSends Spec.

Fixpoint pieces (ignored : bool) (n : list str -> str -> wrote) (before sends : list str) : list str :=
  match sends with
  | [] => []
  | d :: t => match n before d with Wrote m => firstn m d | Broken => [] end :: pieces ignored n (before ++ [d]) t
  end.

Lemma fold_alive n sends : forall a w, fold_left (do_send true n) sends (mkLink a w false)
  = mkLink (a ++ sends) (w ++ concat (pieces true n a sends)) false.
Proof.
  induction sends as [|d t IH]; intros a w; cbn [fold_left pieces concat].
  - now rewrite !app_nil_r.
  - unfold do_send at 2. cbn [k_killed k_asked k_arrived negb].
    destruct (n a d) as [m|]; rewrite IH, <- !app_assoc; reflexivity.
Qed.
Lemma transmit_eq n sends : transmit true n sends = mkLink sends (concat (pieces true n [] sends)) false.
Proof. unfold transmit. apply fold_alive. Qed.
Lemma arrived_eq n r : arrived n r = concat (pieces true n [] (r_sends r)).
Proof. unfold arrived, main_ignores_sigpipe. now rewrite transmit_eq. Qed.

Lemma prefix_firstn (m : nat) (d : str) : prefix (firstn m d) d.
Proof. exists (skipn m d). now rewrite firstn_skipn. Qed.
Lemma pieces_prefix n sends : forall a, Forall2 prefix (pieces true n a sends) sends.
Proof.
  induction sends as [|d t IH]; intros a; cbn [pieces]; constructor; auto.
  destruct (n a d); [apply prefix_firstn|]. exists d. reflexivity.
Qed.

(** A network that cuts the i-th send to a given length. *)
Definition cutter (ks : list nat) : list str -> str -> wrote := fun before _ => Wrote (nth (length before) ks 0%nat).
Lemma cutter_pieces sends : forall a ks ps, length a = length ks -> Forall2 prefix ps sends ->
  pieces true (cutter (ks ++ map (@length _) ps)) a sends = ps.
Proof.
  induction sends as [|d t IH]; intros a ks ps Ha H; inv H; [reflexivity|].
  cbn [pieces map]. unfold cutter at 1. rewrite app_nth2 by lia. replace (length a - length ks)%nat with 0%nat by lia. cbn [nth].
  match goal with H : prefix _ _ |- _ => destruct H as (y & ->) end. rewrite firstn_app, firstn_all, Nat.sub_diag, app_nil_r. f_equal.
  specialize (IH (a ++ [x ++ y]) (ks ++ [length x]) l). rewrite <- app_assoc in IH. apply IH; auto. rewrite !app_length. cbn. lia.
Qed.

Lemma complete_piece w d : complete w d -> match w with Wrote m => firstn m d | Broken => [] end = d.
Proof. intros (m & -> & H). now apply firstn_all2. Qed.
Lemma complete_dec w d : complete w d \/ ~ complete w d.
Proof.
  destruct w as [m|]; [|right; intros (m & E & _); discriminate].
  destruct (le_lt_dec (length d) m); [left; exists m; auto|right]. intros (m' & E & H). inv E. lia.
Qed.
Lemma nothing_pieces n sends : forall a, (forall l e, nothing (n (a ++ l) e)) -> concat (pieces true n a sends) = [].
Proof.
  induction sends as [|d t IH]; intros a H; [reflexivity|]. cbn [pieces concat].
  rewrite IH by (intros l e; rewrite <- app_assoc; apply H). rewrite app_nil_r.
  destruct (H [] d) as [E|E]; rewrite app_nil_r in E; now rewrite E.
Qed.
Lemma final_pieces n sends : final n -> forall a, prefix (concat (pieces true n a sends)) (concat sends).
Proof.
  intros F. induction sends as [|d t IH]; intros a; cbn [pieces concat]; [exists []; reflexivity|].
  destruct (complete_dec (n a d) d) as [C|C].
  - rewrite (complete_piece _ _ C). destruct (IH (a ++ [d])) as (y & ->). exists y. now rewrite app_assoc.
  - rewrite nothing_pieces, app_nil_r.
    + destruct (n a d); [|eexists; reflexivity]. destruct (prefix_firstn n0 d) as (y & E). exists (y ++ concat t). now rewrite app_assoc, <- E.
    + intros l e. rewrite <- app_assoc. now apply F.
Qed.

Lemma prefix_len (p s : str) : prefix p s -> len p <= len s /\ (len p = len s -> p = s).
Proof.
  intros (t & ->). rewrite len_app. assert (0 <= len t) by (lens; lia). split; [lia|]. intros E.
  assert (len t = 0) by lia. destruct t; [now rewrite app_nil_r|]. rewrite len_cons in *. pose proof (len_nonneg _ t). lia.
Qed.
Lemma prefixes_len ps sends : Forall2 prefix ps sends -> len (concat ps) <= len (concat sends) /\ (len (concat ps) = len (concat sends) -> ps = sends).
Proof.
  induction 1 as [|p s ps ss P _ [IH1 IH2]]; [split; [reflexivity|auto]|]. cbn [concat]. rewrite !len_app.
  destruct (prefix_len _ _ P) as [P1 P2]. split; [lia|]. intros E. f_equal; [apply P2|apply IH2]; lia.
Qed.

Lemma killed_stays n sends k : k_killed k = true -> fold_left (do_send false n) sends k = k.
Proof. intros H. induction sends as [|d t IH]; [reflexivity|]. cbn [fold_left]. unfold do_send at 2. rewrite H. exact IH. Qed.
Lemma killed_iff n sends : forall a w, k_killed (fold_left (do_send false n) sends (mkLink a w false)) = true
  <-> exists x d y, sends = x ++ d :: y /\ n (a ++ x) d = Broken.
Proof.
  induction sends as [|d t IH]; intros a w; cbn [fold_left].
  - split; [discriminate|]. intros ([|? ?] & ? & ? & E & _); discriminate.
  - unfold do_send at 2. cbn [k_killed k_asked k_arrived negb]. destruct (n a d) as [m|] eqn:E.
    + rewrite IH. split.
      * intros (x & e & y & -> & H). exists (d :: x), e, y. rewrite <- app_assoc in H. auto.
      * intros (x & e & y & X & H). destruct x as [|d' x]; inv X; [rewrite app_nil_r in H; congruence|]. exists x, e, y. rewrite <- app_assoc. auto.
    + rewrite killed_stays by reflexivity. split; [|reflexivity]. intros _. exists [], d, t. rewrite app_nil_r. auto.
Qed.

Lemma complete_iff n sends : forall a, concat (pieces true n a sends) = concat sends
  <-> forall before d later, sends = before ++ d :: later -> d = [] \/ complete (n (a ++ before) d) d.
Proof.
  intros a. split.
  - intros E. assert (P : pieces true n a sends = sends) by (apply prefixes_len; [apply pieces_prefix|now rewrite E]). clear E.
    revert a P. induction sends as [|x t IH]; intros a P before d later E; [destruct before; discriminate|].
    cbn [pieces] in P. assert (P1 : match n a x with Wrote m => firstn m x | Broken => [] end = x) by congruence. injection P as _ P2.
    destruct before as [|b before]; inv E.
    + rewrite app_nil_r. destruct (n a d) as [m|]; [|left; congruence]. right. exists m. split; [reflexivity|].
      rewrite <- P1. apply firstn_le_length.
    + specialize (IH _ P2 before d later eq_refl). rewrite <- app_assoc in IH. exact IH.
  - revert a. induction sends as [|x t IH]; intros a H; [reflexivity|]. cbn [pieces concat]. rewrite IH.
    + f_equal. destruct (H [] x t eq_refl) as [->|C]; [destruct (n a []); [apply firstn_nil|reflexivity]|]. rewrite app_nil_r in C. now apply complete_piece.
    + intros before d later ->. rewrite <- app_assoc. exact (H (x :: before) d later eq_refl).
Qed.

Lemma file_start_eq name sess : header_sends name sess = file_start (get_content_type name) sess.
Proof.
  unfold header_sends, file_start. destruct sess; [reflexivity|]. cbn [session_lines flat_map]. rewrite app_nil_r, <- !app_assoc. reflexivity.
Qed.

Lemma mime_len mime : len (get_content_type_for_mime mime) <= 100.
Proof. unfold get_content_type_for_mime. repeat (match goal with |- context [if ?b then _ else _] => destruct b end; try (vm_compute; discriminate)). Qed.
Lemma mime_sends r status line mime : supported status line ->
  let head := line ++ CRLF ++ flat_map (fun h => h ++ CRLF) (server :: cors) ++ get_content_type_for_mime mime in
  exists r', return_headers_with_mime r status mime = Ok (len head, r') /\ same_request r r' /\ r_log r' = r_log r
  /\ r_response_length r' = r_response_length r /\ r_sends r' = r_sends r ++ [head].
Proof.
  intros H head. destruct (supported_index _ _ H) as (I & S & Hl). unfold return_headers_with_mime.
  replace (find_http_status_index status =? -1) with false by (symmetry; now apply Z.eqb_neq).
  rewrite S. replace ((line ++ CRLF) ++ WAYUU_HTTP_SERVER_STRING ++ HTTP_ACCESS_CONTROL ++ get_content_type_for_mime mime) with head.
  - rewrite fits_ok.
    + cbn [bind]. eexists. split; [reflexivity|]. repeat split.
    + unfold head. pose proof (mime_len mime). rewrite !len_app, len_CRLF.
      match goal with |- context [flat_map ?f ?l] => assert (len (flat_map f l) <= 300) by (vm_compute; discriminate) end. lia.
  - unfold head. cbn [flat_map cors]. rewrite <- !app_assoc. reflexivity.
Qed.

(** The length promised by a JSON response against what comes. *)
Lemma pieces_two n a b c d : complete (n [] a) a -> complete (n [a] b) b ->
  exists p q, prefix p c /\ prefix q d /\ concat (pieces true n [] [a; b; c; d]) = a ++ b ++ p ++ q.
Proof.
  intros A B. cbn [pieces app concat]. rewrite (complete_piece _ _ A), (complete_piece _ _ B), app_nil_r.
  eexists _, _. split; [|split; [|reflexivity]].
  - destruct (n [a; b] c); [apply prefix_firstn|exists c; reflexivity].
  - destruct (n [a; b; c] d); [apply prefix_firstn|exists d; reflexivity].
Qed.

Lemma lines_drop m ls1 : forall c l ls2, lines m c (ls1 ++ l :: ls2) -> exists c', lines m c' (ls1 ++ ls2).
Proof.
  induction ls1 as [|x ls1 IH]; intros c l ls2 H; cbn [app] in *.
  - inversion H; subst; eauto. exists []. constructor.
  - inversion H; subst.
    + destruct ls1; discriminate.
    + match goal with K : lines _ _ (ls1 ++ _) |- _ => destruct (IH _ _ _ K) as (c' & C) end. eexists. apply lines_nl; eauto.
    + match goal with K : lines _ _ (ls1 ++ _) |- _ => destruct (IH _ _ _ K) as (c' & C) end. eexists. apply lines_full; eauto.
Qed.
Lemma cut_last_at k hd c : forall a m, (length a + length hd)%nat = m ->
  concat (pieces true (fun b d => if Nat.ltb (length b) m then Wrote (length d) else Wrote (if Nat.eqb (length b) m then k else 0)) a (hd ++ [c]))
  = concat (hd ++ [firstn k c]).
Proof.
  induction hd as [|h hd IH]; intros a m E; cbn [app pieces concat length] in *.
  - replace (Nat.ltb _ _) with false by (symmetry; apply Nat.ltb_ge; lia). replace (Nat.eqb _ _) with true by (symmetry; apply Nat.eqb_eq; lia). reflexivity.
  - replace (Nat.ltb _ _) with true by (symmetry; apply Nat.ltb_lt; lia). rewrite firstn_all, IH; [reflexivity|]. rewrite app_length. cbn. lia.
Qed.
Lemma cut_last k hd c :
  concat (pieces true (fun b d => if Nat.ltb (length b) (length hd) then Wrote (length d) else Wrote (if Nat.eqb (length b) (length hd) then k else 0)) [] (hd ++ [c]))
  = concat hd ++ concat [firstn k c].
Proof. rewrite cut_last_at by reflexivity. apply concat_app. Qed.

(** Properties_Decode.v - C100: the multipart decoder on every body (/repo/ws.c:165-277). *)
From Verif Require Import WsMultipart Lemmas WsMultipart_proofs Decode_proofs Properties_Multipart SpecMultipart SpecReq SpecDecode Spec.

(** C100.  The decoder has a defined effect exactly on the bodies that have a form text; then the form
    holds that text, at the start of the block of the body, and no file is touched. *)
Theorem C100_exactly : forall e f bnd body, mp_md5_size e = MD5_BUF -> no_nul bnd -> 2 <= len bnd -> len body < 2 ^ 31 ->
  (forall form f', multipart_parse e f (cs body) bnd (len body) = Ok (form, f')
     <-> f' = f /\ exists text, form_text bnd body text /\ form = cs text ++ skipn (S (length text)) (cs body))
  /\ (undefined (multipart_parse e f (cs body) bnd (len body)) <-> ~ exists text, form_text bnd body text).
Proof.
  intros e f bnd body Hm Hn H2 Hl. assert (M : mp_md5_size e <= 128) by (rewrite Hm; unfold MD5_BUF; lia).
  destruct (decode_exact e f bnd body M Hn H2 Hl) as [(text & D & N & L & E)|(ND & u & E)]; rewrite E; split.
  - intros form f'. split.
    + intros H. injection H as <- <-. split; [reflexivity|]. eauto.
    + intros (-> & text' & D' & ->). now rewrite (decoded_det _ _ _ _ _ _ _ D D').
  - split; [intros (x & H); discriminate|]. intros H. elim H. eauto.
  - intros form f'. split; [discriminate|]. intros (_ & text & D & _). now elim (ND text).
  - split; [|now exists u]. intros _ (text & D). now elim (ND text).
Qed.
Print Assumptions C100_exactly.
(** There is at most one such text; it contains no NUL and is not longer than the body. *)
Theorem C100_one_text : forall bnd body text, no_nul bnd -> 2 <= len bnd -> len body < 2 ^ 31 -> form_text bnd body text ->
  no_nul text /\ len text <= len body /\ forall text', form_text bnd body text' -> text' = text.
Proof.
  intros bnd body text Hn H2 Hl D.
  destruct (decode_exact (mkMpenv (fun s => s) 0 true MD5_BUF) (fun _ => None) bnd body ltac:(vm_compute; discriminate) Hn H2 Hl) as [(text' & D' & N & L & E)|(ND & _)];
    [|now elim (ND text)]. rewrite (decoded_det _ _ _ _ _ _ _ D D'). split; [exact N|]. split; [exact L|].
  intros t'' D''. exact (decoded_det _ _ _ _ _ _ _ D'' D').
Qed.
Print Assumptions C100_one_text.
(** For the bodies of C52 it is the text promised there. *)
Theorem C100_clean : forall pre bnd xs tail, clean_boundary bnd -> clean_preamble bnd pre -> Forall (clean_field bnd) xs -> 2 <= len bnd ->
  ~ holds bnd tail -> len (body_of pre bnd xs tail) < 2 ^ 31 -> form_text bnd (body_of pre bnd xs tail) (form_of xs).
Proof.
  intros pre bnd xs tail Hb Hp Hx H2 Ht Hl. set (e := mkMpenv (fun s => s) 0 true MD5_BUF).
  destruct (C52_fields e (fun _ => None) pre bnd xs tail Hb Hp Hx Ht Hl) as (form & E & Hf & _).
  assert (Nb : no_nul bnd) by apply Hb.
  destruct (C100_exactly e (fun _ => None) bnd (body_of pre bnd xs tail) eq_refl Nb H2 Hl) as (X & _).
  apply X in E as (_ & text & D & ->). destruct (C100_one_text _ _ _ Nb H2 Hl D) as (N & _). rewrite cstr_cs in Hf by exact N. congruence.
Qed.
Print Assumptions C100_clean.

(** The form is not always shorter than the body it is made of: if the blank line precedes the name,
    the name is part of the value, too, and everything behind it is counted twice.  More than
    2 * len bnd + 5 bytes are too many for the block of the form. *)
Definition doubled (bnd x : str) : str := bnd ++ (SpecMultipart.blank_line ++ name_mark ++ x ++ CRLF) ++ bnd.
Lemma mark_free x : ~ In SP x -> ~ holds filename_mark (SpecMultipart.blank_line ++ name_mark ++ x ++ CRLF).
Proof.
  intros Hx. change (SpecMultipart.blank_line ++ name_mark ++ x ++ CRLF) with ((SpecMultipart.blank_line ++ L "form-da") ++ "t"%char :: L "a; name=" ++ [DQ] ++ x ++ CRLF).
  apply apart; [apply text_without; reflexivity|apply not_holds_dec; reflexivity|]. intros (a & b & E).
  assert (NS : ~ In SP (L "name=" ++ [DQ] ++ x ++ CRLF)).
  { intros I. apply in_app_or in I as [I|I]; [revert I; apply text_without; reflexivity|]. apply in_app_or in I as [I|I]; [revert I; apply text_without; reflexivity|].
    apply in_app_or in I as [I|I]; [auto|revert I; apply text_without; reflexivity]. }
  destruct a as [|c0 a]; [discriminate|]. destruct a as [|c1 a]; [discriminate|]. injection E as _ _ E.
  destruct a as [|c2 a]; [discriminate|]. injection E as _ E. apply NS. change (L "name=" ++ [DQ] ++ x ++ CRLF) with (L "name=" ++ [DQ] ++ x ++ CRLF) in E.
  cbn [app L list_ascii_of_string]. rewrite E. apply in_or_app. right. right. now left.
Qed.
Lemma doubled_text bnd x : no_nul bnd -> 2 <= len bnd -> Forall (fun c => 35 <= code c <= 127) x ->
  first_boundary bnd (SpecMultipart.blank_line ++ name_mark ++ x ++ CRLF) [] ->
  forall text, form_text bnd (doubled bnd x) text <-> (text = x ++ L "=" ++ name_mark ++ x /\ len x <= 2 * len bnd + 5).
Proof.
  intros Hn H2 Hx HF. set (p := SpecMultipart.blank_line ++ name_mark ++ x ++ CRLF) in *.
  assert (Hne : bnd <> []) by (intros ->; change (len (@nil ascii)) with 0 in H2; lia).
  assert (Nx : no_nul x) by (eapply Forall_impl; [|exact Hx]; intros c [Hc _] ->; apply Hc; reflexivity).
  assert (Sx : ~ In SP x) by (intros I; rewrite Forall_forall in Hx; destruct (Hx _ I) as [Hc _]; apply Hc; reflexivity).
  assert (Np : no_nul p) by (unfold p; apply no_nul_app; split; [apply no_nul_dec_b; reflexivity|]; apply no_nul_app; split; [apply no_nul_dec_b; reflexivity|]; apply no_nul_app; split; [exact Nx|apply no_nul_dec_b; reflexivity]).
  assert (Lp : len p = 23 + len x) by (unfold p; rewrite !len_app; change (len SpecMultipart.blank_line) with 4; change (len name_mark) with 17; change (len CRLF) with 2; lia).
  assert (Ln : len (doubled bnd x) = 2 * len bnd + 23 + len x) by (unfold doubled; fold p; rewrite !len_app; lia).
  set (n := len (doubled bnd x)) in *. set (old := repeat NUL (S (length (doubled bnd x)))).
  assert (F : first_of bnd (doubled bnd x) [] (p ++ bnd)) by (split; [reflexivity|intros; cbn; lia]).
  assert (F1 : first_of bnd (p ++ bnd) p []).
  { split; [now rewrite app_nil_r|]. intros a b E. apply (HF a b). now rewrite app_nil_r. }
  assert (ST : seen_as (laid p old) p).
  { split; [exact Np|]. right. unfold laid, old. exists (repeat NUL (length (doubled bnd x) - length p)).
    f_equal. assert (G : forall k m, (k <= m)%nat -> skipn k (repeat NUL (S m)) = NUL :: repeat NUL (m - k)).
    { induction k as [|k IH]; intros m Hk; [now rewrite Nat.sub_0_r|]. destruct m as [|m]; [lia|]. cbn [Nat.sub]. rewrite <- IH by lia. reflexivity. }
    apply G. unfold n in Ln. lens. unfold len in *. lia. }
  assert (FN : first_of name_mark p SpecMultipart.blank_line (x ++ CRLF)).
  { split; [reflexivity|]. intros a b E. unfold p in E. do 4 (destruct a as [|? a]; [discriminate E|injection E as _ E]). cbn. lia. }
  assert (FB : first_of SpecMultipart.blank_line p [] ((name_mark ++ x) ++ [CR; LF])).
  { split; [unfold p; now rewrite <- app_assoc|]. intros a b E. cbn. lia. }
  assert (SV : seen_as (name_mark ++ x) (name_mark ++ x)) by (split; [|now left]; apply no_nul_app; split; [apply no_nul_dec_b; reflexivity|exact Nx]).
  assert (V : visible (x ++ CRLF) = x) by (apply (proj2 (C52_name (x ++ CRLF)) x CR [LF]); [reflexivity|exact Hx|left; reflexivity]).
  assert (LT : len (x ++ L "=" ++ name_mark ++ x) = 2 * len x + 18) by (rewrite !len_app; change (len (L "=")) with 1; change (len name_mark) with 17; lia).
  destruct (cleared_exists (laid p old)) as (next & C).
  { destruct ST as (_ & [E|(r & E)]); rewrite E; [|apply in_or_app; right; now left]. apply (f_equal len) in E. unfold laid in E. rewrite len_app, len_skipn in E.
    unfold old in E. rewrite len_repeat in E. unfold n in Ln. unfold len in *. lia. }
  assert (F2 : exists p', p ++ bnd = CR :: p' ++ bnd /\ first_of bnd (p' ++ bnd) p' []).
  { eexists. split; [reflexivity|]. split; [now rewrite app_nil_r|]. intros a b E. destruct F1 as (_ & M). specialize (M (CR :: a) b). cbn [app] in M. rewrite <- E in M.
    specialize (M eq_refl). unfold p in M. cbn [app length SpecMultipart.blank_line CRLF] in M |- *. lia. }
  destruct F2 as (p' & E2 & F2). assert (N0 : ~ holds bnd []) by (apply free_nil; exact Hne).
  intros text. unfold form_text. fold n old. split.
  - intros D. inversion D as [? ? ? N'|? a' q' ? ? F' N'|? a' s1' p1 q' c' rest' ? next' ? out1' ? F' F1' G' C' E' D']; subst s old0.
    + exfalso. apply N'. eapply first_of_holds. exact F.
    + exfalso. destruct (first_of_unique _ _ _ _ _ _ F F') as [<- <-]. apply N'. eapply first_of_holds. exact F1.
    + destruct (first_of_unique _ _ _ _ _ _ F F') as [<- <-]. destruct (first_of_unique _ _ _ _ _ _ F1 F1') as [<- <-].
      rewrite E2 in E'. injection E' as <- <-.
      assert (T : text = out1').
      { inversion D' as [? ? ? N'|? a' q' ? ? F3 N'|? a' s1' p1 q' c' rest' ? ? ? ? ? F3 F4]; subst; auto.
        destruct (first_of_unique _ _ _ _ _ _ F2 F3) as [<- Z]. rewrite <- Z in F4. elim N0. eapply first_of_holds. exact F4. }
      subst out1'. clear D'. destruct G' as [T1 S1 N1|T1 a1 S1 F4|T1 a1 b1 m1 S1 F4 B1 P1 X1 L1|T1 a1 b1 m1 c1 v1 x1 y1 V1 S1 F4 B1 P1 X1 K1 U1 L1];
        pose proof (seen_unique _ _ _ ST S1) as <-.
      * elim N1. eapply first_of_holds. exact FN.
      * destruct (first_of_unique _ _ _ _ _ _ FN F4) as [_ Z]. destruct x; discriminate.
      * exfalso. destruct FB as (FB & _). specialize (X1 [] (((name_mark ++ x) ++ [CR; LF]) ++ skipn (length p) old)).
        unfold laid in X1. rewrite FB in X1 at 1. rewrite <- !app_assoc in X1. specialize (X1 eq_refl). change (len (@nil ascii)) with 0 in X1. lens. lia.
      * destruct (first_of_unique _ _ _ _ _ _ FN F4) as [<- _]. destruct (first_of_unique _ _ _ _ _ _ FB K1) as [<- Z]. apply app_two in Z. subst v1.
        rewrite <- (seen_unique _ _ _ SV U1) in *. apply app_inv_head in P1. apply app_inv_head in P1. subst m1.
        cbn [opened app] in L1 |- *. rewrite V in L1 |- *. split; [reflexivity|]. rewrite LT in L1. lia.
  - intros (-> & Lx). eapply de_part; [exact F|exact F1| |exact C|exact E2|eapply de_last; [exact F2|exact N0]].
    assert (G : part_gives n (laid p old) p [] (opened [] ++ visible (x ++ CRLF) ++ L "=" ++ name_mark ++ x)).
    { apply (pg_value _ _ _ _ p SpecMultipart.blank_line (x ++ CRLF) (x ++ CRLF) [] (name_mark ++ x) CR LF (name_mark ++ x)); auto; [destruct x; discriminate|now apply mark_free|].
      cbn [opened app]. rewrite V, LT. lia. }
    cbn [opened app] in G. rewrite V in G. exact G.
Qed.
Theorem C100_doubled : forall e f bnd x, mp_md5_size e = MD5_BUF -> no_nul bnd -> 2 <= len bnd -> len (doubled bnd x) < 2 ^ 31 ->
  Forall (fun c => 35 <= code c <= 127) x -> first_boundary bnd (SpecMultipart.blank_line ++ name_mark ++ x ++ CRLF) [] ->
  (forall text, form_text bnd (doubled bnd x) text <-> text = x ++ L "=" ++ name_mark ++ x /\ len x <= 2 * len bnd + 5)
  /\ (undefined (multipart_parse e f (cs (doubled bnd x)) bnd (len (doubled bnd x))) <-> 2 * len bnd + 5 < len x).
Proof.
  intros e f bnd x Hm Hn H2 Hl Hx HF. pose proof (doubled_text bnd x Hn H2 Hx HF) as T. split; [exact T|].
  destruct (C100_exactly e f bnd (doubled bnd x) Hm Hn H2 Hl) as (_ & ->). split.
  - intros N. destruct (Z_le_dec (len x) (2 * len bnd + 5)) as [G|G]; [|lia]. elim N. eexists. apply T. split; [reflexivity|exact G].
  - intros G (text & D). apply T in D as (_ & D). lia.
Qed.
Print Assumptions C100_doubled.
(** One byte more does not fit; it is written behind the block. *)
Example C100_case :
  let e := mkMpenv (fun s => s) 7 true MD5_BUF in
  let run b := match multipart_parse e (fun _ => None) (cs b) (L "--X") (len b) with Ok (form, _) => cstr form | UB u => UB u end in
  first_boundary (L "--X") (SpecMultipart.blank_line ++ name_mark ++ repeat "x"%char 12 ++ CRLF) []
  /\ run (doubled (L "--X") (repeat "x"%char 11)) = Ok (repeat "x"%char 11 ++ L "=form-data; name=" ++ [DQ] ++ repeat "x"%char 11)
  /\ run (doubled (L "--X") (repeat "x"%char 12)) = UB OobWrite
  (* the second part is empty: the name is found in what is left of the first one; two bytes overwrite its mark *)
  /\ run (L "--Xform-data; name=" ++ [DQ] ++ L "abc" ++ [DQ] ++ CRLF ++ CRLF ++ L "v" ++ CRLF ++ L "--X" ++ CRLF ++ L "--X") = Ok (L "abc=v")
  /\ run (L "--Xform-data; name=" ++ [DQ] ++ L "abc" ++ [DQ] ++ CRLF ++ CRLF ++ L "v" ++ CRLF ++ L "--X--X") = UB BadSize
  (* fields without a blank line leave only their separator *)
  /\ run (L "--X" ++ name_mark ++ L "a--X" ++ name_mark ++ L "b" ++ CRLF ++ CRLF ++ L "12" ++ CRLF ++ L "--X" ++ name_mark ++ L "c--X") = Ok (L "b=12&").
Proof.
  cbv zeta. split.
  - intros a b E. destruct (le_lt_dec (length (SpecMultipart.blank_line ++ name_mark ++ repeat "x"%char 12 ++ CRLF)) (length a)) as [|G]; [auto|].
    exfalso. revert G E. do 35 (destruct a as [|? a]; [intros _ E; vm_compute in E; discriminate E|intros G E; injection E as _ E; revert G E]). intros G. cbn in G. lia.
  - repeat split; vm_compute; reflexivity.
Qed.

(** DefinedApi_proofs.v - lemmas about when a request to the API has a defined effect (/repo/ws.c, router.c). *)
From Verif Require Memory_proofs.
From Verif Require Import WsRequest Lemmas StringUtils_proofs ConfParser_proofs WsMultipart_proofs HttpUtils_proofs WsConn_proofs WsRequest_proofs
  WsDispatch_proofs Router_proofs Log_proofs WsApi_proofs ReqHeap_proofs Defined_proofs Properties_Request Properties_Multipart Decode_proofs
  SpecMultipart SpecJson SpecHttp SpecConn SpecReq SpecRouter SpecDispatch SpecApi SpecDefined SpecDecode SpecDefinedApi Spec.

(** ** Numbers *)
Lemma to_int_mod z k : - 2 ^ 31 <= z + k * 2 ^ 32 < 2 ^ 31 -> to_int z = z + k * 2 ^ 32.
Proof.
  intros H. unfold to_int. replace (z + 2 ^ 31) with ((z + k * 2 ^ 32 + 2 ^ 31) + (- k) * 2 ^ 32) by lia.
  rewrite Z.mod_add by lia. rewrite Z.mod_small by lia. lia.
Qed.
Lemma atoi_is s n : atoi_gives s n -> atoi s = n.
Proof.
  intros (b & sign & d & r & z & k & -> & Hb & Hs & Hd & Hr & H0 & Ez & En & Hn).
  assert (F : to_int (Z.max long_min (Z.min long_max z)) = n) by (rewrite En; apply to_int_mod; unfold long_min, long_max; lia).
  assert (T : take_while isdigit (d ++ r) = d).
  { rewrite take_while_app by auto. rewrite take_while_stop; [apply app_nil_r|]. destruct r; auto. eapply Hr; eauto. }
  unfold atoi. rewrite drop_while_app.
  2:{ eapply Forall_impl; [|exact Hb]. intros c. apply isspace_blank. }
  destruct Hs as [<-|[<-|[<-|[]]]].
  - cbn [app]. rewrite drop_while_stop.
    + assert (Z : (let '(neg, s2) := match d ++ r with
                    | c :: t => if ceq c "-" then (true, t) else if ceq c "+" then (false, t) else (false, d ++ r)
                    | [] => (false, d ++ r) end in (neg, s2)) = (false, d ++ r)).
      { destruct d as [|c d].
        - cbn [app]. destruct r as [|c r]; [reflexivity|]. destruct (H0 eq_refl eq_refl c r eq_refl) as (_ & N1 & N2).
          now rewrite (ceq_neq _ _ N1), (ceq_neq _ _ N2).
        - cbn [app]. inv Hd. rewrite (ceq_neq c "-"), (ceq_neq c "+"); [reflexivity| |]; intros ->; discriminate. }
      destruct (match d ++ r with [] => _ | _ => _ end) as [neg s2]. inversion Z; subst neg s2. rewrite T, dec_value.
      destruct (list_eq_dec ascii_dec [] (L "-")) as [X|_]; [discriminate|]. now rewrite <- Ez.
    + destruct d as [|c d]; cbn [app].
      * destruct r as [|c r]; auto. destruct (H0 eq_refl eq_refl c r eq_refl) as (N & _). apply not_true_is_false. now rewrite isspace_blank.
      * inv Hd. apply not_true_is_false. rewrite isspace_blank. intros X. unfold blank in X. cbn in X.
        repeat (destruct X as [<-|X]; [discriminate|]). easy.
  - change (L "-" ++ d ++ r) with ("-"%char :: d ++ r). rewrite drop_while_stop by reflexivity.
    change (ceq "-" "-") with true. cbv iota beta. rewrite T, dec_value.
    destruct (list_eq_dec ascii_dec (L "-") (L "-")) as [_|X]; [|congruence]. now rewrite <- Ez.
  - change (L "+" ++ d ++ r) with ("+"%char :: d ++ r). rewrite drop_while_stop by reflexivity.
    change (ceq "+" "-") with false. change (ceq "+" "+") with true. cbv iota beta. rewrite T, dec_value.
    destruct (list_eq_dec ascii_dec (L "+") (L "-")) as [X|_]; [discriminate|]. now rewrite <- Ez.
Qed.
Lemma span_exists (P : ascii -> Prop) (D : forall c, {P c} + {~ P c}) s : exists a r, s = a ++ r /\ Forall P a /\ forall c t, r = c :: t -> ~ P c.
Proof.
  induction s as [|c s (a & r & -> & Ha & Hr)]; [exists [], []; split; [reflexivity|]; split; [constructor|discriminate]|].
  destruct (D c) as [Hc|Hc].
  - exists (c :: a), r. split; [reflexivity|]. split; [constructor; auto|exact Hr].
  - exists [], (c :: a ++ r). split; [reflexivity|]. split; [constructor|]. intros c' t E. now injection E as <- _.
Qed.
Lemma atoi_exists s : exists n, atoi_gives s n.
Proof.
  destruct (span_exists blank (fun c => in_dec ascii_dec c _) s) as (b & s1 & -> & Hb & Hs1).
  assert (X : exists sign s2, s1 = sign ++ s2 /\ In sign [[]; L "-"; L "+"] /\ (sign = [] -> forall c t, s2 = c :: t -> ~ blank c /\ c <> "-"%char /\ c <> "+"%char)).
  { destruct s1 as [|c s1]; [exists [], []; split; [reflexivity|]; split; [now left|discriminate]|].
    destruct (ascii_dec c "-"%char) as [->|N1]; [exists (L "-"), s1; split; [reflexivity|]; split; [right; now left|discriminate]|].
    destruct (ascii_dec c "+"%char) as [->|N2]; [exists (L "+"), s1; split; [reflexivity|]; split; [right; right; now left|discriminate]|].
    exists [], (c :: s1). split; [reflexivity|]. split; [now left|]. intros _ c' t E. injection E as <- _. split; [eapply Hs1; reflexivity|auto]. }
  destruct X as (sign & s2 & -> & Hs & H2).
  destruct (span_exists (fun c => digit c = true) (fun c => Bool.bool_dec _ _) s2) as (d & r & -> & Hd & Hr).
  set (z := if list_eq_dec ascii_dec sign (L "-") then - value_of_digits 0 d else value_of_digits 0 d).
  set (y := Z.max (- 2 ^ 63) (Z.min (2 ^ 63 - 1) z)).
  exists (y + (- ((y + 2 ^ 31) / 2 ^ 32)) * 2 ^ 32), b, sign, d, r, z, (- ((y + 2 ^ 31) / 2 ^ 32)).
  split; [reflexivity|]. split; [exact Hb|]. split; [exact Hs|]. split; [exact Hd|].
  split; [intros c t E; apply not_true_is_false; eapply Hr; exact E|]. split; [intros E1 ->; exact (H2 E1)|].
  split; [reflexivity|]. split; [reflexivity|]. pose proof (Z.mod_pos_bound (y + 2 ^ 31) (2 ^ 32) ltac:(lia)) as B.
  pose proof (Z.div_mod (y + 2 ^ 31) (2 ^ 32) ltac:(lia)) as B2. lia.
Qed.

(** ** What the headers announce *)
Lemma zbuf_bytes b l s rest : zbuf b -> line_of 1024 s l rest -> exists st, get_line s b 1024 = Ok (len l, map Some (l ++ NUL :: st), rest).
Proof.
  intros Hz Hl. pose proof (zbuf_len _ Hz) as Lb. pose proof Hl as (_ & Hle & _).
  rewrite (get_line_eq 1024 s l rest b Hl) by lia. destruct Hz as (x & -> & Hx). exists (skipn (S (length l)) (x ++ [NUL])).
  rewrite skipn_map. unfold cs. rewrite map_app. cbn [map]. now rewrite <- app_assoc.
Qed.
Lemma prefix_15 s : ci_prefix (L "Content-Length:") s -> (15 <= length s)%nat.
Proof. intros P. apply ci_prefix_len in P. change (len (L "Content-Length:")) with 15 in P. unfold len in P. lia. Qed.
Lemma take_size l t st x x' : seen_as l t -> tells_size l t x x' -> take_length (map Some (l ++ NUL :: st)) x = Ok x'.
Proof.
  intros S T. assert (E : exists st', map Some (l ++ NUL :: st) = cs t ++ map (@Some ascii) st').
  { destruct S as (Hn & [->|(r & ->)]); [exists st|exists (r ++ NUL :: st)]; unfold cs; rewrite !map_app; cbn [map]; rewrite <- !app_assoc; reflexivity. }
  destruct E as (st' & E). assert (Hn : no_nul t) by apply S. unfold take_length. rewrite E. sw r Hr. rewrite <- E.
  destruct T as [(T & ->)|(T & r' & u & (h & -> & Lh) & Hu & Ha)].
  - destruct r; [exfalso; apply T, Hr; auto|reflexivity].
  - destruct r; [|apply Hr in T; discriminate]. rewrite <- app_assoc, map_app.
    rewrite (from_app (map Some h)) by (unfold len; rewrite map_length, Lh; reflexivity).
    assert (Eu : exists su, map Some (r' ++ NUL :: st) = cs u ++ map (@Some ascii) su).
    { destruct Hu as (_ & [->|(r & ->)]); [exists st|exists (r ++ NUL :: st)]; unfold cs; rewrite !map_app; cbn [map]; rewrite <- !app_assoc; reflexivity. }
    destruct Eu as (su & ->). rewrite cstr_cs by apply Hu. cbn [bind]. now rewrite (atoi_is _ _ Ha).
Qed.
Lemma line_announces h h1 t st b1 : header_line h = Ok h1 -> hs_buf h = cs t ++ st -> no_nul t -> tells_boundary t (hs_boundary h) b1 ->
  take_length (hs_buf h) (hs_length h) = Ok (hs_length h1) /\ hs_boundary h1 = b1 /\ hs_stream h1 = hs_stream h.
Proof.
  intros H E N Tb. unfold header_line in H. rewrite E in H |- *. apply bind_ok_inv in H as (hs & _ & H). apply bind_ok_inv in H as (ct & _ & H).
  rewrite (take_boundary_eq t st _ _ N Tb) in H. cbn [bind] in H. apply bind_ok_inv in H as (cl & C & H).
  apply bind_ok_inv in H as ((ip & b2) & _ & H). apply bind_ok_inv in H as (s1 & _ & H). apply bind_ok_inv in H as (s2 & _ & H).
  injection H as <-. auto.
Qed.
Lemma bare_text s : ci_equal (L "Content-Length:") s ->
  line_of 1024 s s [] /\ s <> [] /\ ~ SpecReq.blank_line s /\ seen_as s s /\ ci_prefix (L "Content-Length:") s /\ (forall b, tells_boundary s b b) /\ length s = 15%nat.
Proof.
  intros E. assert (P : ci_prefix (L "Content-Length:") s) by (exists s, []; rewrite app_nil_r; auto).
  assert (Ls : length s = 15%nat) by (apply Forall2_length in E; exact (eq_sym E)).
  assert (Nc : forall c, In c s -> exists d, In d (L "Content-Length:") /\ tolower d = tolower c).
  { apply ci_equal_lower in E. intros c I. apply (in_map tolower) in I. rewrite E in I. apply in_map_iff in I as (d & D1 & D2). eauto. }
  assert (N0 : ~ In NUL s). { intros I. destruct (Nc _ I) as (d & D & Q). repeat (destruct D as [<-|D]; [discriminate Q|]). destruct D. }
  assert (N1 : ~ In LF s). { intros I. destruct (Nc _ I) as (d & D & Q). repeat (destruct D as [<-|D]; [discriminate Q|]). destruct D. }
  split; [split; [now rewrite app_nil_r|]; split; [unfold len; rewrite Ls; lia|right; auto]|].
  split; [intros ->; discriminate Ls|]. split; [intros [-> | ->]; discriminate Ls|].
  split; [split; [apply Forall_forall; intros c I ->; exact (N0 I)|now left]|]. split; [exact P|]. split; [|exact Ls].
  intros b. left. split; [|reflexivity]. left. intros Q. apply ci_prefix_len in Q. change (len form_data) with 33 in Q. unfold len in Q. rewrite Ls in Q. lia.
Qed.
Lemma announced_end n b n' b' after : announced [] n b n' b' after -> n' = n /\ b' = b /\ after = [].
Proof.
  intros A. assert (E0 : line_of 1024 [] [] []) by (split; [reflexivity|split; [cbn; lia|right; split; [easy|auto]]]).
  inversion A as [? ?|? l2 ? ? ? L2 B2|? l2 ? ? ? ? ? ? ? ? ? L2 N2|? ? ? C2]; subst; auto.
  - destruct (line_of_unique _ _ _ _ _ _ E0 L2) as [<- <-]. destruct B2; discriminate.
  - destruct (line_of_unique _ _ _ _ _ _ E0 L2) as [<- <-]. easy.
  - inversion C2.
Qed.
Local Opaque header_line.
Lemma loop_announces_bare : forall fuel s b h n h' n' b' after, get_line s b 1024 = Ok (n, hs_buf h, hs_stream h) -> zbuf b -> (length s <= fuel)%nat ->
  (exists fs, zrep h fs) -> ~ bad_headers s -> header_loop fuel n h = Ok h' -> announced s (hs_length h) (hs_boundary h) n' b' after ->
  (hs_length h' = n' \/ (n' = 0 /\ after = [] /\ exists a z, s = a ++ z /\ ci_equal (L "Content-Length:") z)) /\ hs_boundary h' = b' /\ hs_stream h' = after.
Proof.
  induction fuel as [fuel IH] using (well_founded_induction lt_wf). intros s b h n h' n' b' after G Hz Hf (fs & R) NBd H A.
  destruct (line_of_exists 1024 ltac:(lia) s) as (l & rest & Hl). destruct (seen_exists l) as (t & Ht).
  destruct (zbuf_line b l s rest t Hz Hl Ht) as (bb & G' & Z' & st & Eb). destruct (zbuf_bytes b l s rest Hz Hl) as (st0 & G0). rewrite G' in G0. injection G0 as Eb0.
  rewrite G in G'.
  assert (Gn : n = len l) by congruence. assert (Gb : hs_buf h = bb) by congruence. assert (Gs : hs_stream h = rest) by congruence.
  clear G G'. subst n. pose proof Hl as (Es & _ & _). destruct s as [|c0 s0].
  { symmetry in Es. apply app_eq_nil in Es as [-> ->].
    assert (h' = h) by (destruct fuel; cbn in H; congruence). subst h'. rewrite Gs.
    apply announced_end in A as (-> & -> & ->). auto. }
  assert (P : 0 < len l).
  { pose proof (line_of_nonempty 1024 _ _ _ ltac:(lia) Hl ltac:(discriminate)). destruct l; [easy|]. rewrite len_cons. lens. lia. }
  destruct fuel as [|fuel]; [cbn in Hf; lia|]. cbn [header_loop] in H. replace (0 <? len l) with true in H by lia.
  assert (Nt : no_nul t) by apply Ht.
  rewrite Gb, Eb, !strcmp_lit in H by (auto; apply no_nul_dec_b; reflexivity). cbn [bind] in H.
  pose proof (blank_seen l t Ht (ex_intro _ _ (ex_intro _ _ Hl))) as BS.
  assert (BL : SpecReq.blank_line l -> n' = hs_length h /\ b' = hs_boundary h /\ after = rest).
  { intros B. inversion A as [? ?|? l2 ? ? ? L2 B2|? l2 ? ? ? ? ? ? ? ? ? L2 N2 NB2|? ? ? C2]; subst.
    - destruct (line_of_unique _ _ _ _ _ _ Hl L2) as [<- <-]. auto.
    - destruct (line_of_unique _ _ _ _ _ _ Hl L2) as [<- <-]. contradiction.
    - destruct (bare_text _ C2) as (L2 & _ & NB2 & _). destruct (line_of_unique _ _ _ _ _ _ Hl L2) as [El _]. elim NB2. first [now rewrite El|now rewrite <- El]. }
  destruct (str_eqb [LF] t) eqn:B1.
  { apply str_eqb_eq in B1. assert (B : SpecReq.blank_line l) by (apply BS; left; auto). injection H as <-.
    destruct (BL B) as (-> & -> & ->). auto. }
  destruct (str_eqb CRLF t) eqn:B2.
  { apply str_eqb_eq in B2. assert (B : SpecReq.blank_line l) by (apply BS; right; auto). injection H as <-.
    destruct (BL B) as (-> & -> & ->). auto. }
  assert (NB : ~ SpecReq.blank_line l).
  { intros B. apply BS in B as [-> | ->]; [rewrite str_eqb_refl in B1|rewrite str_eqb_refl in B2]; discriminate. }
  clear BL. pose proof (bad_cases _ _ _ _ Hl Ht NB) as BC. destruct (tells_exists t) as (new & Hnew).
  rewrite <- Gb in Eb, Z', Eb0. apply bind_ok_inv in H as (h1 & E & H).
  destruct (header_line_total h t st fs new Eb Z' Nt R Hnew) as [(B & e & E2)|(B & h2 & E2 & Z1 & R1 & St)]; [congruence|].
  rewrite E in E2. injection E2 as <-.
  assert (Lr : (length rest < length (c0 :: s0))%nat) by (rewrite Es, app_length; unfold len in P; lia).
  rewrite St in H. destruct (line_of_exists 1024 ltac:(lia) (hs_stream h)) as (l3 & r3 & Hl3).
  destruct (seen_exists l3) as (t3 & Ht3). destruct (zbuf_line (hs_buf h1) l3 (hs_stream h) r3 t3 Z1 Hl3 Ht3) as (b3 & G3 & Z3 & _).
  rewrite G3 in H. cbn [bind] in H.
  inversion A as [? ?|? l2 ? ? ? L2 ?|? l2 rest2 t2 ? ? n1 b1 ? ? ? L2 N2 NB2 Ht2 Tl Tb A2|? ? ? C2]; subst.
  - destruct (line_of_unique _ _ _ _ _ _ Hl L2) as [<- <-]. contradiction.
  - destruct (line_of_unique _ _ _ _ _ _ Hl L2) as [<- <-].
    assert (Q : t2 = t) by (rewrite <- (upto_seen _ _ Ht2); exact (upto_seen _ _ Ht)). rewrite Q in Tl, Tb.
    destruct (line_announces h h1 t _ b1 E Eb Nt Tb) as (T & <- & _). rewrite Eb0, (take_size l t st0 _ n1 Ht Tl) in T. injection T as ->.
    assert (Bs : forall P Q R, (P \/ (Q /\ R /\ exists a z, hs_stream h = a ++ z /\ ci_equal (L "Content-Length:") z))
      -> P \/ (Q /\ R /\ exists a z, c0 :: s0 = a ++ z /\ ci_equal (L "Content-Length:") z)).
    { intros P0 Q0 R0 [X|(X & Y & a & z & Eh & Cz)]; [now left|]. right. split; [exact X|]. split; [exact Y|].
      exists (l ++ a), z. rewrite Es, Eh, app_assoc. auto. }
    edestruct (IH fuel ltac:(lia) (hs_stream h) (hs_buf h1) (mkH b3 r3 (hs_headers h1) (hs_content_type h1) (hs_boundary h1) (hs_length h1) (hs_ip h1) (hs_session h1)) (len l3)) as (X & Y); eauto.
    + lia.
    + intros X. apply NBd, BC. now right.
  - destruct (bare_text _ C2) as (L2 & _ & _ & S2 & _ & Tb & _). destruct (line_of_unique _ _ _ _ _ _ Hl L2) as [El Er].
    assert (Q : t = c0 :: s0) by (rewrite <- (upto_seen _ _ S2), <- El; symmetry; exact (upto_seen _ _ Ht)). rewrite <- Q in Tb.
    destruct (line_announces h h1 t _ _ E Eb Nt (Tb _)) as (_ & E3 & _).
    destruct (IH fuel ltac:(lia) (hs_stream h) (hs_buf h1) (mkH b3 r3 (hs_headers h1) (hs_content_type h1) (hs_boundary h1) (hs_length h1) (hs_ip h1) (hs_session h1)) (len l3) h'
      (hs_length h1) (hs_boundary h1) []) as (_ & Q1 & Q2); eauto.
    + lia.
    + intros X. apply NBd, BC. now right.
    + rewrite Er. constructor.
    + split; [|split; [congruence|exact Q2]]. right. split; [reflexivity|]. split; [reflexivity|]. exists [], (c0 :: s0). auto.
Qed.
Lemma loop_announces fuel s b h n h' n' b' after : get_line s b 1024 = Ok (n, hs_buf h, hs_stream h) -> zbuf b -> (length s <= fuel)%nat ->
  (exists fs, zrep h fs) -> ~ bad_headers s -> header_loop fuel n h = Ok h' -> announced s (hs_length h) (hs_boundary h) n' b' after ->
  (hs_length h' = n' \/ (n' = 0 /\ after = [])) /\ hs_boundary h' = b' /\ hs_stream h' = after.
Proof. intros. destruct (loop_announces_bare fuel s b h n h' n' b' after) as ([A|(A & B & _)] & C); auto. Qed.
Local Transparent header_line.

(** Every header section announces something. *)
Lemma boundary_exists t x : no_nul t -> ~ bad_line t -> exists y, tells_boundary t x y.
Proof.
  intros Hn B. destruct (startswith_eq t [] form_data) as (r & _ & Hr); [auto|apply no_nul_dec_b; reflexivity|].
  destruct r.
  2:{ exists x. left. split; [|reflexivity]. left. intros Q. apply Hr in Q. discriminate. }
  assert (P : ci_prefix form_data t) by now apply Hr. destruct (strcasestr t (L "boundary=")) as [k|] eqn:F.
  - destruct (strcasestr_inv _ _ _ F) as (a & b & Hc & _). destruct (exists_trimmed (L "--" ++ b)) as (y & Hy). exists y. right.
    split; [exact P|]. exists a, b. split; [exact Hc|]. split; [|exact Hy].
    destruct (Z_le_dec (len b) 97) as [G|G]; [exact G|]. elim B. right. split; [exact P|]. exists a, b. split; [exact Hc|lia].
  - exists x. left. split; [|reflexivity]. right. intros a q b E Q. unfold strcasestr in F.
    apply ci_equal_lower in Q. rewrite E, !map_app, Q in F. rewrite strstr_none in F. now elim (F (map tolower a) (map tolower b)).
Qed.
Lemma announced_exists : forall s, ~ bad_headers s -> forall n b, exists n' b' after, announced s n b n' b' after.
Proof.
  intros s. remember (length s) as k eqn:K. revert s K. induction k as [k IH] using (well_founded_induction lt_wf). intros s K Nb n b.
  destruct s as [|c s]; [exists n, b, []; constructor|].
  destruct (line_of_exists 1024 ltac:(lia) (c :: s)) as (l & rest & Hl). destruct (seen_exists l) as (t & Ht).
  pose proof (line_of_nonempty 1024 _ _ _ ltac:(lia) Hl ltac:(discriminate)) as Hne.
  assert (Lr : (length rest < k)%nat).
  { destruct Hl as (E & _). rewrite K, E, app_length. destruct l; [easy|]. cbn. lia. }
  assert (BD : SpecReq.blank_line l \/ ~ SpecReq.blank_line l).
  { unfold SpecReq.blank_line. destruct (list_eq_dec ascii_dec l [LF]) as [->|N1]; [auto|]. destruct (list_eq_dec ascii_dec l CRLF) as [->|N2]; [auto|]. right. tauto. }
  destruct BD as [B|B]; [exists n, b, rest; eapply an_blank; eauto|]. pose proof (bad_cases _ _ _ _ Hl Ht B) as BC.
  destruct (boundary_exists t b (proj1 Ht) (fun X => Nb (proj2 BC (or_introl X)))) as (b1 & Tb).
  destruct (startswith_eq t [] (L "Content-Length:")) as (r & _ & Hr); [apply Ht|apply no_nul_dec_b; reflexivity|].
  assert (X : (exists n1, tells_size l t n n1) \/ ci_equal (L "Content-Length:") (c :: s)).
  { destruct r.
    2:{ left. exists n. left. split; [|reflexivity]. intros Q. apply Hr in Q. discriminate. }
    assert (P : ci_prefix (L "Content-Length:") t) by now apply Hr. pose proof (prefix_15 _ P) as Lt.
    assert (Ll : (length t <= length l)%nat) by (destruct Ht as (_ & [->|(r & ->)]); [lia|rewrite app_length; lia]).
    destruct (Nat.eq_dec (length l) 15) as [E|N].
    - right. assert (Et : t = l) by (destruct Ht as (_ & [->|(r & ->)]); [reflexivity|rewrite app_length in *; cbn [length] in *; lia]). subst l.
      destruct P as (h & q & -> & Hh). pose proof Hh as Lh. apply Forall2_length in Lh. change (length (L "Content-Length:")) with 15%nat in Lh.
      rewrite app_length in E. assert (q = []) as -> by (destruct q; [reflexivity|cbn in E; lia]). rewrite app_nil_r in *.
      destruct Hl as (Es & _ & [(l' & El & Nl)|(Nl & [El| -> ])]).
      + exfalso. assert (I : In LF h) by (rewrite El; apply in_or_app; right; now left).
        apply ci_equal_lower in Hh. apply (in_map tolower) in I. rewrite Hh in I. revert I. vm_compute. intuition discriminate.
      + exfalso. unfold len in El. lia.
      + rewrite app_nil_r in Es. now rewrite Es.
    - left. destruct (seen_exists (skipn 16 l)) as (u & Hu). destruct (atoi_exists u) as (n1 & Hn). exists n1. right. split; [exact P|].
      exists (skipn 16 l), u. split; [|auto]. exists (firstn 16 l). split; [now rewrite firstn_skipn|]. rewrite firstn_length. lia. }
  destruct X as [(n1 & Ts)|C]; [|exists 0, b, []; now constructor].
  destruct (IH (length rest) Lr rest eq_refl) with (n := n1) (b := b1) as (n' & b' & after & A); [intros Q; apply Nb, BC; now right|].
  exists n', b', after. eapply an_line; eauto.
Qed.
(** What is announced fits an int and shows no NUL. *)
Lemma announced_sized s n b n' b' after : announced s n b n' b' after -> n < 2 ^ 31 -> no_nul b -> n' < 2 ^ 31 /\ no_nul b'.
Proof.
  induction 1 as [n b|s l rest n b Hl Hb|s l rest t n b n1 b1 n' b' after Hl Hne Hb Ht Tl Tb A IH|s n b C]; intros Hn Nb; auto; [|split; [lia|auto]].
  apply IH.
  - destruct Tl as [(_ & ->)|(_ & r & u & _ & _ & b0 & sg & d & r0 & z & k & _ & _ & _ & _ & _ & _ & _ & _ & B)]; [auto|lia].
  - destruct Tb as [(_ & ->)|(_ & a & c & (q & E & _) & _ & (x & y & Et & _))]; [auto|].
    assert (no_nul (L "--" ++ c)) as Nc.
    { apply no_nul_app. split; [apply no_nul_dec_b; reflexivity|]. destruct Ht as (Nt & _). rewrite E in Nt. apply no_nul_app in Nt as [_ Nt]. apply no_nul_app in Nt. tauto. }
    rewrite Et in Nc. apply no_nul_app in Nc as [_ Nc]. apply no_nul_app in Nc. tauto.
Qed.

(** ** The form *)
Lemma body_exists n s : exists body, request_body n s body.
Proof.
  destruct (Z_le_dec n 0) as [G|G]; [exists []; now constructor|]. destruct (Z_lt_dec (len s) n) as [K|K].
  - exists (s ++ repeat (last s NUL) (Z.to_nat (n - len s))). constructor; lia.
  - exists (firstn (Z.to_nat n) s). rewrite <- (firstn_skipn (Z.to_nat n) s) at 1. constructor; [lia|]. rewrite len_firstn. unfold len in *. lia.
Qed.
Lemma body_len n s body : request_body n s body -> 0 < n -> len body = n.
Proof. intros H P. inversion H; subst; lens; try lia. rewrite len_app. unfold len in *. rewrite repeat_length. lia. Qed.
Lemma body_unique n s b1 b2 : request_body n s b1 -> request_body n s b2 -> b1 = b2.
Proof. intros H1 H2. apply request_body_eq in H1. apply request_body_eq in H2. congruence. Qed.
Lemma form_unique n bnd after t1 t2 : form_given n bnd after t1 -> form_given n bnd after t2 -> t1 = t2.
Proof.
  intros [A|body1 x1 A B1 R1 S1|body1 x1 A B1 R1 S1] [A'|body2 x2 A' B2 R2 S2|body2 x2 A' B2 R2 S2]; auto; try lia; pose proof (body_unique _ _ _ _ R1 R2) as <-.
  - rewrite <- (upto_seen _ _ S1). exact (upto_seen _ _ S2).
  - exact (decoded_det _ _ _ _ _ _ _ S1 S2).
Qed.
Lemma form_total v f after r n bnd : n < 2 ^ 31 -> no_nul bnd -> mp_md5_size (v_mp v) = MD5_BUF -> r_form r = cs [] ->
  (exists text form, form_given n bnd after text /\ cstr form = Ok text /\ (text = [] \/ len form = n + 1)
    /\ handle_api_request v f after r n bnd
       = ('(calls, r2) <- router_handle_request (v_app v) (v_routes v) (set_form r form);; Ok (calls, r2, f)))
  \/ ((forall text, ~ form_given n bnd after text) /\ undefined (handle_api_request v f after r n bnd)).
Proof.
  intros Hn Nb Hm R. destruct (Z_le_dec n 0) as [G|G].
  { left. exists [], (cs []). split; [now constructor|]. split; [reflexivity|]. split; [now left|]. unfold handle_api_request. replace (0 <? n) with false by lia. cbn [bind].
    assert (Er : set_form r (cs []) = r) by (destruct r; cbn in R |- *; now rewrite R). now rewrite Er. }
  destruct (body_exists n after) as (body & Hr). pose proof (body_len _ _ _ Hr ltac:(lia)) as Lb.
  unfold handle_api_request. replace (0 <? n) with true by lia. rewrite (body_read _ _ _ Hr) by lia. cbv zeta. fold (cs body).
  destruct (Z_lt_dec (len bnd) 2) as [K|K].
  - left. destruct (seen_exists body) as (text & Ht). exists text, (cs body). split; [eapply fg_body; eauto; lia|]. split; [now apply cstr_seen|].
    split; [right; rewrite len_cs; lia|]. replace (2 <=? len bnd) with false by lia. reflexivity.
  - replace (2 <=? len bnd) with true by lia.
    destruct (decode_exact (v_mp v) f bnd body ltac:(rewrite Hm; unfold MD5_BUF; lia) Nb ltac:(lia) ltac:(lia)) as [(text & D & N & Lt & E)|(ND & e & E)]; rewrite Lb in E; rewrite E; cbn [bind].
    + left. exists text, (cs text ++ skipn (S (length text)) (cs body)). split; [eapply fg_parts; eauto; lia|]. split; [now apply cstr_cs|].
      split; [|reflexivity]. right. rewrite len_app, len_skipn, !len_cs. unfold len in *. lia.
    + right. split; [|exists e; reflexivity]. intros text F. inversion F as [A|body2 x2 A B2 R2 S2|body2 x2 A B2 R2 S2]; subst; try lia.
      pose proof (body_unique _ _ _ _ Hr R2) as <-. exact (ND _ S2).
Qed.
(** At the end of the stream the text is empty. *)
Lemma form_at_end n bnd : no_nul bnd -> form_given n bnd [] [].
Proof.
  intros Nb. destruct (Z_le_dec n 0) as [G|G]; [now constructor|]. destruct (body_exists n []) as (body & Hr).
  assert (E : exists k, body = NUL :: repeat NUL k).
  { pose proof (body_len _ _ _ Hr ltac:(lia)) as Lb. inversion Hr as [| ? ? rest ? ? E|? ? k ? ? Ek]; subst; [lens; lia| |].
    - match goal with E : _ ++ _ = [] |- _ => apply app_eq_nil in E as [-> _] end. cbn in G. lia.
    - cbn [last app] in *. destruct k as [|k]; [cbn in *; lia|]. exists k. reflexivity. }
  destruct E as (k & Eb). destruct (Z_lt_dec (len bnd) 2) as [K|K].
  - eapply fg_body; [lia|exact K|exact Hr|]. rewrite Eb. split; [constructor|]. right. eexists. reflexivity.
  - eapply fg_parts; [lia|lia|exact Hr|]. apply de_none. intros (a & b & E). destruct bnd as [|c bnd]; [cbn in K; lia|].
    apply no_nul_cons in Nb as [Nc _]. assert (I : In c body) by (rewrite E; apply in_or_app; right; now left). apply Nc.
    rewrite Eb in I. destruct I as [I|I]; [auto|]. now apply repeat_spec in I.
Qed.

(** ** The route *)
Lemma room_fits r rt mp n text : cstr (r_form r) = Ok text -> (text = [] \/ len (r_form r) = n + 1) -> (room r rt mp <-> param_fits rt mp n text).
Proof.
  intros C D. unfold room, param_fits. destruct (rt_type rt); [split; [discriminate|auto]|]. split.
  - intros (P & form & F & X) _. split; [exact P|]. rewrite C in F. injection F as <-. destruct X as [X|X]; [now left|]. destruct D as [D|D]; [now left|]. right. lia.
  - intros X. destruct (X eq_refl) as (P & Y). split; [exact P|]. exists text. split; [exact C|]. destruct Y as [Y|Y]; [now left|]. destruct D as [D|D]; [now left|]. right. lia.
Qed.
Lemma router_total v r m p fs n text : sound_routes v -> no_nul (m ++ L ":" ++ p) -> r_method r = m -> r_path r = p ->
  r_headers r = map stored (firstn 20 fs) -> Forall (fun nv => no_nul (fst nv) /\ no_nul (snd nv)) fs ->
  cstr (r_form r) = Ok text -> (text = [] \/ len (r_form r) = n + 1) ->
  (api_wrong v m p fs n text /\ undefined (router_handle_request (v_app v) (v_routes v) r))
  \/ (~ api_wrong v m p fs n text /\ exists calls r', router_handle_request (v_app v) (v_routes v) r = Ok (calls, r')).
Proof.
  intros (Lv & Np & _) Nm Em Ep Hh Hf Hc Hl. assert (M : method_path r = m ++ L ":" ++ p) by (unfold method_path; now rewrite Em, Ep).
  assert (LM : len (m ++ L ":" ++ p) = len m + len p + 1) by (rewrite !len_app; change (len (L ":")) with 1; lia).
  destruct (Z_le_dec 254 (len m + len p)) as [G|G].
  { left. split; [left; exact G|]. apply handle_request_ub. rewrite M. lia. }
  unfold api_wrong. destruct (selected_or_none (v_routes v) (m ++ L ":" ++ p)) as [(rt & S)|N].
  - assert (Sel : forall rt', selected (v_routes v) (m ++ L ":" ++ p) rt' -> rt' = rt) by (intros rt' S'; symmetry; eapply selected_unique; eauto).
    assert (NN : ~ none_selected (v_routes v) (m ++ L ":" ++ p)).
    { intros N. destruct S as (a & b & E & Mt & _). unfold none_selected in N. rewrite E in N. apply Forall_app in N as [_ N]. inv N. contradiction. }
    assert (Mt : matches rt (m ++ L ":" ++ p)) by (destruct S as (a & b & E & Mt & _); exact Mt).
    assert (Npr : no_nul (rt_param rt)).
    { destruct S as (a & b & E & _). rewrite E in Np. apply Forall_app in Np as [_ Np]. now inv Np. }
    rewrite (handle_selected (v_app v) (v_routes v) r rt) by (rewrite ?M; auto; lia). rewrite M.
    pose proof (room_fits r rt (m ++ L ":" ++ p) n text Hc Hl) as RF.
    assert (RD : room r rt (m ++ L ":" ++ p) \/ ~ room r rt (m ++ L ":" ++ p)).
    { rewrite RF. unfold param_fits. destruct (rt_type rt); [left; discriminate|].
      destruct (Z_le_dec (len (rt_param rt)) (2 * len (rt_prefix rt) + 8)) as [X|X]; [|right; intros Y; destruct (Y eq_refl); auto].
      destruct text as [|c text]; [left; auto|].
      destruct (Z_le_dec (len (with_param (c :: text) (rt_param rt) (skipn (length (rt_prefix rt)) (m ++ L ":" ++ p)))) n) as [Y|Y]; [left; auto|].
      right. intros W. destruct (W eq_refl) as (_ & [W2|W2]); [discriminate|contradiction]. }
    destruct RD as [RD|RD].
    + destruct (step_ok r rt (m ++ L ":" ++ p) Nm Npr Mt RD) as (r1 & E1 & Se). rewrite E1. cbn [bind].
      assert (H1 : r_headers r1 = map stored (firstn 20 fs)).
      { unfold seen in Se. destruct (rt_type rt); [now subst|]. destruct Se as (? & ? & _ & _ & ->). exact Hh. }
      unfold finish_call. destruct (rt_handler rt) as [hd|] eqn:Eh.
      * right. split.
        -- intros [X|[(X & _)|(rt' & S' & [X|(X & _)])]]; [lia|contradiction| |]; apply Sel in S'; subst rt'; [apply RF in RD; contradiction|congruence].
        -- destruct (rt_filter rt) as [fl|]; [|eauto]. destruct (on_filter (v_app v) fl r1) as [r2 pass]. destruct pass; eauto.
      * unfold reject_routing_request. destruct (bad_request_total r1 fs H1 Hf) as [(Lg & e & U)|(Lg & r' & U)]; rewrite U; cbn [bind].
        -- left. split; [|exists e; reflexivity]. right. right. exists rt. split; [exact S|]. right. auto.
        -- right. split; [|eauto]. intros [X|[(X & _)|(rt' & S' & [X|(_ & X)])]]; [lia|contradiction| |contradiction]; apply Sel in S'; subst rt'; apply RF in RD; contradiction.
    + left. split; [right; right; exists rt; split; [exact S|left; now rewrite <- RF]|].
      destruct (step_oob r rt (m ++ L ":" ++ p) Nm Npr Mt RD) as (e & U). rewrite U. exists e. reflexivity.
  - assert (NS : forall rt, ~ selected (v_routes v) (m ++ L ":" ++ p) rt).
    { intros rt (a & b & E & Mt & _). unfold none_selected in N. rewrite E in N. apply Forall_app in N as [_ N]. inv N. contradiction. }
    rewrite handle_none by (rewrite ?M; auto; lia).
    destruct (bad_request_total r fs Hh Hf) as [(Lg & e & U)|(Lg & r' & U)]; rewrite U; cbn [bind].
    + left. split; [|exists e; reflexivity]. right. left. auto.
    + right. split; [|eauto]. intros [X|[(_ & X)|(rt' & S' & _)]]; [lia|contradiction|]. exact (NS _ S').
Qed.

(** ** The whole request *)
Lemma wrong_at_end v m p fs n n' : api_wrong v m p fs n [] -> api_wrong v m p fs n' [].
Proof.
  intros [W|[W|(rt & S & [W|W])]]; [now left|right; now left|right; right; exists rt; split; [exact S|left]|right; right; exists rt; split; [exact S|now right]].
  intros F. apply W. intros T. destruct (F T) as (F1 & _). split; [exact F1|now left].
Qed.
Lemma api_rest_total v f t1 socket peer rl m url b s1 fs n bnd after mount p q : zbuf b -> no_nul m -> no_nul url -> len url <= 254 -> api_url url ->
  sound_routes v -> ~ bad_headers s1 -> headers s1 fs -> announced s1 (-1) [] n bnd after ->
  url_parts url (mount ++ p) q -> len mount = 4 ->
  let run := accept_rest v f t1 (req2 socket peer rl m url) m url b s1 in
  ((forall text, ~ form_given n bnd after text) /\ undefined run)
  \/ exists text, form_given n bnd after text /\
     ((api_wrong v m p fs n text /\ undefined run)
      \/ (~ api_wrong v m p fs n text /\ exists res calls, run = Ok res /\ o_taken res = TApi calls)).
Proof.
  intros Hz Nm Nu Lu Ha Sr Nb Hh An P L4. cbv zeta. unfold accept_rest. destruct (zbuf_A b Hz) as (b1 & -> & Z1). cbn [bind].
  destruct (line_of_exists 1024 ltac:(lia) s1) as (l & rest & Hl). destruct (seen_exists l) as (t & Ht).
  destruct (zbuf_line b1 l s1 rest t Z1 Hl Ht) as (b2 & G & Z2 & _). rewrite G. cbn [bind].
  change (r_ip (req2 socket peer rl m url)) with peer.
  assert (R0 : zrep (mkH b2 rest [] None [] (-1) peer (calloc MAX_SESSION)) []).
  { split; [reflexivity|]. split; [constructor|]. exists []. exists (calloc 63). split; [reflexivity|]. split; [constructor|]. reflexivity. }
  destruct (header_loop_total (length s1) s1 b1 (mkH b2 rest [] None [] (-1) peer (calloc MAX_SESSION)) (len l) [] G Z1 ltac:(lia) R0)
    as [(B & e & E)|(B & h & fs' & E & Hh' & R1 & R2 & sess & R3)]; [contradiction|].
  pose proof (headers_unique _ _ Hh _ Hh') as ->.
  destruct (loop_announces (length s1) s1 b1 (mkH b2 rest [] None [] (-1) peer (calloc MAX_SESSION)) (len l) h n bnd after G Z1 ltac:(lia) (ex_intro _ _ R0) Nb E An) as (Dn & <- & <-).
  assert (Sz : Memory_proofs.sized h) by (eapply Memory_proofs.header_sized; [|exact E]; split; [constructor|cbn; lia]). destruct Sz as (Nbd & Hsm).
  rewrite E. cbn [bind]. cbn [app] in R1, R2.
  rewrite (url_parts_eq url (mount ++ p) q) by auto. cbn [bind]. destruct (api_eq url Nu) as (api & Ea & Hap). rewrite Ea. cbn [bind].
  destruct api; [|exfalso; apply Hap in Ha; discriminate]. cbn [negb].
  assert (Np : no_nul (mount ++ p)).
  { destruct P as (ts & T & _). apply tokens_no_nul in T; [|exact Nu]. now inv T. }
  apply no_nul_app in Np as [_ Np].
  change (len API_MOUNT) with (Z.of_nat 4). rewrite from_cs_skip by (unfold len in L4; lia). rewrite cstr_cs0 by exact Np. cbn [bind].
  set (r := set_path _ p).
  assert (Fn : forall text, form_given (hs_length h) (hs_boundary h) (hs_stream h) text -> form_given n (hs_boundary h) (hs_stream h) text
    /\ (api_wrong v m p fs (hs_length h) text <-> api_wrong v m p fs n text)).
  { intros text F. destruct Dn as [<-|(-> & Ea0)]; [tauto|]. rewrite Ea0 in F |- *.
    pose proof (form_unique _ _ _ _ _ F (form_at_end (hs_length h) (hs_boundary h) Nbd)) as ->. split; [now apply form_at_end|]. split; apply wrong_at_end. }
  destruct (form_total v f (hs_stream h) r (hs_length h) (hs_boundary h) ltac:(lia) Nbd (proj2 (proj2 Sr)) eq_refl) as [(text & form & Fg & Cf & Lf & ->)|(NF & e & U)].
  - right. exists text. destruct (Fn text Fg) as (Fg' & Wi). split; [exact Fg'|].
    destruct (router_total v (set_form r form) m p fs (hs_length h) text Sr) as [(W & e & U)|(W & calls & r' & U)]; auto.
    { apply no_nul_app. split; [exact Nm|]. apply no_nul_app. split; [apply no_nul_dec_b; reflexivity|exact Np]. }
    + rewrite U. left. split; [now apply Wi|]. exists e. reflexivity.
    + rewrite U. cbn [bind]. right. split; [now rewrite <- Wi|]. eexists _, calls. split; [reflexivity|]. unfold finish. now destruct (connection_close _ _ _).
  - left. rewrite U. split; [|exists e; reflexivity]. intros text F. destruct Dn as [En|(-> & Ea0)]; [rewrite <- En in F; exact (NF _ F)|].
    apply (NF []). rewrite Ea0. now apply form_at_end.
Qed.
Lemma api_total v f t socket peer stream seen m u s1 fs n bnd after mount p q : sound_limits v t peer -> sound_routes v ->
  first_line stream seen m (Some u) s1 -> 2 <= len seen -> allowed m -> let_in v t peer u -> api_url u -> url_parts u (mount ++ p) q -> len mount = 4 ->
  ~ bad_headers s1 -> headers s1 fs -> announced s1 (-1) [] n bnd after ->
  ((forall text, ~ form_given n bnd after text) /\ undefined (accept_request v f t socket peer stream))
  \/ exists text, form_given n bnd after text /\
     ((api_wrong v m p fs n text /\ undefined (accept_request v f t socket peer stream))
      \/ (~ api_wrong v m p fs n text /\ exists res calls, accept_request v f t socket peer stream = Ok res /\ o_taken res = TApi calls)).
Proof.
  intros (Hp & Hr & Ho) Sr FL S2 Al LI Ha P L4 Nb Hh An. destruct (first_line_reads _ _ _ _ _ FL) as (b & k & j & Z & G & Nm & PL & PU & HU).
  rewrite accept_unfold. unfold new_request. rewrite fits_ok by lia. cbn [bind]. rewrite G. cbn [bind]. rewrite PL by lia. cbn [bind].
  destruct (methods_eq m Nm) as (ok & Em & Hm). rewrite Em. cbn [bind]. fold (req0 socket peer).
  destruct ok; [|apply Hm in Al; discriminate]. cbn [negb]. rewrite PU. cbn [bind]. destruct (HU u eq_refl) as (Nu & Lu).
  destruct (admit_total v t socket peer u Hr Ho Nu Lu Hp) as (ok & t1 & Ea & Hadm).
  change (r_ip (set_url _ u)) with peer. rewrite Ea. cbn [bind]. destruct ok; [|apply Hadm in LI; discriminate]. cbn [negb].
  change (set_url (set_method (set_request_line (req0 socket peer) (firstn (length seen - 2) seen)) m) u) with (req2 socket peer (firstn (length seen - 2) seen) m u).
  eapply api_rest_total; eauto.
Qed.
Lemma refused_total v f t socket peer stream seen m u s1 : sound_limits v t peer -> first_line stream seen m (Some u) s1 -> 2 <= len seen ->
  ~ allowed m \/ ~ let_in v t peer u -> exists res, accept_request v f t socket peer stream = Ok res /\ In (o_taken res) [TBadMethod; TTooMany].
Proof.
  intros (Hp & Hr & Ho) FL S2 D. destruct (first_line_reads _ _ _ _ _ FL) as (b & n & j & Z & G & Nm & PL & PU & HU).
  rewrite accept_unfold. unfold new_request. rewrite fits_ok by lia. cbn [bind]. rewrite G. cbn [bind]. rewrite PL by lia. cbn [bind].
  destruct (methods_eq m Nm) as (ok & Em & Hm). rewrite Em. cbn [bind]. fold (req0 socket peer).
  destruct ok; cbn [negb].
  2:{ unfold bad_request. destruct (status_plain (set_method (set_request_line (req0 socket peer) (firstn (length seen - 2) seen)) m) 400 (L "HTTP/1.1 400 Bad Request"))
        as (r' & U); [vm_compute; tauto|vm_compute; discriminate|reflexivity|]. rewrite U. cbn [bind]. eexists. split; [reflexivity|]. unfold finish. destruct (connection_close _ _ _). now left. }
  assert (Al : allowed m) by now apply Hm. destruct D as [D|D]; [contradiction|]. rewrite PU. cbn [bind]. destruct (HU u eq_refl) as (Nu & Lu).
  destruct (admit_total v t socket peer u Hr Ho Nu Lu Hp) as (ok & t1 & Ea & Ha).
  change (r_ip (set_url _ u)) with peer. rewrite Ea. cbn [bind]. destruct ok; cbn [negb]; [elim D; now apply Ha|].
  unfold too_many_connections.
  destruct (status_plain (set_url (set_method (set_request_line (req0 socket peer) (firstn (length seen - 2) seen)) m) u) 429 (L "HTTP/1.1 429 Too many connections"))
    as (r' & U); [vm_compute; tauto|vm_compute; discriminate|reflexivity|]. rewrite U. cbn [bind]. eexists. split; [reflexivity|]. unfold finish. destruct (connection_close _ _ _). right. now left.
Qed.
Lemma decided v t peer stream seen m u s1 : sound_limits v t peer -> first_line stream seen m (Some u) s1 ->
  (allowed m \/ ~ allowed m) /\ (let_in v t peer u \/ ~ let_in v t peer u).
Proof.
  intros (Hp & Hr & Ho) FL. destruct (first_line_reads _ _ _ _ _ FL) as (b & k & j & _ & _ & Nm & _ & _ & HU). split.
  - destruct (methods_eq m Nm) as (ok & _ & Hm). destruct ok; [left; now apply Hm|right; intros X; apply Hm in X; discriminate].
  - destruct (HU u eq_refl) as (Nu & Lu). destruct (admit_total v t 0 peer u Hr Ho Nu Lu Hp) as (ok & t1 & _ & Hadm).
    destruct ok; [left; now apply Hadm|right; intros X; apply Hadm in X; discriminate].
Qed.
Lemma harmless_total v f t socket peer stream : harmless v f t peer stream -> exists res, accept_request v f t socket peer stream = Ok res.
Proof.
  intros (seen & m & url & s1 & FL & [(junk & S & NA & W)|(S & S2 & u & -> & D)]).
  - destruct (accept_total v f t socket peer stream junk seen m url s1 S FL NA) as [(X & _)|(_ & R)]; [contradiction|exact R].
  - destruct D as [D|[D|(Sr & Ha & Nb & mount & p & q & fs & n & bnd & after & text & P & L4 & Hh & An & Fg & W)]].
    1,2: destruct (refused_total v f t socket peer stream seen m u s1 S FL S2) as (res & R & _); eauto.
    destruct (decided v t peer stream seen m u s1 S FL) as ([Al|Al] & [LI|LI]);
      try (destruct (refused_total v f t socket peer stream seen m u s1 S FL S2) as (res & R & _); [tauto|eauto]).
    destruct (api_total v f t socket peer stream seen m u s1 fs n bnd after mount p q S Sr FL S2 Al LI Ha P L4 Nb Hh An) as [(NF & _)|(text' & Fg' & X)];
      [now elim (NF text)|]. pose proof (form_unique _ _ _ _ _ Fg Fg') as <-. destruct X as [(X & _)|(_ & res & calls & R & _)]; [contradiction|eauto].
Qed.
(** The path of an API URL begins with the mount. *)
Lemma mount_of u ts : api_url u -> tokens (L "?") u ts -> exists mount p ts', ts = (mount ++ p) :: ts' /\ len mount = 4.
Proof.
  intros (h & r & -> & Hh) T. pose proof Hh as Lh. apply Forall2_length in Lh. change (length (L "/api")) with 4%nat in Lh.
  assert (Nq : ~ In "?"%char h).
  { intros I. apply ci_equal_lower in Hh. apply (in_map tolower) in I. rewrite Hh in I. revert I. vm_compute. intuition discriminate. }
  assert (Hd : forall c, In c (L "?") -> c = "?"%char) by (intros c [<-|[]]; reflexivity).
  inversion T as [s F|a t r' ts' Fa Hne Ft Hr Ht]; subst.
  - exfalso. destruct h as [|c h]; [discriminate|]. inv F. apply Nq. left. auto.
  - assert (a = []) as ->.
    { destruct a as [|c a]; [reflexivity|]. exfalso. destruct h as [|d h]; [discriminate|]. inv Fa. apply Nq. left.
      match goal with E : _ ++ _ = _ |- _ => cbn [app] in E; injection E as E _ end. subst. auto. }
    cbn [app] in *. match goal with E : _ ++ _ = _ |- _ => symmetry in E; apply app_eq_app in E as (w & [(E1 & E2)|(E1 & E2)]) end.
    + destruct w as [|c w].
      * rewrite app_nil_r in E1. subst. exists t, [], ts'. rewrite app_nil_r. split; [reflexivity|]. unfold len. lia.
      * exfalso. apply Nq. rewrite E1. apply in_or_app. right. left. apply Hd. eapply Hr. rewrite E2. reflexivity.
    + exists h, w, ts'. rewrite E1. split; [reflexivity|]. unfold len. lia.
Qed.
Lemma setting_limits v f t peer junk : sound_setting v f t peer junk -> sound_limits v t peer.
Proof. intros (A & B & C & _). repeat split; assumption. Qed.
(** Whatever is handled to the end is harmless. *)
Lemma handled_harmless v f t socket peer stream junk res : sound_setting v f t peer junk -> sound_routes v ->
  accept_request v f t socket peer stream = Ok res -> harmless v f t peer stream.
Proof.
  intros S Sr R. destruct (first_line_exists stream) as (seen & m & url & s1 & FL). exists seen, m, url, s1. split; [exact FL|].
  assert (NA : (forall u, url = Some u -> ~ api_url u) \/ exists u, url = Some u /\ api_url u).
  { destruct url as [u|]; [|left; discriminate]. destruct (first_line_reads _ _ _ _ _ FL) as (b & k & j & _ & _ & _ & _ & _ & HU). destruct (HU u eq_refl) as (Nu & _).
    destruct (api_eq u Nu) as (api & _ & Hap). destruct api; [right; exists u; split; [reflexivity|now apply Hap]|].
    left. intros u' E Q. injection E as <-. apply Hap in Q. discriminate. }
  destruct NA as [NA|(u & -> & Ha)].
  { left. exists junk. split; [exact S|]. split; [exact NA|]. intros W.
    destruct (accept_total v f t socket peer stream junk seen m url s1 S FL NA) as [(_ & e & E)|(NW & _)]; [congruence|contradiction]. }
  right. pose proof (setting_limits _ _ _ _ _ S) as Sl. split; [exact Sl|].
  assert (U : forall X : Prop, X -> (X -> undefined (accept_request v f t socket peer stream)) -> False) by (intros X HX H; destruct (H HX) as (e & E); congruence).
  pose proof Sl as (Hp & Hr & Ho).
  destruct (Z_lt_dec (len seen) 2) as [S2|S2].
  { exfalso. eapply U; [exact S2|]. intros _. eapply accept_reading; eauto. }
  split; [lia|]. exists u. split; [reflexivity|].
  destruct (decided v t peer stream seen m u s1 Sl FL) as ([Al|Al] & [LI|LI]); try tauto. right. right. split; [exact Sr|]. split; [exact Ha|].
  assert (Nb : ~ bad_headers s1).
  { intros B. eapply U; [exact B|]. intros _. eapply accept_reading; eauto. right. right. split; [exact Al|]. exists u. auto. }
  split; [exact Nb|]. destruct (tokens_exist (L "?") u) as (ts & T). destruct (mount_of u ts Ha T) as (mount & p & ts' & -> & L4).
  assert (Lt : len ts' <= 49).
  { destruct (Z_le_dec (len ts') 49) as [G|G]; [exact G|]. exfalso. eapply U; [exact G|]. intros _. eapply accept_reading; eauto.
    right. right. split; [exact Al|]. exists u. split; [reflexivity|]. split; [exact LI|]. right. eexists. split; [exact T|]. right. rewrite len_cons. lia. }
  assert (P : url_parts u (mount ++ p) (hd [] ts')) by (exists ts'; auto).
  destruct (headers_exist s1) as (fs & Hh). destruct (announced_exists s1 Nb (-1) []) as (n & bnd & after & An).
  destruct (api_total v f t socket peer stream seen m u s1 fs n bnd after mount p (hd [] ts') Sl Sr FL ltac:(lia) Al LI Ha P L4 Nb Hh An) as [(_ & e & E)|(text & Fg & [(_ & e & E)|(W & _)])];
    [congruence|congruence|].
  exists mount, p, (hd [] ts'), fs, n, bnd, after, text. auto 8.
Qed.

(** Scarce_proofs.v - lemmas about requests whose blocks may be refused. *)
From Verif Require Import WsRequest Scarce Lemmas StringUtils_proofs ConfParser_proofs WsMultipart_proofs HttpUtils_proofs WsConn_proofs WsRequest_proofs
  WsDispatch_proofs Log_proofs Memory_proofs Defined_proofs SpecJson SpecHttp SpecConn SpecReq SpecDispatch SpecDefined SpecScarce Spec.

(** ** Running with some blocks refused *)
(** [x] is undefined exactly if a block of [W] is refused, and else it is [y]. *)
Definition runs {A} (ok : allocator) (W : place -> Prop) (x y : outcome A) : Prop :=
  ((exists p, W p /\ ok p = false) /\ undefined x) \/ ((forall p, W p -> ok p = true) /\ x = y).

Lemma runs_same {A} ok (x : outcome A) : runs ok (fun _ => False) x x.
Proof. right. split; [intros p []|reflexivity]. Qed.
Lemma runs_need {A} ok q W (x y : outcome A) : runs ok W x y -> runs ok (fun p => p = q \/ W p) (_ <- need ok q;; x) y.
Proof.
  intros H. unfold need. destruct (ok q) eqn:E; cbn [bind].
  - destruct H as [((p & Hp & Ep) & U)|(H & ->)]; [left; split; [exists p; auto|exact U]|right; split; [|reflexivity]].
    intros p [->|Hp]; auto.
  - left. split; [exists q; auto|]. eexists. reflexivity.
Qed.
Lemma runs_weak {A} ok (W W' : place -> Prop) (x y : outcome A) : runs ok W x y -> (forall p, W p <-> W' p) -> runs ok W' x y.
Proof.
  intros [((p & Hp & Ep) & U)|(H & E)] I; [left|right]; (split; [|assumption]); [exists p; split; [now apply I|exact Ep]|].
  intros p Hp. apply H, I, Hp.
Qed.
Lemma runs_bind {A B} ok W1 W2 (x : outcome A) a (f : A -> outcome B) y :
  runs ok W1 x (Ok a) -> runs ok W2 (f a) y -> runs ok (fun p => W1 p \/ W2 p) (bind x f) y.
Proof.
  intros [((p & Hp & Ep) & e & ->)|(H1 & ->)] H2; cbn [bind].
  - left. split; [exists p; auto|]. exists e. reflexivity.
  - destruct H2 as [((p & Hp & Ep) & U)|(H2 & E)]; [left|right]; (split; [|assumption]); [exists p; auto|]. intros p [Hp|Hp]; auto.
Qed.
(** One defined step of both. *)
Ltac step E a Ea := apply bind_ok_inv in E as (a & Ea & E); rewrite ?Ea; cbn [bind].

(** ** Header lines *)
Lemma split_once_runs ok n t st : no_nul t ->
  runs ok (fun p => In p [PList n; PName n; PFirst n; PSecond n] \/ (In ":"%char t /\ p = PValue n))
    (split_once_s ok n (cs t ++ st)) (split_once (cs t ++ st) (L ":")).
Proof.
  intros Hn. assert (exists l, split_once (cs t ++ st) (L ":") = Ok l) as (l & E).
  { destruct (tells_exists t) as (new & [(N & _)|(nv & (a & b & Hc & Ha & Hb) & _)]).
    - destruct (exists_trimmed t) as (u & Hu). eexists. now apply (split_once_none t u).
    - eexists. now apply (split_once_cut t a b (fst nv) (snd nv)). }
  rewrite E. unfold split_once in E. unfold split_once_s.
  step E w1 Ef. apply bind_ok_inv in E as (w1' & Ef' & E). step E e0 E0. step E w2 Es. step E whole Ew.
  rewrite cstr_cs in Ew by auto. injection Ew as <-.
  assert (D : (len w2 <? len t) = true <-> In ":"%char t).
  { destruct (tells_exists t) as (new & [(N & _)|(nv & (a & b & Hc & Ha & Hb) & _)]).
    - rewrite ltrim_none in Es by auto. injection Es as <-. split; [lia|contradiction].
    - rewrite (ltrim_cut t ":" a b st Hn Hc) in Es. injection Es as <-. destruct Hc as (-> & _).
      split; [intros _; apply in_or_app; right; now left|]. rewrite len_app, len_cons. lens. lia. }
  destruct (len w2 <? len t) eqn:Ec.
  - assert (I : In ":"%char t) by now apply D. apply bind_ok_inv in E as (w2' & Es' & E). step E e1 E1. injection E as <-.
    rewrite Ef', Es'. cbn [bind]. rewrite E0, E1. cbn [bind]. eapply runs_weak; [do 5 eapply runs_need; apply runs_same|].
    intros p. cbn [In]. intuition congruence.
  - assert (I : ~ In ":"%char t) by (intros X; apply D in X; congruence). injection E as <-.
    rewrite Ef'. cbn [bind]. rewrite E0. cbn [bind]. eapply runs_weak; [do 4 eapply runs_need; apply runs_same|].
    intros p. cbn [In]. intuition congruence.
Qed.
Lemma store_runs ok n t st fs : no_nul t -> len t <= 1023 ->
  runs ok (fun p => (length fs < 20)%nat /\ (In p [PList n; PName n; PFirst n; PSecond n] \/ (In ":"%char t /\ p = PValue n)))
    (store_header_s ok n (cs t ++ st) (map stored (firstn 20 fs))) (store_header (cs t ++ st) (map stored (firstn 20 fs))).
Proof.
  intros Hn Hl. unfold store_header_s, store_header. rewrite len_map, len_firstn. unfold HTTP_MAX_HEADERS.
  destruct (Z.min (Z.of_nat 20) (len fs) <? 20) eqn:E.
  - assert (F : (length fs < 20)%nat) by (unfold len in E; lia).
    assert (exists l, split_once (cs t ++ st) (L ":") = Ok l) as (l & El).
    { destruct (tells_exists t) as (new & [(N & _)|(nv & (a & b & Hc & Ha & Hb) & _)]).
      - destruct (exists_trimmed t) as (u & Hu). eexists. now apply (split_once_none t u).
      - eexists. now apply (split_once_cut t a b (fst nv) (snd nv)). }
    rewrite El. cbn [bind]. eapply runs_weak.
    + eapply runs_bind; [rewrite <- El; now apply split_once_runs|]. apply runs_same.
    + intros p. cbn beta. tauto.
  - assert (F : ~ (length fs < 20)%nat) by (unfold len in E; lia). eapply runs_weak; [apply runs_same|]. intros p. cbn beta. tauto.
Qed.
Lemma type_runs ok n t st old x : no_nul t -> take_content_type (cs t ++ st) old = Ok x ->
  runs ok (fun p => ci_prefix (L "Content-Type:") t /\ p = PType n) (take_content_type_s ok n (cs t ++ st) old) (Ok x).
Proof.
  intros Hn. unfold take_content_type_s, take_content_type. sw r Hr. destruct r; intros E.
  - assert (P : ci_prefix (L "Content-Type:") t) by now apply Hr. step E s Es. injection E as <-.
    eapply runs_weak; [eapply runs_need; apply runs_same|]. intros p. cbn beta. tauto.
  - assert (P : ~ ci_prefix (L "Content-Type:") t) by (intros X; apply Hr in X; discriminate). injection E as <-.
    eapply runs_weak; [apply runs_same|]. intros p. cbn beta. tauto.
Qed.
Lemma ip_runs ok n t st old x : no_nul t -> take_ip (cs t ++ st) old = Ok x ->
  runs ok (fun p => ci_prefix (L "X-Real-IP:") t /\ p = PRealIp n) (take_ip_s ok n (cs t ++ st) old) (Ok x).
Proof.
  intros Hn. unfold take_ip_s, take_ip. sw r Hr. destruct r; intros E.
  - assert (P : ci_prefix (L "X-Real-IP:") t) by now apply Hr. step E b' Eb. step E ip Ei. step E s Es. injection E as <-.
    eapply runs_weak; [eapply runs_need; apply runs_same|]. intros p. cbn beta. tauto.
  - assert (P : ~ ci_prefix (L "X-Real-IP:") t) by (intros X; apply Hr in X; discriminate). injection E as <-.
    eapply runs_weak; [apply runs_same|]. intros p. cbn beta. tauto.
Qed.
Lemma session_runs ok t st sess x : no_nul t -> take_session (cs t ++ st) sess = Ok x ->
  runs ok (fun p => session_line t /\ p = PSession) (take_session_s ok (cs t ++ st) sess) (Ok x).
Proof.
  intros Hn. unfold take_session_s, take_session. destruct (session_header t st Hn) as (r & -> & Hr). cbn [bind]. destruct r; intros E.
  - assert (P : session_line t) by now apply Hr. rewrite E. eapply runs_weak; [eapply runs_need; apply runs_same|]. intros p. cbn beta. tauto.
  - assert (P : ~ session_line t) by (intros X; apply Hr in X; discriminate). injection E as <-.
    eapply runs_weak; [apply runs_same|]. intros p. cbn beta. tauto.
Qed.
Lemma cookie_runs ok t st sess x : no_nul t -> take_cookie (cs t ++ st) sess = Ok x ->
  runs ok (fun p => ci_prefix (L "Cookie:") t /\ p = PSession) (take_cookie_s ok (cs t ++ st) sess) (Ok x).
Proof.
  intros Hn. unfold take_cookie_s, take_cookie. sw r Hr. destruct r; intros E.
  - assert (P : ci_prefix (L "Cookie:") t) by now apply Hr. rewrite E. eapply runs_weak; [eapply runs_need; apply runs_same|]. intros p. cbn beta. tauto.
  - assert (P : ~ ci_prefix (L "Cookie:") t) by (intros X; apply Hr in X; discriminate). injection E as <-.
    eapply runs_weak; [apply runs_same|]. intros p. cbn beta. tauto.
Qed.

Local Opaque store_header store_header_s take_content_type take_content_type_s take_ip take_ip_s take_session take_session_s take_cookie take_cookie_s.
Lemma line_runs ok n h t st fs h' : hs_buf h = cs t ++ map Some st -> zbuf (hs_buf h) -> no_nul t ->
  hs_headers h = map stored (firstn 20 fs) -> header_line h = Ok h' ->
  runs ok (line_wants n (length fs) t) (header_line_s ok n h) (Ok h').
Proof.
  intros Eb Hz Hn R1. pose proof Hz as Hz0. rewrite Eb in Hz0. pose proof (cs_of_zbuf _ _ Hz0 Hn) as Ll.
  unfold header_line, header_line_s. rewrite Eb, R1. intros E.
  apply bind_ok_inv in E as (hs & Ehs & E). apply bind_ok_inv in E as (ct & Ect & E). apply bind_ok_inv in E as (bd & Ebd & E).
  apply bind_ok_inv in E as (cl & Ecl & E). apply bind_ok_inv in E as ((ip & b1) & Eip & E).
  destruct (ip_total t st (hs_ip h) Hz0 Hn) as (ip' & t1 & st1 & Eip' & Z1 & N1 & D). rewrite Eip' in Eip. injection Eip as <- <-.
  apply bind_ok_inv in E as (s1 & Es1 & E). apply bind_ok_inv in E as (s2 & Es2 & E). injection E as <-.
  eapply runs_weak.
  - eapply runs_bind; [rewrite <- Ehs; now apply store_runs|]. eapply runs_bind; [eapply type_runs; eauto|]. rewrite Ebd. cbn [bind]. rewrite Ecl. cbn [bind].
    eapply runs_bind; [eapply ip_runs; eauto|]. eapply runs_bind; [eapply session_runs; eauto|]. eapply runs_bind; [eapply cookie_runs; eauto|]. apply runs_same.
  - assert (X : (session_line t1 <-> session_line t) /\ (ci_prefix (L "Cookie:") t1 <-> ci_prefix (L "Cookie:") t)).
    { destruct D as [->|(P & P1)]; [tauto|].
      assert (Dj : forall l, ci_prefix (L "X-Real-IP:") l -> ~ session_line l /\ ~ ci_prefix (L "Cookie:") l).
      { intros l Q. split; [intros [S|S]|intros S]; (eapply ci_differ; [|exact Q|eassumption]); reflexivity. }
      pose proof (Dj _ P). pose proof (Dj _ P1). tauto. }
    destruct X as (X1 & X2). intros p. unfold line_wants. rewrite X1, X2. tauto.
Qed.
Local Transparent store_header store_header_s take_content_type take_content_type_s take_ip take_ip_s take_session take_session_s take_cookie take_cookie_s.

(** ** All header lines *)
Lemma no_line_end n k x : ~ line_at [] n k x.
Proof.
  assert (E0 : line_of 1024 [] [] []) by (split; [reflexivity|split; [cbn; lia|right; split; [easy|auto]]]).
  intros H. inv H; match goal with H : line_of _ _ _ _ |- _ => destruct (first_line_unique _ _ _ _ _ E0 H) as [-> ->] end; congruence.
Qed.
Lemma no_line_blank s l rest n k x : line_of 1024 s l rest -> blank_line l -> ~ line_at s n k x.
Proof. intros Hl Hb H. inv H; match goal with H : line_of _ _ _ _ |- _ => destruct (first_line_unique _ _ _ _ _ Hl H) as [-> ->] end; contradiction. Qed.
Lemma line_at_cases s l rest t new n k x : line_of 1024 s l rest -> l <> [] -> ~ blank_line l -> seen_as l t -> tells_fields t [] new ->
  (line_at s n k x <-> (n = O /\ k = O /\ x = t) \/ exists n' k', n = S n' /\ k = (length new + k')%nat /\ line_at rest n' k' x).
Proof.
  intros Hl Hne Hb Ht Hnew. split.
  - intros H. inv H; match goal with H : line_of _ _ _ _ |- _ => destruct (first_line_unique _ _ _ _ _ Hl H) as [-> ->] end;
      match goal with H : seen_as l _ |- _ => apply upto_seen in Ht; apply upto_seen in H; rewrite Ht in H; subst end; [left; auto| |];
      right; do 2 eexists; (split; [reflexivity|]); (split; [|eassumption]); destruct Hnew as [(N & ->)|(nv & (a & b & (Ec & _) & _) & ->)]; try reflexivity; try contradiction.
    exfalso. match goal with H : ~ In _ _ |- _ => apply H end. rewrite Ec. apply in_or_app. right. now left.
  - intros [(-> & -> & ->)|(n' & k' & -> & -> & H)]; [eapply la_here; eauto|].
    destruct Hnew as [(N & ->)|(nv & (a & b & (Ec & _) & _) & ->)]; [eapply la_plain; eauto|].
    eapply la_field; eauto. rewrite Ec. apply in_or_app. right. now left.
Qed.
Local Opaque header_line header_line_s.
Lemma loop_runs ok : forall fuel s b h nc fs n0 h', get_line s b 1024 = Ok (nc, hs_buf h, hs_stream h) -> zbuf b -> (length s <= fuel)%nat -> zrep h fs ->
  header_loop fuel nc h = Ok h' ->
  runs ok (fun p => exists n k x, line_at s n k x /\ line_wants (n0 + n) (length fs + k) x p) (header_loop_s ok fuel n0 nc h) (Ok h').
Proof.
  induction fuel as [fuel IH] using (well_founded_induction lt_wf). intros s b h nc fs n0 h' G Hz Hf R.
  destruct (line_of_exists 1024 ltac:(lia) s) as (l & rest & Hl). destruct (seen_exists l) as (t & Ht).
  destruct (zbuf_line b l s rest t Hz Hl Ht) as (b' & G' & Z' & st & Eb). rewrite G in G'.
  assert (Gn : nc = len l) by congruence. assert (Gb : hs_buf h = b') by congruence. assert (Gs : hs_stream h = rest) by congruence.
  clear G G'. subst nc. pose proof Hl as (Es & _ & _). destruct s as [|c0 s0].
  { symmetry in Es. apply app_eq_nil in Es as [-> ->]. intros E. replace h' with h by (destruct fuel; injection E; auto). eapply runs_weak.
    - replace (header_loop_s ok fuel n0 (len []) h) with (Ok h) by (destruct fuel; reflexivity). apply runs_same.
    - intros p. split; [intros []|]. intros (n & k & x & H & _). now apply no_line_end in H. }
  pose proof (line_of_nonempty 1024 _ _ _ ltac:(lia) Hl ltac:(discriminate)) as Hne.
  assert (P : 0 < len l) by (destruct l; [easy|]; rewrite len_cons; lens; lia).
  destruct fuel as [|fuel]; [cbn in Hf; lia|]. cbn [header_loop header_loop_s]. replace (0 <? len l) with true by lia.
  assert (Nt : no_nul t) by apply Ht.
  rewrite Gb, Eb, !strcmp_lit by (auto; apply no_nul_dec_b; reflexivity). cbn [bind].
  pose proof (blank_seen l t Ht (ex_intro _ _ (ex_intro _ _ Hl))) as BS.
  assert (NoL : blank_line l -> forall p, ~ exists n k x, line_at (c0 :: s0) n k x /\ line_wants (n0 + n) (length fs + k) x p).
  { intros B p (n & k & x & H & _). exact (no_line_blank _ _ _ _ _ _ Hl B H). }
  destruct (str_eqb [LF] t) eqn:B1.
  { apply str_eqb_eq in B1. intros [= <-]. eapply runs_weak; [apply runs_same|]. intros p. split; [intros []|]. apply NoL. apply BS; left; auto. }
  destruct (str_eqb CRLF t) eqn:B2.
  { apply str_eqb_eq in B2. intros [= <-]. eapply runs_weak; [apply runs_same|]. intros p. split; [intros []|]. apply NoL. apply BS; right; auto. }
  assert (NB : ~ blank_line l).
  { intros B. apply BS in B as [-> | ->]; [rewrite str_eqb_refl in B1|rewrite str_eqb_refl in B2]; discriminate. }
  destruct (tells_exists t) as (new & Hnew).
  rewrite <- Gb in Eb. rewrite <- Gb in Z'. intros EL. apply bind_ok_inv in EL as (h1 & E & EL).
  destruct (header_line_total h t st fs new Eb Z' Nt R Hnew) as [(_ & e & E')|(_ & h1' & E' & Z1 & R1 & St)]; [rewrite E in E'; discriminate|].
  rewrite E in E'. injection E' as <-.
  pose proof (line_runs ok n0 h t st fs h1 Eb Z' Nt (proj1 R) E) as RL.
  rewrite St, Gs in EL. destruct (line_of_exists 1024 ltac:(lia) rest) as (l2 & r2 & Hl2).
  destruct (seen_exists l2) as (t2 & Ht2). destruct (zbuf_line (hs_buf h1) l2 rest r2 t2 Z1 Hl2 Ht2) as (b2 & G2 & Z2 & _).
  rewrite G2 in EL. cbn [bind] in EL.
  eapply runs_weak.
  - eapply runs_bind; [exact RL|]. rewrite St, Gs, G2. cbn [bind].
    apply (IH fuel ltac:(lia) rest (hs_buf h1) _ (len l2) (fs ++ new) (S n0) h'); auto.
    rewrite Es, app_length in Hf. unfold len in P. lia.
  - intros p. cbn beta. rewrite app_length. split.
    + intros [W|(n & k & x & H & W)].
      * exists O, O, t. rewrite !Nat.add_0_r. split; [|exact W]. apply (line_at_cases _ l rest t new); auto.
      * exists (S n), (length new + k)%nat, x. rewrite Nat.add_succ_r, Nat.add_assoc. split; [|exact W]. apply (line_at_cases _ l rest t new); eauto 8.
    + intros (n & k & x & H & W). apply (line_at_cases _ l rest t new) in H as [(-> & -> & ->)|(n' & k' & -> & -> & H)]; auto.
      * left. now rewrite !Nat.add_0_r in W.
      * right. exists n', k', x. split; [exact H|]. now rewrite Nat.add_succ_r, Nat.add_assoc in W.
Qed.
Local Transparent header_line header_line_s.

(** ** The URL *)
Lemma split_runs ok d : forall fuel s n l, split_loop fuel n d s = Ok l ->
  runs ok (fun p => exists i, n <= i < n + len l /\ p = PPiece i) (split_loop_s ok fuel n d s) (Ok l).
Proof.
  induction fuel as [|fuel IH]; intros s n l; cbn [split_loop split_loop_s]; destruct (strtok d s) as [(tok & rest)|]; try discriminate.
  - intros [= <-]. eapply runs_weak; [apply runs_same|]. intros p. split; [intros []|]. intros (i & H & _). cbn in H. lia.
  - destruct (MAX_SPLIT_STR <=? n); [discriminate|]. intros E. step E e Ee. apply bind_ok_inv in E as (l' & El & E). injection E as <-.
    eapply runs_weak; [eapply runs_need; eapply runs_bind; [apply IH; exact El|apply runs_same]|].
    intros p. cbn beta. rewrite len_cons. pose proof (len_nonneg _ l'). split.
    + intros [->|[(i & H1 & ->)|[]]]; [exists n|exists i]; (split; [lia|reflexivity]).
    + intros (i & H1 & ->). destruct (Z.eq_dec i n) as [->|N]; [now left|right; left; exists i; split; [lia|reflexivity]].
  - intros [= <-]. eapply runs_weak; [apply runs_same|]. intros p. split; [intros []|]. intros (i & H & _). cbn in H. lia.
Qed.
Lemma url_runs ok u x : no_nul u -> get_path_and_query_string u = Ok x -> runs ok (url_wants u) (get_path_and_query_s ok u) (Ok x).
Proof.
  intros Nu E. destruct (tokens_exist (L "?") u) as (ts & T). unfold get_path_and_query_string in E. pose proof (split_eq _ _ _ T Nu) as Sp.
  apply bind_ok_inv in E as (l & El & E). rewrite El in Sp. destruct (len ts <=? 50); [|discriminate]. injection Sp as ->.
  unfold split in El. apply split_runs with (ok := ok) in El. unfold get_path_and_query_s.
  assert (U : forall ts', tokens (L "?") u ts' -> ts' = ts) by (intros ts' T'; exact (tokens_unique _ _ _ _ T' T)).
  destruct ts as [|tp ts]; [discriminate|]. cbn [map] in *.
  apply bind_ok_inv in E as (path & Ep & E). destruct ts as [|tq ts]; cbn [map] in *.
  - injection E as <-. eapply runs_weak.
    + do 3 eapply runs_need. eapply runs_bind; [exact El|]. cbn beta iota. rewrite Ep. cbn [bind]. eapply runs_need. apply runs_same.
    + intros p. cbn beta. unfold url_wants. cbn [In]. rewrite ?len_cons, ?len_nil. split.
      * intros [->|[->|[->|[(i & H & ->)|[->|[]]]]]]; auto 8. right. exists [tp]. split; [exact T|]. left. exists i. split; [cbn in *; lia|reflexivity].
      * intros [[<-|[<-|[<-|[<-|[]]]]]|(ts' & T' & [(i & H & ->)|(H & ->)])]; auto 8; rewrite (U _ T') in H; cbn in H.
        -- right. right. right. left. exists i. split; [cbn; lia|reflexivity].
        -- lia.
  - apply bind_ok_inv in E as (q & Eq & E). injection E as <-. eapply runs_weak.
    + do 3 eapply runs_need. eapply runs_bind; [exact El|]. cbn beta iota. rewrite Ep. cbn [bind]. eapply runs_need. rewrite Eq. cbn [bind]. eapply runs_need. apply runs_same.
    + intros p. cbn beta. unfold url_wants. cbn [In]. rewrite !len_cons, len_map. pose proof (len_nonneg _ ts). split.
      * intros [->|[->|[->|[(i & Hi & ->)|[->|[->|[]]]]]]]; auto 8; right; exists (tp :: tq :: ts); (split; [exact T|]); [left; exists i|right]; rewrite !len_cons; (split; [lia|reflexivity]).
      * intros [[<-|[<-|[<-|[<-|[]]]]]|(ts' & T' & [(i & Hi & ->)|(Hi & ->)])]; auto 8; rewrite (U _ T') in Hi; rewrite !len_cons in Hi.
        right. right. right. left. exists i. split; [lia|reflexivity].
Qed.

(** ** The answers *)
Lemma header_runs ok q name v : no_nul name -> len name <= 63 -> forall fl, Forall (fun nv => no_nul (fst nv) /\ no_nul (snd nv)) fl ->
  get_header_loop (map stored fl) name = Ok v ->
  runs ok (fun p => In name (map fst fl) /\ p = q) (get_header_s ok q (map stored fl) name) (Ok v).
Proof.
  intros Hn Hl fl F. induction F as [|(n, w) fl (N1 & N2) F IH].
  { intros [= <-]. eapply runs_weak; [apply runs_same|]. intros p. cbn. tauto. }
  cbn [fst snd] in *. cbn [map get_header_loop get_header_s stored h_name h_value fst snd]. rewrite strcmp_stored by auto. cbn [bind].
  destruct (str_eqb n name) eqn:E.
  - apply str_eqb_eq in E. subst n. intros ->. cbn [bind]. eapply runs_weak; [eapply runs_need; apply runs_same|].
    intros p. cbn [In]. tauto.
  - apply str_eqb_neq in E. intros E2. eapply runs_weak; [now apply IH|]. intros p. cbn [In]. tauto.
Qed.
Lemma log_runs ok r fs st r' : r_headers r = map stored (firstn 20 fs) -> Forall (fun nv => no_nul (fst nv) /\ no_nul (snd nv)) fs ->
  log_access r st = Ok r' -> runs ok (log_wants fs) (log_access_s ok r st) (Ok r').
Proof.
  intros E F. assert (F' : Forall (fun nv => no_nul (fst nv) /\ no_nul (snd nv)) (firstn 20 fs)).
  { apply Forall_forall. intros y Hy. rewrite Forall_forall in F. apply F. rewrite <- (firstn_skipn 20 fs). apply in_or_app. now left. }
  unfold log_access, log_access_s, http_get_header. rewrite E. intros EL. apply bind_ok_inv in EL as (a & Ea & EL). apply bind_ok_inv in EL as (b & Eb & EL). injection EL as <-.
  eapply runs_weak.
  - eapply runs_need. eapply runs_bind; [eapply header_runs; eauto; [apply no_nul_dec_b; reflexivity|vm_compute; discriminate]|].
    eapply runs_bind; [eapply header_runs; eauto; [apply no_nul_dec_b; reflexivity|vm_compute; discriminate]|]. apply runs_same.
  - intros p. unfold log_wants. tauto.
Qed.
Lemma status_runs ok r fs st r' : In st [400; 429] -> r_headers r = map stored (firstn 20 fs) -> Forall (fun nv => no_nul (fst nv) /\ no_nul (snd nv)) fs ->
  send_http_status r st [] = Ok r' -> runs ok (log_wants fs) (send_status_s ok r st) (Ok r').
Proof.
  intros I E F. unfold send_http_status, send_status_s. replace (find_http_status_index st =? -1) with false by (destruct I as [<-|[<-|[]]]; reflexivity).
  replace (negb (str_eqb [] [])) with false by reflexivity. intros EL. step EL b Eb. eapply log_runs; [|exact F|exact EL]. exact E.
Qed.

(** A file: its content is lost if its block is refused. *)
Definition cut_off (ok : allocator) (f : fs) (r r' : api_request) : Prop :=
  if ok PFile then r' = r
  else r_log r' = r_log r /\ r_response_length r' = r_response_length r /\ r_socket r' = r_socket r
    /\ exists name content, f name = Some (File content) /\ r_sends r = r_sends r' ++ [content]
      /\ r_response_length r' = len (concat (r_sends r')) + len content.
Lemma return_headers_runs ok r name x : return_headers r name = Ok x ->
  runs ok (fun p => p = PMime \/ p = PSession) (return_headers_s ok r name) (Ok x).
Proof.
  unfold return_headers, return_headers_s. intros E. step E a Ea. apply bind_ok_inv in E as (b & Eb & E). rewrite Eb. cbn [bind].
  eapply runs_weak; [eapply runs_need; eapply runs_need; rewrite E; apply runs_same|]. intros p. cbn beta. tauto.
Qed.
Local Opaque return_headers return_headers_s log_access log_access_s.
Lemma log_keeps r st r' : log_access r st = Ok r' ->
  r_sends r' = r_sends r /\ r_response_length r' = r_response_length r /\ r_socket r' = r_socket r
  /\ exists a b, r_log r' = r_log r ++ [mkEntry (r_ip r) (r_request_line r) st (r_response_length r) a b]
     /\ http_get_header r (L "Referer") = Ok a /\ http_get_header r (L "User-Agent") = Ok b.
Proof.
  Local Transparent log_access. unfold log_access. Local Opaque log_access. intros E. apply bind_ok_inv in E as (a & Ea & E). apply bind_ok_inv in E as (b & Eb & E).
  injection E as <-. cbn. eauto 10.
Qed.
Lemma file_runs ok f r fs name content sess r1 : r_headers r = map stored (firstn 20 fs) -> Forall (fun nv => no_nul (fst nv) /\ no_nul (snd nv)) fs ->
  f name = Some (File content) -> cstr (r_session r) = Ok sess -> len sess <= 493 -> r_sends r = [] ->
  direct_file f r name = Ok (0, r1) ->
  exists r2, runs ok (fun p => p = PMime \/ p = PSession \/ log_wants fs p) (direct_file_s ok f r name) (Ok (0, r2)) /\ cut_off ok f r1 r2.
Proof.
  intros E F Hf Hs Hl Hsd. pose proof (return_headers_eq r name sess Hs Hl) as RH. unfold direct_file, direct_file_s, is_file. rewrite Hf. cbn [negb].
  rewrite RH. cbn [bind]. unfold return_file, return_file_s. rewrite Hf.
  destruct (int_max <? len content); [discriminate|]. cbn [bind]. intros EL. apply bind_ok_inv in EL as (l & El & EL).
  apply bind_ok_inv in EL as (r4 & E4 & EL). injection EL as <-.
  set (ra := prints r (header_sends name sess)) in *.
  pose (rb := if ok PFile then http_print ra content else ra).
  assert (exists r5, log_access (set_response_length rb l) 200 = Ok r5) as (r5 & E5).
  { destruct (log_keeps _ _ _ E4) as (_ & _ & _ & a & b & _ & Ea & Eb).
    assert (Eh : r_headers (set_response_length rb l) = r_headers (set_response_length (http_print ra content) l)) by (unfold rb; destruct (ok PFile); reflexivity).
    Local Transparent log_access. unfold log_access. Local Opaque log_access. unfold http_get_header in *. rewrite Eh, Ea. cbn [bind]. rewrite Eb. cbn [bind]. eauto. }
  exists r5. split.
  - eapply runs_weak.
    + eapply runs_bind; [apply return_headers_runs; exact RH|]. cbn beta iota. fold rb. cbn [bind]. rewrite El. cbn [bind].
      eapply runs_bind; [eapply log_runs; [|exact F|exact E5]|apply runs_same]. unfold rb. destruct (ok PFile); exact E.
    + intros p. cbn beta. tauto.
  - unfold cut_off. unfold rb in E5. destruct (ok PFile); [congruence|].
    destruct (log_keeps _ _ _ E4) as (S4 & L4 & K4 & a & b & G4 & Ea & Eb). destruct (log_keeps _ _ _ E5) as (S5 & L5 & K5 & a' & b' & G5 & Ea' & Eb').
    change (http_get_header (set_response_length (http_print ra content) l)) with (http_get_header (set_response_length ra l)) in Ea, Eb.
    rewrite Ea in Ea'. injection Ea' as <-. rewrite Eb in Eb'. injection Eb' as <-.
    split; [rewrite G5, G4; reflexivity|]. split; [rewrite L5, L4; reflexivity|]. split; [rewrite K5, K4; reflexivity|].
    exists name, content. split; [exact Hf|]. split; [rewrite S5, S4; reflexivity|]. rewrite L5, S5. 
    change (r_response_length (set_response_length ra l)) with (to_u32 l). change (r_sends (set_response_length ra l)) with (r_sends r ++ header_sends name sess).
    rewrite Hsd. cbn [app]. unfold int_add in El. set (k := len (concat (header_sends name sess)) + len content) in *.
    assert (0 <= k) by (unfold k; pose proof (len_nonneg _ content); pose proof (len_nonneg _ (concat (header_sends name sess))); lia).
    destruct ((k <? int_min) || (int_max <? k)) eqn:Ek; [discriminate|]. injection El as <-. apply Bool.orb_false_iff in Ek as (_ & Ek).
    unfold to_u32, int_max in *. apply Z.mod_small. lia.
Qed.

Local Opaque direct_file direct_file_s.
Lemma static_pick_s ok v f r junk p : cstr (v_stk v) = Ok junk -> static_target v junk (r_path r) p -> len p <= 1023 ->
  exists W : bool, handle_static_routes_s ok v f r =
  (_ <- need ok PPathText;; p <- (if W then _ <- need ok PNewPath;; Ok p else Ok p);;
   file <- fits 1024 (v_static_root v ++ L "/" ++ p);;
   '(st, r2) <- direct_file_s ok f (set_path r p) file;;
   if st <? 0 then
     file' <- fits 1024 (v_static_root v ++ L "/" ++ v_index v);; '(_, r3) <- direct_file_s ok f r2 file';; Ok r3
   else Ok r2)
  /\ (W = true <-> In (r_path r) [L "/"; L "/index.html"; L "/favicon.ico"] \/ exists j, junk = j ++ L "/").
Proof.
  intros Hj Ht Hp. unfold handle_static_routes_s, strlen. rewrite Hj. cbn [bind].
  destruct (cstr_inv _ _ Hj) as (_ & rr & Ej).
  assert (R : forall j c, junk = j ++ [c] -> rd (v_stk v) (len junk - 1) = Ok c).
  { intros j c ->. rewrite Ej, cs_app. replace (len (j ++ [c]) - 1) with (len (map (@Some ascii) j)) by (rewrite len_map; llia).
    rewrite <- app_assoc. now apply rd_at. }
  assert (N : forall p0, ~ In p0 [L "/"; L "/index.html"; L "/favicon.ico"] ->
    str_eqb p0 (L "/") = false /\ str_eqb p0 (L "/index.html") = false /\ str_eqb p0 (L "/favicon.ico") = false).
  { intros p0 H. repeat split; apply str_eqb_neq; intros ->; apply H; cbn; tauto. }
  inversion Ht as [p0 I E1 E2|E1 E2|p0 j I E E1 E2|p0 j c I E C E1 E2]; subst p.
  - exists true. assert (str_eqb (r_path r) (L "/") || str_eqb (r_path r) (L "/index.html") = true) as ->; [|split; [reflexivity|]].
    + destruct I as [<-|[<-|[]]]; rewrite str_eqb_refl; [reflexivity|apply Bool.orb_true_r].
    + split; [intros _; left; cbn [In] in *; tauto|reflexivity].
  - exists true. split; [reflexivity|]. split; [intros _; left; cbn; tauto|reflexivity].
  - exists true. destruct (N _ I) as (-> & -> & ->). cbn [orb]. rewrite (R j "/"%char E). cbn [bind]. rewrite ceq_refl. rewrite fits_ok by lia. cbn [bind].
    split; [reflexivity|]. split; [intros _; right; eauto|reflexivity].
  - exists false. destruct (N _ I) as (-> & -> & ->). cbn [orb]. rewrite (R j c E). cbn [bind]. rewrite ceq_neq by auto. split; [reflexivity|].
    split; [discriminate|]. intros [X|(j' & X)]; [contradiction|]. rewrite E in X. apply app_inj_tail in X as [_ ->]. now elim C.
Qed.
Lemma direct_file_missing_s ok f r name : (forall c, f name <> Some (File c)) -> direct_file_s ok f r name = Ok (-1, r).
Proof. Local Transparent direct_file_s. intros H. unfold direct_file_s, is_file. destruct (f name) as [[c|]|] eqn:E; auto. now elim (H c). Qed.
Local Opaque direct_file_s.

(** What a static request gives: the same, but for the content of the file. *)
Lemma static_runs ok v f r fs junk sess r1 : r_headers r = map stored (firstn 20 fs) -> Forall (fun nv => no_nul (fst nv) /\ no_nul (snd nv)) fs ->
  cstr (r_session r) = Ok sess -> len sess <= 493 -> cstr (v_stk v) = Ok junk -> junk <> [] -> len (r_path r) <= 254 ->
  len (v_static_root v) <= 758 -> len (v_index v) <= 264 -> len (v_favicon v) <= 264 -> r_sends r = [] -> r_log r = [] ->
  handle_static_routes v f r = Ok r1 ->
  exists r2, runs ok (file_wants v f junk (r_path r) fs) (handle_static_routes_s ok v f r) (Ok r2)
    /\ ((r_log r1 = [] /\ r2 = r1) \/ (r_log r1 <> [] /\ cut_off ok f r1 r2)).
Proof.
  intros E F Hs Hsl Hj Hne Hp Hr Hi Hf Hsd Hlg X. destruct (target_exists v junk (r_path r) Hne) as (p & Ht).
  pose proof (target_len _ _ _ _ Ht Hp Hi Hf) as Lp.
  assert (L1 : len (v_static_root v ++ L "/" ++ p) <= 1023) by (rewrite !len_app; change (len (L "/")) with 1; lia).
  assert (L2 : len (v_static_root v ++ L "/" ++ v_index v) <= 1023) by (rewrite !len_app; change (len (L "/")) with 1; lia).
  rewrite (static_eq v f r junk p Hj Ht) in X by lia. rewrite fits_ok in X by lia. cbn [bind] in X.
  destruct (static_pick_s ok v f r junk p Hj Ht ltac:(lia)) as (W & -> & HW).
  assert (Go : forall y Q, runs ok Q (file <- fits 1024 (v_static_root v ++ L "/" ++ p);; '(st, r2) <- direct_file_s ok f (set_path r p) file;;
     if st <? 0 then file' <- fits 1024 (v_static_root v ++ L "/" ++ v_index v);; '(_, r3) <- direct_file_s ok f r2 file';; Ok r3 else Ok r2) y ->
     (forall q, Q q <-> found v f junk (r_path r) /\ (q = PMime \/ q = PSession \/ log_wants fs q)) ->
     runs ok (file_wants v f junk (r_path r) fs) (_ <- need ok PPathText;; p <- (if W then _ <- need ok PNewPath;; Ok p else Ok p);;
       file <- fits 1024 (v_static_root v ++ L "/" ++ p);; '(st, r2) <- direct_file_s ok f (set_path r p) file;;
       if st <? 0 then file' <- fits 1024 (v_static_root v ++ L "/" ++ v_index v);; '(_, r3) <- direct_file_s ok f r2 file';; Ok r3 else Ok r2) y).
  { intros y Q RQ HQ. eapply runs_weak.
    - eapply runs_need. eapply runs_bind with (a := p) (W1 := fun q => W = true /\ q = PNewPath); [|exact RQ]. destruct W.
      + eapply runs_weak; [eapply runs_need; apply runs_same|]. intros q. cbn beta. tauto.
      + eapply runs_weak; [apply runs_same|]. intros q. cbn beta. split; [intros []|intros [Y _]; discriminate].
    - intros q. cbn beta. unfold file_wants. rewrite HW, HQ. tauto. }
  assert (KL : forall name content r', f name = Some (File content) -> direct_file f (set_path r p) name = Ok (0, r') -> r_log r' <> []).
  { clear X. Local Transparent direct_file. unfold direct_file, is_file. intros name content r' ->. cbn [negb]. intros X.
    apply bind_ok_inv in X as ((l1 & ra) & _ & X). apply bind_ok_inv in X as ((l2 & rb) & _ & X). apply bind_ok_inv in X as (l & _ & X).
    apply bind_ok_inv in X as (r4 & X4 & X). injection X as <-. apply log_keeps in X4 as (_ & _ & _ & a & b & -> & _). intros Q. apply app_eq_nil in Q as [_ Q]. discriminate. }
  Local Opaque direct_file.
  assert (NG : forall r' name content x, f name = Some (File content) -> direct_file f r' name = Ok x -> fst x = 0).
  { clear X. Local Transparent direct_file. unfold direct_file, is_file. intros r' name content x ->. cbn [negb]. intros X.
    apply bind_ok_inv in X as ((l1 & ra) & _ & X). apply bind_ok_inv in X as ((l2 & rb) & _ & X). apply bind_ok_inv in X as (l & _ & X).
    apply bind_ok_inv in X as (r4 & X4 & X). injection X as <-. reflexivity. }
  Local Opaque direct_file.
  destruct (is_file_dec f (v_static_root v ++ L "/" ++ p)) as [(c & Ec)|N].
  - assert (Fd : found v f junk (r_path r)) by (exists p, (v_static_root v ++ L "/" ++ p), c; split; [auto|split; [now left|auto]]).
    apply bind_ok_inv in X as ((st & ra) & X1 & X). pose proof (NG _ _ _ _ Ec X1) as Z0. cbn [fst] in Z0. subst st. change (0 <? 0) with false in X. cbv iota in X. injection X as <-.
    destruct (file_runs ok f (set_path r p) fs _ c sess ra E F Ec Hs Hsl Hsd X1) as (r2 & RF & CF).
    exists r2. split; [|right; split; [exact (KL _ _ _ Ec X1)|exact CF]]. eapply Go.
    + rewrite fits_ok by lia. cbn [bind]. eapply runs_bind; [exact RF|]. change (0 <? 0) with false. cbv iota. apply runs_same.
    + intros q. cbn beta. tauto.
  - rewrite direct_file_missing in X by auto. cbn [bind] in X. change (-1 <? 0) with true in X. cbv iota in X. rewrite fits_ok in X by lia. cbn [bind] in X.
    destruct (is_file_dec f (v_static_root v ++ L "/" ++ v_index v)) as [(c & Ec)|N2].
    + assert (Fd : found v f junk (r_path r)) by (exists p, (v_static_root v ++ L "/" ++ v_index v), c; split; [auto|split; [right; now left|auto]]).
      apply bind_ok_inv in X as ((st & ra) & X1 & X). injection X as <-. pose proof (NG _ _ _ _ Ec X1) as Z0. cbn [fst] in Z0. subst st.
      destruct (file_runs ok f (set_path r p) fs _ c sess ra E F Ec Hs Hsl Hsd X1) as (r2 & RF & CF).
      exists r2. split; [|right; split; [exact (KL _ _ _ Ec X1)|exact CF]]. eapply Go.
      * rewrite fits_ok by lia. cbn [bind]. rewrite direct_file_missing_s by auto. cbn [bind]. change (-1 <? 0) with true. cbv iota. rewrite fits_ok by lia. cbn [bind].
        eapply runs_bind; [exact RF|]. apply runs_same.
      * intros q. cbn beta. tauto.
    + rewrite direct_file_missing in X by auto. cbn [bind] in X. injection X as <-. exists (set_path r p). split; [|left; split; [exact Hlg|reflexivity]]. eapply Go.
      * rewrite fits_ok by lia. cbn [bind]. rewrite direct_file_missing_s by auto. cbn [bind]. change (-1 <? 0) with true. cbv iota. rewrite fits_ok by lia. cbn [bind].
        rewrite direct_file_missing_s by auto. cbn [bind]. apply runs_same.
      * intros q. cbn beta. split; [intros []|]. intros ((p' & name & c & Ht' & I & Ec) & _). rewrite (target_unique _ _ _ _ _ Ht' Ht) in I.
        destruct I as [<-|[<-|[]]]; [apply (N c Ec)|apply (N2 c Ec)].
Qed.

(** ** The connection table *)
Lemma free_exists t : existsb (fun c => c_socket c =? 0) t = true <-> len (occupied t) < len t.
Proof.
  induction t as [|c t IH]; [cbn; split; [discriminate|lia]|]. rewrite occupied_cons. cbn [existsb]. pose proof (occupied_le t).
  destruct (c_socket c =? 0); cbn [orb]; rewrite ?len_cons; [split; [lia|reflexivity]|]. rewrite IH. lia.
Qed.
Lemma add_runs ok rules t socket ip u x : connection_add rules t socket ip u = Ok x ->
  runs ok (fun p => p = PUrl /\ (some_rule rules \/ len (occupied t) < len t)) (connection_add_s ok rules t socket ip u) (Ok x).
Proof.
  intros E. unfold connection_add_s. destruct (ok PUrl) eqn:Eo; [right; split; [intros p (-> & _); exact Eo|exact E]|].
  assert (SR : match rules with r :: _ => match l_path r with [] => false | _ => true end | [] => false end = true <-> some_rule rules).
  { destruct rules as [|r rs]; [split; [discriminate|intros (? & ? & X & _); discriminate]|]. split.
    - intros X. exists r, rs. split; [reflexivity|]. destruct (l_path r); [discriminate|discriminate].
    - intros (r' & rs' & X & Y). injection X as <- <-. now destruct (l_path r). }
  destruct (match rules with r :: _ => match l_path r with [] => false | _ => true end | [] => false end) eqn:ER.
  { left. split; [exists PUrl; split; [split; [reflexivity|left; now apply SR]|exact Eo]|]. eexists. reflexivity. }
  pose proof (free_exists t) as FE. destruct (existsb (fun c => c_socket c =? 0) t) eqn:Ef.
  { left. split; [exists PUrl; split; [split; [reflexivity|right; now apply FE]|exact Eo]|]. eexists. reflexivity. }
  right. assert (NS : ~ some_rule rules) by (intros X; apply SR in X; discriminate).
  assert (NF : ~ len (occupied t) < len t) by (intros X; apply FE in X; discriminate).
  split; [intros p (_ & [X|X]); contradiction|]. unfold connection_add in E.
  assert (V : connection_validate rules t ip u = Ok true).
  { destruct rules as [|r rs]; [reflexivity|]. cbn [connection_validate]. destruct (l_path r) eqn:El; [reflexivity|]. elim NS. exists r, rs. split; [reflexivity|]. rewrite El. discriminate. }
  rewrite V in E. cbn [bind] in E. rewrite claim_full in E by (pose proof (occupied_le t); lia). exact E.
Qed.
Lemma bad_runs ok r fs r' : r_headers r = map stored (firstn 20 fs) -> Forall (fun nv => no_nul (fst nv) /\ no_nul (snd nv)) fs ->
  bad_request r = Ok r' -> runs ok (log_wants fs) (send_status_s ok r 400) (Ok r').
Proof. unfold bad_request. intros. apply status_runs; auto. now left. Qed.
Lemma many_runs ok r fs r' : r_headers r = map stored (firstn 20 fs) -> Forall (fun nv => no_nul (fst nv) /\ no_nul (snd nv)) fs ->
  too_many_connections r = Ok r' -> runs ok (log_wants fs) (send_status_s ok r 429) (Ok r').
Proof. unfold too_many_connections. intros. apply status_runs; auto. right. now left. Qed.

(** ** The whole request *)
Definition answered (ok : allocator) (f : fs) (res res' : result) : Prop :=
  (ok PFile = true \/ ~ file_sent res -> res' = res) /\ (ok PFile = false -> file_sent res -> content_lost f res res').
Lemma finish_same k r t f : o_taken (finish k r t f) = k /\ o_req (finish k r t f) = r /\ o_fs (finish k r t f) = f
  /\ o_table (finish k r t f) = connection_del t (r_socket r) /\ o_closed (finish k r t f) = [r_socket r].
Proof. unfold finish, connection_close. auto. Qed.
Lemma answered_same ok f res : ~ file_sent res -> answered ok f res res.
Proof. intros H. split; [reflexivity|]. intros _ X. contradiction. Qed.
Lemma static_answered ok f t r1 r2 : (r_log r1 = [] /\ r2 = r1) \/ (r_log r1 <> [] /\ cut_off ok f r1 r2) ->
  answered ok f (finish TStatic r1 t f) (finish TStatic r2 t f).
Proof.
  destruct (finish_same TStatic r1 t f) as (A1 & A2 & A3 & A4 & A5). destruct (finish_same TStatic r2 t f) as (B1 & B2 & B3 & B4 & B5).
  unfold answered, file_sent, content_lost, same_but. rewrite A1, A2, A3, A4, A5, B1, B2, B3, B4, B5. unfold cut_off.
  intros [(Hl & ->)|(Hl & C)].
  - split; [reflexivity|]. intros _ (_ & X). contradiction.
  - destruct (ok PFile); [subst; split; [reflexivity|discriminate]|]. destruct C as (C1 & C2 & C3 & name & content & C4 & C5 & C6).
    split; [intros [X|X]; [discriminate|elim X; auto]|]. intros _ _. rewrite C1, C2, C3. split; [auto 8|]. exists name, content. rewrite C2 in C6. auto.
Qed.

Definition rest_s (ok : allocator) (v : wsenv) (f : fs) (t1 : table) (r2 : api_request) (method url : str) (b : buf) (s1 : str) : outcome result :=
  b1 <- write_at b 0 [Some "A"%char; Some NUL];;
  '(n, b2, s2) <- get_line s1 b1 1024;;
  h <- header_loop_s ok (length s1) 0 n (mkH b2 s2 [] None [] (-1) (r_ip r2) (calloc MAX_SESSION));;
  let r3 := set_session (set_ip (set_content_type (set_headers r2 (hs_headers h))
              (hs_content_type h)) (hs_ip h)) (hs_session h) in
  '(path, query) <- get_path_and_query_s ok url;;
  let r4 := set_query r3 query in
  api <- startswith (cs url) API_MOUNT;;
  if negb api then
    let r5 := set_path r4 path in
    if str_caseeqb method (L "GET") then
      r6 <- handle_static_routes_s ok v f r5;; Ok (finish TStatic r6 t1 f)
    else
      r6 <- send_status_s ok r5 400;; Ok (finish TNotGet r6 t1 f)
  else
    p <- cstr (from (cs path) (len API_MOUNT));;
    _ <- need ok PApiPath;;
    let r5 := set_path r4 p in
    '(calls, r6, f') <- handle_api_request_s ok v f (hs_stream h) r5 (hs_length h) (hs_boundary h);;
    Ok (finish (TApi calls) r6 t1 f').
Lemma scarce_unfold ok v f t socket peer stream : accept_scarce ok v f t socket peer stream =
  (_ <- need ok PRequest;;
   _ <- need ok PPeer;;
   r0 <- new_request socket peer;;
   '(_, b, s1) <- get_line stream (calloc 1024) 1024;;
   _ <- need ok PLine;;
   '(rl, method, j) <- parse_request_line b;;
   let r1 := set_method (set_request_line r0 rl) method in
   ok_method <- startswithany (cs method) ALLOWED_HTTP_METHODS;;
   if negb ok_method then
     r2 <- send_status_s ok r1 400;; Ok (finish TBadMethod r2 t f)
   else
   url <- parse_url b j;;
   let r2 := set_url r1 url in
   '(admitted, t1) <- connection_add_s ok (v_limits v) t socket (r_ip r2) url;;
   if negb admitted then
     r3 <- send_status_s ok r2 429;; Ok (finish TTooMany r3 t1 f)
   else rest_s ok v f t1 r2 method url b s1).
Proof. reflexivity. Qed.

Local Opaque get_line header_loop header_loop_s get_path_and_query_string get_path_and_query_s startswith handle_static_routes handle_static_routes_s handle_api_request
  bad_request send_status_s write_at connection_add connection_add_s startswithany parse_request_line parse_url too_many_connections finish.
Lemma rest_runs ok v f t1 socket peer rl m url b junk s1 res : zbuf b -> no_nul m -> no_nul url -> len url <= 254 -> ~ api_url url ->
  cstr (v_stk v) = Ok junk -> junk <> [] -> len (v_static_root v) <= 758 -> len (v_index v) <= 264 -> len (v_favicon v) <= 264 ->
  accept_rest v f t1 (req2 socket peer rl m url) m url b s1 = Ok res ->
  exists res', runs ok (fun p => (exists n k x, line_at s1 n k x /\ line_wants n k x p) \/ url_wants url p
      \/ exists path q fs, url_parts url path q /\ headers s1 fs /\ ((~ is_get m /\ log_wants fs p) \/ (is_get m /\ file_wants v f junk path fs p)))
    (rest_s ok v f t1 (req2 socket peer rl m url) m url b s1) (Ok res') /\ answered ok f res res'.
Proof.
  intros Hz Nm Nu Lu Na Hj Hne Hr Hi Hf X. unfold accept_rest in X. unfold rest_s. destruct (zbuf_A b Hz) as (b1 & Eb1 & Z1).
  rewrite Eb1 in X. rewrite Eb1. cbn [bind] in X. cbn [bind].
  destruct (line_of_exists 1024 ltac:(lia) s1) as (l & rest & Hl). destruct (seen_exists l) as (t & Ht).
  destruct (zbuf_line b1 l s1 rest t Z1 Hl Ht) as (b2 & G & Z2 & _). rewrite G in X. rewrite G. cbn [bind] in X. cbn [bind].
  change (r_ip (req2 socket peer rl m url)) with peer in *.
  assert (ZR : zrep (mkH b2 rest [] None [] (-1) peer (calloc MAX_SESSION)) []).
  { split; [reflexivity|]. split; [constructor|]. exists []. exists (calloc 63). split; [reflexivity|]. split; [constructor|]. reflexivity. }
  apply bind_ok_inv in X as (h & E & X).
  pose proof (loop_runs ok (length s1) s1 b1 (mkH b2 rest [] None [] (-1) peer (calloc MAX_SESSION)) (len l) [] 0 h G Z1 ltac:(lia) ZR E) as RL.
  destruct (header_loop_total (length s1) s1 b1 (mkH b2 rest [] None [] (-1) peer (calloc MAX_SESSION)) (len l) [] G Z1 ltac:(lia) ZR)
    as [(_ & e & E')|(_ & h' & fs & E' & Hh & R1 & R2 & sess & R3)]; rewrite E in E'; [discriminate|]. injection E' as <-.
  cbn [app] in R1, R2. cbn zeta in X. apply bind_ok_inv in X as ((p & q) & Ep & X).
  pose proof (url_runs ok url (p, q) Nu Ep) as RU.
  assert (P : url_parts url p q).
  { destruct (tokens_exist (L "?") url) as (ts & T). destruct ts as [|p0 ts]; [rewrite (path_query_none url Nu T) in Ep; discriminate|].
    destruct (Z_lt_dec 49 (len ts)) as [G2|G2]; [destruct (path_query_oob url p0 ts Nu T ltac:(auto)) as (e & U); rewrite U in Ep; discriminate|].
    assert (P : url_parts url p0 (hd [] ts)) by (exists ts; split; [exact T|split; [lia|reflexivity]]).
    rewrite (url_parts_eq url p0 (hd [] ts)) in Ep by auto. injection Ep as <- <-. exact P. }
  pose proof (parts_len _ _ _ P) as Lp.
  destruct (api_eq url Nu) as (api & Ea & Ha). rewrite Ea in X. cbn [bind] in X.
  destruct api; [exfalso; apply Na, Ha; reflexivity|]. cbn [negb] in X.
  set (r := set_path _ p) in X.
  assert (Rh : r_headers r = map stored (firstn 20 fs)) by exact R1.
  assert (Rs : cstr (r_session r) = Ok sess) by (destruct R3 as (j & Ej & Ns & _); change (r_session r) with (hs_session h); rewrite Ej; now apply cstr_cs).
  assert (Ls : len sess <= 493). { destruct R3 as (j & Ej & _ & L64). rewrite Ej, len_app, len_cs in L64. lens. lia. }
  assert (Rp : r_path r = p) by reflexivity. assert (Rd : r_sends r = []) by reflexivity. assert (Rg : r_log r = []) by reflexivity.
  assert (Go : forall Q y, runs ok Q (if str_caseeqb m (L "GET") then r6 <- handle_static_routes_s ok v f r;; Ok (finish TStatic r6 t1 f)
      else r6 <- send_status_s ok r 400;; Ok (finish TNotGet r6 t1 f)) y ->
      (forall w, Q w <-> ((~ is_get m /\ log_wants fs w) \/ (is_get m /\ file_wants v f junk p fs w))) ->
      runs ok (fun w => (exists n k x, line_at s1 n k x /\ line_wants n k x w) \/ url_wants url w
        \/ exists path q fs, url_parts url path q /\ headers s1 fs /\ ((~ is_get m /\ log_wants fs w) \/ (is_get m /\ file_wants v f junk path fs w)))
        (rest_s ok v f t1 (req2 socket peer rl m url) m url b s1) y).
  { intros Q y RQ HQ. unfold rest_s. rewrite Eb1. cbn [bind]. rewrite G. cbn [bind]. change (r_ip (req2 socket peer rl m url)) with peer.
    eapply runs_weak.
    - eapply runs_bind; [exact RL|]. eapply runs_bind; [exact RU|]. cbn beta iota zeta. rewrite Ea. cbn [bind negb]. exact RQ.
    - intros w. cbn beta. rewrite HQ. cbn [Nat.add length]. split.
      + intros [W|[W|W]]; auto. right. right. exists p, q, fs. auto.
      + intros [W|[W|(p' & q' & fs' & P' & Hh' & W)]]; auto. right. right. destruct (parts_unique _ _ _ _ _ P' P) as [-> _].
        now rewrite (headers_unique _ _ Hh _ Hh') in W. }
  unfold rest_s in Go. rewrite Eb1 in Go. cbn [bind] in Go. rewrite G in Go. cbn [bind] in Go. change (r_ip (req2 socket peer rl m url)) with peer in Go.
  clearbody r.
  destruct (str_caseeqb m (L "GET")) eqn:Eg.
  - assert (IG : is_get m) by (now apply caseeqb_ci). apply bind_ok_inv in X as (r1 & X1 & X). injection X as <-.
    destruct (static_runs ok v f r fs junk sess r1 Rh R2 Rs Ls Hj Hne ltac:(rewrite Rp; lia) Hr Hi Hf Rd Rg X1) as (r2 & RS & CS).
    exists (finish TStatic r2 t1 f). split; [|now apply static_answered]. eapply Go.
    + eapply runs_bind; [exact RS|apply runs_same].
    + intros w. cbn beta. rewrite Rp. tauto.
  - assert (IG : ~ is_get m) by (intros Y; apply caseeqb_ci in Y; congruence). apply bind_ok_inv in X as (r1 & X1 & X). injection X as <-.
    exists (finish TNotGet r1 t1 f). split; [|apply answered_same; intros (Y & _); destruct (finish_same TNotGet r1 t1 f) as (A & _); congruence]. eapply Go.
    + eapply runs_bind; [exact (bad_runs ok r fs r1 Rh R2 X1)|apply runs_same].
    + intros w. cbn beta. tauto.
Qed.

Lemma scarce_runs ok v f t socket peer stream junk seen m url s1 res : sound_setting v f t peer junk -> first_line stream seen m url s1 ->
  (forall u, url = Some u -> ~ api_url u) -> accept_request v f t socket peer stream = Ok res ->
  exists res', runs ok (wants v f t peer junk m url s1) (accept_scarce ok v f t socket peer stream) (Ok res') /\ answered ok f res res'.
Proof.
  intros (Hp & Hr & Ho & Hj & Hne & H1 & H2 & H3 & Hc) FL NA X.
  destruct (first_line_reads _ _ _ _ _ FL) as (b & n & j & Z & G & Nm & PL & PU & HU).
  destruct (Z_lt_dec (len seen) 2) as [S2|S2].
  { exfalso. destruct FL as (l & w & sp & u & more & Hl & Hs & _). destruct (short_line_oob v f t socket peer stream l s1 seen) as (e & U); auto. congruence. }
  rewrite accept_unfold in X. rewrite scarce_unfold. unfold new_request in *. rewrite fits_ok in X by lia. rewrite fits_ok by lia. cbn [bind] in X. cbn [bind].
  rewrite G in X. rewrite G. cbn [bind] in X. cbn [bind]. rewrite PL in X by lia. rewrite PL by lia. cbn [bind] in X. cbn [bind].
  destruct (methods_eq m Nm) as (okm & Em & Hm). rewrite Em in X. rewrite Em. cbn [bind] in X. cbn [bind]. fold (req0 socket peer) in *. cbn zeta in X. cbn zeta.
  destruct okm; cbn [negb] in *.
  2:{ apply bind_ok_inv in X as (r1 & X1 & X). injection X as <-. exists (finish TBadMethod r1 t f).
      split; [|apply answered_same; intros (Y & _); destruct (finish_same TBadMethod r1 t f) as (A & _); congruence].
      eapply runs_weak.
      - do 3 eapply runs_need. eapply runs_bind; [eapply bad_runs with (fs := []); [|constructor|exact X1]; reflexivity|apply runs_same].
      - assert (NM : ~ allowed m) by (intros Y; apply Hm in Y; discriminate). intros p. cbn beta. unfold wants, log_wants. cbn [In map firstn].
        intuition congruence. }
  assert (Al : allowed m) by now apply Hm. rewrite PU in X. rewrite PU. destruct url as [u|]; [|discriminate].
  cbn [bind] in X. cbn [bind]. destruct (HU u eq_refl) as (Nu & Lu). specialize (NA u eq_refl).
  destruct (admit_total v t socket peer u Hr Ho Nu Lu Hp) as (adm & t1 & Ea & Ha).
  change (r_ip (set_url _ u)) with peer in *. rewrite Ea in X. cbn [bind] in X.
  pose proof (add_runs ok (v_limits v) t socket peer u _ Ea) as RA.
  set (r2 := set_url _ u) in *.
  destruct adm; cbn [negb] in X.
  2:{ apply bind_ok_inv in X as (r1 & X1 & X). injection X as <-. exists (finish TTooMany r1 t1 f).
      split; [|apply answered_same; intros (Y & _); destruct (finish_same TTooMany r1 t1 f) as (A & _); congruence].
      eapply runs_weak.
      - do 3 eapply runs_need. eapply runs_bind; [exact RA|]. cbn [negb].
        eapply runs_bind; [eapply many_runs with (fs := []); [|constructor|exact X1]; reflexivity|apply runs_same].
      - assert (NL : ~ let_in v t peer u) by (intros Y; apply Ha in Y; discriminate). intros p. cbn beta. unfold wants, log_wants. cbn [In map firstn]. split.
        + intros [->|[->|[->|[W|[[->|[([] & _)|([] & _)]]|[]]]]]]; auto; right; right; (split; [exact Al|]); exists u; auto.
        + intros [[<-|[<-|[<-|[]]]]|[(W & _)|(_ & u' & [= <-] & [W|[(_ & ->)|(W & _)]])]]; auto 8; contradiction. }
  assert (LI : let_in v t peer u) by now apply Ha.
  destruct (rest_runs ok v f t1 socket peer (firstn (length seen - 2) seen) m u b junk s1 res Z Nm Nu Lu NA Hj Hne H1 H2 H3 X) as (res' & RR & AR).
  exists res'. split; [|exact AR]. eapply runs_weak.
  - do 3 eapply runs_need. eapply runs_bind; [exact RA|]. cbn [negb]. exact RR.
  - intros p. cbn beta. unfold wants. cbn [In]. split.
    + intros [->|[->|[->|[W|W]]]]; auto; right; right; (split; [exact Al|]); exists u; (split; [reflexivity|]); auto.
    + intros [[<-|[<-|[<-|[]]]]|[(W & _)|(_ & u' & [= <-] & [W|[(W & _)|(_ & W)]])]]; auto 8; contradiction.
Qed.
Local Transparent get_line header_loop header_loop_s get_path_and_query_string get_path_and_query_s startswith handle_static_routes handle_static_routes_s handle_api_request
  bad_request send_status_s write_at connection_add connection_add_s startswithany parse_request_line parse_url too_many_connections finish
  direct_file direct_file_s return_headers return_headers_s log_access log_access_s.

(** ** All blocks given *)
Section given.
Variable ok : allocator.
Hypothesis all : forall p, ok p = true.
Lemma need_ok p : need ok p = Ok tt.
Proof. unfold need. now rewrite all. Qed.
Lemma bind_ext {A B} (x : outcome A) (f g : A -> outcome B) : (forall a, f a = g a) -> bind x f = bind x g.
Proof. intros H. destruct x; cbn [bind]; auto. Qed.
Lemma bind_id {A} (x : outcome A) : (a <- x;; Ok a) = x.
Proof. now destruct x. Qed.
Ltac open_ := rewrite ?need_ok; cbn [bind].
Lemma get_header_given p hs name : get_header_s ok p hs name = get_header_loop hs name.
Proof.
  induction hs as [|h t IH]; [reflexivity|]. cbn [get_header_s get_header_loop]. apply bind_ext. intros [|]; [|exact IH]. open_. apply bind_id.
Qed.
Lemma log_given r st : log_access_s ok r st = log_access r st.
Proof. unfold log_access_s, log_access, http_get_header. open_. now rewrite !get_header_given. Qed.
Lemma status_given r st : send_status_s ok r st = send_http_status r st [].
Proof.
  unfold send_status_s, send_http_status. replace (negb (str_eqb [] [])) with false by reflexivity.
  destruct (_ =? -1); [reflexivity|]. apply bind_ext. intros b. apply log_given.
Qed.
Lemma file_given f r name : direct_file_s ok f r name = direct_file f r name.
Proof.
  unfold direct_file_s, direct_file, return_headers_s, return_headers, return_file_s, return_file. open_. rewrite all.
  destruct (negb _); [reflexivity|]. apply bind_ext. intros (l1 & r1). apply bind_ext. intros (l2 & r2). apply bind_ext. intros l. cbn zeta. now rewrite log_given.
Qed.
Lemma static_given v f r : handle_static_routes_s ok v f r = handle_static_routes v f r.
Proof.
  unfold handle_static_routes_s, handle_static_routes. open_. apply bind_ext. intros n.
  assert (E : (if str_eqb (r_path r) (L "/") || str_eqb (r_path r) (L "/index.html") then Ok (v_index v)
      else if str_eqb (r_path r) (L "/favicon.ico") then Ok (v_favicon v)
      else c <- rd (v_stk v) (n - 1);; if ceq c "/" then s <- fits 1024 (r_path r ++ L "index.html");; Ok s else Ok (r_path r))
    = (if str_eqb (r_path r) (L "/") || str_eqb (r_path r) (L "/index.html") then Ok (v_index v)
      else if str_eqb (r_path r) (L "/favicon.ico") then Ok (v_favicon v)
      else c <- rd (v_stk v) (n - 1);; if ceq c "/" then fits 1024 (r_path r ++ L "index.html") else Ok (r_path r))).
  { destruct (_ || _); [reflexivity|]. destruct (str_eqb _ _); [reflexivity|]. apply bind_ext. intros c. now rewrite bind_id. }
  rewrite E. apply bind_ext. intros p. apply bind_ext. intros file. rewrite file_given. apply bind_ext. intros (st & r2).
  destruct (st <? 0); [|reflexivity]. apply bind_ext. intros file'. now rewrite file_given.
Qed.
Lemma line_given n h : header_line_s ok n h = header_line h.
Proof.
  unfold header_line_s, header_line, store_header_s, store_header, split_once_s, split_once, take_content_type_s, take_content_type, take_ip_s, take_ip,
    take_session_s, take_session, take_cookie_s, take_cookie. open_. reflexivity.
Qed.
Lemma loop_given : forall fuel n nc h, header_loop_s ok fuel n nc h = header_loop fuel nc h.
Proof.
  induction fuel as [|fuel IH]; intros n nc h; cbn [header_loop_s header_loop]; (destruct (0 <? nc); [|reflexivity]);
    apply bind_ext; intros [|]; [reflexivity| |reflexivity|]; apply bind_ext; intros [|]; [reflexivity| |reflexivity|]; rewrite line_given;
    apply bind_ext; intros h1; apply bind_ext; intros ((n' & b') & s'); [reflexivity|apply IH].
Qed.
Lemma split_given d : forall fuel n s, split_loop_s ok fuel n d s = split_loop fuel n d s.
Proof.
  induction fuel as [|fuel IH]; intros n s; cbn [split_loop_s split_loop]; destruct (strtok d s) as [(tok & rest)|]; try reflexivity.
  destruct (_ <=? n); [reflexivity|]. open_. apply bind_ext. intros e. now rewrite IH.
Qed.
Lemma url_given u : get_path_and_query_s ok u = get_path_and_query_string u.
Proof.
  unfold get_path_and_query_s, get_path_and_query_string, split. open_. rewrite split_given. apply bind_ext. intros [|p t]; [reflexivity|].
  apply bind_ext. intros path. open_. destruct t; [reflexivity|]. apply bind_ext. intros q. open_. reflexivity.
Qed.
Lemma bad_given r : send_status_s ok r 400 = bad_request r.
Proof. unfold bad_request. apply status_given. Qed.
Lemma many_given r : send_status_s ok r 429 = too_many_connections r.
Proof. unfold too_many_connections. apply status_given. Qed.
Lemma add_given rules t socket ip u : connection_add_s ok rules t socket ip u = connection_add rules t socket ip u.
Proof. unfold connection_add_s. now rewrite all. Qed.
Lemma body_given : forall k e f form tp tf bd n p,
  multipart_loop_a (fun x _ => ok (PBody x)) k e f form (Some tp) tf bd n p = multipart_loop k e f form tp tf bd n p.
Proof.
  induction k as [|k IH]; intros e f form tp tf bd n p; cbn [multipart_loop_a multipart_loop]; (destruct (p <? n); [|reflexivity]);
    apply bind_ext; intros ps; (destruct (ps <? 0); [reflexivity|]); apply bind_ext; intros pe; (destruct (pe <? 0); [reflexivity|]); cbn zeta;
    apply bind_ext; intros t; rewrite part_same by apply all; apply bind_ext; intros (tf' & f'); apply bind_ext; intros t'; [reflexivity|apply IH].
Qed.
Lemma route_given : forall t mt r, route_loop_s ok t mt r = route_loop t mt r.
Proof.
  induction t as [|rt t IH]; intros mt r; cbn [route_loop_s route_loop]; [reflexivity|]. destruct (negb (rt_live rt)); [reflexivity|]. cbn zeta.
  destruct (rt_type rt); [destruct (str_eqb _ _); [reflexivity|apply IH]|]. destruct (strstr _ _); [|apply IH]. destruct (str_eqb _ _); [apply IH|].
  open_. apply bind_ext. intros qs. apply bind_ext. intros k. rewrite all. reflexivity.
Qed.
Lemma router_given a t r : router_handle_request_s ok a t r = router_handle_request a t r.
Proof.
  unfold router_handle_request_s, router_handle_request, reject_routing_request. apply bind_ext. intros mt. rewrite route_given. apply bind_ext. intros ((r1 & h) & fl).
  destruct h; [reflexivity|]. now rewrite bad_given.
Qed.
Lemma api_given v f s r n bd : handle_api_request_s ok v f s r n bd = handle_api_request v f s r n bd.
Proof.
  unfold handle_api_request_s, handle_api_request. rewrite need_ok.
  assert (E : forall form, multipart_parse_a (fun x _ => ok (PBody x)) (v_mp v) f form bd n = multipart_parse (v_mp v) f form bd n).
  { intros form. unfold multipart_parse_a, multipart_parse, ask. rewrite !all. cbn [bind]. now rewrite body_given. }
  cbn zeta. rewrite E. cbn [bind]. apply bind_ext. intros (r1 & f1). now rewrite router_given.
Qed.
Local Opaque send_status_s bad_request too_many_connections connection_add connection_add_s handle_static_routes handle_static_routes_s header_loop header_loop_s
  get_path_and_query_string get_path_and_query_s get_line handle_api_request handle_api_request_s write_at finish startswith parse_url parse_request_line startswithany new_request.
Lemma rest_given v f t1 r2 m url b s1 : rest_s ok v f t1 r2 m url b s1 = accept_rest v f t1 r2 m url b s1.
Proof.
  unfold rest_s, accept_rest. apply bind_ext. intros b1. apply bind_ext. intros ((n & b2) & s2). rewrite loop_given. apply bind_ext. intros h. cbn zeta. rewrite url_given.
  apply bind_ext. intros (path & query). apply bind_ext. intros api. destruct (negb api); [|apply bind_ext; intros p; open_; rewrite api_given; reflexivity].
  destruct (str_caseeqb m (L "GET")); [rewrite static_given|rewrite bad_given]; reflexivity.
Qed.
Lemma scarce_given v f t socket peer stream : accept_scarce ok v f t socket peer stream = accept_request v f t socket peer stream.
Proof.
  rewrite scarce_unfold, accept_unfold. open_. apply bind_ext. intros r0. apply bind_ext. intros ((n & b) & s1). open_. apply bind_ext. intros ((rl & m) & j). cbn zeta.
  apply bind_ext. intros okm. destruct (negb okm); [rewrite bad_given; reflexivity|]. apply bind_ext. intros url. rewrite add_given.
  apply bind_ext. intros (adm & t1). destruct (negb adm); [rewrite many_given; reflexivity|]. apply rest_given.
Qed.
End given.
(** The two blocks that are never missed, and the three that always are. *)
Lemma wants_not_spare v f t peer junk m url s1 p : wants v f t peer junk m url s1 p -> ~ In p [PQueryText; PFile].
Proof.
  assert (LW : forall fs q, log_wants fs q -> ~ In q [PQueryText; PFile]).
  { intros fs q [->|[(_ & ->)|(_ & ->)]]; intros [X|[X|[]]]; discriminate. }
  intros [W|[(_ & ->)|(_ & u & _ & [(-> & _)|[(_ & ->)|(_ & [(n & k & x & _ & W)|[W|(path & q & fs & _ & _ & [(_ & W)|(_ & W)])]])]])]].
  - intros X. cbn [In] in W, X. intuition congruence.
  - intros [X|[X|[]]]; discriminate.
  - intros [X|[X|[]]]; discriminate.
  - intros [X|[X|[]]]; discriminate.
  - intros X. cbn [In] in X. destruct W as [(_ & W)|[(_ & _ & W)|[(_ & W)|[(_ & W)|(_ & W)]]]]; cbn [In] in W; intuition congruence.
  - intros X. cbn [In] in X. destruct W as [W|(ts & _ & [(i & _ & W)|(_ & W)])]; cbn [In] in W; intuition congruence.
  - now apply (LW fs).
  - destruct W as [->|[(_ & ->)|(_ & [->|[->|W]])]]; try (intros [X|[X|[]]]; discriminate). now apply (LW fs).
Qed.
Lemma scarce_first ok v f t socket peer stream p : In p [PRequest; PPeer; PLine] -> ok p = false -> undefined (accept_scarce ok v f t socket peer stream).
Proof.
  intros I E. rewrite scarce_unfold. unfold need.
  destruct (ok PRequest) eqn:E1; cbn [bind]; [|eexists; reflexivity]. destruct (ok PPeer) eqn:E2; cbn [bind]; [|eexists; reflexivity].
  destruct (new_request socket peer) as [r0|]; cbn [bind]; [|eexists; reflexivity].
  destruct (get_line _ _ _) as [((n & b) & s1)|]; cbn [bind]; [|eexists; reflexivity].
  assert (E3 : ok PLine = false) by (destruct I as [<-|[<-|[<-|[]]]]; congruence). rewrite E3. cbn [bind]. eexists. reflexivity.
Qed.

Local Transparent send_status_s bad_request too_many_connections connection_add connection_add_s handle_static_routes handle_static_routes_s header_loop header_loop_s
  get_path_and_query_string get_path_and_query_s get_line handle_api_request handle_api_request_s write_at finish startswith parse_url parse_request_line startswithany new_request.

(** ** Whatever is refused, a completed request *)
Definition le {A} (x y : outcome A) : Prop := forall a, x = Ok a -> y = Ok a.
Lemma le_refl {A} (x : outcome A) : le x x.
Proof. intros a H. exact H. Qed.
Lemma le_need {A} ok p (x y : outcome A) : le x y -> le (_ <- need ok p;; x) y.
Proof. unfold need. intros H a E. destruct (ok p); [now apply H|discriminate]. Qed.
Lemma le_bind {A B} (x y : outcome A) (f g : A -> outcome B) : le x y -> (forall a, le (f a) (g a)) -> le (bind x f) (bind y g).
Proof. intros H G a E. apply bind_ok_inv in E as (b & E1 & E2). rewrite (H _ E1). cbn [bind]. now apply G. Qed.
Lemma le_if {A} (c : bool) (x1 x2 y1 y2 : outcome A) : le x1 y1 -> le x2 y2 -> le (if c then x1 else x2) (if c then y1 else y2).
Proof. now destruct c. Qed.
Lemma le_bind1 {A B} (x : outcome A) (f g : A -> outcome B) : (forall a, le (f a) (g a)) -> le (bind x f) (bind x g).
Proof. apply le_bind, le_refl. Qed.
Ltac down := lazymatch goal with
  | |- le (bind (need _ _) _) _ => apply le_need
  | |- le (bind ?x _) (bind ?x _) => apply le_bind1; intros ?
  | |- le (if ?c then _ else _) (if ?c then _ else _) => apply le_if
  | |- le ?x ?x => apply le_refl end.

Lemma get_header_le ok p name : forall hs, le (get_header_s ok p hs name) (get_header_loop hs name).
Proof.
  induction hs as [|h t IH]; cbn [get_header_s get_header_loop]; [apply le_refl|]. down. down; [|exact IH].
  intros v E. apply bind_ok_inv in E as (w & Ew & E). unfold need in E. destruct (ok p); cbn [bind] in E; [|discriminate]. congruence.
Qed.
Lemma log_le ok r st : le (log_access_s ok r st) (log_access r st).
Proof. unfold log_access_s, log_access, http_get_header. down. apply le_bind; [apply get_header_le|intros a]. apply le_bind; [apply get_header_le|intros b]. down. Qed.
Lemma status_le ok r st : le (send_status_s ok r st) (send_http_status r st []).
Proof.
  unfold send_status_s, send_http_status. replace (negb (str_eqb [] [])) with false by reflexivity. down; [down|]. down. cbn zeta. apply log_le.
Qed.
Lemma bad_le ok r : le (send_status_s ok r 400) (bad_request r).
Proof. unfold bad_request. apply status_le. Qed.
Lemma many_le ok r : le (send_status_s ok r 429) (too_many_connections r).
Proof. unfold too_many_connections. apply status_le. Qed.
Lemma headers_le ok r name : le (return_headers_s ok r name) (return_headers r name).
Proof. unfold return_headers_s, return_headers. repeat (cbn zeta; down). Qed.
Lemma line_le ok n h : le (header_line_s ok n h) (header_line h).
Proof.
  unfold header_line_s, header_line. cbn zeta. apply le_bind.
  { unfold store_header_s, store_header. down; [|down]. apply le_bind; [unfold split_once_s, split_once; repeat (cbn zeta; down)|intros l; down]. }
  intros hs. apply le_bind; [unfold take_content_type_s, take_content_type; repeat down|]. intros ct. down. down.
  apply le_bind; [unfold take_ip_s, take_ip; repeat down|]. intros (ip & b1).
  apply le_bind; [unfold take_session_s, take_session; repeat down|]. intros s1.
  apply le_bind; [unfold take_cookie_s, take_cookie; repeat down|]. intros s2. down.
Qed.
Lemma lines_le ok : forall fuel n nc h, le (header_loop_s ok fuel n nc h) (header_loop fuel nc h).
Proof.
  induction fuel as [|fuel IH]; intros n nc h; cbn [header_loop_s header_loop]; (down; [|down]); (down; down; [down|]); (down; down; [down|]);
    (apply le_bind; [apply line_le|intros h1]); apply le_bind1; intros ((n' & b') & s'); [down|apply IH].
Qed.
Lemma split_le ok d : forall fuel n s, le (split_loop_s ok fuel n d s) (split_loop fuel n d s).
Proof.
  induction fuel as [|fuel IH]; intros n s; cbn [split_loop_s split_loop]; destruct (strtok d s) as [(tok & rest)|]; try apply le_refl.
  down; [down|]. down. down. apply le_bind; [apply IH|]. intros l. down.
Qed.
Lemma url_le ok u : le (get_path_and_query_s ok u) (get_path_and_query_string u).
Proof.
  unfold get_path_and_query_s, get_path_and_query_string, split. do 3 apply le_need. apply le_bind; [apply split_le|]. intros [|p t]; [down|].
  down. down. destruct t; [down|]. down. down. down.
Qed.
Lemma add_le ok rules t socket ip u : le (connection_add_s ok rules t socket ip u) (connection_add rules t socket ip u).
Proof.
  intros x E. destruct (connection_add rules t socket ip u) as [y|e] eqn:F.
  - destruct (add_runs ok rules t socket ip u y F) as [(_ & w & U)|(_ & U)]; congruence.
  - unfold connection_add_s in E. destruct (ok PUrl); [congruence|].
    destruct (match rules with r :: _ => match l_path r with [] => false | _ => true end | [] => false end) eqn:ER; [discriminate|].
    pose proof (free_exists t) as FE. destruct (existsb (fun c => c_socket c =? 0) t) eqn:Ef; [discriminate|].
    assert (NF : ~ len (occupied t) < len t) by (intros X; apply FE in X; discriminate). unfold connection_add in F.
    assert (V : connection_validate rules t ip u = Ok true).
    { destruct rules as [|r rs]; [reflexivity|]. cbn [connection_validate]. now destruct (l_path r). }
    rewrite V in F. cbn [bind] in F. rewrite claim_full in F by (pose proof (occupied_le t); lia). discriminate.
Qed.

Lemma headers_total ok r name l r1 : return_headers_s ok r name = Ok (l, r1) -> return_headers r name = Ok (l, r1)
  /\ exists new, r_sends r1 = r_sends r ++ new /\ l = len (concat new).
Proof.
  intros E. split; [exact (headers_le ok r name _ E)|]. apply headers_le in E. unfold return_headers in E.
  apply bind_ok_inv in E as (a & Ea & E). apply bind_ok_inv in E as (b & Eb & E). apply bind_ok_inv in E as (sess & Es & E).
  apply bind_ok_inv in E as ((l3 & r3) & E3 & E). injection E as <- <-. destruct (0 <? len sess).
  - apply bind_ok_inv in E3 as (c & Ec & E3). injection E3 as <- <-. exists [a; b; c; CRLF]. split; [cbn [http_print r_sends]; now rewrite <- !app_assoc|]. cbn [concat]. rewrite !len_app. cbn. lia.
  - injection E3 as <- <-. exists [a; b; CRLF]. split; [cbn [http_print r_sends]; now rewrite <- !app_assoc|]. cbn [concat]. rewrite !len_app. cbn. lia.
Qed.
Lemma direct_le ok f r name st r' : r_sends r = [] -> direct_file_s ok f r name = Ok (st, r') ->
  exists r1, direct_file f r name = Ok (st, r1) /\ ((st = -1 /\ r' = r /\ r1 = r) \/ (st = 0 /\ cut_off ok f r1 r' /\ r_log r1 <> [])).
Proof.
  intros Hs E. unfold direct_file_s in E. unfold direct_file. destruct (is_file f name) eqn:Ef; cbn [negb] in *.
  2:{ injection E as <- <-. exists r. auto. }
  apply bind_ok_inv in E as ((l1 & ra) & E1 & E). destruct (headers_total _ _ _ _ _ E1) as (-> & new & Ea & El). cbn [bind].
  apply bind_ok_inv in E as ((l2 & rb) & E2 & E). unfold return_file_s in E2. unfold return_file.
  unfold is_file in Ef. destruct (f name) as [[content|]|] eqn:Hf; try discriminate. destruct (int_max <? len content); [discriminate|]. injection E2 as <- Eb. cbn [bind].
  apply bind_ok_inv in E as (l & El2 & E). rewrite El2. cbn [bind]. cbn zeta in *. apply bind_ok_inv in E as (r4 & E4 & E). injection E as <- <-. apply log_le in E4.
  destruct (log_keeps _ _ _ E4) as (S4 & L4 & K4 & a & b & G4 & Ga & Gb).
  assert (Eh : forall x, http_get_header (set_response_length (http_print ra content) l) x = http_get_header (set_response_length rb l) x)
    by (intros x; rewrite <- Eb; destruct (ok PFile); reflexivity).
  assert (exists r5, log_access (set_response_length (http_print ra content) l) 200 = Ok r5) as (r5 & E5) by (unfold log_access; rewrite !Eh, Ga; cbn [bind]; rewrite Gb; cbn [bind]; eauto).
  exists r5. rewrite E5. split; [reflexivity|]. right. split; [reflexivity|].
  destruct (log_keeps _ _ _ E5) as (S5 & L5 & K5 & a' & b' & G5 & Ga' & Gb'). rewrite Eh in Ga', Gb'. rewrite Ga in Ga'. injection Ga' as <-. rewrite Gb in Gb'. injection Gb' as <-.
  split; [|rewrite G5; intros Q; apply app_eq_nil in Q as [_ Q]; discriminate].
  unfold cut_off. destruct (ok PFile); [congruence|]. subst rb.
  split; [rewrite G5, G4; reflexivity|]. split; [rewrite L5, L4; reflexivity|]. split; [rewrite K5, K4; reflexivity|].
  exists name, content. split; [exact Hf|]. split; [rewrite S5, S4; reflexivity|]. rewrite L4, S4.
  change (r_response_length (set_response_length ra l)) with (to_u32 l). change (r_sends (set_response_length ra l)) with (r_sends ra).
  replace (r_sends ra) with new by (rewrite Ea; now rewrite Hs). subst l1. unfold int_add in El2. set (k := len (concat new) + len content) in *.
  assert (0 <= k) by (unfold k; pose proof (len_nonneg _ content); pose proof (len_nonneg _ (concat new)); lia).
  destruct ((k <? int_min) || (int_max <? k)) eqn:Ek; [discriminate|]. injection El2 as <-. apply Bool.orb_false_iff in Ek as (_ & Ek).
  unfold to_u32, int_max in *. apply Z.mod_small. lia.
Qed.
Local Opaque direct_file direct_file_s.
Lemma static_le ok v f r r' : r_sends r = [] -> r_log r = [] -> handle_static_routes_s ok v f r = Ok r' ->
  exists r1, handle_static_routes v f r = Ok r1 /\ ((r_log r1 = [] /\ r' = r1) \/ (r_log r1 <> [] /\ cut_off ok f r1 r')).
Proof.
  intros Hs Hg E. unfold handle_static_routes_s in E. unfold handle_static_routes. apply bind_ok_inv in E as (n & En & E). rewrite En. cbn [bind].
  unfold need at 1 in E. destruct (ok PPathText); cbn [bind] in E; [|discriminate]. apply bind_ok_inv in E as (p & Ep & E).
  match type of Ep with ?x = _ => assert (Lp : le x (if str_eqb (r_path r) (L "/") || str_eqb (r_path r) (L "/index.html") then Ok (v_index v)
      else if str_eqb (r_path r) (L "/favicon.ico") then Ok (v_favicon v)
      else c <- rd (v_stk v) (n - 1);; if ceq c "/" then fits 1024 (r_path r ++ L "index.html") else Ok (r_path r))) end.
  { down; [down; down|]. down; [down; down|]. down. down; [|down]. intros s Es. apply bind_ok_inv in Es as (w & Ew & Es). unfold need in Es. destruct (ok PNewPath); cbn [bind] in Es; congruence. }
  apply Lp in Ep. rewrite Ep. cbn [bind]. cbn zeta in *. apply bind_ok_inv in E as (file & Ef & E). rewrite Ef. cbn [bind].
  apply bind_ok_inv in E as ((st & r2) & E2 & E). destruct (direct_le ok f (set_path r p) file st r2 Hs E2) as (r1 & -> & D). cbn [bind].
  destruct D as [(-> & -> & ->)|(-> & C & G)].
  - change (-1 <? 0) with true in E. change (-1 <? 0) with true. cbv iota in E. cbv iota. apply bind_ok_inv in E as (file' & Ef' & E). rewrite Ef'. cbn [bind].
    apply bind_ok_inv in E as ((st' & r3) & E3 & E). injection E as <-. destruct (direct_le ok f (set_path r p) file' st' r3 Hs E3) as (r1 & -> & D). cbn [bind].
    exists r1. split; [reflexivity|]. destruct D as [(-> & -> & ->)|(-> & C & G)]; auto.
  - change (0 <? 0) with false in E. change (0 <? 0) with false. cbv iota in E. cbv iota. injection E as <-. exists r1. auto.
Qed.

Lemma route_le ok : ok PForm = true -> forall t mt r, le (route_loop_s ok t mt r) (route_loop t mt r).
Proof.
  intros Hf. induction t as [|rt t IH]; intros mt r; cbn [route_loop_s route_loop]; [down|]. destruct (negb (rt_live rt)); [down|]. cbn zeta.
  destruct (rt_type rt); [destruct (str_eqb _ _); [down|apply IH]|]. destruct (strstr _ _); [|apply IH]. destruct (str_eqb _ _); [apply IH|].
  do 2 down. down. down. rewrite Hf. apply le_bind; [|intros ?; down]. down; [down|]. down. down.
Qed.
Lemma router_le ok a t r : ok PForm = true -> le (router_handle_request_s ok a t r) (router_handle_request a t r).
Proof.
  intros Hf. unfold router_handle_request_s, router_handle_request, reject_routing_request. down. apply le_bind; [now apply route_le|]. intros ((r1 & h) & fl).
  destruct h; [down|]. apply le_bind; [apply bad_le|]. intros r2. down.
Qed.
Lemma api_le ok v f s r n bd : ok PForm = true -> le (handle_api_request_s ok v f s r n bd) (handle_api_request v f s r n bd).
Proof.
  intros Hf. unfold handle_api_request_s, handle_api_request. cbn zeta. apply le_bind.
  - down; [|down]. down. down; [|down]. apply le_bind; [|intros (form' & f'); down]. intros x E. exact (multipart_le _ _ _ _ _ _ _ E).
  - intros (r1 & f1). apply le_bind; [now apply router_le|]. intros (calls & r2). down.
Qed.
Definition similar (ok : allocator) (f : fs) (x y : outcome result) : Prop :=
  forall res', x = Ok res' -> exists res, y = Ok res /\ (res' = res \/ (ok PFile = false /\ content_lost f res res')).
Lemma similar_le ok f x y : le x y -> similar ok f x y.
Proof. intros H res' E. exists res'. split; [now apply H|now left]. Qed.
Lemma similar_need ok f p x y : similar ok f x y -> similar ok f (_ <- need ok p;; x) y.
Proof. unfold need. intros H a E. destruct (ok p); [now apply H|discriminate]. Qed.
Lemma similar_bind {A} ok f (x y : outcome A) g h : le x y -> (forall a, similar ok f (g a) (h a)) -> similar ok f (bind x g) (bind y h).
Proof. intros H G a E. apply bind_ok_inv in E as (b & E1 & E2). rewrite (H _ E1). cbn [bind]. now apply G. Qed.
Local Opaque send_status_s bad_request too_many_connections connection_add connection_add_s handle_static_routes handle_static_routes_s header_loop header_loop_s
  get_path_and_query_string get_path_and_query_s get_line handle_api_request handle_api_request_s write_at finish startswith parse_url parse_request_line startswithany new_request.
Lemma rest_le ok v f t1 r2 m url b s1 : ok PForm = true -> r_sends r2 = [] -> r_log r2 = [] ->
  similar ok f (rest_s ok v f t1 r2 m url b s1) (accept_rest v f t1 r2 m url b s1).
Proof.
  intros Hf Hs Hg. unfold rest_s, accept_rest. apply similar_bind; [apply le_refl|]. intros b1. apply similar_bind; [apply le_refl|]. intros ((n & b2) & s2).
  apply similar_bind; [apply lines_le|]. intros h. cbn zeta. apply similar_bind; [apply url_le|]. intros (path & query). apply similar_bind; [apply le_refl|]. intros api.
  destruct (negb api).
  - destruct (str_caseeqb m (L "GET")).
    + intros res' E. apply bind_ok_inv in E as (r6 & E6 & E). injection E as <-.
      match type of E6 with handle_static_routes_s _ _ _ ?r = _ => destruct (static_le ok v f r r6 Hs Hg E6) as (r1 & E1 & D) end.
      rewrite E1. cbn [bind]. eexists. split; [reflexivity|]. destruct (static_answered ok f t1 r1 r6 D) as (A1 & A2).
      destruct D as [(_ & ->)|(G & C)]; [now left|]. destruct (ok PFile) eqn:Ef; [left; apply A1; now left|]. right. split; [reflexivity|]. apply A2; [reflexivity|].
      unfold file_sent. destruct (finish_same TStatic r1 t1 f) as (-> & -> & _). auto.
    + apply similar_le. apply le_bind; [apply bad_le|]. intros r6. apply le_refl.
  - apply similar_bind; [apply le_refl|]. intros p. apply similar_need. apply similar_le. apply le_bind; [now apply api_le|]. intros ((calls & r6) & f'). apply le_refl.
Qed.
Lemma scarce_le ok v f t socket peer stream : ok PForm = true -> similar ok f (accept_scarce ok v f t socket peer stream) (accept_request v f t socket peer stream).
Proof.
  intros Hf. rewrite scarce_unfold, accept_unfold. do 2 apply similar_need.
  intros res' E. apply bind_ok_inv in E as (r0 & E0 & E). rewrite E0. cbn [bind].
  assert (S0 : r_sends r0 = [] /\ r_log r0 = []).
  { Local Transparent new_request. unfold new_request in E0. apply bind_ok_inv in E0 as (ip & _ & E0). injection E0 as <-. split; reflexivity. }
  revert res' E.
  match goal with |- forall res', ?x = Ok res' -> exists res, ?y = Ok res /\ _ => change (similar ok f x y) end.
  apply similar_bind; [apply le_refl|]. intros ((n & b) & s1). apply similar_need. apply similar_bind; [apply le_refl|]. intros ((rl & m) & j). cbn zeta.
  apply similar_bind; [apply le_refl|]. intros okm. destruct (negb okm); [apply similar_le, le_bind; [apply bad_le|intros r2; apply le_refl]|].
  apply similar_bind; [apply le_refl|]. intros url. apply similar_bind; [apply add_le|]. intros (adm & t1).
  destruct (negb adm); [apply similar_le, le_bind; [apply many_le|intros r2; apply le_refl]|]. apply rest_le; [exact Hf| |]; apply S0.
Qed.

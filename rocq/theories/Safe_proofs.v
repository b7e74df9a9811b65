(** Safe_proofs.v - proofs about which configurations, lists and command lines are undefined. *)
From Verif Require Import Start Lemmas JsonUtils_proofs HttpUtils_proofs StringUtils_proofs ConfParser_proofs FileUtils_proofs LogMain_proofs Log_proofs WsConn_proofs Start_proofs
  SpecJson SpecHttp SpecConf SpecConn SpecMain SpecStart SpecSafe Spec.

Lemma bind_undefined A B (x : outcome A) (k : A -> outcome B) :
  undefined (bind x k) <-> undefined x \/ exists a, x = Ok a /\ undefined (k a).
Proof.
  destruct x as [a|u]; cbn [bind]; split.
  - intros H. right. eauto.
  - intros [(u & E)|(a' & E & H)]; [discriminate|]. now inv E.
  - intros H. left. exists u. reflexivity.
  - intros _. exists u. reflexivity.
Qed.
Lemma ok_defined A (a : A) : ~ undefined (Ok a).
Proof. intros (u & E). discriminate. Qed.
Lemma ub_undefined A u : undefined (UB u : outcome A).
Proof. now exists u. Qed.
Lemma fits_undefined n s : undefined (fits n s) <-> n <= len s.
Proof. unfold fits. destruct (Z.leb_spec (len s + 1) n); split; intros; try lia; [now apply ok_defined in H0|apply ub_undefined]. Qed.
Lemma keep_undefined A B (x : outcome A) (b : A -> B) : undefined (a <- x;; Ok (b a)) <-> undefined x.
Proof. rewrite bind_undefined. split; [|auto]. intros [H|(a & _ & H)]; auto. now apply ok_defined in H. Qed.

(** ** Configuration files *)
Lemma conf_line (flags : list (str * bool)) l : no_nul l -> In "="%char l ->
  exists T ts, trimmed l T /\ tokens (L "=") T ts /\
  match ts with
  | [] => conf_parse_first_pass l = UB NullDeref
  | k :: r => exists k' v, trimmed k k' /\ trimmed (hd [] r) v /\ no_nul v /\ conf_parse_first_pass l = Ok (Some (mkItem k' v []))
  end.
Proof.
  intros Hn I. destruct (exists_trimmed l) as [T HT]. destruct (tokens_exist (L "=") T) as [ts Ht]. exists T, ts. split; auto. split; auto.
  destruct ts as [|k r]; [now apply (first_pass_empty l T)|].
  destruct (exists_trimmed k) as [k' Hk]. destruct (exists_trimmed (hd [] r)) as [v Hv]. exists k', v. split; auto. split; auto. split.
  - eapply trimmed_no_nul; [|exact Hv]. pose proof (tokens_no_nul _ _ _ Ht (trimmed_no_nul _ _ Hn HT)) as F. destruct r; [constructor|]. inv F. now inv H2.
  - now apply (first_pass_eq l T k r).
Qed.
Lemma message_undefined path : undefined (_ <- fits 120 (L "Entity in invalid format, path: " ++ path ++ [LF]);; Ok (-1, [] : list conf_item)) <-> 86 < len path.
Proof.
  rewrite (keep_undefined _ _ _ (fun _ => (-1, []))), fits_undefined, !len_app. change (len (L "Entity in invalid format, path: ")) with 32. change (len [LF]) with 1. lia.
Qed.

Lemma conf_bad flags path vs : forall fuel c ls, lines 511 c ls -> Forall2 visible ls vs -> (length c <= fuel)%nat ->
  (undefined (parse_loop fuel path flags c) <-> bad_conf flags path vs).
Proof.
  induction vs as [|v vs IH]; intros fuel c ls Hl V F.
  { inv V. rewrite (parse_loop_end _ _ _ _ Hl). split; [intros H; now apply ok_defined in H|]. intros H. inv H. }
  inv V. destruct (in_dec ascii_dec "="%char v) as [I|I].
  2:{ rewrite (parse_loop_bad path flags c x v l fuel Hl F H2 I), message_undefined. split; [now constructor|]. intros B. inv B; try easy. }
  pose proof (visible_no_nul _ _ H2) as Hn. apply lines_fgets in Hl as (r & E & Hl & Hr). change (511 + 1) with MAX_LINE_LEN in E.
  destruct fuel as [|fuel]; [lia|]. cbn [parse_loop]. rewrite E, (visible_upto _ _ H2).
  destruct (conf_line flags v Hn I) as (T & ts & HT & Ht & P). destruct ts as [|k ts].
  { rewrite P. split; [|intros _; apply ub_undefined]. intros _. now apply (bc_empty _ _ v T). }
  destruct P as (k' & w & Hk & Hw & Nw & P). rewrite P. cbn [bind key]. specialize (IH fuel r l Hl H3 ltac:(lia)).
  assert (K : forall x k0 ts0 k1, trimmed v x -> tokens (L "=") x (k0 :: ts0) -> trimmed k0 k1 -> k1 = k' /\ ts0 = ts).
  { intros x0 k0 ts0 k1 A B C. rewrite (trimmed_unique _ _ _ A HT) in B. pose proof (tokens_unique _ _ _ _ B Ht) as X. inv X. split; auto. eapply trimmed_unique; eauto. }
  assert (Z0 : forall x, trimmed v x -> tokens (L "=") x [] -> False).
  { intros x0 A B. rewrite (trimmed_unique _ _ _ A HT) in B. pose proof (tokens_unique _ _ _ _ B Ht). discriminate. }
  destruct (tokens_exist (L ",") w) as [ws Hws]. destruct (exists_trimmed_list ws) as [mv Hmv].
  assert (Same : ((flagged flags k' true -> len ws <= 20) -> (undefined (parse_loop fuel path flags r) <-> bad_conf flags path (v :: vs)))).
  { intros S. rewrite IH. split.
    - intros B. apply (bc_later _ _ v T k ts k'); auto. intros Fl v1 vs1 A B1. rewrite (trimmed_unique _ _ _ A Hw) in B1. rewrite (tokens_unique _ _ _ _ B1 Hws). auto.
    - intros B. inv B; try easy.
      + exfalso. eauto.
      + exfalso. match goal with A : trimmed v ?a, B : tokens _ ?a (?b :: ?c), C : trimmed ?b ?d |- _ => destruct (K _ _ _ _ A B C) as [-> ->] end.
        match goal with A : trimmed (hd [] ts) ?a, B : tokens _ ?a ?b, G : flagged _ _ true |- _ => rewrite (trimmed_unique _ _ _ A Hw) in B; rewrite (tokens_unique _ _ _ _ B Hws) in *; apply S in G end. lia. }
  destruct (flag_cases flags k') as [U|(m & Fl)].
  - rewrite (flag_none _ _ U). apply Same. intros (a & b & Ef & _). exfalso. apply U. rewrite Ef, map_app, in_app_iff. right. now left.
  - rewrite (flag_some _ _ _ Fl).
    assert (R : forall it : conf_item, undefined ('(st, ll) <- parse_loop fuel path flags r;; Ok (st, it :: ll)) <-> undefined (parse_loop fuel path flags r)).
    { intros it. destruct (parse_loop fuel path flags r) as [[? ?]|u]; cbn [bind]; split; intros H; auto; try (now apply ok_defined in H); apply ub_undefined. }
    destruct m.
    + rewrite (parse_multi_eq (mkItem k' w []) ws mv Nw Hws Hmv). destruct (Z.leb_spec (len ws) 20); cbn [bind].
      * rewrite R. now apply Same.
      * split; [|intros _; apply ub_undefined]. intros _. eapply bc_values; eauto.
    + cbn [bind]. rewrite R. apply Same. intros G. apply flag_some in G. rewrite (flag_some _ _ _ Fl) in G. discriminate.
Qed.
Lemma visible_list ls : exists vs, Forall2 visible ls vs.
Proof.
  induction ls as [|x ls (vs & IH)]; [exists []; constructor|]. destruct (visible_exists x) as (v & V). exists (v :: vs). now constructor.
Qed.
Lemma parse_bad f path flags : undefined (parse f path flags) <-> bad_parse f path flags.
Proof.
  unfold parse, bad_parse. destruct (f path) as [[content|]|].
  - destruct (lines_exist 511 content ltac:(lia)) as [ls Hl]. destruct (visible_list ls) as [vs V]. rewrite (conf_bad flags path vs (length content) content ls Hl V (le_n _)). split.
    + intros B. right. exists content, ls, vs. auto.
    + intros [[E _]|(c & ls' & vs' & E & Hl' & V' & B)]; [discriminate|]. inv E.
      apply (conf_bad flags path vs' (length c) c ls' Hl' V' ltac:(lia)) in B. now apply (conf_bad flags path vs (length c) c ls Hl V ltac:(lia)) in B.
  - split; [intros H; now apply ok_defined in H|]. intros [[E _]|(c & ls' & vs' & E & _)]; discriminate.
  - rewrite (keep_undefined _ _ _ (fun _ => (-1, []))), fits_undefined, len_app. change (len (L "Unable to open path: ")) with 21. split.
    + intros H. left. split; auto. lia.
    + intros [[_ H]|(c & ls' & vs' & E & _)]; [lia|discriminate].
Qed.

(** ** Limits *)
Lemma text_lines_exist : forall c, exists ls, text_lines c ls.
Proof.
  assert (X : forall k c, (length c < k)%nat -> exists ls, text_lines c ls).
  { induction k as [|k IH]; intros c Hc; [lia|]. destruct (in_dec ascii_dec LF c) as [I|I].
    - apply first_cut_exists in I as (a & b & -> & H). destruct (IH b) as (ls & Hl); [rewrite app_length in Hc; cbn in Hc; lia|].
      eexists. apply tl_nl; eauto.
    - destruct c as [|x c]; [exists []; constructor|]. eexists. apply tl_last; auto. discriminate. }
  intros c. apply (X (S (length c))). lia.
Qed.
Lemma limit_three prev line p a b more : tokens (L ",") line (p :: a :: b :: more) -> len p <= 511 -> exists r, limit_fields prev line = Ok (Some r, free_limit).
Proof.
  intros T Lp. apply tokens_strtok in T as (r1 & T1 & T). apply tokens_strtok in T as (r2 & T2 & T). apply tokens_strtok in T as (r3 & T3 & T).
  unfold limit_fields. rewrite T1, T2, T3. rewrite fits_ok by (unfold HTTP_MAX_PATH; lia). cbn [bind]. destruct (strtok _ r3) as [[? ?]|]; eauto.
Qed.
Lemma limit_few prev line p more : tokens (L ",") line (p :: more) -> len p <= 511 -> len more <= 1 -> exists prev', limit_fields prev line = Ok (None, prev').
Proof.
  intros T Lp Lm. apply tokens_strtok in T as (r1 & T1 & T).
  unfold limit_fields. rewrite T1. rewrite fits_ok by (unfold HTTP_MAX_PATH; lia). cbn [bind].
  destruct more as [|a [|b more]]; apply tokens_strtok in T.
  - rewrite T. eauto.
  - destruct T as (r2 & T & T2). rewrite T. apply tokens_strtok in T2. rewrite T2. eauto.
  - exfalso. rewrite !len_cons in Lm. pose proof (len_nonneg _ more). lia.
Qed.
Lemma none_left vs : forall n, n <= 0 -> ~ bad_limits n vs.
Proof. induction vs as [|v vs IH]; intros n Hn B; inv B; try lia; (eapply IH; [|eassumption]; lia). Qed.
Lemma limits_bad vs : forall n fuel prev c ls, 0 < n <= 64 -> text_lines c ls -> Forall2 visible ls vs -> (length c <= fuel)%nat ->
  (undefined (limits_loop fuel (64 - n) prev c) <-> bad_limits n vs).
Proof.
  induction vs as [|v vs IH]; intros n fuel prev c ls Hn T V F.
  { inv V. apply text_lines_getline in T. destruct fuel; cbn [limits_loop]; rewrite T; (split; [intros H; now apply ok_defined in H|]; intros H; inv H). }
  inv V. apply text_lines_getline in T as (rest & G & T & Hlt). destruct fuel as [|fuel]; [lia|]. cbn [limits_loop]. rewrite G.
  pose proof (visible_upto _ _ H2) as U.
  assert (Skip : (forall t, v <> "/"%char :: t) -> (undefined (limits_loop fuel (64 - n) prev rest) <-> bad_limits n (v :: vs))).
  { intros N. rewrite (IH n fuel prev rest l) by (auto; lia). split; [apply bl_other; now left|]. clear U. intros B. inversion B; subst; auto; exfalso; eapply N; reflexivity. }
  destruct x as [|c0 x].
  { apply Skip. intros t ->. discriminate U. }
  destruct (ceq_spec c0 "/") as [->|N].
  2:{ apply Skip. intros t ->. cbn [upto_nul] in U. destruct (ceq c0 NUL); [discriminate|]. inv U. easy. }
  rewrite U. assert (exists t, v = "/"%char :: t) as (t & ->). { exists (upto_nul x). now rewrite <- U. } clear Skip.
  destruct (tokens_exist (L ",") ("/"%char :: t)) as [ts Ht]. 
  assert (Un : forall ts', tokens (L ",") ("/"%char :: t) ts' -> ts' = ts) by (intros ts' X; eapply tokens_unique; eauto).
  destruct ts as [|p more].
  { exfalso. inv Ht. inv H. destruct H4 as [X|[]]. discriminate X. }
  destruct (Z.leb_spec (len p) 511) as [Lp|Lp].
  - destruct more as [|a [|b more]].
    1, 2 : destruct (limit_few prev ("/"%char :: t) p _ Ht Lp ltac:(vm_compute; discriminate)) as (prev' & ->); cbn [bind];
      rewrite (IH n fuel prev' rest l) by (auto; lia); (split; [apply bl_other; right; eexists _, _; split; [exact Ht|]; split; [auto|vm_compute; discriminate]|]);
      intros B; inv B; auto; match goal with X : tokens _ _ _ |- _ => apply Un in X; inv X end; lia.
    destruct (limit_three prev ("/"%char :: t) p a b more Ht Lp) as (r & ->). cbn [bind]. unfold MAX_LIMIT_RULES.
    assert (B : bad_limits n (("/"%char :: t) :: vs) <-> bad_limits (n - 1) vs).
    { split; [|intros B; eapply bl_rule; eauto]. intros B. inv B; auto.
      - match goal with X : tokens _ _ _ |- _ => apply Un in X; inv X end. lia.
      - exfalso. match goal with X0 : other_line _ |- _ => destruct X0 as [X|(p0 & more0 & X & _ & Y)] end; [now apply (X t)|]. apply Un in X. inv X. rewrite !len_cons in Y. pose proof (len_nonneg _ more). lia. }
    rewrite B. destruct (Z.leb_spec 64 (64 - n + 1)).
    + split; [intros X; now apply ok_defined in X|]. intros X. exfalso. apply (none_left vs (n - 1)); auto. lia.
    + rewrite keep_undefined. replace (64 - n + 1) with (64 - (n - 1)) by lia. apply (IH (n - 1) fuel free_limit rest l); auto; lia.
  - split.
    + intros _. eapply bl_path; eauto. lia.
    + intros _. pose proof Ht as Ht'. apply tokens_strtok in Ht' as (r1 & T1 & _). unfold limit_fields. rewrite T1. rewrite fits_oob by (unfold HTTP_MAX_PATH; lia). apply ub_undefined.
Qed.
Lemma rules_bad f root : undefined (load_limits f root) <-> bad_rules f root.
Proof.
  unfold bad_rules. destruct (Z.leb_spec (len root) 276) as [R|R].
  2:{ split; [auto|]. intros _. now apply load_limits_oob. }
  destruct (f (root ++ L "/etc/limits")) as [[content|]|] eqn:E.
  - destruct (text_lines_exist content) as [ls Hl]. destruct (visible_list ls) as [vs V]. unfold load_limits. rewrite fits_ok.
    2:{ rewrite len_app. change (len (L "/etc/limits")) with 11. unfold ROOT_PATH_MAX. lia. }
    cbn [bind]. rewrite E. change 0 with (64 - 64) at 1. rewrite (limits_bad vs 64 _ _ _ ls) by (auto; lia). split.
    + intros B. right. exists content, ls, vs. auto.
    + intros [X|(c & ls' & vs' & E' & Hl' & V' & B)]; [lia|]. inv E'.
      apply (limits_bad vs' 64 (length c) free_limit c ls' ltac:(lia) Hl' V' ltac:(lia)) in B. now apply (limits_bad vs 64 (length c) free_limit c ls ltac:(lia) Hl V ltac:(lia)) in B.
  - rewrite load_limits_none by (auto; congruence). split; [intros H; now apply ok_defined in H|]. intros [X|(c & ls' & vs' & E' & _)]; [lia|discriminate].
  - rewrite load_limits_none by (auto; congruence). split; [intros H; now apply ok_defined in H|]. intros [X|(c & ls' & vs' & E' & _)]; [lia|discriminate].
Qed.

(** ** Address lists *)
Lemma small_or_big f p : small f p \/ big f p.
Proof.
  destruct (f p) as [[c|]|] eqn:E.
  - destruct (Z.leb_spec (len c) 8191).
    + left. intros c' E'. rewrite E in E'. now inv E'.
    + right. exists c. split; auto. lia.
  - left. intros c' E'. congruence.
  - left. intros c' E'. congruence.
Qed.
Lemma small_not_big f p : small f p -> ~ big f p.
Proof. intros S (c & E & H). apply S in E. lia. Qed.
Lemma find_big f p ip : big f p -> find_in_file f p ip = UB OobWrite.
Proof. intros (c & E & H). now apply (find_in_file_oob f p ip c). Qed.
Lemma lists_bad f root d0 ip : undefined (allowed_address f (mkIpconf root [] d0) ip) <-> bad_lists f root ip.
Proof.
  unfold bad_lists. destruct (Z.leb_spec (len root) 277) as [R|R].
  2:{ split; [auto|]. intros _. unfold allowed_address, ip_paths. cbn [ws_allow ws_root]. change (len [] =? 0) with true. cbv iota. unfold ROOT_PATH_MAX.
      rewrite fits_oob; [apply ub_undefined|]. rewrite len_app. change (len (L "/etc/allow")) with 10. lia. }
  unfold allowed_address. rewrite ip_paths_first by auto. cbn [bind ws_deny ws_allow].
  destruct (small_or_big f (root ++ L "/etc/deny")) as [Sd|Bd].
  2:{ rewrite find_big by auto. split; [auto|]. intros _. apply ub_undefined. }
  pose proof (small_not_big _ _ Sd) as Nd. destruct (find_listed f _ ip Sd) as (rd & -> & Hd). cbn [bind]. destruct rd.
  { split; [intros H; now apply ok_defined in H|]. intros [X|[X|[X _]]]; [lia|easy|]. exfalso. apply X. now apply Hd. }
  assert (Nl : ~ listed f (root ++ L "/etc/deny") ip) by (intros X; apply Hd in X; discriminate).
  destruct (is_file f (root ++ L "/etc/allow")) eqn:If; cbn [negb].
  - rewrite (keep_undefined _ _ _ (fun a => (a, _))). destruct (small_or_big f (root ++ L "/etc/allow")) as [Sa|Ba].
    + destruct (find_listed f _ ip Sa) as (ra & -> & Ha). split; [intros H; now apply ok_defined in H|]. intros [X|[X|[_ X]]]; [lia|easy|]. now apply small_not_big in X.
    + rewrite find_big by auto. split; [auto|]. intros _. apply ub_undefined.
  - split; [intros H; now apply ok_defined in H|]. intros [X|[X|[_ (c & E & _)]]]; [lia|easy|]. unfold is_file in If. now rewrite E in If.
Qed.

(** ** Options *)
Definition bad_opts (f : fs) (os : list opt) : Prop := exists pre o post, os = pre ++ o :: post /\ Forall (passes f) pre
    /\ ((exists a, o = OptB a /\ 24 <= len a) \/ (exists a, o = OptR a /\ 256 <= len a)).
Lemma bad_opts_nil f : ~ bad_opts f [].
Proof. intros (pre & o & post & E & _). destruct pre; discriminate. Qed.
Lemma bad_opts_cons f o os : bad_opts f (o :: os) <-> (exists a, o = OptB a /\ 24 <= len a) \/ (exists a, o = OptR a /\ 256 <= len a) \/ (passes f o /\ bad_opts f os).
Proof.
  split.
  - intros (pre & x & post & E & P & B). destruct pre as [|y pre]; inv E.
    + destruct B as [B|B]; auto.
    + inv P. right. right. split; auto. exists pre, x, post. auto.
  - intros [B|[B|[P (pre & x & post & -> & Q & B)]]].
    + exists [], o, os. auto.
    + exists [], o, os. auto.
    + exists (o :: pre), x, post. split; [reflexivity|]. split; auto.
Qed.
Lemma options_bad f os : forall c, undefined (main_loop f c os) <-> bad_opts f os.
Proof.
  induction os as [|o os IH]; intros c.
  { cbn [main_loop]. split; [intros H; now apply ok_defined in H|]. intros H. now apply bad_opts_nil in H. }
  assert (Pass : passes f o -> (forall c, undefined (main_loop f c os) <-> bad_opts f (o :: os))).
  { intros P c1. rewrite IH, bad_opts_cons. split; [auto|]. intros [(a & -> & B)|[(a & -> & B)|[_ B]]]; auto; cbn in P; lia. }
  assert (Stop : (forall a, o <> OptB a) -> (forall a, o <> OptR a \/ len a <= 255) -> ~ passes f o -> forall r : main_result, undefined (Ok r) <-> bad_opts f (o :: os)).
  { intros N1 N2 P r. rewrite bad_opts_cons. split; [intros H; now apply ok_defined in H|].
    intros [(a & -> & B)|[(a & -> & B)|[Q B]]]; [now destruct (N1 a)| |easy]. destruct (N2 a); [easy|lia]. }
  destruct o; cbn [main_loop]; try (apply Pass; exact I); try (apply Stop; [intros; discriminate|intros; left; discriminate|intros []]).
  - rename a into arg. rewrite bind_undefined, fits_undefined. destruct (Z.leb_spec 24 (len arg)).
    + split; [|auto]. intros _. apply bad_opts_cons. left. eauto.
    + rewrite <- (Pass ltac:(cbn; lia) (mkConfig (cf_port c) arg (cf_root c) (cf_static_root c) (cf_index c) (cf_favicon c) (cf_ssl c) (cf_level c))).
      rewrite fits_ok by lia. split; [|intros X; right; eauto]. intros [X|(a & X & Y)]; [lia|]. now inv X.
  - rename a into arg. rewrite bind_undefined, fits_undefined. unfold ROOT_PATH_MAX. destruct (Z.leb_spec 256 (len arg)).
    + split; [|auto]. intros _. apply bad_opts_cons. right. left. eauto.
    + rewrite fits_ok by lia. destruct (is_dir f arg) eqn:D.
      * rewrite <- (Pass ltac:(cbn; split; [lia|auto]) (mkConfig (cf_port c) (cf_bind c) arg (cf_static_root c) (cf_index c) (cf_favicon c) (cf_ssl c) (cf_level c))).
        split; [|intros X; right; exists arg; rewrite D; auto]. intros [X|(a & X & Y)]; [lia|]. inv X. now rewrite D in Y.
      * rewrite <- (Stop ltac:(intros; discriminate) ltac:(intros a; destruct (Z.leb_spec (len a) 255); [auto|left; intros X; inv X; lia]) ltac:(intros [_ X]; congruence) (Exit 1)).
        split; [|intros (u & X); discriminate]. intros [X|(a & X & Y)]; [lia|]. inv X. rewrite D in Y. exact Y.
Qed.
Lemma main_bad f args : undefined (main_options f args) <-> bad_options f args.
Proof. apply options_bad. Qed.

(** ** The start *)
Lemma launch_defined m c f s rules : vocal s -> lg_level s <= 4 -> len (cf_root c) <= 255 -> load_limits f (cf_root c) = Ok rules -> ~ undefined (ws_launch m c f s).
Proof.
  intros V V4 R E (u & H). destruct (start_or_missing m c f) as [S|(level & text & M)].
  - destruct (starts m c f s rules V R E S) as (s' & X & _). congruence.
  - destruct (stops m c f s rules level text V V4 R E M) as (s' & done & o & file & X & _). congruence.
Qed.
Lemma tls_cases m c s k : vocal s -> len (cf_root c) <= 255 -> tls_ready m c \/ ~ undefined (tls_setup m c s k).
Proof.
  intros V R. unfold tls_setup, tls_ready. destruct (cf_ssl c); [|left; discriminate]. destruct (m_context m); cbn [negb].
  2:{ right. destruct (say_error s [] (L "Unable to create SSL context") V) as (o & ->). apply ok_defined. }
  rewrite !fits_ok by (unfold ROOT_PATH_MAX; rewrite len_app; change (len (L "/ssl/cert.pem")) with 13; change (len (L "/ssl/key.pem")) with 12; lia).
  cbn [bind]. destruct (m_cert m _) eqn:Ec; cbn [negb].
  2:{ right. match goal with |- context [failed s [] ?t] => destruct (say_error s [] t V) as (o & ->) end. apply ok_defined. }
  destruct (m_key m _) eqn:Ek; cbn [negb]; [left; auto|].
  right. match goal with |- context [failed s [] ?t] => destruct (say_error s [] t V) as (o & ->) end. apply ok_defined.
Qed.
Lemma launch_bad m c f s : vocal s -> lg_level s <= 4 -> len (cf_root c) <= 255 ->
  (undefined (ws_launch m c f s) <-> upload_dir m f /\ tls_ready m c /\ bad_rules f (cf_root c)).
Proof.
  intros V V4 R. split.
  - intros U. rewrite <- rules_bad. destruct (load_limits f (cf_root c)) as [rules|u] eqn:E.
    { exfalso. exact (launch_defined m c f s rules V V4 R E U). }
    destruct (fst (check_createdir (m_mkdir m) f TMP_DIR)) eqn:D.
    + split; [now apply upload_eq|]. split; [|apply ub_undefined]. rewrite launch_unfold in U. cbv zeta in U. rewrite D in U.
      destruct (tls_cases m c s (sockets m c (snd (check_createdir (m_mkdir m) f TMP_DIR)) s) V R) as [T|N]; [exact T|contradiction].
    + exfalso. rewrite launch_unfold in U. cbv zeta in U. rewrite D, say_fatal in U by auto. now apply ok_defined in U.
  - intros (H1 & H2 & B). apply rules_bad in B as (u & B). rewrite (Start_proofs.bad_limits m c f s u H1 H2 R B). apply ub_undefined.
Qed.
Lemma run_bad m f args : undefined (main_run m f args) <->
  bad_options f args \/ exists c, main_options f args = Ok (Launch c) /\ m_logfile m = true /\ upload_dir m f /\ tls_ready m c /\ bad_rules f (cf_root c).
Proof.
  rewrite <- main_bad. unfold main_run. rewrite bind_undefined. split.
  - intros [H|(r & E & H)]; [auto|]. right. destruct r as [c|code]; [|now apply ok_defined in H].
    destruct (main_launch_ok _ _ _ E) as [R V]. exists c. split; auto. destruct (m_logfile m) eqn:Lf.
    + destruct (main_log _ V) as (V1 & V2 & V3). rewrite V3 in H. rewrite keep_undefined in H. split; auto. now apply launch_bad in H.
    + now apply ok_defined in H.
  - intros [H|(c & E & Lf & H)]; [auto|]. right. exists (Launch c). split; auto. destruct (main_launch_ok _ _ _ E) as [R V]. rewrite Lf.
    destruct (main_log _ V) as (V1 & V2 & V3). rewrite V3, keep_undefined. now apply launch_bad.
Qed.
Lemma lists_later f root ip : len root <= 277 ->
  (undefined (allowed_address f (mkIpconf root (root ++ L "/etc/allow") (root ++ L "/etc/deny")) ip) <-> bad_lists f root ip).
Proof.
  intros R. rewrite <- (lists_bad f root [] ip). unfold allowed_address. rewrite (ip_paths_first root [] []), ip_paths_later; auto; [reflexivity|].
  intros X. apply app_eq_nil in X as [_ X]. discriminate X.
Qed.

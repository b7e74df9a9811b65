(** ScarceStart_proofs.v - lemmas for C108. *)
From Verif Require Import Program ScarceStart Lemmas StringUtils_proofs FileUtils_proofs LogMain_proofs WsConn_proofs WsRequest_proofs WsDispatch_proofs Defined_proofs Termination_proofs Effects_proofs Workers_proofs Start_proofs
  Gate_proofs Safe_proofs Program_proofs Properties_Workers SpecJson SpecHttp SpecConf SpecConn SpecMain SpecStart SpecSafe SpecReq SpecDispatch SpecLog SpecEffects SpecDefined SpecDefinedApi SpecWorkers SpecProgram SpecScarceStart Spec.

(** ** Undefined, or the same *)
Definition weaker {A} (x y : outcome A) : Prop := undefined x \/ x = y.
Lemma weaker_refl {A} (x : outcome A) : weaker x x.
Proof. now right. Qed.
Lemma weaker_bind {A B} (x y : outcome A) (f g : A -> outcome B) : weaker x y -> (forall a, weaker (f a) (g a)) -> weaker (bind x f) (bind y g).
Proof. intros [(u & ->)| ->] H; [left; eexists; reflexivity|]. destruct y as [a|u]; [apply H|now right]. Qed.
Lemma weaker_held {B} ok b (k : unit -> outcome B) y : weaker (k tt) y -> weaker (bind (held ok b) k) y.
Proof. unfold held. destruct (ok b); [auto|left; eexists; reflexivity]. Qed.

(** ** The limits *)
Definition slashed (content : str) : Prop := exists r, content = "/"%char :: r \/ exists a, content = a ++ LF :: "/"%char :: r.
Lemma take_line_rest : forall k s l rest, (length s <= k)%nat -> take_line k s = (l, rest) ->
  s = l ++ rest /\ (rest <> [] -> exists a, l = a ++ [LF]) /\ (forall a b, l = a ++ LF :: b -> b = []).
Proof.
  assert (Z : forall (l : str), l = [] -> (l ++ [] = []) /\ ([] <> @nil ascii -> exists a, l = a ++ [LF]) /\ (forall a b, l = a ++ LF :: b -> b = [])).
  { intros l ->. split; [reflexivity|]. split; [easy|]. intros [|? ?] b X; discriminate. }
  induction k as [|k IH]; intros [|c s] l rest H E; cbn [take_line] in E.
  { injection E as <- <-. destruct (Z [] eq_refl) as (_ & Z1). split; [reflexivity|exact Z1]. }
  { cbn in H. lia. }
  { injection E as <- <-. destruct (Z [] eq_refl) as (_ & Z1). split; [reflexivity|exact Z1]. }
  destruct (ceq c LF) eqn:C.
  - apply Ascii.eqb_eq in C. subst c. injection E as <- <-. split; [reflexivity|]. split; [intros _; now exists []|]. intros [|x a] b X; [now injection X|]. destruct a; discriminate.
  - destruct (take_line k s) as [a b] eqn:T. injection E as <- <-. destruct (IH s a b ltac:(cbn in H; lia) T) as (-> & H1 & H2). split; [reflexivity|]. split.
    + intros N. destruct (H1 N) as (a' & ->). now exists (c :: a').
    + intros [|x a'] b' X; injection X as -> X; [now rewrite Ascii.eqb_refl in C|]. now apply (H2 a').
Qed.
Lemma slashed_next l rest : (rest <> [] -> exists a, l = a ++ [LF]) -> (forall a b, l = a ++ LF :: b -> b = []) -> (forall r, l ++ rest <> "/"%char :: r) ->
  (slashed (l ++ rest) <-> slashed rest).
Proof.
  intros H1 H2 N. split.
  - intros (r & [X|(a & X)]); [now apply N in X|].
    destruct (app_eq_app _ _ _ _ X) as (m & [[E1 E2]|[E1 E2]]).
    + (* l = a ++ m *) destruct m as [|x m]; [exists r; right; exists []; symmetry; exact E2|]. injection E2 as <- E2.
      rewrite (H2 a m E1) in E2. cbn in E2. exists r. left. now symmetry.
    + exists r. right. exists m. exact E2.
  - intros (r & [->|(a & ->)]).
    + destruct H1 as (a & ->); [easy|]. exists r. right. exists a. now rewrite <- app_assoc.
    + exists r. right. exists (l ++ a). now rewrite <- app_assoc.
Qed.
Lemma no_limits_eq : forall fuel content n prev, (length content <= fuel)%nat ->
  (slashed content /\ no_limits_loop fuel content = UB NullDeref)
  \/ (~ slashed content /\ no_limits_loop fuel content = Ok [] /\ limits_loop fuel n prev content = Ok []).
Proof.
  induction fuel as [|fuel IH]; intros content n prev H.
  { destruct content; [|cbn in H; lia]. right. split; [intros (r & [X|([|? ?] & X)]); discriminate|split; reflexivity]. }
  cbn [no_limits_loop limits_loop]. destruct (getline content) as [[line rest]|] eqn:G.
  2:{ right. destruct content; [|discriminate]. split; [intros (r & [X|([|? ?] & X)]); discriminate|split; reflexivity]. }
  pose proof (getline_shorter _ _ _ G) as Sh. assert (T : take_line (length content) content = (line, rest)).
  { unfold getline in G. destruct content; [discriminate|]. now injection G. }
  destruct (take_line_rest _ _ _ _ (le_n _) T) as (-> & H1 & H2). clear T. destruct line as [|c line].
  { cbn in Sh. lia. }
  destruct (ceq c "/") eqn:C.
  - apply Ascii.eqb_eq in C. subst c. left. split; [|reflexivity]. eexists. left. reflexivity.
  - rewrite (slashed_next (c :: line) rest H1 H2); [apply IH; lia|]. intros r X. injection X as -> _. discriminate.
Qed.
Lemma slashed_some f root content : f (root ++ L "/etc/limits") = Some (File content) -> (some_path f root <-> slashed content).
Proof. intros E. unfold some_path, slashed. rewrite E. split; [intros (x & r & X & H); injection X as <-; eauto|intros (r & H); eauto]. Qed.
Lemma limits_s ok f root : len root <= 255 ->
  (ok BLimits = false /\ some_path f root /\ load_limits_s ok f root = UB NullDeref)
  \/ ((ok BLimits = true \/ ~ some_path f root) /\ load_limits_s ok f root = load_limits f root).
Proof.
  intros R. unfold load_limits_s. destruct (ok BLimits); [right; auto|].
  unfold load_limits. rewrite fits_ok by (unfold ROOT_PATH_MAX; rewrite len_app; change (len (L "/etc/limits")) with 11; lia). cbn [bind].
  destruct (f (root ++ L "/etc/limits")) as [[content|]|] eqn:E; [|right; split; [|reflexivity]; right; intros (x & r & X & _); congruence..].
  rewrite (slashed_some _ _ _ E). destruct (no_limits_eq (length content) content 0 free_limit (le_n _)) as [(S & ->)|(S & -> & ->)]; [now left|right; split; [now right|reflexivity]].
Qed.
Lemma limits_s_files ok m f root : load_limits_s ok (files_of m f) root = load_limits_s ok f root.
Proof.
  unfold load_limits_s. destruct (ok BLimits); [apply limits_same|]. destruct (fits _ _) as [p|] eqn:E; [|reflexivity]. cbn [bind]. apply fits_inv in E as [-> _].
  rewrite (files_other m f (root ++ L "/etc/limits")); [reflexivity|exact (not_tmp root "s"%char (L "/etc/limit") eq_refl)].
Qed.

Lemma files_limits m f root : load_limits (files_of m f) root = load_limits f root.
Proof. apply limits_same. Qed.

(** ** The start *)
Definition after_limits (m : machine) (c : config) (f' : fs) (s : logstate) (d0 : list deed) (rules : list limit) : outcome started :=
  let d1 := d0 ++ [Dlimits (cf_root c)] in
  if m_socket m =? -1 then fatal s (d1 ++ [Dsocket]) (L "Unable to obtain socket handle") (bound m c f' rules d1) else bound m c f' rules d1 s.
Definition sockets_s (ok : supply) (m : machine) (c : config) (f' : fs) (s : logstate) (d0 : list deed) : outcome started :=
  rules <- load_limits_s ok f' (cf_root c);; _ <- held ok BQueue;; after_limits m c f' s d0 rules.
Lemma launch_s_unfold ok m c f s : ws_launch_s ok m c f s =
  let rest s := tls_setup m c s (sockets_s ok m c (files_of m f) s) in
  if fst (check_createdir (m_mkdir m) f TMP_DIR) then rest s else fatal s [] (L "Cannot create path " ++ TMP_DIR) rest.
Proof. unfold ws_launch_s, files_of. destruct (check_createdir (m_mkdir m) f TMP_DIR). reflexivity. Qed.
Lemma tls_either m c s : vocal s -> len (cf_root c) <= 255 -> tls_ready m c \/ (~ tls_ready m c /\ exists x, forall k, tls_setup m c s k = Ok x).
Proof.
  intros V R. unfold tls_setup, tls_ready. destruct (cf_ssl c); [|left; discriminate]. destruct (m_context m); cbn [negb].
  2:{ right. split; [intros X; now destruct (X eq_refl)|]. destruct (say_error s [] (L "Unable to create SSL context") V) as (o & ->). eauto. }
  rewrite !fits_ok by (unfold ROOT_PATH_MAX; rewrite len_app; change (len (L "/ssl/cert.pem")) with 13; change (len (L "/ssl/key.pem")) with 12; lia).
  cbn [bind]. destruct (m_cert m _) eqn:Ec; cbn [negb].
  2:{ right. split; [intros X; destruct (X eq_refl) as (_ & Y & _); congruence|]. match goal with |- context [failed s [] ?t] => destruct (say_error s [] t V) as (o & ->) end. eauto. }
  destruct (m_key m _) eqn:Ek; cbn [negb]; [left; auto|].
  right. split; [intros X; destruct (X eq_refl) as (_ & _ & Y); congruence|]. match goal with |- context [failed s [] ?t] => destruct (say_error s [] t V) as (o & ->) end. eauto.
Qed.
Lemma sockets_either ok m c f s d0 : len (cf_root c) <= 255 ->
  ((exists b, start_wants f (cf_root c) b /\ ok b = false) /\ undefined (sockets_s ok m c (files_of m f) s d0))
  \/ ((forall b, start_wants f (cf_root c) b -> ok b = true \/ undefined (load_limits f (cf_root c))) /\ sockets_s ok m c (files_of m f) s d0 = sockets m c (files_of m f) s d0).
Proof.
  intros R. unfold sockets_s, sockets. rewrite limits_s_files. rewrite files_limits.
  destruct (limits_s ok f (cf_root c) R) as [(O & S & ->)|(O & ->)].
  { left. split; [exists BLimits; split; [right; auto|exact O]|]. apply ub_undefined. }
  destruct (load_limits f (cf_root c)) as [rules|u] eqn:E; cbn [bind]; [|right; split; [|reflexivity]; intros b _; right; apply ub_undefined].
  unfold held. destruct (ok BQueue) eqn:Q; cbn [bind].
  - right. split; [|reflexivity]. intros b [->|[-> S]]; [now left|]. destruct O as [O|O]; [now left|contradiction].
  - left. split; [exists BQueue; split; [now left|exact Q]|]. apply ub_undefined.
Qed.
Lemma launch_either ok m c f s : vocal s -> len (cf_root c) <= 255 ->
  (upload_dir m f /\ tls_ready m c /\ (exists b, start_wants f (cf_root c) b /\ ok b = false) /\ undefined (ws_launch_s ok m c f s))
  \/ ((upload_dir m f -> tls_ready m c -> forall b, start_wants f (cf_root c) b -> ok b = true \/ undefined (ws_launch m c f s)) /\ ws_launch_s ok m c f s = ws_launch m c f s).
Proof.
  intros V R. rewrite launch_s_unfold, launch_unfold. cbv zeta. fold (files_of m f). destruct (fst (check_createdir (m_mkdir m) f TMP_DIR)) eqn:D.
  2:{ right. rewrite !say_fatal by auto. split; [|reflexivity]. intros U. apply upload_eq in U. congruence. }
  apply upload_eq in D. destruct (tls_either m c s V R) as [T|(T & x & X)].
  2:{ right. rewrite !X. split; [|reflexivity]. intros _ Y. contradiction. }
  rewrite !(tls_ok _ _ _ _ T R). match goal with |- context [sockets_s ok m c (files_of m f) s ?d] => destruct (sockets_either ok m c f s d R) as [(B & U)|(B & U)] end.
  - left. auto.
  - right. split; [|exact U]. intros _ _ b W. destruct (B b W) as [O|(u & O)]; [now left|]. right. unfold sockets. rewrite files_limits, O. apply ub_undefined.
Qed.
Lemma main_either ok m f args :
  ((exists c b, gets_to_tables m f args c /\ start_wants f (cf_root c) b /\ ok b = false) /\ undefined (main_run_s ok m f args))
  \/ ((forall c b, gets_to_tables m f args c -> start_wants f (cf_root c) b -> ok b = true \/ undefined (main_run m f args)) /\ main_run_s ok m f args = main_run m f args).
Proof.
  unfold main_run_s, main_run, gets_to_tables. destruct (main_options f args) as [[c|code]|u] eqn:E; cbn [bind]; [|right; split; [intros c b (X & _); discriminate|reflexivity]..].
  destruct (main_launch_ok _ _ _ E) as [R V]. destruct (m_logfile m) eqn:Lf; [|right; split; [intros c' b (_ & X & _); discriminate|reflexivity]].
  destruct (main_log _ V) as (V1 & V2 & V3). rewrite V3. destruct (launch_either ok m c f _ V1 R) as [(U1 & U2 & (b & B1 & B2) & (u & U))|(B & U)].
  - left. split; [exists c, b; auto|]. rewrite U. apply ub_undefined.
  - right. rewrite U. split; [|reflexivity]. intros c' b (X & _ & D & T) W. injection X as <-. destruct (B D T b W) as [O|(u & O)]; [now left|]. right. rewrite O. apply ub_undefined.
Qed.
Lemma start_either ok m f args routes coming :
  ((exists c b, gets_to_tables m f args c /\ start_wants f (cf_root c) b /\ ok b = false) /\ undefined (program_start_s ok m f args routes coming))
  \/ ((forall c b, gets_to_tables m f args c -> start_wants f (cf_root c) b -> ok b = true \/ undefined (program_start m f args routes coming))
      /\ program_start_s ok m f args routes coming = program_start m f args routes coming).
Proof.
  unfold program_start_s, program_start. destruct (main_either ok m f args) as [(B & (u & U))|(B & U)].
  - left. split; [exact B|]. rewrite U. destruct (main_options f args); apply ub_undefined.
  - right. rewrite U. split; [|reflexivity]. intros c b G W. destruct (B c b G W) as [O|(u & O)]; [now left|]. right. rewrite O. destruct (main_options f args); apply ub_undefined.
Qed.

(** ** A step is undefined, or the same *)
Lemma find_weaker ok b b' f p x : weaker (find_in_file_s ok b b' f p x) (find_in_file f p x).
Proof. unfold find_in_file_s. destruct (is_file f p) eqn:E; [apply weaker_held; destruct (f p) as [[[|c l]|]|]; try apply weaker_refl; apply weaker_held, weaker_refl|]. right. unfold find_in_file. now rewrite E. Qed.
Lemma address_weaker ok n f g ip : weaker (allowed_address_s ok n f g ip) (allowed_address f g ip).
Proof.
  unfold allowed_address_s, allowed_address. apply weaker_bind; [apply weaker_refl|]. intros g'. apply weaker_bind; [apply find_weaker|]. intros [|]; [apply weaker_refl|].
  destruct (negb _); [apply weaker_refl|]. apply weaker_bind; [apply find_weaker|]. intros a. apply weaker_refl.
Qed.
Lemma step_weaker ok g s w : match pstep_s ok g s w, pstep g s w with None, None => True | Some x, Some y => weaker x y | _, _ => False end.
Proof.
  destruct w as [|k]; cbn [pstep_s pstep].
  - unfold accept_next_s, accept_next. destruct (p_coming s) as [|a rest]; [exact I|]. apply weaker_held. unfold admitted_peer. destruct (fits 16 _) as [ip|u]; cbn [bind]; [|apply weaker_refl].
    apply weaker_bind; [apply address_weaker|]. intros [[|] ls]; cbn [negb]; [|apply weaker_refl]. destruct (_ =? _); [apply weaker_refl|]. apply weaker_held, weaker_refl.
  - destruct (wstep (p_pool s) k) as [o|]; [|exact I]. destruct (thread_use ok (p_pool s) k) as [[]|u]; [apply weaker_refl|left; eexists; reflexivity].
Qed.
Lemma run_weaker ok g sched : forall s, match prun_s ok g s sched, prun g s sched with None, None => True | Some (UB u), _ => True | Some x, Some y => x = y | _, _ => False end.
Proof.
  induction sched as [|w l IH]; intros s; cbn [prun_s prun]; [reflexivity|]. pose proof (step_weaker ok g s w) as W.
  destruct (pstep_s ok g s w) as [x|], (pstep g s w) as [y|]; try contradiction; [|exact I]. destruct W as [(u & ->)| ->]; [exact I|]. destruct y as [s'|u]; [apply IH|exact I].
Qed.
Lemma scarce_same ok m f args routes coming sched :
  (exists u, program_scarce ok m f args routes coming sched = Some (UB u)) \/ program_scarce ok m f args routes coming sched = program_run m f args routes coming sched.
Proof.
  unfold program_scarce, program_run. destruct (start_either ok m f args routes coming) as [(_ & (u & ->))|(_ & ->)]; [left; eauto|].
  destruct (program_start m f args routes coming) as [[[g s]|]|u]; [|now right|left; eauto].
  pose proof (run_weaker ok g sched s) as W. destruct (prun_s ok g s sched) as [[s1|u]|], (prun g s sched) as [y|]; try contradiction; try (right; reflexivity); try (left; eexists; reflexivity).
  subst y. now right.
Qed.

(** ** What is asked for on the way *)
Lemma find_told f p ip r : find_in_file f p ip = Ok r -> (r = true <-> listed f p ip).
Proof.
  intros E. destruct (small_or_big f p) as [S|B]; [|rewrite find_big in E by exact B; discriminate].
  destruct (find_listed f p ip S) as (r' & E' & H). rewrite E in E'. injection E' as <-. exact H.
Qed.
Lemma is_file_has f p : is_file f p = true <-> has_file f p.
Proof. unfold is_file, has_file. destruct (f p) as [[c|]|]; split; try discriminate; eauto; intros (x & X); discriminate. Qed.
Lemma paths_ok root ls : len root <= 277 -> lists_ok root ls -> ip_paths ls = Ok (full_lists root).
Proof. intros R [->| ->]; [now apply ip_paths_first|apply ip_paths_later; destruct root; discriminate]. Qed.
Lemma find_s ok b b' f p x : is_file f p = true ->
  (exists q, search_wants f p b b' q /\ ok q = false /\ undefined (find_in_file_s ok b b' f p x))
  \/ ((forall q, search_wants f p b b' q -> ok q = true) /\ find_in_file_s ok b b' f p x = find_in_file f p x).
Proof.
  intros D. unfold find_in_file_s. rewrite D. apply is_file_has in D. unfold held, search_wants. destruct (ok b) eqn:O; cbn [bind]; [|left; exists b; split; [auto|split; [exact O|apply ub_undefined]]].
  pose proof D as (t & Et). rewrite Et. destruct t as [|c t]; cbn [bind].
  - right. split; [|reflexivity]. intros q [(_ & ->)|((c & r & X) & _)]; [exact O|discriminate].
  - destruct (ok b') eqn:O'; cbn [bind]; [right|left; exists b'; split; [right; split; [eauto|reflexivity]|split; [exact O'|apply ub_undefined]]].
    split; [|reflexivity]. intros q [(_ & ->)|(_ & ->)]; assumption.
Qed.
Lemma find_s_none ok b b' f p x : is_file f p = false -> find_in_file_s ok b b' f p x = Ok false /\ forall q, ~ search_wants f p b b' q.
Proof.
  intros D. unfold find_in_file_s. rewrite D. split; [reflexivity|]. intros q [(X & _)|((c & r & X) & _)]; [apply is_file_has in X; congruence|].
  assert (Y : has_file f p) by (eexists; exact X). apply is_file_has in Y. congruence.
Qed.
Lemma address_either ok n f root ls ip : len root <= 277 -> lists_ok root ls ->
  ((exists b, peer_wants f root ip n b /\ ok b = false) /\ undefined (allowed_address_s ok n f ls ip))
  \/ undefined (allowed_address f ls ip)
  \/ (exists r, allowed_address_s ok n f ls ip = Ok (r, full_lists root) /\ (r = true <-> SpecConf.allowed f root ip)
       /\ (forall b, peer_wants f root ip n b -> ok b = true \/ b = BPeer n \/ (r = true /\ b = BElements))).
Proof.
  intros R O. unfold allowed_address_s, allowed_address. rewrite (paths_ok root ls R O). cbn [bind full_lists ws_deny ws_allow]. unfold SpecConf.allowed.
  destruct (is_file f (root ++ L "/etc/deny")) eqn:D.
  - destruct (find_s ok (BDeny n) (BDenyText n) f _ ip D) as [(q & Wq & Oq & (u & ->))|(Od & ->)]; cbn [bind].
    { left. split; [|apply ub_undefined]. exists q. split; [right; left; exact Wq|exact Oq]. }
    destruct (find_in_file f (root ++ L "/etc/deny") ip) as [[|]|u] eqn:E; cbn [bind]; [| |right; left; apply ub_undefined].
    + pose proof (proj1 (find_told _ _ _ _ E) eq_refl) as Li. right. right. exists false. split; [reflexivity|]. split; [split; [discriminate|intros [X _]; contradiction]|].
      intros b [->|[Wb|[(X & _)|((X & _) & _)]]]; auto; contradiction.
    + assert (Nl : ~ listed f (root ++ L "/etc/deny") ip) by (intros X; apply (find_told _ _ _ _ E) in X; discriminate).
      destruct (is_file f (root ++ L "/etc/allow")) eqn:A; cbn [negb].
      * pose proof (proj1 (is_file_has _ _) A) as Ah. destruct (find_s ok (BAllow n) (BAllowText n) f _ ip A) as [(q & Wq & Oq & (u & ->))|(Oa & ->)]; cbn [bind].
        { left. split; [|apply ub_undefined]. exists q. split; [right; right; left; auto|exact Oq]. }
        destruct (find_in_file f (root ++ L "/etc/allow") ip) as [r|u] eqn:E2; cbn [bind]; [|right; left; apply ub_undefined]. pose proof (find_told _ _ _ _ E2) as Hr.
        right. right. exists r. split; [reflexivity|]. split.
        -- rewrite Hr. split; [auto|]. intros [_ [X|X]]; [|exact X]. destruct Ah as (x & Ah). now apply X in Ah.
        -- intros b [->|[Wb|[(_ & Wb)|((_ & X) & ->)]]]; auto. right. right. split; [|reflexivity]. apply Hr. destruct X as [X|X]; [|exact X]. destruct Ah as (x & Ah). now apply X in Ah.
      * assert (Na : ~ has_file f (root ++ L "/etc/allow")) by (rewrite <- is_file_has; congruence). destruct (find_s_none ok (BAllow n) (BAllowText n) f _ ip A) as [_ Nw].
        right. right. exists true. split; [reflexivity|]. split; [split; [intros _; split; [exact Nl|left; intros x X; apply Na; now exists x]|reflexivity]|].
        intros b [->|[Wb|[(_ & X)|(_ & ->)]]]; auto. exfalso. exact (Nw _ X).
  - destruct (find_s_none ok (BDeny n) (BDenyText n) f _ ip D) as [-> Nd]. cbn [bind].
    assert (Fd : find_in_file f (root ++ L "/etc/deny") ip = Ok false) by (unfold find_in_file; now rewrite D). rewrite Fd. cbn [bind].
    assert (Nl : ~ listed f (root ++ L "/etc/deny") ip) by (intros X; apply (find_told _ _ _ _ Fd) in X; discriminate).
    destruct (is_file f (root ++ L "/etc/allow")) eqn:A; cbn [negb].
    + pose proof (proj1 (is_file_has _ _) A) as Ah. destruct (find_s ok (BAllow n) (BAllowText n) f _ ip A) as [(q & Wq & Oq & (u & ->))|(Oa & ->)]; cbn [bind].
      { left. split; [|apply ub_undefined]. exists q. split; [right; right; left; auto|exact Oq]. }
      destruct (find_in_file f (root ++ L "/etc/allow") ip) as [r|u] eqn:E2; cbn [bind]; [|right; left; apply ub_undefined]. pose proof (find_told _ _ _ _ E2) as Hr.
      right. right. exists r. split; [reflexivity|]. split.
      * rewrite Hr. split; [auto|]. intros [_ [X|X]]; [|exact X]. destruct Ah as (x & Ah). now apply X in Ah.
      * intros b [->|[Wb|[(_ & Wb)|((_ & X) & ->)]]]; auto; [exfalso; exact (Nd _ Wb)|]. right. right. split; [|reflexivity]. apply Hr. destruct X as [X|X]; [|exact X]. destruct Ah as (x & Ah). now apply X in Ah.
    + assert (Na : ~ has_file f (root ++ L "/etc/allow")) by (rewrite <- is_file_has; congruence). destruct (find_s_none ok (BAllow n) (BAllowText n) f _ ip A) as [_ Nw].
      right. right. exists true. split; [reflexivity|]. split; [split; [intros _; split; [exact Nl|left; intros x X; apply Na; now exists x]|reflexivity]|].
      intros b [->|[X|[(_ & X)|(_ & ->)]]]; auto; exfalso; [exact (Nd _ X)|exact (Nw _ X)].
Qed.
Definition state_full (s : program) : Prop := len (w_queue (p_pool s)) = 1024.
Lemma main_either_s ok f g n coming kept ws s a rest : good_settings g -> Forall proper coming -> reached f g n coming kept ws s -> p_coming s = a :: rest ->
  (exists u, pstep_s ok g s Main = Some (UB u)
     /\ ((exists b, peer_wants f (cf_root (st_config g)) (inet_ntoa (ar_addr a)) (length rest) b /\ ok b = false) \/ exists u', pstep g s Main = Some (UB u')))
  \/ (exists s', pstep_s ok g s Main = Some (Ok s') /\ (ok BElements = false -> w_queue (p_pool s') = w_queue (p_pool s))
       /\ forall b, peer_wants f (cf_root (st_config g)) (inet_ntoa (ar_addr a)) (length rest) b -> ok b = true \/ (b = BElements /\ state_full s)).
Proof.
  intros G P R C. pose proof (reached_files _ _ _ _ _ _ _ G P R) as F.
  assert (Pa : proper a). { rewrite Forall_forall in P. apply P. apply (kept_in _ _ _ _ _ _ _ R). rewrite C. rewrite !in_app_iff. cbn. auto. }
  destruct R as (_ & O & _). destruct G as [Gr _]. cbn [pstep_s pstep]. unfold accept_next_s, accept_next. rewrite C, F. rewrite (peer_eq f (p_lists s) (ar_addr a) (proj1 Pa)).
  set (ip := inet_ntoa (ar_addr a)). set (root := cf_root (st_config g)) in *. unfold held at 1 3. destruct (ok (BPeer (length rest))) eqn:Op; cbn [bind].
  2:{ left. eexists. split; [reflexivity|]. left. exists (BPeer (length rest)). split; [now left|exact Op]. }
  rewrite fits_ok by (pose proof (ntoa_len _ (proj1 Pa)); unfold ip; lia). cbn [bind].
  destruct (address_either ok (length rest) f root (p_lists s) ip ltac:(lia) O) as [(B & (u & ->))|[(u & U)|(r & -> & Hr & B)]].
  - left. eexists. split; [reflexivity|]. left. exact B.
  - left. destruct (address_weaker ok (length rest) f (p_lists s) ip) as [(u' & ->)|E]; [rewrite U|rewrite E, U]; (eexists; split; [reflexivity|]); right; eexists; reflexivity.
  - cbn [bind]. destruct r; cbn [negb].
    + destruct (Z.eqb_spec (len (w_queue (p_pool s))) WS_MAX_CONNECTIONS) as [Q|Q].
      * right. eexists. split; [reflexivity|]. split; [reflexivity|]. intros b W. destruct (B b W) as [X|[->|[_ ->]]]; auto.
      * unfold held. destruct (ok BElements) eqn:Oe; cbn [bind].
        -- right. eexists. split; [reflexivity|]. split; [discriminate|]. intros b W. destruct (B b W) as [X|[->|[_ ->]]]; auto.
        -- left. eexists. split; [reflexivity|]. left. exists BElements. split; [|exact Oe]. right. right. right. split; [now apply Hr|reflexivity].
    + right. eexists. split; [reflexivity|]. split; [reflexivity|]. intros b W. destruct (B b W) as [X|[->|[X _]]]; auto. discriminate.
Qed.

(** ** The request of a worker *)
Local Transparent read_head.
Lemma head_line q h : read_head q = Ok (inr h) -> exists seen m u s1, first_line (q_stream q) seen m (Some u) s1 /\ 2 <= len seen /\ SpecDispatch.allowed m.
Proof.
  intros H. destruct (first_line_exists (q_stream q)) as (seen & m & url & s1 & FL). exists seen, m. unfold read_head in H. apply bind_ok_inv in H as (r0 & _ & H).
  destruct (first_line_reads _ _ _ _ _ FL) as (b & n & j & _ & G & Nm & PL & PU & _). rewrite G in H. cbn [bind] in H.
  assert (S2 : 2 <= len seen).
  { destruct (Z_lt_dec (len seen) 2) as [S2|S2]; [exfalso|lia]. pose proof FL as (l & w & sp & u & more & Hl & Hs & _). pose proof Hl as (_ & Hle & _).
    rewrite (get_line_eq 1024 _ l s1 (calloc 1024) Hl) in G by (rewrite len_calloc; lia). pose proof (f_equal (fun x => match x with Ok (_, b', _) => b' | UB _ => b end) G) as Eb. cbv beta iota in Eb. rewrite <- Eb in H. clear Eb G PL PU.
    assert (U : undefined (parse_request_line (cs l ++ skipn (S (length l)) (calloc 1024)))).
    { unfold parse_request_line. replace (cs l ++ skipn (S (length l)) (calloc 1024)) with (map Some l ++ Some NUL :: skipn (S (length l)) (calloc 1024)) by (unfold cs; now rewrite <- app_assoc).
      rewrite upto_nul_cstr. cbn [bind]. rewrite (upto_seen _ _ Hs). unfold wr. rewrite write_at_neg by lia. eexists. reflexivity. }
    destruct U as (u0 & U). rewrite U in H. discriminate. }
  rewrite PL in H by exact S2. cbn [bind] in H. destruct (methods_eq m Nm) as (r & Em & Hm). rewrite Em in H. cbn [bind] in H. destruct r; cbn [negb] in H.
  2:{ apply bind_ok_inv in H as (r2 & _ & H). discriminate H. }
  rewrite PU in H. destruct url as [u|]; [|discriminate H]. exists u, s1. split; [exact FL|]. split; [exact S2|]. now apply Hm.
Qed.
Lemma line_head q seen m u s1 r : first_line (q_stream q) seen m (Some u) s1 -> 2 <= len seen -> SpecDispatch.allowed m -> read_head q <> Ok (inl r).
Proof.
  intros FL S2 A H. unfold read_head in H. apply bind_ok_inv in H as (r0 & _ & H).
  destruct (first_line_reads _ _ _ _ _ FL) as (b & n & j & _ & G & Nm & PL & PU & _). rewrite G in H. cbn [bind] in H. rewrite PL in H by exact S2. cbn [bind] in H.
  destruct (methods_eq m Nm) as (x & Em & Hm). rewrite Em in H. cbn [bind] in H. apply Hm in A. subst x. cbn [negb] in H. rewrite PU in H. discriminate H.
Qed.
Local Opaque read_head.
Lemma worker_blame ok f g n coming kept ws s k u : good_settings g -> Forall proper coming -> reached f g n coming kept ws s -> thread_use ok (p_pool s) k = UB u ->
  exists a b, In a coming /\ let_in_by f (cf_root (st_config g)) a /\ request_wants (ar_stream a) b /\ ok b = false.
Proof.
  intros G P R E. pose proof (pinv_run f _ ws (made_sound _ (enqueued_made g kept G (kept_proper _ _ _ _ _ _ _ P R))) _ (pinv_start f _ n)) as Q. rewrite (proj1 R) in Q.
  destruct Q as (_ & _ & _ & St & _ & Pm). unfold thread_use in E. destruct (nth_error (w_threads (p_pool s)) k) as [st|] eqn:N; [|discriminate]. apply nth_error_In in N.
  assert (Of : forall q, working st = [q] -> exists a, enqueued g a = q /\ In a coming /\ let_in_by f (cf_root (st_config g)) a).
  { intros q W. assert (Iq : In q (map (enqueued g) kept)).
    { apply (Permutation.Permutation_in q (Permutation.Permutation_sym Pm)). apply in_or_app. right. apply in_or_app. left. apply in_flat_map. exists st. split; [exact N|]. rewrite W. now left. }
    apply in_map_iff in Iq as (a & <- & Ia). exists a. split; [reflexivity|]. split; [apply (kept_in _ _ _ _ _ _ _ R); apply in_or_app; now left|].
    destruct R as (_ & _ & _ & K & _). rewrite Forall_forall in K. now apply K. }
  rewrite Forall_forall in St. specialize (St st N). unfold held in E.
  destruct st as [|q|q h|q h|q h i|q h|q h|q kd r]; cbn [table_use] in E; try discriminate; destruct (Of q eq_refl) as (a & <- & Ia & La); exists a.
  - unfold held in E. destruct (ok BLimits) eqn:Ol; cbn [bind] in E.
    + exists BLive. destruct (ok BLive); [discriminate|]. split; [exact Ia|]. split; [exact La|]. split; [now left|reflexivity].
    + exists BLimits. split; [exact Ia|]. split; [exact La|]. split; [right; split; [reflexivity|exact (head_line _ _ (proj2 St))]|exact Ol].
  - exists BLive. unfold held in E. destruct (ok BLive); [discriminate|]. split; [exact Ia|]. split; [exact La|]. split; [now left|reflexivity].
  - exists BLive. unfold held in E. destruct (ok BLive); [discriminate|]. split; [exact Ia|]. split; [exact La|]. split; [now left|reflexivity].
  - exists BLive. unfold held in E. destruct (ok BLive); [discriminate|]. split; [exact Ia|]. split; [exact La|]. split; [now left|reflexivity].
Qed.
Definition refusal (ok : supply) (f : fs) (root : str) (n : nat) (coming : list arrival) : Prop :=
  (exists before a after b, coming = before ++ a :: after /\ peer_wants f root (inet_ntoa (ar_addr a)) (length after) b /\ ok b = false)
  \/ (exists a b, (0 < n)%nat /\ In a coming /\ let_in_by f root a /\ request_wants (ar_stream a) b /\ ok b = false).
Lemma run_blame ok f g n coming sched u : good_settings g -> Forall proper coming -> forall s kept ws, reached f g n coming kept ws s -> prun_s ok g s sched = Some (UB u) ->
  (exists u', prun g s sched = Some (UB u')) \/ refusal ok f (cf_root (st_config g)) n coming.
Proof.
  intros G P. induction sched as [|w l IH]; intros s kept ws R H; cbn [prun_s prun] in *; [discriminate|]. destruct w as [|k].
  - destruct (p_coming s) as [|a rest] eqn:C; [cbn [pstep_s] in H; unfold accept_next_s in H; rewrite C in H; discriminate|].
    destruct (main_either_s ok f g n coming kept ws s a rest G P R C) as [(u1 & E & [(b & B)|(u' & B)])|(s' & E & _)].
    + right. left. destruct R as (_ & _ & (past & Ec & _) & _). exists past, a, rest, b. rewrite Ec, C. auto.
    + left. rewrite B. eauto.
    + rewrite E in H. pose proof (step_weaker ok g s Main) as W. rewrite E in W. destruct (pstep g s Main) as [y|] eqn:Ey; [|contradiction]. destruct W as [(x & W)|W]; [discriminate|]. subst y.
      pose proof (main_step f g n coming kept ws s G P R) as M. rewrite C, Ey in M. destruct M as [(x & M & _)|(s2 & M & _ & _ & _ & _ & _ & _ & [M'|M'])]; [discriminate| |]; injection M as <-; eauto.
  - pose proof (step_weaker ok g s (Worker k)) as W. destruct (pstep g s (Worker k)) as [y|] eqn:Ey, (pstep_s ok g s (Worker k)) as [x|] eqn:Ex; try contradiction; [|discriminate].
    destruct x as [s'|u1].
    + destruct W as [(x & W)|W]; [discriminate|]. subst y. pose proof (worker_step f g n coming kept ws s k R) as M. rewrite Ey in M. destruct M as (M & _). eauto.
    + cbn [pstep_s pstep] in *. destruct (wstep (p_pool s) k) as [o|] eqn:Eo; [|discriminate]. injection Ey as <-. destruct (thread_use ok (p_pool s) k) as [[]|u2] eqn:Et.
      * injection Ex as Ex. cbn [bind] in Ex. left. rewrite Ex. eauto.
      * right. right. destruct (worker_blame ok f g n coming kept ws s k u2 G P R Et) as (a & b & B). exists a, b. split; [|exact B].
        destruct n as [|n]; [|lia]. exfalso. assert (T : length (w_threads (p_pool s)) = 0%nat). { rewrite (run_length _ _ _ (proj1 R)). destruct (start_more f (map (enqueued g) kept) 0) as (_ & _ & ->). reflexivity. }
        unfold thread_use in Et. apply length_zero_iff_nil in T. rewrite T in Et. destruct k; discriminate.
Qed.

(** ** Runs that come to it *)
Definition dies (ok : supply) (g : settings) (s : program) : Prop := exists sched u, prun_s ok g s sched = Some (UB u).
Lemma dies_now ok g s w u : pstep_s ok g s w = Some (UB u) -> dies ok g s.
Proof. intros E. exists [w], u. cbn [prun_s]. now rewrite E. Qed.
Lemma dies_ub ok g s w u : pstep g s w = Some (UB u) -> dies ok g s.
Proof.
  intros E. pose proof (step_weaker ok g s w) as W. rewrite E in W. destruct (pstep_s ok g s w) as [x|] eqn:Ex; [|contradiction].
  destruct W as [(u' & ->)| ->]; eapply dies_now; exact Ex.
Qed.
Lemma dies_go ok g s w s' : pstep g s w = Some (Ok s') -> dies ok g s' -> dies ok g s.
Proof.
  intros E (sched & u & H). pose proof (step_weaker ok g s w) as W. rewrite E in W. destruct (pstep_s ok g s w) as [x|] eqn:Ex; [|contradiction].
  destruct W as [(u' & ->)| ->]; [eapply dies_now; exact Ex|]. exists (w :: sched), u. cbn [prun_s]. now rewrite Ex.
Qed.
Lemma dies_run ok g s sched x : prun g s sched = Some x -> match x with UB u => True | Ok s' => dies ok g s' end -> dies ok g s.
Proof.
  revert s. induction sched as [|w l IH]; intros s E H; cbn [prun] in E; [injection E as <-; exact H|]. destruct (pstep g s w) as [[s1|u]|] eqn:E1; [|eapply dies_ub; exact E1|discriminate].
  eapply dies_go; [exact E1|]. eauto.
Qed.
Lemma peer_dies ok f g n coming post b : good_settings g -> Forall proper coming -> ok b = false -> forall pre s kept ws a, reached f g n coming kept ws s -> p_coming s = pre ++ a :: post ->
  w_queue (p_pool s) = [] \/ b <> BElements -> peer_wants f (cf_root (st_config g)) (inet_ntoa (ar_addr a)) (length post) b -> dies ok g s.
Proof.
  intros G P O. induction pre as [|x pre IH]; intros s kept ws a R C Q W; cbn [app] in C.
  - destruct (main_either_s ok f g n coming kept ws s a post G P R C) as [(u & E & _)|(s' & _ & _ & B)]; [eapply dies_now; exact E|]. exfalso.
    destruct (B b W) as [X|(-> & X)]; [congruence|]. destruct Q as [Q|Q]; [|easy]. unfold state_full in X. rewrite Q in X. discriminate.
  - destruct (main_either_s ok f g n coming kept ws s x (pre ++ a :: post) G P R C) as [(u & E & _)|(s' & E & Qs & _)]; [eapply dies_now; exact E|].
    pose proof (step_weaker ok g s Main) as Wk. rewrite E in Wk. destruct (pstep g s Main) as [y|] eqn:Ey; [|contradiction]. destruct Wk as [(v & Wk)|Wk]; [discriminate|]. subst y.
    eapply dies_go; [exact Ey|]. pose proof (main_step f g n coming kept ws s G P R) as M. rewrite C, Ey in M. destruct M as [(v & M & _)|(s2 & M & C' & _ & _ & _ & _ & _ & M')]; [discriminate|]. injection M as <-.
    assert (Q' : w_queue (p_pool s') = [] \/ b <> BElements).
    { destruct Q as [Q|Q]; [|now right]. destruct (ok BElements) eqn:Oe; [right; intros ->; congruence|]. left. rewrite Qs by reflexivity. exact Q. }
    destruct M' as [M'|M']; eapply IH; eauto.
Qed.
Lemma solo_dies ok g s q rest l b : ok b = false -> request_wants (q_stream q) b -> w_queue (p_pool s) = q :: rest -> w_threads (p_pool s) = SIdle :: l -> dies ok g s.
Proof.
  intros O W Q T. destruct s as [[qu th tb fs an] ls co de lo]. cbn [p_pool w_queue w_threads] in Q, T. subst qu th.
  eapply (dies_go _ _ _ (Worker 0)); [reflexivity|]. cbn [set_nth firstn app skipn p_lists p_coming p_denied p_lost].
  destruct (read_head q) as [[r|h]|u] eqn:R.
  - eapply (dies_go _ _ _ (Worker 0)); [cbn [pstep p_pool]; unfold wstep; cbn [w_threads nth_error set_nth firstn app]; rewrite R; reflexivity|].
    destruct W as [->|(-> & seen & m & u & s1 & FL & S2 & A)]; [|exfalso; exact (line_head q seen m u s1 r FL S2 A R)].
    eapply (dies_now _ _ _ (Worker 0)). cbn [pstep_s p_pool]. unfold wstep, thread_use, at_stage. cbn [w_threads nth_error set_nth firstn app table_use]. unfold held. rewrite O. reflexivity.
  - eapply (dies_go _ _ _ (Worker 0)); [cbn [pstep p_pool]; unfold wstep; cbn [w_threads nth_error set_nth firstn app]; rewrite R; reflexivity|].
    unfold at_stage. cbn [w_threads nth_error set_nth firstn app skipn w_queue w_table w_fs w_answers p_lists p_coming p_denied p_lost].
    assert (Lv : ok BLimits = false \/ ok BLive = false) by (destruct W as [->|(-> & _)]; auto). clear b O W. destruct (ok BLimits) eqn:Ol.
    2:{ eapply (dies_now _ _ _ (Worker 0)). cbn [pstep_s p_pool]. unfold wstep, thread_use. cbn [w_threads nth_error table_use]. unfold held. rewrite Ol. reflexivity. }
    destruct Lv as [Lv|Lv]; [discriminate|].
    destruct (connection_validate (v_limits (q_env q)) tb (r_ip (hd_req h)) (hd_url h)) as [[|]|u] eqn:V.
    + eapply (dies_go _ _ _ (Worker 0)); [cbn [pstep p_pool]; unfold wstep; cbn [w_threads nth_error w_table]; rewrite V; reflexivity|].
      eapply (dies_now _ _ _ (Worker 0)). cbn [pstep_s p_pool]. unfold wstep, thread_use, at_stage. cbn [w_threads nth_error set_nth firstn app table_use]. unfold held. rewrite Lv. reflexivity.
    + eapply (dies_go _ _ _ (Worker 0)); [cbn [pstep p_pool]; unfold wstep; cbn [w_threads nth_error w_table]; rewrite V; reflexivity|].
      destruct (too_many_connections (hd_req h)) as [r|u] eqn:M.
      * eapply (dies_go _ _ _ (Worker 0)); [cbn [pstep p_pool]; unfold wstep, at_stage; cbn [w_threads nth_error set_nth firstn app]; rewrite M; reflexivity|].
        eapply (dies_now _ _ _ (Worker 0)). cbn [pstep_s p_pool]. unfold wstep, thread_use, at_stage. cbn [w_threads nth_error set_nth firstn app table_use]. unfold held. rewrite Lv. reflexivity.
      * eapply (dies_ub _ _ _ (Worker 0)). cbn [pstep p_pool]. unfold wstep, at_stage. cbn [w_threads nth_error set_nth firstn app]. rewrite M. reflexivity.
    + eapply (dies_ub _ _ _ (Worker 0)). cbn [pstep p_pool]. unfold wstep. cbn [w_threads nth_error w_table]. rewrite V. reflexivity.
  - eapply (dies_ub _ _ _ (Worker 0)). cbn [pstep p_pool]. unfold wstep. cbn [w_threads nth_error set_nth firstn app]. rewrite R. reflexivity.
Qed.
Lemma request_dies ok f g n coming post b : good_settings g -> Forall proper coming -> (0 < n)%nat -> ok b = false -> forall pre s kept ws a, reached f g n coming kept ws s ->
  w_queue (p_pool s) = [] -> Forall (fun s => s = SIdle) (w_threads (p_pool s)) -> p_coming s = pre ++ a :: post ->
  let_in_by f (cf_root (st_config g)) a -> request_wants (ar_stream a) b -> dies ok g s.
Proof.
  intros G P N O. induction pre as [|x pre IH]; intros s kept ws a R Q Id C A W; pose proof (main_step f g n coming kept ws s G P R) as M; rewrite C in M; cbn [app] in M.
  - destruct M as [(u & E & _)|(s' & E & _ & _ & K & _)]; [eapply dies_ub; exact E|]. eapply dies_go; [exact E|]. destruct (K Q) as [_ R2]. destruct (R2 A) as [R3 Pe].
    assert (Lt : length (w_threads (p_pool s')) = n). { rewrite (run_length _ _ _ (proj1 R3)). now destruct (start_more f (map (enqueued g) (kept ++ [a])) n) as (_ & _ & ->). }
    assert (Id' : Forall (fun s => s = SIdle) (w_threads (p_pool s'))) by (rewrite Pe; exact Id). destruct (w_threads (p_pool s')) as [|s0 l] eqn:T; [cbn in Lt; lia|].
    inversion Id' as [|y l' Hy Hl]. subst. apply (solo_dies ok g s' (enqueued g a) [] l b); auto. rewrite Pe. unfold extend. cbn [w_queue]. now rewrite Q.
  - destruct M as [(u & E & _)|(s' & E & C' & _ & _ & _ & _ & _ & R')]; [eapply dies_ub; exact E|]. eapply dies_go; [exact E|].
    assert (R2 : exists kept', reached f g n coming kept' ws s') by (destruct R'; eauto). destruct R2 as (kept' & R2).
    destruct (drain f _ n (enqueued_made g kept' G (kept_proper _ _ _ _ _ _ _ P R2)) N (S (7 * length (map (enqueued g) kept'))) ws (p_pool s') ltac:(lia) (proj1 R2)) as (more & [(u & X)|(p' & X & Q' & Id')]).
    + eapply (dies_run _ _ _ (map Worker more)); [rewrite prun_workers, X; reflexivity|exact I].
    + eapply (dies_run _ _ _ (map Worker more)); [rewrite prun_workers, X; reflexivity|].
      exact (IH (with_pool s' p') kept' (ws ++ more) a (reached_more _ _ _ _ _ _ _ _ _ R2 X) Q' Id' C' A W).
Qed.

(** ** The whole program *)
Lemma peer_files m f root ip n b : peer_wants (files_of m f) root ip n b <-> peer_wants f root ip n b.
Proof. unfold peer_wants, search_wants, has_file. rewrite files_allowed, files_listed, files_allow, files_deny by auto. reflexivity. Qed.
Lemma running_gets m f args c : running m f args c -> gets_to_tables m f args c.
Proof. intros (A & B & C & D & _). exact (conj A (conj B (conj C D))). Qed.
Lemma first_idle m f root coming : Forall (fun s => s = SIdle) (w_threads (p_pool (first_state m f root coming))).
Proof.
  unfold first_state, pool_start. cbn [p_pool w_threads]. generalize (workers_started m). intros n. induction n as [|n IH]; cbn [repeat]; constructor; auto.
Qed.
Lemma first_coming m f root coming : p_coming (first_state m f root coming) = coming.
Proof. reflexivity. Qed.
Lemma first_queue m f root coming : w_queue (p_pool (first_state m f root coming)) = [].
Proof. reflexivity. Qed.
Lemma start_dies ok m f args routes coming c rules b : Forall proper coming -> running m f args c -> load_limits f (cf_root c) = Ok rules ->
  (forall c b, gets_to_tables m f args c -> start_wants f (cf_root c) b -> ok b = true) -> program_wants m f args coming b -> ok b = false ->
  dies ok (mkSettings c rules routes) (first_state m f (cf_root c) coming).
Proof.
  intros P Rn El B W O. pose proof (started_good f args c rules routes (proj1 Rn) El) as G. pose proof (reached_start m f (mkSettings c rules routes) coming) as R0.
  remember (mkSettings c rules routes) as g eqn:Eg. assert (Er : cf_root (st_config g) = cf_root c) by now rewrite Eg. rewrite Er in R0. clear Eg.
  pose proof (first_idle m f (cf_root c) coming) as Fi. pose proof (first_coming m f (cf_root c) coming) as Fc. pose proof (first_queue m f (cf_root c) coming) as Fq.
  remember (first_state m f (cf_root c) coming) as s eqn:Es. clear Es.
  assert (Same : forall c', running m f args c' -> c' = c) by (intros c' (X & _); destruct Rn as (Y & _); congruence).
  destruct W as [c' b Gt W|c' before a after b Rn' Ec W|c' a b Rn' Sw Ia A W].
  - rewrite (B c' b Gt W) in O. discriminate.
  - rewrite (Same c' Rn') in *. rewrite Ec in Fc. apply (peer_dies ok (files_of m f) g _ coming after b G P O before s [] [] a R0 Fc); [now left|]. rewrite Er. now apply peer_files.
  - rewrite (Same c' Rn') in *. apply in_split in Ia as (before & after & Ec). rewrite Ec in Fc. apply workers_some in Sw.
    apply (request_dies ok (files_of m f) g _ coming after b G P Sw O before s [] [] a R0 Fq Fi Fc); [|exact W]. rewrite Er. unfold let_in_by. now apply files_allowed.
Qed.
Lemma scarce_undefined ok m f args routes coming : Forall proper coming ->
  ((exists sched u, program_scarce ok m f args routes coming sched = Some (UB u)) <->
   (exists sched u, program_run m f args routes coming sched = Some (UB u)) \/ exists b, program_wants m f args coming b /\ ok b = false).
Proof.
  intros P. split.
  - intros (sched & u & H). unfold program_scarce in H. destruct (start_either ok m f args routes coming) as [((c & b & G & W & O) & _)|(_ & E)].
    { right. exists b. split; [eapply pw_start; eauto|exact O]. }
    rewrite E in H. pose proof (start_inv m f args routes coming) as S. unfold program_run.
    destruct (program_start m f args routes coming) as [[[g s]|]|u0] eqn:E0; [|discriminate|left; exists [], u0; reflexivity].
    destruct S as (c & rules & Rn & El & -> & ->). destruct (prun_s ok _ _ sched) as [[s'|u1]|] eqn:Er; try discriminate.
    destruct (run_blame ok (files_of m f) (mkSettings c rules routes) (workers_started m) coming sched u1 (started_good f args c rules routes (proj1 Rn) El) P _ [] [] (reached_start m f (mkSettings c rules routes) coming) Er) as [(u' & X)|B].
    + left. exists sched, u'. cbn [st_config] in X. rewrite X. reflexivity.
    + right. destruct B as [(before & a & after & b & Ec & W & O)|(a & b & N & Ia & A & W & O)]; exists b; (split; [|exact O]).
      * eapply pw_peer; [exact Rn|exact Ec|]. now apply peer_files in W.
      * eapply pw_request; [exact Rn|now apply workers_some|exact Ia| |exact W]. unfold let_in_by in *. now apply files_allowed in A.
  - intros [(sched & u & H)|(b & W & O)].
    { exists sched. destruct (scarce_same ok m f args routes coming sched) as [X|X]; [exact X|]. exists u. now rewrite X. }
    unfold program_scarce. destruct (start_either ok m f args routes coming) as [(_ & (u & ->))|(B & E)]; [exists [], u; reflexivity|]. rewrite E.
    pose proof (start_inv m f args routes coming) as S. destruct (program_start m f args routes coming) as [[[g s]|]|u0] eqn:E0.
    + destruct S as (c & rules & Rn & El & -> & ->). set (g := mkSettings c rules routes) in *.
      assert (D : dies ok g (first_state m f (cf_root c) coming)).
      { apply (start_dies ok m f args routes coming c rules b P Rn El); auto. intros c' b' Gt W'. destruct (B c' b' Gt W') as [X|X]; [exact X|now apply ok_defined in X]. }
      destruct D as (sched & u & D). exists sched, u. rewrite D. reflexivity.
    + exfalso. destruct S as [_ Nr]. destruct W as [c b Gt W|c before a after b Rn _ _|c a b Rn _ _ _ _]; [|now apply Nr in Rn..].
      destruct (B c b Gt W) as [X|X]; [congruence|now apply ok_defined in X].
    + exists [], u0. reflexivity.
Qed.
Lemma scarce_given ok m f args routes coming sched : (forall b, ok b = true) -> program_scarce ok m f args routes coming sched = program_run m f args routes coming sched.
Proof.
  intros O. unfold program_scarce, program_run. destruct (start_either ok m f args routes coming) as [((c & b & _ & _ & X) & _)|(_ & ->)]; [rewrite O in X; discriminate|].
  destruct (program_start m f args routes coming) as [[[g s]|]|u]; try reflexivity.
  assert (St : forall s w, pstep_s ok g s w = pstep g s w).
  { intros s0 w. destruct w as [|k]; cbn [pstep_s pstep].
    - unfold accept_next_s, accept_next, held, admitted_peer. destruct (p_coming s0) as [|a rest]; [reflexivity|]. rewrite !O. cbn [bind]. f_equal. destruct (fits 16 _) as [ip|]; [|reflexivity]. cbn [bind].
      assert (E : allowed_address_s ok (length rest) (w_fs (p_pool s0)) (p_lists s0) ip = allowed_address (w_fs (p_pool s0)) (p_lists s0) ip).
      { unfold allowed_address_s, allowed_address. destruct (ip_paths (p_lists s0)) as [g'|]; [|reflexivity]. cbn [bind].
        assert (Fi : forall b b' p, find_in_file_s ok b b' (w_fs (p_pool s0)) p ip = find_in_file (w_fs (p_pool s0)) p ip).
        { intros b b' p. unfold find_in_file_s, held. rewrite !O. cbn [bind]. unfold find_in_file. destruct (is_file _ p); [|reflexivity]. now destruct (w_fs (p_pool s0) p) as [[[|c l]|]|]. }
        now rewrite !Fi. }
      rewrite E. destruct (allowed_address _ _ ip) as [[[|] ls]|]; [|reflexivity..]. cbn [bind negb]. now destruct (_ =? _).
    - destruct (wstep (p_pool s0) k) as [o|]; [|reflexivity]. assert (T : thread_use ok (p_pool s0) k = Ok tt).
      { unfold thread_use. destruct (nth_error _ k) as [st|]; [|reflexivity]. destruct st; cbn [table_use]; unfold held; rewrite ?O; reflexivity. }
      now rewrite T. }
  assert (Rn : forall sched s, prun_s ok g s sched = prun g s sched).
  { intros sc. induction sc as [|w l IH]; intros s0; cbn [prun_s prun]; [reflexivity|]. rewrite St. destruct (pstep g s0 w) as [[s1|]|]; auto. }
  now rewrite Rn.
Qed.
Lemma start_undefined ok m f args :
  undefined (main_run_s ok m f args) <->
  undefined (main_run m f args) \/ exists c b, gets_to_tables m f args c /\ start_wants f (cf_root c) b /\ ok b = false.
Proof.
  destruct (main_either ok m f args) as [(B & U)|(B & E)].
  - split; [intros _; right; exact B|intros _; exact U].
  - rewrite E. split; [now left|]. intros [U|(c & b & G & W & O)]; [exact U|]. destruct (B c b G W) as [X|X]; [congruence|exact X].
Qed.

(** ** One step of a worker *)
Lemma unlisted_eq rules path : no_nul path -> Forall (fun r => no_nul (l_path r)) rules ->
  (rule_for rules path /\ undefined (validate_unlisted rules path)) \/ (~ rule_for rules path /\ validate_unlisted rules path = Ok tt).
Proof.
  intros N F. induction F as [|r rs Nr F IH]; cbn [validate_unlisted].
  { right. split; [|reflexivity]. intros (bf & r & af & E & _). destruct bf; discriminate. }
  destruct (l_path r) as [|c l] eqn:El.
  { right. split; [|reflexivity]. intros (bf & r' & af & E & A & _). destruct bf as [|x bf]; injection E as -> E; cbn [app] in A; inversion A; contradiction. }
  destruct (startswith_eq path [] (c :: l) N Nr) as (b & Eb & Hb). rewrite app_nil_r in Eb. rewrite Eb. cbn [bind]. destruct b.
  - left. split; [|apply ub_undefined]. exists [], r, rs. split; [reflexivity|]. split; [constructor; [rewrite El; discriminate|constructor]|]. rewrite El. now apply Hb.
  - destruct IH as [((bf & r' & af & -> & A & P) & U)|(Nx & E)].
    + left. split; [|exact U]. exists (r :: bf), r', af. split; [reflexivity|]. split; [constructor; [rewrite El; discriminate|exact A]|exact P].
    + right. split; [|exact E]. intros (bf & r' & af & E' & A & P). destruct bf as [|x bf]; injection E' as -> E'.
      * rewrite El in P. apply Hb in P. discriminate.
      * apply Nx. exists bf, r', af. cbn [app] in A. inversion A. auto.
Qed.
Lemma step_undefined ok g s k st s' : nth_error (w_threads (p_pool s)) k = Some st -> plain_step st -> pstep g s (Worker k) = Some (Ok s') ->
  ((exists u, pstep_s ok g s (Worker k) = Some (UB u)) <-> exists b, step_wants st b /\ ok b = false).
Proof.
  intros N P E. cbn [pstep_s pstep] in *. destruct (wstep (p_pool s) k) as [o|]; [|discriminate]. destruct o as [p|u]; cbn [bind] in *; [|discriminate]. clear E.
  assert (T : undefined (table_use ok st) <-> exists b, step_wants st b /\ ok b = false).
  { destruct st as [|q|q h|q h|q h i|q h|q h|q r r2]; cbn [table_use step_wants plain_step] in *; unfold held.
    all: try (split; [intros (u & X); discriminate|intros (b & [] & _)]).
    1: destruct P as [P1 P2]; destruct (unlisted_eq _ _ P1 P2) as [(Rf & (u & U))|(Rf & U)].
    all: try destruct (ok BLimits) eqn:O1; try destruct (ok BLive) eqn:O2; cbn [bind]; rewrite ?U.
    all: split; [intros (u' & X)|intros (b & W & X)]; try discriminate; try (eexists; reflexivity); try (destruct W as [->|(-> & W)]; congruence || contradiction); try (subst b; congruence); eauto 6. }
  unfold thread_use. rewrite N. destruct (table_use ok st) as [[]|u] eqn:Et; cbn [bind].
  - rewrite <- T. split; [intros (u & X); discriminate|intros (u & X); discriminate].
  - split; [|eauto]. intros _. apply T. apply ub_undefined.
Qed.

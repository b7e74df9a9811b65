(** Properties_Main.v - C67, C68, C69: the logger, the access log and the command line
    (/repo/log.c, /repo/wayuu_log.c, /repo/main.c). *)
From Verif Require Import HttpUtils LogMain FileUtils WsConn Lemmas HttpUtils_proofs WsConn_proofs LogMain_proofs SpecJson SpecHttp SpecConn SpecMain Spec.

(** C67.  For every history of level changes and messages, exactly those at or above the level
    then in force are written, in order, to the log file (stderr if there is none), until a fatal
    one is written, which ends the process. *)
Theorem C67_history : forall calls thr o b f o0,
  written thr calls o b -> Forall proper calls -> f <> LogClosed ->
  exists s, log_run (mkLog thr f o0 false) calls = Ok s /\ lg_exited s = b
    /\ lg_out s = o0 ++ map (fun m => (fst m, snd m, match f with LogNull => LogStderr | _ => f end)) o.
Proof.
  intros calls thr o b f o0 H Hp Hf. destruct (log_history calls thr o b H Hp f o0 Hf) as (s & E & Ho & Hb). eauto.
Qed.
Print Assumptions C67_history.
(** Every history has exactly one such outcome. *)
Theorem C67_determined : forall calls thr, exists o b, written thr calls o b
  /\ forall o' b', written thr calls o' b' -> o' = o /\ b' = b.
Proof.
  intros calls thr. destruct (written_exists calls thr) as (o & b & H). exists o, b. split; [exact H|].
  exact (written_unique _ _ _ _ H).
Qed.
Print Assumptions C67_determined.
(** log_level_is_enabled tells whether the next message would be written. *)
Theorem C67_is_enabled : forall s level text, 0 <= level <= 5 -> lg_file s <> LogClosed ->
  exists s', logger s level text = Ok s' /\ (log_level_is_enabled s level = true <-> lg_out s' <> lg_out s)
    /\ (lg_out s' <> lg_out s -> map fst (lg_out s') = map fst (lg_out s) ++ [(level, text)]).
Proof.
  intros s level text H Hf. unfold log_level_is_enabled. destruct (Z_lt_dec level (lg_level s)).
  - exists s. rewrite logger_quiet by auto. split; [reflexivity|]. split; [|congruence].
    split; [lia|congruence].
  - rewrite logger_writes by (auto; lia). eexists. split; [reflexivity|]. cbn [lg_out].
    assert (N : lg_out s ++ [(level, text, dest (lg_file s))] <> lg_out s).
    { intros E. apply (f_equal (@length _)) in E. rewrite app_length in E. cbn in E. lia. }
    split; [split; [auto|lia]|]. intros _. now rewrite map_app.
Qed.
Print Assumptions C67_is_enabled.
(** A level above fatal reads past the names. *)
Theorem C67_unknown_level : forall s level text, 5 < level -> lg_level s <= level -> undefined (logger s level text).
Proof.
  intros s level text H Hl. exists OobRead. unfold logger. replace (level <? lg_level s) with false by lia.
  now replace ((level <? 0) || (5 <? level)) with true by lia.
Qed.
Print Assumptions C67_unknown_level.
(** After closing the log, the next message that passes the level uses the closed stream, and so
    does closing it again; closing it before any message or file hands fclose a null pointer. *)
Theorem C67_closed : forall s s', log_close_file s = Ok s' ->
  undefined (log_close_file s')
  /\ (forall level text, 0 <= level <= 5 -> lg_level s <= level -> undefined (logger s' level text))
  /\ (forall level text, level < lg_level s -> logger s' level text = Ok s').
Proof.
  intros s s' H. unfold log_close_file in H.
  assert (E : s' = mkLog (lg_level s) LogClosed (lg_out s) (lg_exited s)) by (destruct (lg_file s); congruence).
  subst s'. split; [now exists UseAfterFree|]. split; intros level text.
  - intros H5 Hl. exists UseAfterFree. unfold logger. cbn [lg_level lg_file]. replace (level <? lg_level s) with false by lia.
    now replace ((level <? 0) || (5 <? level)) with false by lia.
  - intros Hl. now apply logger_quiet.
Qed.
Print Assumptions C67_closed.
Theorem C67_close_unopened : undefined (log_close_file log_init).
Proof. now exists NullDeref. Qed.
Print Assumptions C67_close_unopened.
Example C67_case :
  log_run log_init [Say 1 (L "a"); Say 3 (L "b"); SetLevel 1; Say 1 (L "c"); Say 0 (L "d"); SetLevel 4; Say 3 (L "e"); Say 5 (L "f"); Say 5 (L "g")]
  = Ok (mkLog 4 LogStderr [(3, L "b", LogStderr); (1, L "c", LogStderr); (5, L "f", LogStderr)] true).
Proof. reflexivity. Qed.

(** C68. *)
Theorem C68_entry : forall r hl status referer agent ds dl,
  has_headers r hl -> lookup hl (L "Referer") referer -> lookup hl (L "User-Agent") agent ->
  decimal ds status -> decimal dl (r_response_length r) -> 0 <= status -> 0 <= r_response_length r ->
  exists r' e, log_access r status = Ok r' /\ same_request r r' /\ r_sent r' = r_sent r
    /\ r_response_length r' = r_response_length r /\ r_log r' = r_log r ++ [e]
    /\ forall ts rt, access_line ts rt e = combined (r_ip r) ts (r_request_line r) ds dl referer agent rt.
Proof.
  intros r hl status referer agent ds dl H Hr Ha Hs Hl H0 H0'.
  destruct (log_access_eq r hl status H) as (rf & ua & Hrf & Hua & E).
  rewrite (lookup_unique _ _ _ _ Hrf Hr) in E. rewrite (lookup_unique _ _ _ _ Hua Ha) in E.
  eexists _, _. split; [exact E|]. split; [repeat split|]. split; [reflexivity|]. split; [reflexivity|]. split; [reflexivity|].
  intros ts rt. unfold access_line, combined, quoted. cbn [e_ip e_line e_status e_length e_referer e_agent spaced].
  unfold dec. replace (status <? 0) with false by lia.
  rewrite (decimal_unique ds (dec_nat status) status) by (auto using dec_nat_decimal).
  rewrite (decimal_unique dl (dec_nat (r_response_length r)) (r_response_length r)) by (auto using dec_nat_decimal).
  change (L " - - [") with (L " " ++ L "-" ++ L " " ++ L "-" ++ L " " ++ L "[").
  change (L "] ") with (L "]" ++ L " "). now rewrite <- !app_assoc.
Qed.
Print Assumptions C68_entry.
(** A line does not determine its fields: quotes in the client's headers are written as they
    are, so a client chooses what the line seems to say. *)
Theorem C68_fields_recoverable_refuted : exists ip ts l1 s n l2 rf1 ua1 rf2 ua2 rt,
  combined ip ts l1 s n rf1 ua1 rt = combined ip ts l2 s n rf2 ua2 rt /\ rf1 <> rf2 /\ ua1 <> ua2 /\ l1 = l2.
Proof.
  exists (L "10.0.0.1"), (L "t"), (L "GET / HTTP/1.1"), (L "200"), (L "5"), (L "GET / HTTP/1.1").
  exists (L "a" ++ [DQ] ++ L " " ++ [DQ] ++ L "b"), (L "c"), (L "a"), (L "b" ++ [DQ] ++ L " " ++ [DQ] ++ L "c"), (L "0.001").
  split; [reflexivity|]. split; [discriminate|]. split; [discriminate|reflexivity].
Qed.
Print Assumptions C68_fields_recoverable_refuted.
Example C68_case : access_line (L "T") (L "0.002") (mkEntry (L "10.0.0.1") (L "GET / HTTP/1.1") 404 17 (L "r") (L "curl"))
  = combined (L "10.0.0.1") (L "T") (L "GET / HTTP/1.1") (L "404") (L "17") (L "r") (L "curl") (L "0.002").
Proof. reflexivity. Qed.

(** C69.  Whatever the items and their order. *)
Theorem C69_options : forall f l b r p,
  Forall well_formed l -> Forall (acceptable (fun d => is_dir f d = true)) l ->
  last_of bind_of (L "127.0.0.1") l b -> last_of root_of (L "/etc/wayuu") l r -> last_of port_of (L "4443") l p ->
  exists c, main_options f (flat_map words l) = Ok (Launch c)
    /\ cf_bind c = b /\ cf_root c = r /\ (forall n, int_at p n -> cf_port c = n /\ bound_port c = n mod 65536)
    /\ cf_static_root c = L "/etc/wayuu/www" /\ cf_index c = L "/index.html" /\ cf_favicon c = L "/favicon.ico"
    /\ (cf_ssl c = false <-> In Plain l) /\ (In Debug l -> cf_level c = 1) /\ (~ In Debug l -> cf_level c = 2).
Proof.
  intros f l b r p W A Hb Hr Hp. exists (conf_after default_config l). split.
  { unfold main_options. rewrite <- (app_nil_r (flat_map words l)), getopt_items by auto. now rewrite main_items. }
  unfold conf_after, bound_port. cbn [cf_port cf_bind cf_root cf_static_root cf_index cf_favicon cf_ssl cf_level default_config].
  change (L "/etc/wayuu" ++ L "/" ++ L "www") with (L "/etc/wayuu/www").
  rewrite (lastv_of _ _ _ _ Hb), (lastv_of _ _ _ _ Hr), (last_port _ _ Hp).
  change LOG_INFO with 2. destruct (debug_level l) as [D1 D2]. destruct (plain_ssl l) as [P1 P2].
  split; [auto|]. split; [auto|]. split; [intros n Hn; now rewrite (atoi_int _ _ Hn)|].
  split; [reflexivity|]. split; [reflexivity|]. split; [reflexivity|]. split; [|auto].
  split; [|auto]. intros E. destruct (in_dec (fun i j : item => ltac:(decide equality; try apply list_eq_dec; try apply ascii_dec; apply bool_dec)) Plain l) as [I|N]; [exact I|].
  rewrite P2 in E by exact N. discriminate.
Qed.
Print Assumptions C69_options.
(** The static root, index and favicon never depend on the command line. *)
Theorem C69_static_root : forall f args c, main_options f args = Ok (Launch c) ->
  cf_static_root c = L "/etc/wayuu/www" /\ cf_index c = L "/index.html" /\ cf_favicon c = L "/favicon.ico".
Proof. intros f args c H. exact (main_launch_same f _ _ _ H). Qed.
Print Assumptions C69_static_root.
(** Over-long addresses and roots overrun their buffers. *)
Theorem C69_overrun : forall f l a j rest,
  Forall well_formed l -> Forall (acceptable (fun d => is_dir f d = true)) l ->
  (24 <= len a -> undefined (main_options f (flat_map words l ++ words (Bind a j) ++ rest)))
  /\ (256 <= len a -> undefined (main_options f (flat_map words l ++ words (Root a j) ++ rest))).
Proof.
  intros f l a j rest W A. unfold main_options. split; intros H; rewrite getopt_items, main_items by auto;
    (rewrite getopt_item by (destruct j; cbn [well_formed]; auto; intros ->; change (len []) with 0 in H; lia));
    cbn [opts_of app main_loop]; exists OobWrite; rewrite fits_oob; auto; unfold ROOT_PATH_MAX; lia.
Qed.
Print Assumptions C69_overrun.
(** -h and -v end the program successfully; an unknown letter or a root that is not a directory
    ends it with status 1; a final option without its value is ignored. *)
Theorem C69_exits : forall f l rest,
  Forall well_formed l -> Forall (acceptable (fun d => is_dir f d = true)) l ->
  main_options f (flat_map words l ++ L "-h" :: rest) = Ok (Exit 0)
  /\ main_options f (flat_map words l ++ L "-v" :: rest) = Ok (Exit 0)
  /\ (forall c, ~ In c (L "bprhdfv-") -> main_options f (flat_map words l ++ ["-"%char; c] :: rest) = Ok (Exit 1))
  /\ (forall a, len a <= 255 -> is_dir f a = false -> main_options f (flat_map words l ++ words (Root a false) ++ rest) = Ok (Exit 1))
  /\ (forall w, In w [L "-b"; L "-p"; L "-r"] ->
        main_options f (flat_map words l ++ [w]) = main_options f (flat_map words l)).
Proof.
  intros f l rest W A. unfold main_options.
  split; [|split; [|split; [|split]]].
  - rewrite getopt_items, main_items by auto. destruct rest; reflexivity.
  - rewrite getopt_items, main_items by auto. destruct rest; reflexivity.
  - intros c Hc. rewrite getopt_items, main_items by auto.
    assert (N : forall x, In x (L "bprhdfv-") -> ceq c x = false) by (intros x Hx; apply ceq_neq; intros ->; auto).
    assert (E : forall n, opt_letters [c] n = ([OptUnknown c], false)).
    { intros n. cbn [opt_letters]. now rewrite !N by (cbn; tauto). }
    cbn [getopt ceq]. change (ceq "-" "-") with true. cbn iota.
    replace (str_eqb [c] (L "-")) with false.
    2:{ symmetry. apply str_eqb_neq. intros X. inv X. apply Hc. cbn; tauto. }
    destruct rest; rewrite E; reflexivity.
  - intros a Ha D. rewrite getopt_items, main_items by auto. rewrite getopt_item by exact I.
    cbn [opts_of app main_loop]. rewrite fits_ok by (unfold ROOT_PATH_MAX; lia). cbn [bind]. now rewrite D.
  - intros w Hw. rewrite getopt_items, main_items by auto.
    rewrite <- (app_nil_r (flat_map words l)). rewrite getopt_items, main_items by auto.
    destruct Hw as [<-|[<-|[<-|[]]]]; reflexivity.
Qed.
Print Assumptions C69_exits.
(** The port bound is the number modulo 65536, so -p 70000 listens on 4464; the default address
    is 127.0.0.1, not the 0.0.0.0 of the usage text. *)
Example C69_case : forall f,
  main_options f [L "-p"; L "70000"; L "-f"; L "-b10.0.0.1"; L "x"; L "-df"]
    = Ok (Launch (mkConfig 70000 (L "10.0.0.1") (L "/etc/wayuu") (L "/etc/wayuu/www") (L "/index.html") (L "/favicon.ico") false 1))
  /\ bound_port (mkConfig 70000 (L "10.0.0.1") (L "/etc/wayuu") (L "/etc/wayuu/www") (L "/index.html") (L "/favicon.ico") false 1) = 4464.
Proof. intros f. split; reflexivity. Qed.

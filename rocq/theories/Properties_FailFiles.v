(** Properties_FailFiles.v - C113: files that do not open, or of which only a part is read or written
    (/repo/file_utils.c, /repo/ws.c, /repo/http_utils.c, /repo/conf_parser.c). *)
From Verif Require Import Lemmas FileUtils ConfParser HttpUtils WsConn FileUtils_proofs HttpUtils_proofs Safe_proofs FailFiles SpecFailFiles FailFiles_proofs SpecSafe SpecConn SpecHttp SpecConf Spec.

(** C113.  Checking an address, however the two lists are read: when it is undefined, and whom it lets in. *)
Theorem C113_check : forall od oa f root d0 ip,
  (undefined (allowed_address_e od oa f (mkIpconf root [] d0) ip) <-> check_undefined od oa f root ip)
  /\ forall b g, allowed_address_e od oa f (mkIpconf root [] d0) ip = Ok (b, g) ->
       (b = true <-> let_in od oa f root ip) /\ g = mkIpconf root (allow root) (deny root).
Proof.
  intros. destruct (check_cases od oa f root d0 ip) as [(U & u & ->)|(U & b & -> & H)]; (split; [split|]).
  - auto.
  - intros _. now exists u.
  - discriminate.
  - intros (v & E). discriminate.
  - intros X. now elim U.
  - intros b' g E. injection E as <- <-. auto.
Qed.
Print Assumptions C113_check.
(** Later checks, with the names of the lists as the first one left them: the same, whatever the root is by then. *)
Theorem C113_check_later : forall od oa f root root' ip,
  let g := mkIpconf root' (allow root) (deny root) in
  (undefined (allowed_address_e od oa f g ip) <-> overflows od f (deny root) \/ (~ seen od f (deny root) ip /\ overflows oa f (allow root)))
  /\ forall b g', allowed_address_e od oa f g ip = Ok (b, g') -> (b = true <-> let_in od oa f root ip) /\ g' = g.
Proof.
  intros od oa f root root' ip g. unfold g, let_in. assert (A : allow root <> []) by (intros E; apply (f_equal (@length ascii)) in E; unfold allow in E; rewrite app_length in E; cbn in E; lia).
  destruct (check_later od oa f root' (allow root) (deny root) ip A) as [(U & u & ->)|(U & b & -> & H)]; (split; [split|]).
  - auto.
  - intros _. now exists u.
  - discriminate.
  - intros (v & E). discriminate.
  - intros X. now elim U.
  - intros b' g' E. injection E as <- <-. auto.
Qed.
Print Assumptions C113_check_later.
(** Lists that are read whole: the check is the one of C27. *)
Theorem C113_check_whole : forall od oa f root d0 ip, read_whole od f (deny root) -> read_whole oa f (allow root) ->
  allowed_address_e od oa f (mkIpconf root [] d0) ip = allowed_address f (mkIpconf root [] d0) ip.
Proof.
  intros od oa f root d0 ip D A. unfold allowed_address_e, allowed_address. destruct (Z.leb_spec (len root) 277) as [R|R].
  2:{ unfold ip_paths. cbn [ws_allow ws_root]. change (len [] =? 0) with true. cbv iota. unfold ROOT_PATH_MAX. rewrite fits_oob; [reflexivity|]. rewrite len_app. change (len (L "/etc/allow")) with 10. lia. }
  rewrite (ip_paths_first root [] d0 eq_refl R). cbn [bind ws_deny ws_allow]. fold (deny root). fold (allow root).
  rewrite (find_whole od f _ ip D), (find_whole oa f _ ip A). reflexivity.
Qed.
Print Assumptions C113_check_whole.
(** A failing allow list only keeps people out: who is let in then is in the list as it is on disk. *)
Theorem C113_allow_closed : forall od oa f root d0 ip g, allowed_address_e od oa f (mkIpconf root [] d0) ip = Ok (true, g) ->
  no_file f (allow root) \/ listed f (allow root) ip.
Proof.
  intros od oa f root d0 ip g E. destruct (proj2 (C113_check od oa f root d0 ip) true g E) as [H _]. destruct (proj1 H eq_refl) as [_ [N|S]]; [now left|].
  right. now apply seen_listed in S.
Qed.
Print Assumptions C113_allow_closed.
(** Who is in the deny list is kept out: refuted.  Anyone gets in who would with no deny list, if that
    list does not open, or if what was read of it does not show the address. *)
Theorem C113_denied_stays_out_refuted : forall oa f root d0 ip, ip <> [] -> len root <= 277 -> ~ overflows oa f (allow root) ->
  no_file f (allow root) \/ seen oa f (allow root) ip ->
  exists g, allowed_address_e None oa f (mkIpconf root [] d0) ip = Ok (true, g)
   /\ forall n, small f (deny root) -> ~ seen (Some n) f (deny root) ip -> allowed_address_e (Some n) oa f (mkIpconf root [] d0) ip = Ok (true, g).
Proof.
  intros oa f root d0 ip I R O A.
  assert (K : forall od, ~ overflows od f (deny root) -> ~ seen od f (deny root) ip -> allowed_address_e od oa f (mkIpconf root [] d0) ip = Ok (true, mkIpconf root (allow root) (deny root))).
  { intros od Od N. destruct (check_cases od oa f root d0 ip) as [(U & _)|(_ & b & -> & H)].
    - destruct U as [U|[U|[_ U]]]; [lia|now elim Od|now elim O].
    - rewrite (proj2 H); [reflexivity|]. now split. }
  eexists. split; [apply K|].
  - intros [N _]. now apply N.
  - now apply seen_none.
  - intros n S N. apply K; [|exact N]. intros [_ (c & E & G)]. specialize (S c E). lia.
Qed.
Print Assumptions C113_denied_stays_out_refuted.

(** A page of which [n] bytes are read: answered with 200 and the full length, the rest of the body is NUL
    bytes; one that does not open: 200 and no body. *)
Theorem C113_page : forall f r hl name content sess, has_headers r hl -> f name = Some (File content) -> cstr (r_session r) = Ok sess -> len sess <= 493 ->
  len content <= 2 ^ 31 - 2048 ->
  let head := ok_start ++ ok_start ++ get_content_type name ++ flat_map (fun h => h ++ CRLF) (session_lines sess) ++ CRLF in
  (forall n, exists r' body, direct_file_e (Some n) f r name = Ok (0, r') /\ body_of n content body /\ answered r r' hl 200 (head ++ body) (len (head ++ content)))
  /\ exists r', direct_file_e None f r name = Ok (0, r') /\ answered r r' hl 200 head (len head).
Proof.
  intros f r hl name content sess Hh Hf Hs Hl Hc head. pose proof (header_sends_len name sess Hl). split.
  - intros n. destruct (page_read n f r hl name content sess) as (r' & E & A); auto; [lia|]. exists r', (fetched n content). split; [exact E|]. split; [apply fetched_body|].
    cbv zeta in A. apply by_answered in A. rewrite concat_app, header_sends_eq in A. cbn [concat] in A. rewrite app_nil_r in A. fold head in A.
    rewrite len_app, fetched_len, <- len_app in A. exact A.
  - destruct (page_closed f r hl name content sess) as (r' & E & A); auto. exists r'. split; [exact E|]. apply by_answered in A. rewrite header_sends_eq in A. exact A.
Qed.
Print Assumptions C113_page.

(** Writing a file, for every answer of the system: nothing but that file changes; what it holds afterwards,
    and the messages written. *)
Theorem C113_write : forall w f name data rest, is_dir f name = false -> (exists s r, no_nul s /\ map Some data ++ rest = cs s ++ r) ->
  exists f' errors, write_file_e w f name (map Some data ++ rest) 0 (len data) = Ok (f', errors) /\ (forall q, q <> name -> f' q = f q)
   /\ (w_opens w = true -> f' name = Some (File (firstn (w_taken w) data)) /\ errors = [])
   /\ (w_opens w = false -> errors = [L "There was an error opening file: " ++ name]
        /\ (w_removes w = true -> f' name = None) /\ (w_removes w = false -> f' name = f name)).
Proof.
  intros w f name data rest Hd Hs. rewrite (write_e_eq w f name data rest Hd Hs). destruct (w_opens w); do 2 eexists; (split; [reflexivity|]).
  - split; [intros q N; now apply upd_other|]. split; [|discriminate]. intros _. split; [apply upd_same|reflexivity].
  - split; [intros q N; destruct (_ && _); [now apply upd_other|reflexivity]|]. split; [discriminate|]. intros _. split; [reflexivity|].
    unfold is_file, is_dir in *. destruct (w_removes w); (split; [try discriminate|try discriminate]); intros _.
    + destruct (f name) as [[c|]|] eqn:F; cbn [andb]; [apply upd_same|discriminate|exact F].
    + now rewrite andb_false_r.
Qed.
Print Assumptions C113_write.
(** A directory in the file's place stays, with a message, whatever the other answers. *)
Theorem C113_directory : forall w f name s rest off size, is_dir f name = true -> no_nul s -> 0 <= off <= len s ->
  write_file_e w f name (cs s ++ rest) off size = Ok (f, [L "There was an error opening file: " ++ name]).
Proof.
  intros w f name s rest off size D N O. unfold write_file_e.
  assert (E : exists n, strlen (from (cs s ++ rest) off) = Ok n).
  { rewrite <- (firstn_skipn (Z.to_nat off) s), cs_app, <- app_assoc. rewrite from_app by (rewrite len_map, len_firstn; lia).
    eexists. apply strlen_cs. now apply no_nul_skipn. }
  destruct E as (n & ->). cbn [bind]. rewrite D. cbn [orb]. unfold is_file, is_dir in *. destruct (f name) as [[c|]|]; try discriminate. reflexivity.
Qed.
Print Assumptions C113_directory.
(** A page read whole and data written whole: the functions of C33 and C25. *)
Theorem C113_whole : forall o w f r name ptr off size,
  (read_whole o f name -> direct_file_e o f r name = direct_file f r name)
  /\ (w_opens w = true -> size <= Z.of_nat (w_taken w) -> is_dir f name = false ->
      write_file_e w f name ptr off size = bind (write_file f name ptr off size) (fun f' => Ok (f', []))).
Proof.
  intros o w f r name ptr off size. split.
  - intros (n & -> & H). unfold direct_file_e, direct_file, is_file, return_file_e, return_file. destruct (f name) as [[c|]|] eqn:E; auto.
    rewrite fetched_all; [reflexivity|]. specialize (H c eq_refl). unfold len in H. lia.
  - intros W T D. unfold write_file_e, write_file. rewrite W, D. cbn [orb negb]. destruct (strlen (from ptr off)); [|reflexivity]. cbn [bind].
    destruct (slice ptr off size) as [l|] eqn:E; [|reflexivity]. cbn [bind]. destruct (defined_bytes l) as [data|] eqn:F; [|reflexivity]. cbn [bind].
    assert (G : (length data <= w_taken w)%nat) .
    { apply defined_bytes_inv in F. unfold slice in E. destruct (Z.ltb_spec size 0); [discriminate|]. destruct (_ && _); [|discriminate]. injection E as E.
      rewrite <- (map_length (@Some ascii)), <- F, <- E, firstn_length. lia. }
    rewrite firstn_all2 by exact G. pose proof (len_nonneg _ data). destruct (Z.ltb_spec (len data) 0); [lia|reflexivity].
Qed.
Print Assumptions C113_whole.
(** A file that could not be replaced keeps what it held: refuted, for every file.  It is removed before the
    new one is opened. *)
Theorem C113_old_kept_refuted : forall f name old data rest, f name = Some (File old) -> (exists s r, no_nul s /\ map Some data ++ rest = cs s ++ r) ->
  exists f' errors, write_file_e (mkWriting true false 0) f name (map Some data ++ rest) 0 (len data) = Ok (f', errors) /\ f' name = None.
Proof.
  intros f name old data rest F S. destruct (C113_write (mkWriting true false 0) f name data rest) as (f' & e & E & _ & _ & H); [unfold is_dir; now rewrite F|exact S|].
  exists f', e. split; [exact E|]. now apply H.
Qed.
Print Assumptions C113_old_kept_refuted.
(** Bytes that are not written are reported: refuted, for both ways of writing. *)
Theorem C113_loss_told_refuted : forall f name data rest k items,
  is_dir f name = false -> (exists s r, no_nul s /\ map Some data ++ rest = cs s ++ r) -> Forall good_item items ->
  (exists f', write_file_e (mkWriting true true k) f name (map Some data ++ rest) 0 (len data) = Ok (f', []) /\ f' name = Some (File (firstn k data)))
  /\ exists f', write_conf_e (mkWriting true true k) f (mkSer name items) = Ok (0, f')
      /\ f' name = Some (File (firstn k (flat_map (fun it => line_text it ++ [LF]) items))).
Proof.
  intros f name data rest k items D S G. split.
  - rewrite write_e_eq by auto. cbn [w_opens w_taken]. eexists. split; [reflexivity|apply upd_same].
  - unfold write_conf_e. cbn [ser_path ser_items w_opens w_taken]. rewrite D, conf_lines_eq by auto. cbn [orb negb bind]. eexists. split; [reflexivity|apply upd_same].
Qed.
Print Assumptions C113_loss_told_refuted.
(** A configuration file that does not open is left as it was, and the caller is told; the path must leave room
    for the error text.  With all bytes taken it is the write of C22. *)
Theorem C113_conf : forall w f path items,
  (w_opens w = false -> (len path <= 87 -> write_conf_e w f (mkSer path items) = Ok (-1, f)) /\ (88 <= len path -> undefined (write_conf_e w f (mkSer path items))))
  /\ (w_opens w = true -> Forall good_item items -> len (flat_map (fun it => line_text it ++ [LF]) items) <= Z.of_nat (w_taken w) ->
      write_conf_e w f (mkSer path items) = write_conf f (mkSer path items)).
Proof.
  intros w f path items. unfold write_conf_e. cbn [ser_path ser_items]. split; intros ->; cbn [negb].
  - rewrite orb_true_r.
    assert (E : len (L "Unable to open file " ++ path ++ L " for writing") = 32 + len path)
      by (rewrite !len_app; change (len (L "Unable to open file ")) with 20; change (len (L " for writing")) with 12; lia).
    split; intros Hp; [rewrite fits_ok by lia; reflexivity|rewrite fits_oob by lia; eexists; reflexivity].
  - intros G T. rewrite orb_false_r. destruct (is_dir f path) eqn:D; [unfold write_conf; cbn [ser_path]; now rewrite D|].
    rewrite write_conf_eq, conf_lines_eq by auto. cbn [bind]. rewrite firstn_all2; [reflexivity|]. unfold len in T. lia.
Qed.
Print Assumptions C113_conf.

(** Reading a configuration of which [k] lines can be read: as if the file had only those lines.  One that does
    not open: as if there were none. *)
Theorem C113_parse : forall f path flags content ls, f path = Some (File content) -> lines 511 content ls ->
  (forall k, parse_e (Some k) f path flags = parse (upd f path (Some (File (concat (firstn k ls))))) path flags)
  /\ (forall k, len ls <= Z.of_nat k -> parse_e (Some k) f path flags = parse f path flags)
  /\ parse_e None f path flags = parse (upd f path None) path flags.
Proof.
  intros f path flags content ls F Hl. assert (K : forall k, parse_e (Some k) f path flags = parse (upd f path (Some (File (concat (firstn k ls))))) path flags).
  { intros k. unfold parse_e, parse. rewrite F, upd_same. now apply parse_cut. }
  split; [exact K|]. split.
  - intros k H. rewrite K. unfold parse. rewrite upd_same, F, firstn_all2 by (unfold len in H; lia). now rewrite (lines_concat _ _ _ Hl).
  - unfold parse_e, parse. rewrite upd_same. reflexivity.
Qed.
Print Assumptions C113_parse.
(** A path that is no regular file is dealt with as in C103, unless it is a directory that does not open. *)
Theorem C113_parse_no_file : forall o f path flags root, no_file f path ->
  (o <> None \/ f path = None -> parse_e o f path flags = parse f path flags)
  /\ (f path = Some Dir -> parse_e None f path flags = parse (upd f path None) path flags)
  /\ (no_file f (root ++ L "/etc/limits") -> load_limits_e o f root = load_limits f root).
Proof.
  intros o f path flags root N. split; [|split].
  - intros H. unfold parse_e, parse. destruct (f path) as [[c|]|] eqn:E; [now elim (N c)| |destruct o; reflexivity].
    destruct o; [reflexivity|]. destruct H; [now elim H|discriminate].
  - intros E. unfold parse_e, parse. now rewrite upd_same.
  - intros M. unfold load_limits_e, load_limits. set (p := root ++ L "/etc/limits") in *. destruct (fits _ p) as [x|] eqn:E; [|reflexivity]. cbn [bind].
    unfold fits in E. destruct (_ <=? _); [|discriminate]. assert (x = p) as -> by congruence. destruct (f p) as [[c|]|] eqn:G; [now elim (M c)|reflexivity|reflexivity].
Qed.
Print Assumptions C113_parse_no_file.
(** An error while reading is reported: refuted, for every configuration whose first lines are good.  The result is
    0, whatever follows, and the items of those lines. *)
Theorem C113_read_error_told_refuted : forall f path flags content ls k out, f path = Some (File content) -> lines 511 content ls ->
  deliveries flags (firstn k ls) out -> Forall no_nul (firstn k ls) -> parse_e (Some k) f path flags = Ok (0, out).
Proof.
  intros f path flags content ls k out F Hl D N. rewrite (proj1 (C113_parse f path flags content ls F Hl)). unfold parse. rewrite upd_same.
  pose proof (lines_first _ _ _ Hl k) as Hk.
  assert (V : Forall2 visible (firstn k ls) (firstn k ls)) by (clear -N; induction N; constructor; auto; now apply visible_self).
  rewrite <- (app_nil_r (firstn k ls)) in Hk at 2.
  destruct (parse_loop_deliveries path flags _ _ out V D _ _ _ Hk (le_n _)) as (c' & fuel' & Lc & _ & ->).
  rewrite (parse_loop_end path flags c' fuel' Lc). cbn [bind]. now rewrite ?app_nil_r.
Qed.
Print Assumptions C113_read_error_told_refuted.
(** Limits that cannot be opened do not exist; limits of which a part is read are those of that part,
    which may end within a number. *)
Theorem C113_limits : forall f root,
  ((len root <= 276 -> load_limits_e None f root = Ok []) /\ (277 <= len root -> undefined (load_limits_e None f root)))
  /\ forall n content, f (root ++ L "/etc/limits") = Some (File content) ->
      load_limits_e (Some n) f root = load_limits (upd f (root ++ L "/etc/limits") (Some (File (firstn n content)))) root
      /\ (len content <= Z.of_nat n -> load_limits_e (Some n) f root = load_limits f root).
Proof.
  intros f root. assert (Z : len (root ++ L "/etc/limits") = len root + 11) by (rewrite len_app; reflexivity).
  unfold load_limits_e, load_limits, ROOT_PATH_MAX. destruct (Z.leb_spec (len root) 276) as [R|R].
  - rewrite fits_ok by lia. cbn [bind]. split.
    + split; [|lia]. intros _. destruct (f _) as [[c|]|]; reflexivity.
    + intros n content ->. rewrite upd_same. split; [reflexivity|]. intros H. rewrite firstn_all2; [reflexivity|]. unfold len in H. lia.
  - rewrite fits_oob by lia. cbn [bind]. split; [split; [lia|intros _; eexists; reflexivity]|]. auto.
Qed.
Print Assumptions C113_limits.

(** Concrete: two addresses in the deny list, one in the allow list, and a file written over another. *)
Definition lists (allowing : bool) : fs := fun p =>
  if str_eqb p (L "/srv/etc/deny") then Some (File (L "10.0.0.1" ++ [LF] ++ L "10.0.0.2" ++ [LF]))
  else if str_eqb p (L "/srv/etc/allow") then (if allowing then Some (File (L "10.0.0.3" ++ [LF])) else None) else None.
Definition checks (od oa : reading) (allowing : bool) : list (option bool) :=
  map (fun ip => match allowed_address_e od oa (lists allowing) (mkIpconf (L "/srv") [] []) ip with Ok (b, _) => Some b | UB _ => None end)
    [L "10.0.0.1"; L "10.0.0.2"; L "10.0.0.3"].
Definition written (w : writing) : option (option node * list str) :=
  match write_file_e w (lists false) (L "/srv/etc/deny") (cs (L "10.0.0.9")) 0 8 with Ok (f', e) => Some (f' (L "/srv/etc/deny"), e) | UB _ => None end.
Definition saved (w : writing) : option (Z * option node) :=
  match write_conf_e w (fun _ => None) (mkSer (L "c") [mkItem (L "a") (L "12") []]) with Ok (st, f') => Some (st, f' (L "c")) | UB _ => None end.
Definition paged (o : reading) : option (Z * option str * list Z) :=
  match direct_file_e o (fun _ => Some (File (L "abc"))) (mkReq 4 [] None [] [] [] [] [] [] [] (cs []) [] 0 [] []) (L "x.txt") with
  | Ok (st, r') => Some (st, last (map Some (r_sends r')) None, map e_status (r_log r')) | UB _ => None end.
Example C113_case :
  checks (Some 18%nat) (Some 9%nat) false = [Some false; Some false; Some true]
  /\ checks None (Some 9%nat) false = [Some true; Some true; Some true]
  /\ checks (Some 16%nat) (Some 9%nat) false = [Some false; Some true; Some true]
  /\ checks (Some 18%nat) None true = [Some false; Some false; Some false]
  /\ checks None (Some 9%nat) true = [Some false; Some false; Some true]
  /\ written (mkWriting true true 8) = Some (Some (File (L "10.0.0.9")), [])
  /\ written (mkWriting true true 7) = Some (Some (File (L "10.0.0.")), [])
  /\ written (mkWriting true false 8) = Some (None, [L "There was an error opening file: /srv/etc/deny"])
  /\ paged (Some 2%nat) = Some (0, Some (L "ab" ++ [NUL]), [200]) /\ paged None = Some (0, Some CRLF, [200])
  /\ saved (mkWriting true true 3) = Some (0, Some (File (L "a=1"))) /\ saved (mkWriting true false 9) = Some (-1, None).
Proof. vm_compute. repeat split. Qed.
Definition conf : fs := fun p => if str_eqb p (L "c") then Some (File (L "a=1" ++ [LF] ++ L "b=2" ++ [LF] ++ L "junk" ++ [LF]))
  else if str_eqb p (L "/srv/etc/limits") then Some (File (L "/api,20,12,30" ++ [LF])) else None.
Definition read_back (o : reading) : option (Z * list (str * str)) :=
  match parse_e o conf (L "c") [(L "a", false); (L "b", false)] with Ok (st, l) => Some (st, map (fun i => (key i, value i)) l) | UB _ => None end.
Example C113_read_back :
  read_back None = Some (-1, []) /\ read_back (Some 1%nat) = Some (0, [(L "a", L "1")])
  /\ read_back (Some 2%nat) = Some (0, [(L "a", L "1"); (L "b", L "2")])
  /\ read_back (Some 3%nat) = Some (-1, [(L "a", L "1"); (L "b", L "2")])
  /\ load_limits_e None conf (L "/srv") = Ok [] /\ load_limits_e (Some 14%nat) conf (L "/srv") = Ok [mkLimit (L "/api") 20 12 30]
  /\ load_limits_e (Some 9%nat) conf (L "/srv") = Ok [mkLimit (L "/api") 20 1 0] /\ load_limits_e (Some 7%nat) conf (L "/srv") = Ok [].
Proof. vm_compute. repeat split. Qed.

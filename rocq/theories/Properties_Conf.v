(** Properties_Conf.v - C18 to C24: configuration files (/repo/conf_parser.c). *)
From Verif Require Import Spec SpecConf StringUtils ConfParser ConfParser_proofs.

(** C18 *)
Theorem C18_key_value_line : forall K V k v,
  no_nul K -> no_nul V -> ~ In "="%char K -> ~ In "="%char V ->
  trimmed K k -> trimmed V v -> k <> [] ->
  conf_parse_line (K ++ L "=" ++ V) false = Ok (Some (mkItem k v [])).
Proof.
  intros. unfold conf_parse_line. change (L "=" ++ V) with ("="%char :: V).
  rewrite (first_pass_kv K V k v); auto. apply no_nul_app. split; auto. apply no_nul_cons. split; [discriminate|auto].
Qed.
Print Assumptions C18_key_value_line.
Theorem C18_no_item : forall line, no_nul line -> ~ In "="%char line ->
  conf_parse_line line false = Ok None.
Proof. intros. unfold conf_parse_line. now rewrite first_pass_none. Qed.
Print Assumptions C18_no_item.
Example C18_case :
  conf_parse_line (L "  port =	80 80" ++ [CR; LF]) false = Ok (Some (mkItem (L "port") (L "80 80") []))
  /\ conf_parse_line (L "# comment") false = Ok None.
Proof. split; vm_compute; reflexivity. Qed.

(** C19.  [T] is the line without its edge blanks and [ts] its pieces between runs of '='. *)
Theorem C19_any_line : forall line T ts, no_nul line -> In "="%char line ->
  trimmed line T -> tokens (L "=") T ts ->
  match ts with
  | [] => undefined (conf_parse_line line false)
  | k :: r => forall k' v, trimmed k k' -> trimmed (hd [] r) v ->
      conf_parse_line line false = Ok (Some (mkItem k' v []))
  end.
Proof.
  intros line T ts Hn Hi HT Ht. unfold conf_parse_line. destruct ts as [|k r].
  - rewrite (first_pass_empty line T) by auto. eexists. reflexivity.
  - intros k' v Hk Hv. now rewrite (first_pass_eq line T k r k' v).
Qed.
Print Assumptions C19_any_line.
(** The value is cut at a second '='; leading '=' are skipped. *)
Theorem C19_second_equals : forall k v w, good_key k -> good_value v -> v <> [] ->
  no_nul w -> no_blank_edges w ->
  conf_parse_line (k ++ L "=" ++ v ++ L "=" ++ w) false = Ok (Some (mkItem k v []))
  /\ conf_parse_line (L "=" ++ v) false = Ok (Some (mkItem v [] [])).
Proof.
  intros k v w (Hk & Ek & Nk & Ik) (Ev & Nv & Iv) Hv Nw Ew.
  assert (FK : Forall (fun c => ~ In c (L "=")) k) by (rewrite Forall_forall; intros c Hc [<-|[]]; auto).
  assert (FV : Forall (fun c => ~ In c (L "=")) v) by (rewrite Forall_forall; intros c Hc [<-|[]]; auto).
  assert (FE : Forall (fun c => In c (L "=")) (L "=")) by (repeat constructor).
  assert (NE : no_nul (L "=")) by (apply no_nul_dec_b; reflexivity).
  split.
  - destruct (tokens_exist (L "=") (L "=" ++ w)) as (tw & Htw).
    assert (HT : no_blank_edges (k ++ (L "=" ++ v) ++ (L "=" ++ w))).
    { apply no_blank_edges_split; auto; [discriminate|apply Ek|].
      intros r c E. destruct w as [|x w] using rev_ind.
      - change (L "=" ++ []) with ([] ++ ["="%char]) in E. apply app_inj_tail in E as [_ <-]. apply not_blank_eq.
      - rewrite app_assoc in E. apply app_inj_tail in E as [_ <-]. now eapply Ew. }
    rewrite <- app_assoc in HT.
    pose proof (C19_any_line (k ++ L "=" ++ v ++ L "=" ++ w) (k ++ L "=" ++ v ++ L "=" ++ w) (k :: v :: tw)) as X. cbn [hd] in X.
    apply X; [| |apply trimmed_self; exact HT| |now apply trimmed_self|now apply trimmed_self].
    + repeat (apply no_nul_app; split; auto).
    + rewrite !in_app_iff. right. left. now left.
    + apply (tokens_more _ [] k (L "=" ++ v ++ L "=" ++ w)); auto; [intros c r E; inv E; now left|].
      apply tokens_more; auto. intros c r E. inv E. now left.
  - assert (HT : no_blank_edges (L "=" ++ [] ++ v)).
    { apply no_blank_edges_split; auto; [discriminate| |apply Ev]. intros c r E. inv E. apply not_blank_eq. }
    pose proof (C19_any_line (L "=" ++ v) (L "=" ++ v) [v]) as X. cbn [hd] in X.
    apply X; [| |apply trimmed_self; exact HT| |now apply trimmed_self|apply trimmed_self, edges_nil].
    + repeat (apply no_nul_app; split; auto).
    + now left.
    + cbn [app]. rewrite <- (app_nil_r v) at 1. apply (tokens_more _ (L "=") v []); auto; [discriminate|].
      constructor. constructor.
Qed.
Print Assumptions C19_second_equals.
Theorem C19_undefined_lines :
  (forall l e r, Forall blank l -> Forall blank r -> e <> [] -> Forall (eq "="%char) e ->
     forall m, undefined (conf_parse_line (l ++ e ++ r) m))
  /\ (forall line, no_nul line -> ~ In "="%char line -> undefined (conf_parse_line line true)).
Proof.
  split.
  - intros l e r Hl Hr Hne He m.
    assert (Bl : forall x, Forall blank x -> no_nul x)
      by (intros x Hx; eapply Forall_impl; [|exact Hx]; apply blank_not_nul).
    assert (Ne : no_nul e) by (eapply Forall_impl; [|exact He]; intros c <-; discriminate).
    unfold conf_parse_line. rewrite (first_pass_empty (l ++ e ++ r) e); [eexists; reflexivity|..].
    + repeat (apply no_nul_app; split; auto).
    + destruct e as [|c e]; [easy|]. inv He. rewrite !in_app_iff. right. left. now left.
    + exists l, r. repeat split; auto.
      * intros c q ->. inv He. apply not_blank_eq.
      * intros q c ->. apply Forall_app in He as [_ He]. inv He. apply not_blank_eq.
    + constructor. eapply Forall_impl; [|exact He]. intros c <-. now left.
  - intros line Hn Hi. unfold conf_parse_line. rewrite first_pass_none by auto. eexists. reflexivity.
Qed.
Print Assumptions C19_undefined_lines.
Example C19_case :
  conf_parse_line (L "url = http://x?a=b ") false = Ok (Some (mkItem (L "url") (L "http://x?a") []))
  /\ conf_parse_line (L "==v") false = Ok (Some (mkItem (L "v") [] []))
  /\ undefined (conf_parse_line (L " === ") false) /\ undefined (conf_parse_line (L "x") true)
  /\ good_key (L "url") /\ good_value (L "http://x?a").
Proof.
  split; [vm_compute; reflexivity|]. split; [vm_compute; reflexivity|].
  split; [eexists; vm_compute; reflexivity|]. split; [eexists; vm_compute; reflexivity|].
  assert (B : forall s, forallb (fun c => negb (isspace c) && negb (ceq c "=") && negb (ceq c NUL)) s = true ->
              no_blank_edges s /\ no_nul s /\ ~ In "="%char s).
  { intros s H. rewrite forallb_forall in H. split; [split|split].
    - intros c r ->. specialize (H c (or_introl eq_refl)). apply isspace_not_blank. destruct (isspace c); auto; discriminate.
    - intros r c ->. specialize (H c). rewrite in_app_iff in H. specialize (H (or_intror (or_introl eq_refl))).
      apply isspace_not_blank. destruct (isspace c); auto; discriminate.
    - unfold no_nul. rewrite Forall_forall. intros c I ->. apply H in I. discriminate.
    - intros I. apply H in I. discriminate. }
  split; [|apply B; reflexivity]. split; [discriminate|]. apply B. reflexivity.
Qed.

(** C20.  The multi-valued parse of a line is its single-valued parse plus the trimmed
    pieces of the value between commas. *)
Theorem C20_multi_values : forall line it ts mv, no_nul line ->
  conf_parse_line line false = Ok (Some it) ->
  tokens (L ",") (value it) ts -> Forall2 trimmed ts mv ->
  (len ts <= 20 -> conf_parse_line line true = Ok (Some (mkItem (key it) (value it) mv)))
  /\ (21 <= len ts -> undefined (conf_parse_line line true)).
Proof.
  intros line it ts mv Hn Hp Ht Hm. unfold conf_parse_line in *.
  apply bind_ok_inv in Hp as (i0 & E & Hp). inv Hp. rewrite E. cbn [bind].
  rewrite (parse_multi_eq it ts mv); auto.
  - split; intros H.
    + now replace (len ts <=? 20) with true by lia.
    + replace (len ts <=? 20) with false by lia. eexists. reflexivity.
  - destruct (exists_trimmed line) as [T HT]. destruct (tokens_exist (L "=") T) as [tl Htl].
    destruct (in_dec ascii_dec "="%char line) as [I|I].
    + destruct tl as [|k r].
      * rewrite (first_pass_empty line T) in E by auto. discriminate.
      * destruct (exists_trimmed k) as [k' Hk]. destruct (exists_trimmed (hd [] r)) as [v Hv].
        rewrite (first_pass_eq line T k r k' v) in E by auto. inv E. cbn [value].
        eapply trimmed_no_nul; [|exact Hv].
        pose proof (tokens_no_nul _ _ _ Htl (trimmed_no_nul _ _ Hn HT)) as F.
        destruct r; [constructor|]. inv F. now inv H2.
    + rewrite first_pass_none in E by auto. discriminate.
Qed.
Print Assumptions C20_multi_values.
Example C20_case :
  conf_parse_line (L "k= a b , c,,d ") true = Ok (Some (mkItem (L "k") (L "a b , c,,d") [L "a b"; L "c"; L "d"]))
  /\ (exists it, conf_parse_line (L "k=1,2,3,4,5,6,7,8,9,10,11,12,13,14,15,16,17,18,19,20") true = Ok (Some it)
        /\ len (multivalue it) = 20)
  /\ undefined (conf_parse_line (L "k=1,2,3,4,5,6,7,8,9,10,11,12,13,14,15,16,17,18,19,20,21") true).
Proof.
  split; [vm_compute; reflexivity|]. split; [|eexists; vm_compute; reflexivity].
  eexists. split; vm_compute; reflexivity.
Qed.

(** C21 *)
Theorem C21_single_round_trip : forall k v, good_key k -> good_value v ->
  exists t, conf_item_to_string (mkItem k v []) = Ok t
            /\ conf_parse_line t false = Ok (Some (mkItem k v [])).
Proof.
  intros k v Hk Hv.
  assert (G : good_item (mkItem k v [])) by (repeat split; cbn; auto; try apply Hk; try apply Hv).
  eexists. split; [now apply good_item_string|].
  pose proof (good_item_first_pass _ [] G (Forall_nil _)) as P. rewrite app_nil_r in P.
  unfold conf_parse_line. now rewrite P.
Qed.
Print Assumptions C21_single_round_trip.
Theorem C21_multi_round_trip : forall k mv, good_key k -> Forall good_element mv ->
  1 <= len mv <= 20 ->
  let it := mkItem k (separated (L ",") mv) mv in
  exists t, conf_item_to_string it = Ok t /\ conf_parse_line t true = Ok (Some it).
Proof.
  intros k mv Hk Hm Hl it.
  assert (Hne : mv <> []) by (intros ->; cbn in Hl; lia).
  assert (E : value_text it = separated (L ",") mv) by (unfold value_text, it; cbn; destruct mv; [easy|reflexivity]).
  assert (G : good_item it).
  { split; [exact Hk|]. split; [now apply good_separated|]. split; [cbn; easy|exact Hm]. }
  eexists. split; [now apply good_item_string|].
  pose proof (good_item_first_pass _ [] G (Forall_nil _)) as P. rewrite app_nil_r in P.
  unfold conf_parse_line. rewrite P. cbn [bind].
  destruct (good_multi_tokens it) as [A B]; auto.
  rewrite (parse_multi_eq _ mv mv); cbn [value key]; auto; [|now apply good_item_value].
  replace (len mv <=? 20) with true by lia. cbn [bind]. now rewrite E.
Qed.
Print Assumptions C21_multi_round_trip.
(** The text always fits, whatever the item. *)
Theorem C21_serialisation_fits : forall k v mv, no_nul k -> no_nul v -> Forall no_nul mv ->
  conf_item_to_string (mkItem k v mv)
  = Ok (k ++ L "=" ++ match mv with [] => v | _ => separated (L ",") mv end).
Proof. intros. rewrite item_to_string_eq by auto. unfold value_text. cbn [key value multivalue]. destruct mv; reflexivity. Qed.
Print Assumptions C21_serialisation_fits.
Example C21_case :
  conf_item_to_string (mkItem (L "hosts") (L "ignored") [L "a b"; L "c"]) = Ok (L "hosts=a b,c")
  /\ conf_parse_line (L "hosts=a b,c") true = Ok (Some (mkItem (L "hosts") (L "a b,c") [L "a b"; L "c"])).
Proof. split; vm_compute; reflexivity. Qed.

(** C22 *)
Theorem C22_write_then_parse : forall f path items flags,
  Forall good_item items ->
  Forall (fun it => ~ In LF (line_text it) /\ len (line_text it) <= 510) items ->
  (forall it, In it items -> flagged flags (key it) true ->
     exists ts, tokens (L ",") (value_text it) ts /\ len ts <= 20) ->
  is_dir f path = false ->
  exists f' out, write_conf f (mkSer path items) = Ok (0, f')
    /\ (forall q, q <> path -> f' q = f q)
    /\ handed_over flags items out /\ parse f' path flags = Ok (0, out).
Proof. intros. now apply write_parse. Qed.
Print Assumptions C22_write_then_parse.
(** 510 is the exact limit: a longer line is read as two lines, and if its first 511
    bytes contain the only '=' the second one makes parse fail. *)
Theorem C22_line_limit : forall f path k v flags, good_item (mkItem k v []) ->
  ~ In LF (line_text (mkItem k v [])) ->
  511 <= len (line_text (mkItem k v [])) <= 1020 -> len k + 1 <= 511 -> len path <= 86 ->
  is_dir f path = false -> unflagged flags k ->
  exists f', write_conf f (mkSer path [mkItem k v []]) = Ok (0, f')
   /\ parse f' path flags = Ok (-1, []).
Proof.
  intros f path k v flags G HLF Hl Hk Hp Hd Hu.
  set (t := line_text (mkItem k v [])) in *.
  eexists. split; [apply write_conf_eq; auto|]. cbn [flat_map]. rewrite app_nil_r.
  fold t. unfold parse. rewrite upd_same.
  assert (Nt : no_nul t) by now apply line_text_no_nul.
  set (a := firstn 511 t). set (b := skipn 511 t).
  assert (Et : t = a ++ b) by (unfold a, b; symmetry; apply firstn_skipn).
  assert (La : len a = 511) by (unfold a; rewrite len_firstn; lia).
  assert (Ev : t = k ++ "="%char :: v) by reflexivity.
  pose proof (good_item_value _ G) as (EV & NV & IV). unfold value_text in IV, EV, NV. cbn [multivalue value] in IV, EV, NV.
  destruct G as ((Hne & Ek & Nk & Ik) & _). cbn [key value multivalue] in *.
  assert (Ea : a = k ++ "="%char :: firstn (511 - length k - 1) v).
  { unfold a. rewrite Ev. rewrite firstn_app. rewrite firstn_all2 by (unfold len in Hk; lia). f_equal.
    replace (511 - length k)%nat with (S (511 - length k - 1)) at 1 by (unfold len in Hk; lia).
    reflexivity. }
  assert (Eb : v = firstn (511 - length k - 1) v ++ b).
  { assert (X : (k ++ ["="%char]) ++ v = (k ++ ["="%char]) ++ firstn (511 - length k - 1) v ++ b).
    { rewrite <- !app_assoc. cbn [app]. rewrite <- Ev, Et, Ea, <- app_assoc. reflexivity. }
    now apply app_inv_head in X. }
  set (v1 := firstn (511 - length k - 1) v) in *.
  assert (Nb : no_nul b /\ no_nul a) by (split; [now apply no_nul_skipn|now apply no_nul_firstn]).
  assert (Hin : forall c, In c a \/ In c b -> In c t) by (intros c; rewrite Et, in_app_iff; auto).
  assert (Lc : lines 511 (t ++ [LF]) ([a] ++ [b ++ [LF]])).
  { rewrite Et, <- app_assoc. cbn [app]. apply lines_full; auto.
    - intros X. rewrite X in La. cbn in La. lia.
    - apply lines_nl; auto; [|constructor]. unfold b. rewrite len_skipn. lia. }
  destruct (exists_trimmed v1) as [w Hw].
  assert (D : deliveries flags [a] []).
  { apply (dl_skip _ _ (mkItem k w [])); [|exact Hu|constructor]. unfold conf_parse_line. rewrite Ea.
    rewrite (first_pass_kv k v1 k w); auto.
    - rewrite <- Ea. apply Nb.
    - now apply trimmed_self.
    - intros X. apply IV. rewrite Eb, in_app_iff. auto. }
  assert (V : Forall2 visible [a] [a]) by (constructor; [apply visible_self, Nb|constructor]).
  destruct (parse_loop_deliveries path flags [a] [a] [] V D _ _ _ Lc (le_n _)) as (c' & fuel' & Lc' & Hf & E).
  rewrite E. rewrite (parse_loop_bad path flags c' (b ++ [LF]) (b ++ [LF]) []); auto.
  - rewrite fits_ok; [reflexivity|]. rewrite !len_app. cbn [len length]. change (len (L "Entity in invalid format, path: ")) with 32.
    change (len [LF]) with 1. lia.
  - apply visible_self. apply no_nul_app. split; [apply Nb|]. apply no_nul_dec_b. reflexivity.
  - rewrite in_app_iff. intros [X|[X|[]]]; [|discriminate]. apply IV. rewrite Eb, in_app_iff. auto.
Qed.
Print Assumptions C22_line_limit.
(** A directory in the file's place: -1 and nothing is changed; the path must leave room for the
    error text. *)
Theorem C22_cannot_write : forall f path items, is_dir f path = true ->
  (len path <= 87 -> write_conf f (mkSer path items) = Ok (-1, f)) /\ (88 <= len path -> undefined (write_conf f (mkSer path items))).
Proof.
  intros f path items H. unfold write_conf. cbn [ser_path]. rewrite H.
  assert (E : len (L "Unable to open file " ++ path ++ L " for writing") = 32 + len path)
    by (rewrite !len_app; change (len (L "Unable to open file ")) with 20; change (len (L " for writing")) with 12; lia).
  split; intros Hp; [rewrite fits_ok by lia; reflexivity|rewrite fits_oob by lia; eexists; reflexivity].
Qed.
Print Assumptions C22_cannot_write.
(** Items and values: twenty, no more. *)
Theorem C22_made : forall path items k v mv,
  (len items <= 20 -> new_serializable path items = Ok (mkSer path items)) /\ (21 <= len items -> undefined (new_serializable path items))
  /\ (len mv <= 20 -> new_conf_item_with_values k v mv = Ok (mkItem k v mv)) /\ (21 <= len mv -> undefined (new_conf_item_with_values k v mv)).
Proof. exact made. Qed.
Print Assumptions C22_made.
Example C22_case : exists f',
  write_conf (fun _ => None) (mkSer (L "c") [mkItem (L "a") (L "1") []; mkItem (L "z") (L "9") [];
                                             mkItem (L "m") [] [L "x"; L "y"]]) = Ok (0, f')
  /\ parse f' (L "c") [(L "m", true); (L "a", false)]
     = Ok (0, [mkItem (L "a") (L "1") []; mkItem (L "m") (L "x,y") [L "x"; L "y"]]).
Proof. eexists. split; vm_compute; reflexivity. Qed.

(** C23 *)
Theorem C23_stops_at_malformed : forall f path flags content good gv out bad b rest,
  f path = Some (File content) -> lines 511 content (good ++ bad :: rest) ->
  Forall2 visible good gv -> deliveries flags gv out ->
  visible bad b -> ~ In "="%char b ->
  (len path <= 86 -> parse f path flags = Ok (-1, out))
  /\ (87 <= len path -> undefined (parse f path flags)).
Proof.
  intros f path flags content good gv out bad b rest Hf Hl V D Vb Hb.
  unfold parse. rewrite Hf.
  destruct (parse_loop_deliveries path flags good gv out V D _ _ _ Hl (le_n _)) as (c' & fuel' & Lc & Hfu & ->).
  rewrite (parse_loop_bad path flags c' bad b rest); auto.
  split; intros Hp.
  - rewrite fits_ok; [cbn [bind]; now rewrite app_nil_r|]. rewrite !len_app.
    change (len (L "Entity in invalid format, path: ")) with 32. change (len [LF]) with 1. lia.
  - rewrite fits_oob; [eexists; reflexivity|]. rewrite !len_app.
    change (len (L "Entity in invalid format, path: ")) with 32. change (len [LF]) with 1. lia.
Qed.
Print Assumptions C23_stops_at_malformed.
Theorem C23_whole_file : forall f path flags content ls lv out,
  f path = Some (File content) -> lines 511 content ls -> Forall2 visible ls lv ->
  deliveries flags lv out -> parse f path flags = Ok (0, out).
Proof.
  intros f path flags content ls lv out Hf Hl V D. unfold parse. rewrite Hf.
  rewrite <- (app_nil_r ls) in Hl.
  destruct (parse_loop_deliveries path flags ls lv out V D _ _ _ Hl (le_n _)) as (c' & fuel' & Lc & Hfu & ->).
  rewrite parse_loop_end by auto. cbn [bind]. now rewrite app_nil_r.
Qed.
Print Assumptions C23_whole_file.
Theorem C23_zero_only_if_all_lines : forall f path flags content ls out,
  f path = Some (File content) -> lines 511 content ls ->
  parse f path flags = Ok (0, out) -> Forall (fun l => exists t, visible l t /\ In "="%char t) ls.
Proof.
  intros f path flags content ls out Hf Hl H. unfold parse in H. rewrite Hf in H. eapply parse_loop_zero; eauto.
Qed.
Print Assumptions C23_zero_only_if_all_lines.
(** Every content has its lines. *)
Theorem C23_lines_exist : forall content, exists ls, lines 511 content ls.
Proof. intros. apply lines_exist. lia. Qed.
Print Assumptions C23_lines_exist.
Theorem C23_cannot_open : forall f path flags, f path = None ->
  (len path <= 98 -> parse f path flags = Ok (-1, [])) /\ (99 <= len path -> undefined (parse f path flags)).
Proof.
  intros f path flags H. unfold parse. rewrite H.
  assert (E : len (L "Unable to open path: " ++ path) = 21 + len path) by (rewrite len_app; reflexivity).
  split; intros Hp; [rewrite fits_ok by lia; reflexivity|rewrite fits_oob by lia; eexists; reflexivity].
Qed.
Print Assumptions C23_cannot_open.
(** A directory is taken for an empty configuration. *)
Theorem C23_directory : forall f path flags, is_dir f path = true -> parse f path flags = Ok (0, []).
Proof. intros f path flags H. unfold parse, is_dir in *. destruct (f path) as [[c|]|]; congruence. Qed.
Print Assumptions C23_directory.
Example C23_case :
  parse (fun _ => Some (File (L "a=1" ++ [LF] ++ L "b=2" ++ [LF; LF] ++ L "a=3" ++ [LF]))) (L "p") [(L "a", false)]
  = Ok (-1, [mkItem (L "a") (L "1") []]).
Proof. vm_compute; reflexivity. Qed.

(** C24.  [k] counts the elementary effects (truncation, then single bytes) that reached
    the disk before the crash. *)
Theorem C24_crash_is_prefix : forall path items old, Forall good_item items ->
  exists ev, write_conf_events (mkSer path items) = Ok ev
   /\ (forall k, (1 <= k)%nat -> exists rest,
        crash_content old ev k ++ rest = flat_map (fun it => line_text it ++ [LF]) items)
   /\ crash_content old ev (length ev) = flat_map (fun it => line_text it ++ [LF]) items
   /\ crash_content old ev 1 = [] /\ crash_content old ev 0 = old.
Proof.
  intros path items old H. unfold write_conf_events. cbn [ser_items]. rewrite conf_lines_eq by auto. cbn [bind].
  set (t := flat_map _ _). eexists. split; [reflexivity|]. split; [|split; [|split]].
  - intros k Hk. rewrite crash_prefix by auto. exists (skipn (k - 1) t). apply firstn_skipn.
  - rewrite crash_prefix by (cbn; lia). apply firstn_all2. cbn [length]. rewrite map_length. lia.
  - now rewrite crash_prefix.
  - reflexivity.
Qed.
Print Assumptions C24_crash_is_prefix.
(** For every configuration, every old file and every crash point inside the first key,
    parse fails; right after the truncation it succeeds with no items at all. *)
Theorem C24_crash_loses_configuration : forall f path it items old ev flags k,
  Forall good_item (it :: items) -> ~ In LF (key it) -> len (key it) <= 510 -> len path <= 86 ->
  write_conf_events (mkSer path (it :: items)) = Ok ev ->
  f path = Some (File (crash_content old ev k)) ->
  (k = 1%nat -> parse f path flags = Ok (0, []))
  /\ (2 <= Z.of_nat k <= len (key it) + 1 -> parse f path flags = Ok (-1, [])).
Proof.
  intros f path it items old ev flags k Hg HLF Hl Hp Hev Hf.
  destruct (C24_crash_is_prefix path (it :: items) old Hg) as (ev' & Hev' & _ & _ & H1 & _).
  assert (ev' = ev) as -> by congruence.
  split.
  - intros ->. unfold parse. rewrite Hf, H1. reflexivity.
  - intros Hk. unfold write_conf_events in Hev. cbn [ser_items] in Hev. rewrite conf_lines_eq in Hev by auto.
    cbn [bind] in Hev. inv Hev. rewrite crash_prefix in Hf by lia.
    rewrite firstn_app, firstn_app in Hf.
    replace (k - 1 - length (line_text it ++ [LF]))%nat with O in Hf
      by (unfold line_text; rewrite !app_length; unfold len in Hk; lia).
    replace (k - 1 - length (line_text it))%nat with O in Hf
      by (unfold line_text; rewrite !app_length; unfold len in Hk; lia).
    rewrite !firstn_O, !app_nil_r in Hf. unfold line_text in Hf. rewrite firstn_app in Hf.
    replace (k - 1 - length (key it))%nat with O in Hf by (unfold len in Hk; lia).
    rewrite firstn_O, app_nil_r in Hf.
    set (p := firstn (k - 1) (key it)) in *.
    assert (Hin : forall c, In c p -> In c (key it)).
    { intros c I. rewrite <- (firstn_skipn (k - 1)), in_app_iff. auto. }
    inversion Hg as [|? ? ((_ & _ & Nk & Ik) & _) _]; subst.
    eapply (C23_stops_at_malformed f path flags p [] [] [] p p []); auto.
    + cbn [app]. constructor; auto.
      * intros X. assert (Y : length p = 0%nat) by now rewrite X. unfold p in Y. rewrite firstn_length in Y.
        unfold len in *. lia.
      * unfold p. rewrite len_firstn. lia.
    + constructor.
    + apply visible_self. now apply no_nul_firstn.
Qed.
Print Assumptions C24_crash_loses_configuration.
Example C24_case : exists ev, write_conf_events (mkSer (L "c") [mkItem (L "port") (L "80") []]) = Ok ev
  /\ crash_content (L "port=1") ev 4 = L "por"
  /\ parse (fun _ => Some (File (L "por"))) (L "c") [(L "port", false)] = Ok (-1, []).
Proof. eexists. split; [vm_compute; reflexivity|]. split; vm_compute; reflexivity. Qed.

(** JsonHeap_proofs.v - lemmas about the heap blocks of the JSON functions. *)
From Coq Require Import Permutation.
From Verif Require Import JsonHeap Lemmas StringUtils_proofs JsonUtils_proofs HttpUtils_proofs ConfHeap_proofs ReqHeap_proofs SpecHeap SpecReqHeap SpecJsonHeap Spec.

(** ** Reading *)
Lemma shows_read h l p s : blocks_are h l -> shows l p s -> hread_opt h p = Ok s.
Proof. intros A [|t|n t I]; [reflexivity|reflexivity|]. unfold hread_opt. now rewrite (are_read h l n t A I). Qed.
Lemma shows_reads h l ps ss : blocks_are h l -> Forall2 (shows l) ps ss -> hread_opts h ps = Ok ss.
Proof. intros A H. induction H as [|p s ps ss H _ IH]; [reflexivity|]. cbn [hread_opts]. rewrite (shows_read h l p s A H). cbn [bind]. now rewrite IH. Qed.
Lemma shows_more l l' p s : (forall x, In x l -> In x l') -> shows l p s -> shows l' p s.
Proof. intros H [|t|n t I]; [constructor|constructor|]. constructor. now apply H. Qed.
Lemma shows_mores l l' ps ss : (forall x, In x l -> In x l') -> Forall2 (shows l) ps ss -> Forall2 (shows l') ps ss.
Proof. intros H. induction 1 as [|p s ps ss G _ IH]; constructor; [eapply shows_more; eauto|exact IH]. Qed.
Lemma shows_str h l p s : blocks_are h l -> shows l p (Some s) -> hread h p = Ok s.
Proof. intros A H. inversion H as [|t E|n t I E]; subst; [reflexivity|]. now apply (are_read h l n s A). Qed.

(** ** join *)
Lemma copies_eq ss : forall h l, blocks_are h l -> exists h1, join_copies h ss = Ok h1 /\ blocks_are h1 l.
Proof.
  induction ss as [|[s|] ss IH]; intros h l A; cbn [join_copies]; [eauto| |now apply IH].
  alloc A. destruct (are_free _ _ _ _ A) as (h1 & -> & A1). cbn [bind]. now apply IH.
Qed.
Lemma join_h_heap h l a ps size d s : blocks_are h l -> Forall2 (shows l) ps a -> join (Some a) size d = Ok (JHeap s) ->
  exists h1 n, join_h h (Some ps) size d = Ok (h1, PBlock n) /\ blocks_are h1 ((n, s) :: l).
Proof.
  intros A H J. unfold join_h, hread_array. rewrite (shows_reads h l ps a A H). cbn [bind]. rewrite J. cbn [bind]. alloc A.
  destruct (size =? 1); [eauto|]. destruct (copies_eq (firstn (Z.to_nat size) a) _ _ A) as (h2 & -> & A2). cbn [bind]. eauto.
Qed.
Lemma join_h_lit h l a ps size d : blocks_are h l -> Forall2 (shows l) ps a -> join (Some a) size d = Ok JLit -> join_h h (Some ps) size d = Ok (h, PLit []).
Proof. intros A H J. unfold join_h, hread_array. rewrite (shows_reads h l ps a A H). cbn [bind]. now rewrite J. Qed.

(** ** json_utils.c *)
Lemma strings_h_eq h l a ps size s : blocks_are h l -> Forall2 (shows l) ps a -> json_array_of_strings (Some a) size = Ok s ->
  exists h1 n, array_of_strings_h h (Some ps) size = Ok (h1, PBlock n) /\ blocks_are h1 ((n, s) :: l).
Proof.
  intros A H J. unfold array_of_strings_h, hread_array. rewrite (shows_reads h l ps a A H). cbn [bind]. rewrite J.
  destruct (Z.ltb_spec size 1) as [Hs|Hs].
  - unfold json_array_of_strings in J. replace (size <? 1) with true in J by lia. injection J as <-. alloc A. eauto.
  - assert (K : exists t, join (Some a) size JSON_ARRAY_STR_SEP = Ok (JHeap t)).
    { unfold json_array_of_strings in J. replace (size <? 1) with false in J by lia. destruct (len a <? size); [discriminate|].
      apply bind_ok_inv in J as (b0 & _ & J). apply bind_ok_inv in J as (j & Ej & J). apply bind_ok_inv in J as (b1 & _ & J). apply bind_ok_inv in J as (b2 & _ & J).
      apply bind_ok_inv in J as (u & F & _). destruct j as [|t]; [discriminate|eauto]. }
    destruct K as (t & K). alloc A.
    destruct (join_h_heap h0 _ a ps size JSON_ARRAY_STR_SEP t A) as (h2 & m & -> & A2); [eapply shows_mores; [|exact H]; now right|exact K|]. cbn [bind].
    destruct (are_write h2 ((m, t) :: l) (h_next h) [] s) as (h3 & -> & A3); [eapply are_perm; [exact A2|perm]|]. cbn [bind].
    free A3 m t ((h_next h, s) :: l). eauto.
Qed.
Lemma serialize_eq ser txt : serializes ser txt -> forall els h l, blocks_are h l -> (forall x, In x els -> In x l) ->
  exists h1 m qs, serialize_all ser h (map (fun x => PBlock (fst x)) els) = Ok (h1, qs) /\ blocks_are h1 (m ++ l)
    /\ Forall2 (shows m) qs (map (fun x => txt (snd x)) els)
    /\ forall h2 l2, blocks_are h2 (m ++ l2) -> exists h3, hfree_all h2 qs = Ok h3 /\ blocks_are h3 l2.
Proof.
  intros S. induction els as [|[n x] els IH]; intros h l A I; cbn [map serialize_all fst snd].
  - exists h, [], []. split; [reflexivity|]. split; [exact A|]. split; [constructor|]. intros h2 l2 A2. exists h2. auto.
  - destruct (S h l n x A) as (h1 & q & E & Q); [apply I; now left|]. rewrite E. cbn [bind]. destruct (txt x) as [t|] eqn:Et.
    + destruct Q as (m & -> & A1). destruct (IH h1 ((m, t) :: l) A1) as (h2 & ms & qs & E2 & A2 & F & G); [intros y Hy; right; apply I; now right|]. rewrite E2. cbn [bind].
      exists h2, ((m, t) :: ms), (PBlock m :: qs). split; [reflexivity|]. split; [eapply are_perm; [exact A2|perm]|]. split.
      * constructor; [constructor; now left|]. eapply shows_mores; [|exact F]. now right.
      * intros h3 l2 A3. cbn [hfree_all]. destruct (are_free _ _ _ _ A3) as (h4 & -> & A4). cbn [bind]. now apply G.
    + destruct Q as (-> & A1). destruct (IH h1 l A1) as (h2 & ms & qs & E2 & A2 & F & G); [intros y Hy; apply I; now right|]. rewrite E2. cbn [bind].
      exists h2, ms, (PNull :: qs). split; [reflexivity|]. split; [exact A2|]. split; [constructor; [constructor|exact F]|].
      intros h3 l2 A3. cbn [hfree_all hfree bind]. now apply G.
Qed.
Lemma join_empty a : Forall ptr_no_nul a -> join (Some a) (len a) (L ",") = Ok (JHeap []) -> a = [Some []].
Proof.
  intros N J. destruct a as [|[s0|] a]; [cbn in J; discriminate| |].
  2:{ unfold join in J. destruct (len (None :: a) <=? 0); discriminate. }
  destruct a as [|p a]; [cbn in J; congruence|]. exfalso. set (b := Some s0 :: p :: a) in *.
  assert (Lb : 2 <= len b) by (unfold b; rewrite !len_cons; pose proof (len_nonneg _ a); lia).
  assert (Hl : exists y, nth_error b (Z.to_nat (len b - 1)) = Some y).
  { destruct (nth_error b (Z.to_nat (len b - 1))) eqn:E; [eauto|]. apply nth_error_None in E. unfold len in *. lia. }
  assert (Nd : no_nul (L ",")) by (apply no_nul_dec_b; reflexivity).
  destruct Hl as ([y|] & Hy).
  - rewrite (join_many b (len b) (L ",") s0 y) in J by (first [exact Nd|exact N|exact Hy|reflexivity|lia]). rewrite to_nat_len, firstn_all in J. assert (J1 : separated (L ",") (present b) = []) by congruence. clear J.
    assert (P : exists z zs, present (p :: a) = z :: zs).
    { unfold b in Hy. replace (Z.to_nat (len (Some s0 :: p :: a) - 1)) with (S (length a)) in Hy by (rewrite !len_cons; unfold len; lia). cbn [nth_error] in Hy.
      clear -Hy. revert p Hy. induction a as [|q a IH]; intros p Hy; cbn [length nth_error] in Hy.
      - injection Hy as ->. cbn. eauto.
      - destruct (IH q Hy) as (z & zs & E). destruct p; cbn [present] in *; [eauto|]. rewrite E. eauto. }
    destruct P as (z & zs & P). unfold b in J1. change (present (Some s0 :: p :: a)) with (s0 :: present (p :: a)) in J1. rewrite P in J1. cbn [separated] in J1.
    apply app_eq_nil in J1 as [_ J1]. discriminate.
  - rewrite (join_last_null b (len b) (L ",") s0) in J by (first [exact Nd|exact N|exact Hy|reflexivity|lia]). discriminate.
Qed.

Lemma entities_h_eq ser txt h l els s : serializes ser txt -> blocks_are h l -> (forall x, In x els -> In x l) ->
  Forall ptr_no_nul (map (fun x => txt (snd x)) els) -> json_array_of_entities (map (fun x => txt (snd x)) els) = Ok s ->
  exists h1 n m, array_of_entities_h ser h (map (fun x => PBlock (fst x)) els) = Ok (h1, PBlock n) /\ blocks_are h1 ((n, s) :: m ++ l)
    /\ one_if (sole_empty txt els) (length m).
Proof.
  intros S A I N J. unfold array_of_entities_h. rewrite len_map. destruct (Z.eqb_spec (len els) 0) as [Z|Z].
  - destruct els as [|x els]; [|rewrite len_cons in Z; pose proof (len_nonneg _ els); lia]. cbn in J. injection J as <-. alloc A.
    eexists _, _, []. split; [reflexivity|]. split; [exact A|]. right. split; [|reflexivity]. intros (e & E & _). discriminate.
  - set (a := map (fun x => txt (snd x)) els) in *. alloc A.
    destruct (serialize_eq ser txt S els _ _ A) as (h2 & m & qs & E2 & A2 & F & G); [intros x Hx; right; now apply I|]. fold a in F. rewrite E2. cbn [bind].
    assert (Lq : len qs = len a) by (unfold len; f_equal; eapply Forall2_length; exact F).
    assert (La : len a = len els) by (unfold a; apply len_map). rewrite Lq.
    assert (F2 : forall l2, Forall2 (shows (m ++ l2)) qs a) by (intros l2; eapply shows_mores; [|exact F]; intros x Hx; apply in_or_app; now left).
    pose proof J as J0. unfold json_array_of_entities in J. replace (len a =? 0) with false in J by lia. apply bind_ok_inv in J as (j & Ej & J).
    apply bind_ok_inv in J as (b0 & _ & J). apply bind_ok_inv in J as (b1 & _ & J). apply bind_ok_inv in J as (b2 & _ & J). apply bind_ok_inv in J as (u & Fj & _).
    destruct j as [|t].
    + rewrite (join_h_lit h2 _ a qs (len a) (L ",") A2 (F2 _) Ej). cbn [bind]. rewrite (shows_reads h2 _ qs a A2 (F2 _)). cbn [bind]. rewrite J0. cbn [bind].
      alloc A2. cbn [free_unless_empty hread bind].
      destruct (G h1 ((h_next h2, s) :: (h_next h, []) :: l)) as (h3 & -> & A3); [eapply are_perm; [exact A2|perm]|]. cbn [bind].
      free A3 (h_next h) (@nil ascii) ((h_next h2, s) :: l). eexists _, _, []. split; [reflexivity|]. split; [exact A3|]. right. split; [|reflexivity].
      intros (e & -> & E). unfold a in Ej. cbn [map] in Ej. rewrite E in Ej. discriminate.
    + destruct (join_h_heap h2 _ a qs (len a) (L ",") t A2 (F2 _) Ej) as (h3 & n & -> & A3). cbn [bind].
      rewrite (shows_reads h3 ((n, t) :: m ++ (h_next h, []) :: l) qs a A3); [|eapply shows_mores; [|apply (F2 ((h_next h, []) :: l))]; now right]. cbn [bind]. rewrite J0. cbn [bind].
      alloc A3. unfold free_unless_empty. rewrite (are_read h1 _ n t A3) by (right; now left). cbn [bind]. destruct t as [|c t].
      * cbn [bind]. destruct (G h1 ((h_next h3, s) :: (n, []) :: (h_next h, []) :: l)) as (h4 & -> & A4); [eapply are_perm; [exact A3|perm]|]. cbn [bind].
        free A4 (h_next h) (@nil ascii) ((h_next h3, s) :: [(n, [])] ++ l). eexists _, _, [(n, [])]. split; [reflexivity|]. split; [exact A4|]. left. split; [|reflexivity].
        apply join_empty in Ej; [|exact N]. unfold a in Ej. destruct els as [|e [|e2 els]]; try discriminate. exists e. cbn [map] in Ej. split; [reflexivity|congruence].
      * free A3 n (c :: t) (m ++ (h_next h3, s) :: (h_next h, []) :: l).
        destruct (G h4 ((h_next h3, s) :: (h_next h, []) :: l)) as (h5 & -> & A5); [exact A3|]. cbn [bind].
        free A5 (h_next h) (@nil ascii) ((h_next h3, s) :: l). eexists _, _, []. split; [reflexivity|]. split; [exact A5|]. right. split; [|reflexivity].
        intros (e & -> & E). unfold a in Ej. cbn [map] in Ej. rewrite E in Ej. discriminate.
Qed.
Lemma ints_h_eq h l a size s : blocks_are h l -> json_array_of_ints a size = Ok s ->
  exists h1 n, array_of_ints_h h a size = Ok (h1, PBlock n) /\ blocks_are h1 ((n, s) :: l).
Proof.
  intros A J. unfold array_of_ints_h. rewrite J. cbn [bind]. alloc A. destruct a as [a|]; [|eauto]. destruct (size <? 1); [eauto|].
  destruct (copies_eq (map (fun z => Some (dec z)) (firstn (Z.to_nat size) a)) _ _ A) as (h1 & -> & A1). cbn [bind]. eauto.
Qed.

(** ** http_utils.c *)
Lemma json_headers_keeps r st n r1 : return_json_headers r st = Ok (n, r1) -> r_headers r1 = r_headers r.
Proof. unfold return_json_headers. intros H. destruct (_ =? -1); [now inv H|]. apply bind_ok_inv in H as (b & _ & H). now inv H. Qed.
Lemma json_status_logs r st d r' : return_json_with_status r st d = Ok r' -> exists r4, log_access r4 st = Ok r' /\ r_headers r4 = r_headers r.
Proof.
  unfold return_json_with_status. intros H. apply bind_ok_inv in H as ((n & r1) & H1 & H). apply json_headers_keeps in H1. apply bind_ok_inv in H as (b & _ & H).
  eexists. split; [exact H|]. exact H1.
Qed.
Lemma json_status_h_eq h l r st p d r' : blocks_are h l -> shows l p (Some d) -> return_json_with_status r st d = Ok r' ->
  exists h1 m, json_status_h h r st p = Ok (h1, r') /\ blocks_are h1 (m ++ l) /\ given_empties (r_headers r) (length m).
Proof.
  intros A P H. unfold json_status_h. rewrite (shows_str h l p d A P). cbn [bind]. rewrite H. cbn [bind]. destruct (json_status_logs _ _ _ _ H) as (r4 & G & Hh).
  destruct (log_headers _ _ _ G r) as (r2 & E2); [congruence|]. destruct (log_access_h_eq _ _ _ _ _ E2 A) as (h1 & m & E & A1 & M). rewrite E. cbn [bind]. eauto.
Qed.
Lemma stream_keeps k : forall c n r m r1, stream_loop k c n r = Ok (m, r1) -> r_headers r1 = r_headers r.
Proof.
  induction k as [|k IH]; intros c n r m r1 H; cbn [stream_loop] in H; destruct (fgets (1024 - 1) c) as [[line rest]|]; try discriminate; try (now inv H).
  cbv zeta in H. apply bind_ok_inv in H as (q & _ & H). apply IH in H. exact H.
Qed.
Lemma json_stream_h_eq h l r st c r' : blocks_are h l -> return_json_stream r st c = Ok r' ->
  exists h1 m, json_stream_h h r st c = Ok (h1, r') /\ blocks_are h1 (m ++ l) /\ given_empties (r_headers r) (length m).
Proof.
  intros A H. unfold json_stream_h. rewrite H. cbn [bind]. unfold return_json_stream in H. apply bind_ok_inv in H as ((n & r1) & H1 & H). apply json_headers_keeps in H1.
  apply bind_ok_inv in H as ((m & r3) & H3 & H). unfold send_stream in H3. apply bind_ok_inv in H3 as ((k & r2) & H2 & H3). apply stream_keeps in H2. inv H3. apply bind_ok_inv in H as (a & _ & H). apply bind_ok_inv in H as (b & _ & H).
  destruct (log_headers _ _ _ H r) as (r4 & E2); [cbn in *; congruence|]. destruct (log_access_h_eq _ _ _ _ _ E2 A) as (h1 & m' & E & A1 & M). rewrite E. cbn [bind]. eauto.
Qed.
Lemma error_json_h_eq h l n x e s e' : blocks_are h l -> In (n, x) l -> wayuu_error_json e = Ok (s, e') ->
  exists h1 m, error_json_h h (PBlock n) e = Ok (h1, PBlock m, e') /\ blocks_are h1 ((m, s) :: l).
Proof.
  intros A I H. unfold error_json_h. rewrite (are_read h l n x A I). cbn [bind]. rewrite H. cbn [bind].
  unfold wayuu_error_json in H. apply bind_ok_inv in H as (code & _ & H). apply bind_ok_inv in H as (c & Hc & H). apply bind_ok_inv in H as (m & Hm & H).
  apply bind_ok_inv in H as (b & _ & H). apply bind_ok_inv in H as (s' & _ & H). injection H as -> <-. cbn [err_code err_message]. rewrite Hc. cbn [bind]. rewrite Hm. cbn [bind].
  alloc A. alloc A. alloc A. free A (h_next h) c ((h_next h1, s) :: (h_next h0, m) :: l). free A (h_next h0) m ((h_next h1, s) :: l). eauto.
Qed.
Lemma with_error_h_eq h l n x r st e r' : blocks_are h l -> In (n, x) l -> status_with_error st r e = Ok r' ->
  exists h1 m s e', with_error_h h r st (PBlock n) e = Ok (h1, r', e') /\ wayuu_error_json e = Ok (s, e') /\ blocks_are h1 (m ++ l) /\ given_empties (r_headers r) (length m).
Proof.
  intros A I H. unfold status_with_error in H. apply bind_ok_inv in H as ((s & e') & J & H). unfold with_error_h.
  destruct (error_json_h_eq h l n x e s e' A I J) as (h1 & p & -> & A1). cbn [bind].
  destruct (json_status_h_eq h1 _ r st (PBlock p) s r' A1) as (h2 & m & -> & A2 & M); [constructor; now left|exact H|]. cbn [bind].
  free A2 p s (m ++ l). exists h0, m, s, e'. auto.
Qed.
Lemma json_list_h_eq ser txt h l a els r s r' : serializes ser txt -> blocks_are h (els ++ (a, []) :: l) ->
  Forall ptr_no_nul (map (fun x => txt (snd x)) els) -> return_json_list r (map (fun x => txt (snd x)) els) = Ok r' ->
  json_array_of_entities (map (fun x => txt (snd x)) els) = Ok s ->
  exists h1 m k, json_list_h ser h r (PBlock a) (map (fun x => PBlock (fst x)) els) = Ok (h1, r') /\ blocks_are h1 (m ++ k ++ l)
    /\ one_if (sole_empty txt els) (length m) /\ given_empties (r_headers r) (length k).
Proof.
  intros S A N H J. unfold return_json_list in H. rewrite J in H. cbn [bind] in H. unfold json_list_h.
  destruct (entities_h_eq ser txt h _ els s S A) as (h1 & n & m & -> & A1 & M); auto; [intros x Hx; apply in_or_app; now left|]. cbn [bind].
  destruct (json_status_h_eq h1 _ r 200 (PBlock n) s r' A1) as (h2 & k & -> & A2 & K); [constructor; now left|exact H|]. cbn [bind].
  destruct (are_free_all h2 els (k ++ (n, s) :: m ++ (a, []) :: l)) as (h3 & -> & A3); [eapply are_perm; [exact A2|perm]|]. cbn [bind].
  free A3 a (@nil ascii) (k ++ (n, s) :: m ++ l). free A3 n s (k ++ m ++ l). eexists _, m, k. split; [reflexivity|]. split; [eapply are_perm; [exact A3|perm]|]. auto.
Qed.
Lemma response_h_eq h l rsp s : blocks_are h l -> return_response rsp = Ok s -> exists h1 n, response_h h rsp = Ok (h1, PBlock n) /\ blocks_are h1 ((n, s) :: l).
Proof.
  intros A H. unfold response_h. rewrite H. cbn [bind]. alloc A. alloc A. alloc A. alloc A. alloc A.
  free A (h_next h) (@nil ascii) ((h_next h3, s) :: (h_next h2, []) :: (h_next h1, []) :: (h_next h0, []) :: l).
  free A (h_next h2) (@nil ascii) ((h_next h3, s) :: (h_next h1, []) :: (h_next h0, []) :: l).
  free A (h_next h1) (@nil ascii) ((h_next h3, s) :: (h_next h0, []) :: l).
  free A (h_next h0) (@nil ascii) ((h_next h3, s) :: l). eauto.
Qed.
Lemma strings_h_null h l ps ts size : blocks_are h l -> Forall2 (shows l) ps (None :: ts) -> 1 <= size <= len ts + 1 ->
  undefined (array_of_strings_h h (Some ps) size).
Proof.
  intros A H Hs. unfold array_of_strings_h, hread_array. rewrite (shows_reads h l ps _ A H). cbn [bind]. replace (size <? 1) with false by lia. alloc A.
  rewrite (join_h_lit h0 _ (None :: ts) ps size JSON_ARRAY_STR_SEP A).
  - cbn [bind]. rewrite array_of_strings_null by lia. cbn [bind]. eexists. reflexivity.
  - eapply shows_mores; [|exact H]. now right.
  - unfold join. replace (size <=? 0) with false by lia. reflexivity.
Qed.
Lemma entities_h_null ser txt h l e els : serializes ser txt -> blocks_are h l -> (forall x, In x (e :: els) -> In x l) ->
  txt (snd e) = None -> (forall x t, In x els -> txt (snd x) = Some t -> no_nul t) ->
  exists h1 n, array_of_entities_h ser h (map (fun x => PBlock (fst x)) (e :: els)) = Ok (h1, PBlock n) /\ blocks_are h1 ((n, L "[]") :: l).
Proof.
  intros S A I E N. destruct (entities_h_eq ser txt h l (e :: els) (L "[]") S A I) as (h1 & n & m & E1 & A1 & M).
  - cbn [map]. rewrite E. constructor; [discriminate|]. apply Forall_forall. intros p Hp s ->. apply in_map_iff in Hp as (x & Ex & Hx). eapply N; eauto.
  - cbn [map]. rewrite E. apply array_of_entities_null.
  - exists h1, n. split; [exact E1|]. destruct M as [((e' & Ee & Et) & _)|(_ & M)]; [injection Ee as <- _; congruence|]. destruct m; [exact A1|discriminate].
Qed.
Lemma error_life h l r st code message e r' : blocks_are h l -> new_error_with_values code message = Ok e -> status_with_error st r e = Ok r' ->
  exists h1 n, new_error_h h code message = Ok (h1, PBlock n, e)
  /\ exists h2 m e', with_error_h h1 r st (PBlock n) e = Ok (h2, r', e') /\ blocks_are h2 (m ++ (n, []) :: l) /\ given_empties (r_headers r) (length m)
  /\ err_message e' = message /\ err_code e' = (match code with [] => L "UNKNOWN" | _ => code end).
Proof.
  intros A H1 H2. unfold new_error_h. rewrite H1. cbn [bind]. alloc A. eexists _, _. split; [reflexivity|].
  destruct (with_error_h_eq _ _ (h_next h) [] r st e r' A) as (h2 & m & s & e' & E & J & A2 & M); [now left|exact H2|]. exists h2, m, e'. split; [exact E|]. split; [exact A2|]. split; [exact M|].
  unfold new_error_with_values in H1. apply bind_ok_inv in H1 as (c & Hc & H1). apply bind_ok_inv in H1 as (mm & Hm & H1). injection H1 as <-.
  apply fits_inv in Hc as (-> & _), Hm as (-> & _).
  unfold wayuu_error_json in J. cbn [err_code err_message] in J. apply bind_ok_inv in J as (c & Hc & J). apply bind_ok_inv in J as (x1 & _ & J). apply bind_ok_inv in J as (x2 & _ & J).
  apply bind_ok_inv in J as (x3 & _ & J). apply bind_ok_inv in J as (x4 & _ & J). injection J as _ <-. split; [reflexivity|]. cbn [err_code].
  destruct code as [|c0 code]; [apply fits_inv in Hc; tauto|]. replace (len (c0 :: code) =? 0) with false in Hc by (rewrite len_cons; pose proof (len_nonneg _ code); lia). congruence.
Qed.
Definition bare_request : api_request := mkReq 4 [] None (calloc 10) (L "GET") (L "/") (L "/") [] (L "1.2.3.4") [] (cs []) (L "GET / HTTP/1.1") 0 [] [].
Lemma list_leaks : exists ser txt h l a els r h1 r' m,
  serializes ser txt /\ blocks_are h (els ++ (a, []) :: l) /\ json_list_h ser h r (PBlock a) (map (fun x => PBlock (fst x)) els) = Ok (h1, r')
  /\ blocks_are h1 (m :: l).
Proof.
  assert (S : serializes (fun h _ => Ok (halloc h [])) (fun _ => Some [])).
  { intros h l n x A _. destruct (are_alloc h l [] A) as (h1 & E & A1). exists h1, (PBlock (h_next h)). split; [now rewrite E|]. eauto. }
  assert (A : blocks_are (mkHeap 2 [(0%nat, L "x"); (1%nat, [])]) ([(0%nat, L "x")] ++ (1%nat, []) :: [])).
  { split; [apply Permutation_refl|]. split; [cbn; repeat constructor; cbn; intuition discriminate|]. cbn. repeat constructor. }
  destruct (return_json_list bare_request [Some []]) as [r'|] eqn:R; [|exfalso; vm_compute in R; discriminate].
  destruct (json_list_h_eq _ _ _ _ _ _ bare_request (L "[]") r' S A) as (h1 & m & k & E & A1 & M & K).
  - repeat constructor. intros s Es. injection Es as <-. constructor.
  - exact R.
  - vm_compute. reflexivity.
  - exists (fun h _ => Ok (halloc h [])), (fun _ => Some []), (mkHeap 2 [(0%nat, L "x"); (1%nat, [])]), [], 1%nat, [(0%nat, L "x")], bare_request, h1, r'.
    destruct M as [(_ & M)|(M & _)]; [|exfalso; apply M; eexists; split; reflexivity]. destruct m as [|x [|y m]]; try discriminate.
    exists x. split; [exact S|]. split; [exact A|]. split; [exact E|].
    assert (k = []) as ->; [|exact A1]. destruct K as (a & b & Ha & Hb & Hk).
    assert (Q : forall name n, one_if (given_empty [] name) n -> n = 0%nat).
    { intros name n [((pre & x0 & post & E0 & _) & _)|(_ & ->)]; [destruct pre; discriminate|reflexivity]. }
    apply Q in Ha, Hb. subst. now destruct k.
Qed.

(** FileUtils_proofs.v - proofs about FileUtils.v. *)
From Verif Require Export StringUtils_proofs FileUtils ConfParser_proofs SpecConf Spec.

Lemma wr_hd x (b : buf) c : wr (x :: b) 0 c = Ok (Some c :: b).
Proof. exact (wr_at [] x b 0 c eq_refl). Qed.

Lemma stored_range content maxlen : 0 <= stored content maxlen <= len content.
Proof. unfold stored. pose proof (len_nonneg _ content). destruct (0 <? maxlen) eqn:E; lia. Qed.

Lemma read_file_len content maxlen :
  (if 0 <? maxlen then (if maxlen - 1 <? len content then maxlen - 1 else len content) else len content)
  = stored content maxlen.
Proof. unfold stored. destruct (0 <? maxlen); auto. destruct (maxlen - 1 <? len content) eqn:E; lia. Qed.

Lemma memcpy_0 (dst src : buf) n : 0 <= n -> n <= len src -> n <= len dst ->
  memcpy dst 0 src 0 n = Ok (firstn (Z.to_nat n) src ++ skipn (Z.to_nat n) dst).
Proof.
  intros H0 Hs Hd. unfold memcpy, slice. replace (n <? 0) with false by lia.
  replace ((0 <=? 0) && (0 + n <=? len src)) with true by lia. cbn [bind skipn Z.to_nat].
  rewrite write_at_0 by (rewrite len_firstn; lia). f_equal. f_equal. f_equal.
  rewrite firstn_length. unfold len in *. lia.
Qed.
Lemma memcpy_0_oob (dst src : buf) n : len dst < n -> n <= len src ->
  memcpy dst 0 src 0 n = UB OobWrite.
Proof.
  intros Hd Hs. unfold memcpy, slice. pose proof (len_nonneg _ dst). replace (n <? 0) with false by lia.
  replace ((0 <=? 0) && (0 + n <=? len src)) with true by lia. cbn [bind skipn Z.to_nat].
  apply write_at_oob. rewrite len_firstn. lia.
Qed.

Lemma read_file_eq f out path maxlen content : f path = Some (File content) ->
  stored content maxlen + 1 <= len out ->
  read_file f out path maxlen
  = Ok (map Some (firstn (Z.to_nat (stored content maxlen)) content)
        ++ Some NUL :: skipn (Z.to_nat (stored content maxlen) + 1) out).
Proof.
  intros Hf Hl. unfold read_file. pose proof (stored_range content maxlen) as R.
  destruct out as [|x out]; [cbn in Hl; lia|].
  rewrite len_cons in Hl. rewrite wr_hd. cbn [bind]. rewrite Hf, read_file_len.
  set (n := stored content maxlen) in *.
  rewrite memcpy_0; [|lia|rewrite len_map; lia|rewrite len_cons; lia]. cbn [bind].
  rewrite firstn_map. destruct (Z.to_nat n) as [|m] eqn:E.
  - cbn [firstn map skipn app]. replace n with 0 by lia. now rewrite wr_hd.
  - cbn [skipn]. assert (Hm : (m < length out)%nat) by (unfold len in Hl; lia).
    destruct (skipn m out) as [|y r] eqn:Es.
    { apply (f_equal (@length _)) in Es. rewrite skipn_length in Es. cbn in Es. lia. }
    rewrite wr_at.
    2:{ rewrite len_map, len_firstn. lia. }
    f_equal. f_equal. f_equal.
    replace (S m + 1)%nat with (S (m + 1)) by lia. cbn [skipn].
    assert (X : forall A k (l : list A) y r, skipn k l = y :: r -> skipn (k + 1) l = r).
    { clear. intros A k. induction k as [|k IH]; intros [|z l] y r H; try discriminate.
      - cbn in *. congruence.
      - cbn [skipn Nat.add] in *. eauto. }
    symmetry. eapply X; eauto.
Qed.

Lemma read_file_oob f out path maxlen content : f path = Some (File content) ->
  len out < stored content maxlen + 1 -> read_file f out path maxlen = UB OobWrite.
Proof.
  intros Hf Hl. unfold read_file. pose proof (stored_range content maxlen) as R.
  destruct out as [|x out]; [reflexivity|].
  rewrite len_cons in Hl. rewrite wr_hd. cbn [bind]. rewrite Hf, read_file_len.
  set (n := stored content maxlen) in *.
  destruct (n <=? len (Some NUL :: out)) eqn:E; rewrite len_cons in E.
  - rewrite memcpy_0; [|lia|rewrite len_map; lia|rewrite len_cons; lia]. cbn [bind]. apply wr_oob.
    rewrite len_app, len_firstn, len_skipn, len_map, len_cons. lens. lia.
  - rewrite memcpy_0_oob; [reflexivity|rewrite len_cons; lia|rewrite len_map; lia].
Qed.

Lemma visible_cstr content t r : visible content t -> cstr (map Some content ++ Some NUL :: r) = Ok t.
Proof.
  intros (q & E & Hi). replace (map Some content ++ Some NUL :: r) with (map Some (content ++ [NUL]) ++ r).
  2:{ rewrite map_app, <- app_assoc. reflexivity. }
  rewrite E, map_app, <- app_assoc. cbn [map app]. apply cstr_map. now apply no_nul_in.
Qed.

Lemma strstr_substring s p : (exists n, strstr s p = Some n) <-> substring p s.
Proof.
  split.
  - intros (n & E). apply strstr_some in E as ((a & b & E & _) & _). exists a, b. exact E.
  - intros (a & b & E). destruct (strstr s p) eqn:X; eauto. exfalso. eapply strstr_none in X; eauto.
Qed.

Lemma find_in_file_eq f path needle content t : f path = Some (File content) -> len content <= 8191 ->
  visible content t ->
  exists r, find_in_file f path needle = Ok r /\ (r = true <-> substring needle t).
Proof.
  intros Hf Hl Hv. unfold find_in_file, is_file. rewrite Hf. cbv iota.
  assert (S0 : stored content 0 = len content) by reflexivity.
  rewrite (read_file_eq f (calloc 8192) path 0 content) by (auto; rewrite S0, len_calloc; lia).
  rewrite S0, to_nat_len, firstn_all. cbn [bind].
  rewrite (visible_cstr content t) by auto. cbn [bind]. eexists. split; [reflexivity|].
  rewrite <- strstr_substring. destruct (strstr t needle); split; intros H; try discriminate; eauto.
  now destruct H.
Qed.
Lemma find_in_file_oob f path needle content : f path = Some (File content) -> 8192 <= len content ->
  find_in_file f path needle = UB OobWrite.
Proof.
  intros Hf Hl. unfold find_in_file, is_file. rewrite Hf. cbv iota.
  rewrite (read_file_oob f (calloc 8192) path 0 content); auto.
  unfold stored. change (0 <? 0) with false. cbv iota. rewrite len_calloc. lia.
Qed.
Lemma find_in_file_none f path needle : is_file f path = false -> find_in_file f path needle = Ok false.
Proof. intros H. unfold find_in_file. now rewrite H. Qed.

(** ** allowed_address *)

Lemma find_listed f p ip : small f p -> exists r, find_in_file f p ip = Ok r /\ (r = true <-> listed f p ip).
Proof.
  intros Hs. destruct (f p) as [[content|]|] eqn:E.
  - destruct (visible_exists content) as [t Ht].
    destruct (find_in_file_eq f p ip content t E (Hs _ E) Ht) as (r & -> & H). exists r. split; auto. rewrite H.
    split; [intros; exists content, t; auto|]. intros (c' & t' & E' & V & S). rewrite E in E'. inv E'.
    rewrite <- (visible_upto _ _ Ht), (visible_upto _ _ V). exact S.
  - exists false. split; [apply find_in_file_none; unfold is_file; now rewrite E|].
    split; [discriminate|]. intros (c' & t' & E' & _). congruence.
  - exists false. split; [apply find_in_file_none; unfold is_file; now rewrite E|].
    split; [discriminate|]. intros (c' & t' & E' & _). congruence.
Qed.

Lemma allowed_address_eq f g ip a d : ip_paths g = Ok (mkIpconf (ws_root g) a d) ->
  small f a -> small f d ->
  exists b, allowed_address f g ip = Ok (b, mkIpconf (ws_root g) a d)
   /\ (b = true <-> ~ listed f d ip /\ ((forall c, f a <> Some (File c)) \/ listed f a ip)).
Proof.
  intros E Sa Sd. unfold allowed_address. rewrite E. cbn [bind ws_deny ws_allow].
  destruct (find_listed f d ip Sd) as (rd & -> & Hd). cbn [bind].
  destruct rd.
  - exists false. split; auto. split; [discriminate|]. intros [H _]. exfalso. apply H. now apply Hd.
  - assert (Nd : ~ listed f d ip) by (intros X; apply Hd in X; discriminate).
    unfold is_file. destruct (f a) as [[c|]|] eqn:Ea; cbn [negb].
    + destruct (find_listed f a ip Sa) as (ra & -> & Ha). cbn [bind]. exists ra. split; auto. rewrite Ha.
      split; [auto|]. intros [_ [H|H]]; auto. exfalso. now apply (H c).
    + exists true. split; auto. split; auto. intros _. split; auto. left. congruence.
    + exists true. split; auto. split; auto. intros _. split; auto. left. congruence.
Qed.

Lemma ip_paths_first root al de : al = [] -> len root <= 277 ->
  ip_paths (mkIpconf root al de) = Ok (mkIpconf root (root ++ L "/etc/allow") (root ++ L "/etc/deny")).
Proof.
  intros -> H. unfold ip_paths. cbn [ws_allow ws_root]. change (len [] =? 0) with true. cbv iota.
  unfold ROOT_PATH_MAX.
  rewrite !fits_ok; [reflexivity| |]; rewrite len_app.
  - change (len (L "/etc/deny")) with 9. lia.
  - change (len (L "/etc/allow")) with 10. lia.
Qed.
Lemma ip_paths_later root al de : al <> [] -> ip_paths (mkIpconf root al de) = Ok (mkIpconf root al de).
Proof.
  intros H. unfold ip_paths. cbn [ws_allow].
  replace (len al =? 0) with false; auto. symmetry. apply Z.eqb_neq. destruct al; [easy|]. llia.
Qed.

Lemma ip_calls_later root l : Forall (fun c => small_lists root (snd (fst c))) l ->
  forall r0, exists bs, ip_calls (mkIpconf r0 (root ++ L "/etc/allow") (root ++ L "/etc/deny")) l = Ok bs
    /\ Forall2 (fun c b => b = true <-> allowed (snd (fst c)) root (snd c)) l bs.
Proof.
  induction 1 as [|[[r f] ip] l [Sa Sd] _ IH]; intros r0; [exists []; split; [reflexivity|constructor]|].
  cbn [ip_calls ws_allow ws_deny fst snd] in *.
  assert (E : root ++ L "/etc/allow" <> []) by (destruct root; discriminate).
  destruct (allowed_address_eq f (mkIpconf r (root ++ L "/etc/allow") (root ++ L "/etc/deny")) ip
             (root ++ L "/etc/allow") (root ++ L "/etc/deny")) as (b & -> & Hb); auto.
  { now apply ip_paths_later. }
  cbn [bind ws_root]. destruct (IH r) as (bs & -> & F). cbn [bind]. exists (b :: bs).
  split; auto.
Qed.

Lemma ip_calls_eq root f ip l g : ws_allow g = [] -> len root <= 277 ->
  Forall (fun c => small_lists root (snd (fst c))) ((root, f, ip) :: l) ->
  exists bs, ip_calls g ((root, f, ip) :: l) = Ok bs
    /\ Forall2 (fun c b => b = true <-> allowed (snd (fst c)) root (snd c)) ((root, f, ip) :: l) bs.
Proof.
  intros Hg Hr H. inversion H as [|? ? [Sa Sd] Hl]; subst. cbn [ip_calls fst snd] in *.
  destruct (allowed_address_eq f (mkIpconf root (ws_allow g) (ws_deny g)) ip
             (root ++ L "/etc/allow") (root ++ L "/etc/deny")) as (b & -> & Hb); auto.
  { rewrite Hg. now apply ip_paths_first. }
  cbn [bind ws_root]. destruct (ip_calls_later root l Hl root) as (bs & -> & F). cbn [bind]. exists (b :: bs).
  split; auto.
Qed.

(** ** lines and substrings *)
Lemma substring_lines c ls ip : ~ In c ip -> ip <> [] ->
  (substring ip (flat_map (fun l => l ++ [c]) ls) <-> exists l, In l ls /\ substring ip l).
Proof.
  intros Hc Hne. induction ls as [|l ls IH].
  - split; [|intros (l & [] & _)]. intros (a & b & E). destruct a; [destruct ip; [easy|discriminate]|discriminate].
  - cbn [flat_map]. split.
    + intros (a & b & E).
      (* the occurrence is in l or in the rest *)
      rewrite <- app_assoc in E. cbn [app] in E.
      destruct (Nat.le_gt_cases (length (a ++ ip)) (length l)) as [H|H].
      * exists l. split; [now left|]. exists a, (firstn (length l - length (a ++ ip)) b).
        pose proof (f_equal (firstn (length l)) E) as X.
        rewrite firstn_app, Nat.sub_diag, firstn_O, app_nil_r, firstn_all in X.
        rewrite app_assoc, firstn_app in X. rewrite (firstn_all2 (a ++ ip)) in X by lia.
        now rewrite <- app_assoc in X.
      * destruct (Nat.le_gt_cases (S (length l)) (length a)) as [H2|H2].
        -- destruct IH as [IH _]. destruct IH as (l' & I & S).
           ++ exists (skipn (S (length l)) a), b.
              pose proof (f_equal (skipn (S (length l))) E) as X.
              rewrite !skipn_app in X. rewrite (skipn_all2 l) in X by lia.
              replace (S (length l) - length l)%nat with 1%nat in X by lia.
              replace (S (length l) - length a)%nat with O in X by lia. exact X.
           ++ exists l'. split; auto. now right.
        -- exfalso. apply Hc.
           assert (N : nth_error (a ++ ip ++ b) (length l) = Some c).
           { rewrite <- E, nth_error_app2, Nat.sub_diag by lia. reflexivity. }
           rewrite app_length in H.
           rewrite nth_error_app2 in N by lia. rewrite nth_error_app1 in N by lia.
           now apply nth_error_In in N.
    + intros (l' & [->|I] & (a & b & E)).
      * exists a, (b ++ [c] ++ flat_map (fun l => l ++ [c]) ls). rewrite E. now rewrite <- !app_assoc.
      * destruct IH as [_ IH]. destruct IH as (a' & b' & E'); [exists l'; split; auto; exists a, b; auto|].
        exists ((l ++ [c]) ++ a'), b'. rewrite E'. now rewrite <- !app_assoc.
Qed.

Lemma write_file_eq f name data rest size : is_dir f name = false ->
  size = len data -> (exists s r, no_nul s /\ map Some data ++ rest = cs s ++ r) ->
  write_file f name (map Some data ++ rest) 0 size = Ok (upd f name (Some (File data))).
Proof.
  intros Hd -> (s & r & Hn & E). unfold write_file. rewrite from_0, E, strlen_cs by auto. cbn [bind].
  rewrite Hd, <- E. change (map Some data ++ rest) with ([] ++ map Some data ++ rest).
  rewrite slice_ok by (auto; now rewrite len_map). cbn [bind]. now rewrite defined_bytes_map.
Qed.

(** FailFiles_proofs.v - proofs about FailFiles.v. *)
From Verif Require Import Lemmas FileUtils_proofs HttpUtils_proofs Safe_proofs SpecSafe FailFiles SpecFailFiles SpecHttp SpecConf Spec.

Lemma fetched_len n c : len (fetched n c) = len c.
Proof. unfold fetched, len. rewrite app_length, firstn_length, repeat_length. lia. Qed.
Lemma fetched_all n c : (length c <= n)%nat -> fetched n c = c.
Proof. intros H. unfold fetched. rewrite firstn_all2 by lia. replace (length c - n)%nat with 0%nat by lia. apply app_nil_r. Qed.
Lemma visible_zeros s k t : visible s t -> visible (s ++ repeat NUL k) t.
Proof.
  intros (r & E & H). destruct k as [|k]; [rewrite app_nil_r; now exists r|]. exists (r ++ repeat NUL (S k)).
  split; [|exact H]. change (t ++ NUL :: r ++ repeat NUL (S k)) with (t ++ (NUL :: r) ++ repeat NUL (S k)). rewrite app_assoc, <- E, <- !app_assoc. f_equal.
  symmetry. apply (repeat_cons (S k) NUL).
Qed.
Lemma visible_unique s t t' : visible s t -> visible s t' -> t = t'.
Proof. intros A B. now rewrite <- (visible_upto _ _ A), <- (visible_upto _ _ B). Qed.

Definition as_read (n : nat) (f : fs) (p : str) : fs :=
  fun q => match f q with Some (File c) => Some (File (if str_eqb q p then fetched n c else c)) | x => x end.
Lemma as_read_at n f p : as_read n f p p = match f p with Some (File c) => Some (File (fetched n c)) | x => x end.
Proof. unfold as_read. now rewrite str_eqb_refl. Qed.
Lemma find_as_read n f p ip : find_in_file_e (Some n) f p ip = find_in_file (as_read n f p) p ip.
Proof.
  unfold find_in_file_e, find_in_file, is_file, read_file_e, read_file. rewrite as_read_at.
  destruct (f p) as [[c|]|]; auto. now rewrite fetched_len.
Qed.
Lemma seen_as_read n f p ip : seen (Some n) f p ip <-> listed (as_read n f p) p ip.
Proof.
  unfold seen, listed. rewrite as_read_at. split.
  - intros (c & t & F & V & S). cbn [part] in V. rewrite F. exists (fetched n c), t. split; [reflexivity|]. split; [now apply visible_zeros|exact S].
  - intros (c' & t & F & V & S). destruct (f p) as [[c|]|] eqn:E; try discriminate. injection F as <-.
    destruct (visible_exists (firstn n c)) as (t' & V'). exists c, t'. repeat split; auto.
    rewrite (visible_unique (fetched n c) t' t); auto. now apply visible_zeros.
Qed.
Lemma big_as_read n f p : big (as_read n f p) p <-> big f p.
Proof.
  unfold big. rewrite as_read_at. split.
  - intros (c' & F & B). destruct (f p) as [[c|]|]; try discriminate. injection F as <-. rewrite fetched_len in B. eauto.
  - intros (c & -> & B). exists (fetched n c). now rewrite fetched_len.
Qed.

(** Reading a list: undefined if it overflows, else whether the address was seen. *)
Lemma find_cases o f p ip :
  (overflows o f p /\ exists u, find_in_file_e o f p ip = UB u)
  \/ (~ overflows o f p /\ exists b, find_in_file_e o f p ip = Ok b /\ (b = true <-> seen o f p ip)).
Proof.
  destruct o as [n|].
  - rewrite find_as_read. destruct (small_or_big (as_read n f p) p) as [S|B].
    + right. split.
      * intros [_ G]. apply (big_as_read n) in G. destruct G as (c & E & G). specialize (S c E). lia.
      * destruct (find_listed _ _ ip S) as (b & E & H). exists b. split; [exact E|]. rewrite H. symmetry. apply seen_as_read.
    + left. split; [split; [discriminate|now apply (big_as_read n)]|]. rewrite (find_big _ _ ip B). eauto.
  - right. split; [intros [N _]; now apply N|]. unfold find_in_file_e, is_file, read_file_e, seen. destruct (f p) as [[c|]|] eqn:E.
    2,3: exists false; split; [reflexivity|]; split; [discriminate|]; intros (c & t & F & _); discriminate.
    change (calloc 8192) with (Some NUL :: calloc 8191). rewrite wr_hd. cbn [bind]. change (cstr (Some NUL :: calloc 8191)) with (Ok (A := str) []). cbn [bind]. eexists. split; [reflexivity|].
    pose proof (strstr_substring [] ip) as X. split.
    + intros H. exists c, []. split; [reflexivity|]. split; [exists []; split; [reflexivity|intros []]|]. apply X. destruct (strstr [] ip); [eauto|discriminate].
    + intros (c' & t & _ & V & S). assert (t = []) as -> by (rewrite <- (visible_upto _ _ V); reflexivity). apply X in S. destruct S as (n & ->). reflexivity.
Qed.
Lemma seen_none f p ip : ip <> [] -> ~ seen None f p ip.
Proof.
  intros N (c & t & _ & V & a & b & S). assert (t = []) as -> by (rewrite <- (visible_upto _ _ V); reflexivity). destruct a; [|discriminate]. destruct ip; [now apply N|discriminate].
Qed.

Lemma check_cases od oa f root d0 ip :
  (check_undefined od oa f root ip /\ exists u, allowed_address_e od oa f (mkIpconf root [] d0) ip = UB u)
  \/ (~ check_undefined od oa f root ip /\ exists b, allowed_address_e od oa f (mkIpconf root [] d0) ip = Ok (b, mkIpconf root (allow root) (deny root))
       /\ (b = true <-> let_in od oa f root ip)).
Proof.
  unfold check_undefined, let_in. destruct (Z.leb_spec (len root) 277) as [R|R].
  2:{ left. split; [now left|]. unfold allowed_address_e, ip_paths. cbn [ws_allow ws_root]. change (len [] =? 0) with true. cbv iota. unfold ROOT_PATH_MAX.
      rewrite fits_oob; [eexists; reflexivity|]. rewrite len_app. change (len (L "/etc/allow")) with 10. lia. }
  unfold allowed_address_e. rewrite (ip_paths_first root [] d0 eq_refl R). cbn [bind ws_deny ws_allow]. fold (deny root). fold (allow root).
  destruct (find_cases od f (deny root) ip) as [(O & u & E)|(O & b & E & H)]; rewrite E; cbn [bind].
  - left. split; [auto|]. now exists u.
  - destruct b.
    + right. pose proof (proj1 H eq_refl) as S. split; [intros [?|[?|[? _]]]; [lia|auto|auto]|]. exists false. split; [reflexivity|]. split; [discriminate|]. tauto.
    + assert (N : ~ seen od f (deny root) ip) by (intros X; apply H in X; discriminate).
      unfold is_file. destruct (f (allow root)) as [[c|]|] eqn:Ea; cbn [negb].
      * destruct (find_cases oa f (allow root) ip) as [(O' & u & E')|(O' & b & E' & H')]; rewrite E'; cbn [bind].
        -- left. split; [auto|]. now exists u.
        -- right. split; [intros [?|[?|[_ ?]]]; [lia|auto|auto]|]. exists b. split; [reflexivity|]. rewrite H'. unfold no_file. rewrite Ea. split; [auto|].
           intros [_ [G|G]]; [exfalso; now apply (G c)|exact G].
      * right. split; [intros [?|[?|[_ [_ (c & G & _)]]]]; [lia|auto|congruence]|]. exists true. split; [reflexivity|]. split; [|auto]. intros _. split; [exact N|]. left. intros c. congruence.
      * right. split; [intros [?|[?|[_ [_ (c & G & _)]]]]; [lia|auto|congruence]|]. exists true. split; [reflexivity|]. split; [|auto]. intros _. split; [exact N|]. left. intros c. congruence.
Qed.

(** The same when the names of the lists are known already. *)
Lemma check_later od oa f root al de ip : al <> [] ->
  let undef := overflows od f de \/ (~ seen od f de ip /\ overflows oa f al) in
  (undef /\ exists u, allowed_address_e od oa f (mkIpconf root al de) ip = UB u)
  \/ (~ undef /\ exists b, allowed_address_e od oa f (mkIpconf root al de) ip = Ok (b, mkIpconf root al de)
       /\ (b = true <-> ~ seen od f de ip /\ (no_file f al \/ seen oa f al ip))).
Proof.
  intros A undef. unfold undef, allowed_address_e. rewrite (ip_paths_later root al de A). cbn [bind ws_deny ws_allow].
  destruct (find_cases od f de ip) as [(O & u & E)|(O & b & E & H)]; rewrite E; cbn [bind].
  - left. split; [auto|]. now exists u.
  - destruct b.
    + right. pose proof (proj1 H eq_refl) as S. split; [intros [?|[? _]]; auto|]. exists false. split; [reflexivity|]. split; [discriminate|]. tauto.
    + assert (N : ~ seen od f de ip) by (intros X; apply H in X; discriminate).
      unfold is_file. destruct (f al) as [[c|]|] eqn:Ea; cbn [negb].
      * destruct (find_cases oa f al ip) as [(O' & u & E')|(O' & b & E' & H')]; rewrite E'; cbn [bind].
        -- left. split; [auto|]. now exists u.
        -- right. split; [intros [?|[_ ?]]; auto|]. exists b. split; [reflexivity|]. rewrite H'. unfold no_file. rewrite Ea. split; [auto|].
           intros [_ [G|G]]; [exfalso; now apply (G c)|exact G].
      * right. split; [intros [?|[_ [_ (c & G & _)]]]; [auto|congruence]|]. exists true. split; [reflexivity|]. split; [|auto]. intros _. split; [exact N|]. left. intros c. congruence.
      * right. split; [intros [?|[_ [_ (c & G & _)]]]; [auto|congruence]|]. exists true. split; [reflexivity|]. split; [|auto]. intros _. split; [exact N|]. left. intros c. congruence.
Qed.

(** What is seen is there, and all of it is seen when all was read. *)
Lemma seen_listed o f p ip : seen o f p ip -> listed f p ip.
Proof.
  intros (c & t & F & V & a & b & S). destruct (visible_exists c) as (t' & V'). exists c, t'. repeat split; auto.
  assert (P : exists q, t' = t ++ q).
  { rewrite <- (visible_upto _ _ V), <- (visible_upto _ _ V'). clear. destruct o as [n|]; cbn [part]; [|eexists; reflexivity]. revert n. induction c as [|x c IH]; intros [|n]; cbn [firstn upto_nul]; [now exists []|now exists []|eexists; reflexivity|].
    destruct (ceq x NUL); [now exists []|]. destruct (IH n) as (q & ->). now exists q. }
  destruct P as (q & ->). exists a, (b ++ q). rewrite S, <- !app_assoc. reflexivity.
Qed.
Lemma seen_whole o f p ip : read_whole o f p -> (seen o f p ip <-> listed f p ip).
Proof.
  intros (n & -> & H). split; [apply seen_listed|]. intros (c & t & F & V & S). exists c, t. repeat split; auto.
  cbn [part]. rewrite firstn_all2; auto. specialize (H c F). unfold len in H. lia.
Qed.
Lemma find_whole o f p ip : read_whole o f p -> find_in_file_e o f p ip = find_in_file f p ip.
Proof.
  intros (n & -> & H). rewrite find_as_read. unfold find_in_file, is_file, read_file. rewrite as_read_at.
  destruct (f p) as [[c|]|] eqn:E; auto. rewrite fetched_all; auto. specialize (H c eq_refl). unfold len in H. lia.
Qed.

Lemma fetched_body n c : body_of n c (fetched n c).
Proof.
  split; [apply fetched_len|]. unfold fetched. intros i x E. destruct (Nat.ltb_spec i n) as [G|G].
  - assert (Q : (i < length c)%nat).
    { destruct (Nat.lt_ge_cases i (length c)) as [Q|Q]; [exact Q|]. rewrite nth_error_app2 in E by (rewrite firstn_length; lia).
      replace (length c - n)%nat with 0%nat in E by lia. cbn [repeat] in E. destruct (i - _)%nat; discriminate. }
    rewrite nth_error_app1 in E by (rewrite firstn_length; lia). rewrite <- E. rewrite <- (firstn_skipn n c) at 1. apply nth_error_app1. rewrite firstn_length. lia.
  - rewrite nth_error_app2 in E by (rewrite firstn_length; lia). apply nth_error_In in E. now apply repeat_spec in E.
Qed.

Lemma page_read n f r hl name content sess : has_headers r hl -> f name = Some (File content) ->
  len (concat (header_sends name sess)) + len content <= 2 ^ 31 - 1 -> cstr (r_session r) = Ok sess -> len sess <= 493 ->
  exists r', direct_file_e (Some n) f r name = Ok (0, r')
   /\ let sends := header_sends name sess ++ [fetched n content] in answered_by r r' hl 200 sends (len (concat sends)).
Proof.
  intros Hh Hf Hc Hs Hl. pose proof (as_read_at n f name) as A. rewrite Hf in A.
  destruct (direct_file_by_exact (as_read n f name) r hl name (fetched n content) sess) as (r' & E & B); auto; [now rewrite fetched_len|].
  exists r'. split; [|exact B]. rewrite <- E. unfold direct_file_e, direct_file, is_file, return_file_e, return_file. now rewrite Hf, A, fetched_len.
Qed.
Lemma page_closed f r hl name content sess : has_headers r hl -> f name = Some (File content) -> cstr (r_session r) = Ok sess -> len sess <= 493 ->
  exists r', direct_file_e None f r name = Ok (0, r') /\ answered_by r r' hl 200 (header_sends name sess) (len (concat (header_sends name sess))).
Proof.
  intros Hh Hf Hs Hl. unfold direct_file_e, is_file. rewrite Hf. cbn [negb]. rewrite (return_headers_eq r name sess) by auto. cbn [bind].
  unfold return_file_e. rewrite Hf. cbn [bind]. pose proof (header_sends_len name sess Hl). pose proof (len_nonneg _ (concat (header_sends name sess))).
  rewrite int_add_ok by lia. cbn [bind]. rewrite Z.add_0_r.
  destruct (answered_log r hl 200 (header_sends name sess) (len (concat (header_sends name sess))) Hh) as (r' & E & A).
  unfold after in E. rewrite E. cbn [bind]. eauto.
Qed.

Lemma write_e_eq w f name data rest : is_dir f name = false -> (exists s r, no_nul s /\ map Some data ++ rest = cs s ++ r) ->
  write_file_e w f name (map Some data ++ rest) 0 (len data)
  = if w_opens w then Ok (upd f name (Some (File (firstn (w_taken w) data))), [])
    else Ok ((if is_file f name && w_removes w then upd f name None else f), [L "There was an error opening file: " ++ name]).
Proof.
  intros Hd (s & r & Hn & E). unfold write_file_e. rewrite from_0, E, strlen_cs by auto. cbn [bind]. rewrite Hd, <- E. destruct (w_opens w); cbn [orb negb]; [|reflexivity].
  change (map Some data ++ rest) with ([] ++ map Some data ++ rest). rewrite slice_ok by (auto; now rewrite len_map). cbn [bind]. rewrite defined_bytes_map. cbn [bind].
  pose proof (len_nonneg _ (firstn (w_taken w) data)). destruct (Z.ltb_spec (len (firstn (w_taken w) data)) 0); [lia|reflexivity].
Qed.

Lemma lines_first n c ls : lines n c ls -> forall k, lines n (concat (firstn k ls)) (firstn k ls).
Proof.
  induction 1 as [|l Hne Hi Hl|l r ls Hi Hl H IH|l r ls Hne Hi Hl H IH]; intros [|k]; try apply lines_nil.
  - cbn [firstn]. rewrite firstn_nil. cbn [concat]. rewrite app_nil_r. now apply lines_last.
  - cbn [firstn concat]. rewrite <- app_assoc. cbn [app]. now apply lines_nl.
  - cbn [firstn concat]. now apply lines_full.
Qed.
Lemma parse_cut path flags ls : forall k c fuel, lines 511 c ls -> (length (concat (firstn k ls)) <= fuel)%nat ->
  parse_loop_e k path flags c = parse_loop fuel path flags (concat (firstn k ls)).
Proof.
  induction ls as [|l ls IH]; intros [|k] c fuel Hc Hf.
  - destruct fuel; reflexivity.
  - apply lines_fgets in Hc. change (511 + 1) with MAX_LINE_LEN in Hc. cbn [parse_loop_e firstn concat]. rewrite Hc. destruct fuel; reflexivity.
  - destruct fuel; reflexivity.
  - pose proof (lines_first _ _ _ Hc (S k)) as Hp. pose proof (lines_fgets _ _ _ Hc) as (r & E & Hr & _). cbn [firstn] in Hp.
    pose proof (lines_fgets _ _ _ Hp) as (r' & E' & Hr' & Hlt). change (511 + 1) with MAX_LINE_LEN in E, E'.
    assert (R : r' = concat (firstn k ls)) by (symmetry; apply (lines_concat 511); exact Hr').
    cbn [firstn] in Hf |- *. destruct fuel as [|fuel]; [lia|]. cbn [parse_loop_e parse_loop]. rewrite E, E'.
    rewrite R in Hlt |- *. destruct (conf_parse_first_pass (upto_nul l)) as [[i|]|]; cbn [bind]; auto.
    rewrite <- (IH k r fuel Hr) by lia. reflexivity.
Qed.

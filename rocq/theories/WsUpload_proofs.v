(** WsUpload_proofs.v - lemmas about file parts of a multipart body (/repo/ws.c:216-242). *)
From Verif Require Import WsMultipart Lemmas StringUtils_proofs FileUtils_proofs JsonUtils_proofs WsMultipart_proofs SpecMultipart Spec.

(** A text whose first byte occurs in it once cannot overlap itself. *)
Lemma first_before c n x y a b : ~ In c n -> ~ holds (c :: n) x -> x ++ (c :: n) ++ y = a ++ (c :: n) ++ b -> (length x <= length a)%nat.
Proof.
  intros Hc Hx E. apply app_eq_app in E as (l & [[Ex El]|[Ea _]]); [|subst a; rewrite app_length; lia].
  destruct l as [|d l]; [rewrite app_nil_r in Ex; subst; lia|]. exfalso. apply app_eq_app in El as (k & [[Ek Eb]|[Ek Eb]]).
  - (* c :: n = (d :: l) ++ k *) destruct k as [|e k].
    + rewrite app_nil_r in Ek. apply Hx. exists a, []. now rewrite app_nil_r, Ek.
    + cbn [app] in Ek, Eb. injection Ek as -> ->. injection Eb as <- _. apply Hc. apply in_or_app. right. now left.
  - apply Hx. exists a, k. now rewrite Ek in Ex.
Qed.
Lemma visible_firstn n k : firstn k (visible n) = visible (firstn k n).
Proof.
  revert k. induction n as [|c n IH]; intros [|k]; try reflexivity. cbn [visible firstn]. destruct (_ && _); [|reflexivity]. cbn [firstn]. now rewrite IH.
Qed.
Lemma visible_app_dq a b : visible (a ++ DQ :: b) = visible a.
Proof. induction a as [|c a IH]; [reflexivity|]. cbn [visible app]. destruct (_ && _); [now rewrite IH|reflexivity]. Qed.
Lemma visible_chopped n : Forall chopped (visible n).
Proof. induction n as [|c n IH]; [constructor|]. cbn [visible]. destruct (_ && _) eqn:E; [|constructor]. constructor; [unfold chopped; lia|exact IH]. Qed.
(** chop_string of any string. *)
Lemma chop_visible s rest : no_nul s -> exists r, chop_string (cs s ++ rest) = Ok (cs (visible s) ++ r).
Proof.
  intros Hn. destruct (Forall_Exists_dec chopped chopped_dec s) as [F|X].
  - assert (E : visible s = s). { clear Hn. induction F as [|c s Hc _ IH]; [reflexivity|]. cbn [visible]. unfold chopped in Hc. replace ((34 <? code c) && (code c <? 128)) with true by lia. now rewrite IH. }
    rewrite E. exists rest. now apply chop_none.
  - assert (E : exists c q, s = visible s ++ c :: q /\ ~ chopped c).
    { clear Hn. induction s as [|d s IH]; [inversion X|]. cbn [visible]. destruct ((34 <? code d) && (code d <? 128)) eqn:E.
      - inversion X as [? ? H|? ? H]; subst; [unfold chopped in H; lia|]. destruct (IH H) as (c & q & E1 & H1). exists c, q. split; [cbn [app]; now rewrite <- E1|exact H1].
      - exists d, s. split; [reflexivity|]. unfold chopped. lia. }
    destruct E as (c & q & E & Hc). exists (cs q ++ rest). rewrite E in Hn. rewrite E at 1. now rewrite chop_cut by (auto using visible_chopped).
Qed.
(** strncpy into 256 bytes, terminated at the last one. *)
Lemma strncpy_256 t r : no_nul t -> exists o q, strncpy (malloc 256) (cs t ++ r) 256 = Ok o /\ wr o 255 NUL = Ok (cs (firstn 255 t) ++ q).
Proof.
  intros Hn. unfold strncpy. rewrite cstrn_cs by auto. cbn [bind]. change (Z.to_nat 256) with 256%nat.
  set (w := map Some (firstn 256 t) ++ repeat (Some NUL) (256 - length (firstn 256 t))).
  assert (Lw : length w = 256%nat) by (unfold w; rewrite app_length, map_length, repeat_length, firstn_length; lia).
  assert (Ew : write_at (malloc 256) 0 w = Ok w).
  { rewrite write_at_0 by (unfold len; rewrite Lw; reflexivity). rewrite Lw. rewrite skipn_all2 by (unfold malloc; rewrite repeat_length; reflexivity). now rewrite app_nil_r. }
  rewrite Ew. exists w. destruct (Nat.le_gt_cases 256 (length t)) as [G|G].
  - exists []. split; [reflexivity|]. rewrite app_nil_r.
    assert (E : w = map Some (firstn 255 t) ++ map Some (firstn 1 (skipn 255 t))).
    { unfold w. rewrite firstn_length. replace (256 - Nat.min 256 (length t))%nat with O by lia. cbn [repeat]. rewrite app_nil_r, <- map_app. f_equal.
      rewrite <- (firstn_skipn 255 t) at 1. rewrite firstn_app, firstn_firstn, firstn_length. replace (Nat.min 256 255) with 255%nat by reflexivity.
      now replace (256 - Nat.min 255 (length t))%nat with 1%nat by lia. }
    assert (L1 : length (skipn 255 t) = S (length t - 256)) by (rewrite skipn_length; lia).
    destruct (skipn 255 t) as [|c k]; [discriminate|]. cbn [firstn map] in E. rewrite E. unfold cs.
    apply (wr_at (map Some (firstn 255 t)) (Some c) []). rewrite len_map. unfold len. rewrite firstn_length. lia.
  - destruct (Nat.eq_dec (length t) 255) as [E5|N5].
    + exists []. split; [reflexivity|]. rewrite app_nil_r. unfold w. rewrite firstn_all2 by lia. rewrite E5. cbn [repeat Nat.sub]. rewrite (firstn_all2 t) by lia.
      apply wr_at. rewrite len_map. unfold len. lia.
    + exists (repeat (Some NUL) (255 - length t)). split; [reflexivity|]. unfold w. rewrite (firstn_all2 t) by lia. rewrite (firstn_all2 t) by lia.
      assert (E : repeat (Some NUL) (256 - length t) = [Some NUL] ++ repeat (Some NUL) (254 - length t) ++ [Some NUL]).
      { replace (256 - length t)%nat with (1 + ((254 - length t) + 1))%nat by lia. now rewrite !repeat_app. }
      assert (E' : repeat (Some NUL) (255 - length t) = repeat (Some NUL) (254 - length t) ++ [Some NUL]).
      { replace (255 - length t)%nat with ((254 - length t) + 1)%nat by lia. now rewrite !repeat_app. }
      rewrite E, E'. unfold cs. rewrite <- !app_assoc. rewrite (app_assoc (map Some t)), (app_assoc (map Some t ++ [Some NUL])).
      rewrite wr_at; [now rewrite <- !app_assoc|]. rewrite !len_app, len_map. change (len [Some NUL]) with 1. unfold len. rewrite repeat_length. lia.
Qed.

Definition with_dir (e : mpenv) (f : fs) : fs :=
  if is_dir f FILE_DOWNLOAD_TMP_DIR then f else snd (check_createdir (mp_mkdir e) f FILE_DOWNLOAD_TMP_DIR).
Definition kept_path (e : mpenv) (data : str) : str := FILE_DOWNLOAD_TMP_DIR ++ L "/" ++ kept_name (mp_tid e) (mp_md5 e data).
Lemma kept_len e data : 0 <= mp_tid e < 2 ^ 64 -> length (mp_md5 e data) = 16%nat -> len (kept_name (mp_tid e) (mp_md5 e data)) <= 53.
Proof.
  intros Ht Hm. unfold kept_name. rewrite !len_app, hex_text_len. change (len (L "-")) with 1.
  destruct (dec_nat_spec (mp_tid e)) as (_ & _ & _ & D); [lia|]. specialize (D 20). unfold len in *. lia.
Qed.
Lemma save_upload e f tf field sf pre data rest t r n : (exists s r, rest = s ++ NUL :: r) ->
  from (map Some (pre ++ data ++ rest)) sf = cs t ++ r -> no_nul t -> n - len pre - 2 = len data ->
  129 <= mp_md5_size e -> length (mp_md5 e data) = 16%nat -> 0 <= mp_tid e < 2 ^ 64 -> is_dir (with_dir e f) (kept_path e data) = false ->
  save_tmp_file e f tf field sf (map Some (pre ++ data ++ rest)) (len pre) n
  = (t <- strcat tf (field ++ L "=" ++ firstn 255 (visible t) ++ L "&tmpfile=" ++ kept_name (mp_tid e) (mp_md5 e data));;
     Ok (t, upd (with_dir e f) (kept_path e data) (Some (File data)))).
Proof.
  intros (rs & rr & Er) Efrom Ht En Hsize Hm Htid Hdir. unfold save_tmp_file. rewrite Efrom.
  destruct (strncpy_256 t r Ht) as (o & q & E1 & E2). change MAX_ORIG_FILENAME with 256. rewrite E1. cbn [bind]. change (256 - 1) with 255. rewrite E2. cbn [bind].
  destruct (chop_visible (firstn 255 t) q) as (r2 & E3); [now apply no_nul_firstn|]. rewrite E3. cbn [bind]. rewrite <- visible_firstn.
  rewrite cstr_cs by (apply no_nul_firstn; now apply visible_no_nul). cbn [bind].
  fold (with_dir e f). rewrite En.
  assert (LM : len (malloc (mp_md5_size e)) = mp_md5_size e) by (unfold malloc, len; rewrite repeat_length; lia).
  destruct (md5sum_eq (mp_md5 e) (malloc (mp_md5_size e)) data (len data) (map Some rest) pre) as (j & E4 & _); auto; [lia|].
  rewrite <- (map_app Some (pre ++ data)) in E4. rewrite <- app_assoc in E4. rewrite E4. cbn [bind].
  rewrite cstr_cs by apply hex_text_no_nul. cbn [bind]. fold (kept_name (mp_tid e) (mp_md5 e data)).
  pose proof (kept_len e data Htid Hm) as K.
  rewrite fits_ok by lia. cbn [bind]. rewrite fits_ok.
  2:{ rewrite !len_app. change (len FILE_DOWNLOAD_TMP_DIR) with 10. change (len (L "/")) with 1. lia. }
  cbn [bind]. fold (kept_path e data). unfold write_file.
  assert (E5 : exists k, strlen (from (map Some (pre ++ data ++ rest)) (len pre)) = Ok k).
  { rewrite map_app, from_app by (now rewrite len_map). rewrite Er. destruct (first_nul (data ++ rs ++ NUL :: rr)) as (s1 & r1 & -> & Hs1).
    - apply in_or_app. right. apply in_or_app. right. now left.
    - rewrite as_cs. eexists. now apply strlen_cs. }
  destruct E5 as (k & E5). rewrite E5. cbn [bind]. rewrite Hdir.
  rewrite !map_app. rewrite slice_ok by (now rewrite len_map). cbn [bind]. rewrite defined_bytes_map. cbn [bind]. reflexivity.
Qed.

Definition as_field (u : upload) : field := mkField (up_field u ++ [DQ] ++ filename_mark ++ up_name u) (up_lines u) (up_data u).
Lemma upload_is u : upload_part u = part_of (as_field u). Proof. reflexivity. Qed.
Definition header_of (u : upload) : str := CRLF ++ disposition (fd_name (as_field u)) ++ CRLF ++ flat_map (fun l => l ++ CRLF) (up_lines u) ++ CRLF.
Lemma part_header u : upload_part u = header_of u ++ up_data u ++ CRLF.
Proof. unfold upload_part, part_of, header_of, as_field. cbn [fd_name fd_lines fd_value]. now rewrite <- !app_assoc. Qed.
Lemma header_no_nul bnd u : clean_upload bnd u -> no_nul (header_of u).
Proof.
  intros ((_ & Nd & _) & _ & Cl & _). unfold header_of. apply no_nul_app. split; [apply no_nul_dec_b; reflexivity|]. apply no_nul_app. split; [exact Nd|]. apply no_nul_app. split; [apply no_nul_dec_b; reflexivity|].
  apply no_nul_app. split; [|apply no_nul_dec_b; reflexivity].
  induction Cl as [|l ls (_ & H & _) _ IH]; cbn [flat_map]; [constructor|]. apply no_nul_app. split; [|exact IH]. apply no_nul_app. split; [exact H|apply no_nul_dec_b; reflexivity].
Qed.
Definition after_name (u : upload) : str := [DQ] ++ CRLF ++ flat_map (fun l => l ++ CRLF) (up_lines u) ++ CRLF.
Lemma header_form u : header_of u = (head_text ++ FORM_DATA_NAME) ++ up_field u ++ DQ :: FILENAME ++ up_name u ++ after_name u.
Proof. unfold header_of, after_name, as_field, disposition. cbn [fd_name]. rewrite <- !app_assoc. reflexivity. Qed.
Lemma header_file u : header_of u = (CRLF ++ disposition (up_field u)) ++ FILENAME ++ up_name u ++ after_name u.
Proof. unfold header_of, after_name, as_field, disposition. cbn [fd_name]. rewrite <- !app_assoc. reflexivity. Qed.

Lemma part_upload e f bnd u stale s room : clean_upload bnd u -> (exists q, stale = q ++ [NUL]) -> no_nul s ->
  129 <= mp_md5_size e -> length (mp_md5 e (up_data u)) = 16%nat -> 0 <= mp_tid e < 2 ^ 64 -> is_dir (with_dir e f) (kept_path e (up_data u)) = false ->
  part_parse e f (cs s ++ room) (map Some (upload_part u ++ stale)) (len (upload_part u))
  = (tf <- (if 0 <? len s then strcat (cs s ++ room) (L "&") else Ok (cs s ++ room));;
     t <- strcat tf (upload_pair u (mp_tid e) (mp_md5 e (up_data u)));;
     Ok (t, upd (with_dir e f) (kept_path e (up_data u)) (Some (File (up_data u))))).
Proof.
  intros Hu Hst Hs Hsize Hm Htid Hdir. pose proof (header_no_nul bnd u Hu) as Hh.
  destruct Hu as ((_ & Nd & CRd & LFd & _) & Fd & Cl & _).
  destruct (text_prefix (header_of u) (up_data u ++ CRLF) stale Hh Hst) as (v & r & Et & Hv). rewrite <- part_header in Et.
  assert (Hvv : no_nul v) by (apply no_nul_app in Hv; tauto).
  assert (En : strlen (map Some (upload_part u ++ stale)) = Ok (len (header_of u ++ v))) by (rewrite Et, as_cs; now apply strlen_cs).
  assert (L1 : len (head_text ++ FORM_DATA_NAME) = 40) by reflexivity.
  assert (LH : 52 <= len (header_of u)). { rewrite header_form, len_app, L1. rewrite len_app, len_cons, len_app. change (len FILENAME) with 12. pose proof (len_nonneg _ (up_field u)). pose proof (len_nonneg _ (up_name u ++ after_name u)). lia. }
  pose proof (len_nonneg _ v) as Lv.
  assert (E2 : text_find_after (map Some (upload_part u ++ stale)) FORM_DATA_NAME 0 (len (header_of u ++ v)) = Ok 40).
  { rewrite Et, map_app. cbn [map]. rewrite text_find_after_eq by (try lia; try discriminate; apply no_nul_dec_b; reflexivity).
    replace (len (header_of u ++ v) <=? 0) with false by (rewrite len_app; lia).
    rewrite header_form, <- !app_assoc. cbn [Z.to_nat skipn]. reflexivity. }
  set (h1 := up_field u ++ DQ :: FILENAME ++ up_name u ++ after_name u).
  assert (Eh1 : header_of u = (head_text ++ FORM_DATA_NAME) ++ h1) by apply header_form.
  assert (E3 : strlen (from (map Some (upload_part u ++ stale)) 40) = Ok (len (h1 ++ v))).
  { rewrite Et, Eh1, <- app_assoc, <- app_assoc, map_app, from_app by (now rewrite len_map). rewrite app_assoc, as_cs. apply strlen_cs.
    rewrite Eh1, <- app_assoc in Hv. apply no_nul_app in Hv. tauto. }
  set (w1 := h1 ++ up_data u ++ CRLF).
  assert (Ep : upload_part u = (head_text ++ FORM_DATA_NAME) ++ w1) by (rewrite part_header, Eh1; unfold w1; now rewrite <- !app_assoc).
  assert (L3 : len (upload_part u) - 40 = len w1) by (rewrite Ep, len_app, L1; lia).
  assert (Lh1 : len (header_of u) = 40 + len h1) by (rewrite Eh1, len_app, L1; lia).
  unfold part_parse. rewrite En. cbn [bind]. rewrite E2. cbn [bind]. change (40 <? 1) with false. cbv iota. rewrite E3. cbn [bind].
  replace (len (h1 ++ v) <=? 0) with false by (rewrite len_app; lia). rewrite L3.
  assert (E4 : memcpy (calloc (len (upload_part u) + 1)) 0 (map Some (upload_part u ++ stale)) 40 (len w1) = Ok (map Some w1 ++ calloc (40 + 1))).
  { rewrite Ep at 2. rewrite <- app_assoc. rewrite <- L1 at 1. rewrite to_calloc by (pose proof (len_nonneg _ w1); lia). do 3 f_equal. lia. }
  rewrite E4. cbn [bind]. change (calloc (40 + 1)) with (Some NUL :: calloc 40). rewrite wr_at by (now rewrite len_map). cbn [bind].
  destruct (first_nul (up_data u ++ CRLF ++ [NUL])) as (s2 & r2 & E5 & Hs2); [apply in_or_app; right; apply in_or_app; right; now left|].
  assert (E6 : map Some w1 ++ Some NUL :: calloc 40 = cs (h1 ++ s2) ++ map Some r2 ++ calloc 40).
  { change (Some NUL :: calloc 40) with (map Some [NUL] ++ calloc 40). rewrite app_assoc, <- map_app. unfold w1. rewrite <- !app_assoc, E5, app_assoc, as_cs. now rewrite <- !app_assoc. }
  rewrite E6. assert (Nh1 : no_nul (h1 ++ s2)) by (apply no_nul_app; split; [rewrite Eh1 in Hh; apply no_nul_app in Hh; tauto|exact Hs2]).
  destruct (chop_visible (h1 ++ s2) (map Some r2 ++ calloc 40) Nh1) as (r3 & E7). rewrite E7. cbn [bind].
  rewrite cstr_cs by (now apply visible_no_nul). cbn [bind].
  replace (visible (h1 ++ s2)) with (visible (up_field u)) by (unfold h1; rewrite <- app_assoc; cbn [app]; now rewrite visible_app_dq).
  assert (Pl : Forall plain_line (fd_lines (as_field u))) by (eapply Forall_impl; [|exact Cl]; intros l (H1 & _ & H2 & _); split; auto).
  assert (CRn : ~ In CR (fd_name (as_field u))). { intros I. apply CRd. unfold disposition. apply in_or_app. right. apply in_or_app. right. apply in_or_app. now left. }
  destruct (data_place (as_field u) Pl CRn) as (z & Ez & Hz). rewrite <- upload_is in Ez. change (fd_value (as_field u)) with (up_data u) in Ez.
  assert (Eh : header_of u = z ++ CRLF ++ CRLF). { apply (app_inv_tail (up_data u ++ CRLF)). rewrite <- part_header, Ez. now rewrite <- !app_assoc. }
  assert (E8 : text_find_after (map Some (upload_part u ++ stale)) (CRLF ++ CRLF) 0 (len (upload_part u)) = Ok (len (header_of u))).
  { rewrite (first_found (CRLF ++ CRLF) (upload_part u) stale z (up_data u ++ CRLF)); [rewrite Eh, !len_app; reflexivity|discriminate|exact Ez|].
    intros a b E. apply (Hz (up_data u ++ CRLF) a b). now rewrite <- Ez. }
  rewrite E8. cbn [bind]. rewrite strlen_cs by auto. cbn [bind]. apply bind_ext. intros tf.
  assert (E9 : text_find_after (map Some (upload_part u ++ stale)) FILENAME 0 (len (header_of u ++ v)) = Ok (len (CRLF ++ disposition (up_field u)) + 12)).
  { rewrite Et. rewrite (first_found FILENAME (header_of u ++ v) (NUL :: r) (CRLF ++ disposition (up_field u)) ((up_name u ++ after_name u) ++ v)); [reflexivity|discriminate| |].
    - rewrite header_file. now rewrite <- !app_assoc.
    - intros a b E. rewrite header_file, <- !app_assoc in E.
      apply (first_before ";"%char (L " filename=" ++ [DQ]) (CRLF ++ disposition (up_field u)) (up_name u ++ after_name u ++ v) a b).
      + apply text_without. reflexivity.
      + unfold CRLF. cbn [app]. apply free_tail; [apply text_without; reflexivity|discriminate|]. apply free_tail; [apply text_without; reflexivity|discriminate|]. exact Fd.
      + rewrite <- app_assoc. exact E. }
  rewrite E9. cbn [bind]. replace (0 <? len (header_of u)) with true by lia.
  replace (0 <? len (CRLF ++ disposition (up_field u)) + 12) with true by (pose proof (len_nonneg _ (CRLF ++ disposition (up_field u))); lia).
  set (t := up_name u ++ after_name u ++ v).
  assert (Nt : no_nul t). { rewrite header_file, <- !app_assoc in Hv. unfold t. apply no_nul_app in Hv as [_ Hv]. apply no_nul_app in Hv as [_ Hv]. apply no_nul_app in Hv as [_ Hv]. exact Hv. }
  assert (Eall : upload_part u ++ stale = header_of u ++ up_data u ++ CRLF ++ stale) by (rewrite part_header; now rewrite <- !app_assoc).
  rewrite Eall.
  rewrite (save_upload e f tf (visible (up_field u)) _ (header_of u) (up_data u) (CRLF ++ stale) t (map Some r)); auto.
  - unfold upload_pair. replace (visible t) with (visible (up_name u)); [reflexivity|]. unfold t, after_name. cbn [app]. now rewrite visible_app_dq.
  - destruct Hst as (q & ->). exists (CRLF ++ q), []. now rewrite <- app_assoc.
  - rewrite <- Eall, Et, header_file, <- !app_assoc.
    rewrite (app_assoc CRLF), app_assoc. rewrite map_app, from_app; [unfold t; rewrite !app_assoc; apply as_cs|]. rewrite len_map, !len_app. reflexivity.
  - rewrite part_header, !len_app. change (len CRLF) with 2. lia.
Qed.

(** ** A body of fields and a last file part *)
Lemma loop_one k e f bnd body before gap p q t tf tf' f' : clean_boundary bnd -> len body < 2 ^ 31 ->
  body = before ++ gap ++ bnd ++ p ++ bnd ++ q -> gap_ok bnd gap -> old_ok body t -> (exists w, p = CR :: w ++ [LF]) -> ~ holds bnd p -> ~ holds bnd q ->
  (forall stale, (exists q, stale = q ++ [NUL]) -> part_parse e f tf (map Some (p ++ stale)) (len p) = Ok (tf', f')) -> (exists s r, tf' = cs s ++ r) ->
  multipart_loop (S k) e f (map Some body ++ [Some NUL]) (map Some t) tf bnd (len body) (len before) = Ok (tf', f').
Proof.
  intros Hb Hlen Eb Hg (Lt & Ht & Ft) (w & Ew) Hp Hq U (s & r & Es). pose proof Hb as (Bne & Bn & Bcr & Blf).
  set (start := before ++ gap ++ bnd).
  assert (Lb : 0 < len bnd) by (destruct bnd; [easy|rewrite len_cons; pose proof (len_nonneg _ bnd); lia]).
  assert (LL : len body = len start + len p + len bnd + len q) by (rewrite Eb; unfold start; rewrite !len_app; lia).
  pose proof (len_nonneg _ before). pose proof (len_nonneg _ gap). pose proof (len_nonneg _ q). pose proof (len_nonneg _ p).
  assert (Lst : len start = len before + len gap + len bnd) by (unfold start; rewrite !len_app; lia).
  assert (E1 : text_find_after (map Some body ++ [Some NUL]) bnd (len before) (len body) = Ok (len start)).
  { rewrite Lst. rewrite Eb at 1. apply text_find_here; auto; [lia|]. intros a b E. now apply (boundary_first bnd gap (p ++ bnd ++ q)) in E. }
  assert (Eb' : body = start ++ p ++ bnd ++ q) by (rewrite Eb; unfold start; now rewrite <- !app_assoc).
  assert (E2 : text_find_after (map Some body ++ [Some NUL]) bnd (len start) (len body) = Ok (len start + len p + len bnd)).
  { rewrite Eb' at 1. apply text_find_here; auto; [lia|]. intros a b E. apply (boundary_first bnd p q) in E; auto. right. split; [exists (CR :: w); exact Ew|exact Hp]. }
  assert (E3 : memcpy (map Some t) 0 (map Some body ++ [Some NUL]) (len start) (len p) = Ok (map Some (p ++ skipn (length p) t))).
  { rewrite Eb'. rewrite !map_app, <- !app_assoc. unfold memcpy. rewrite slice_ok by (now rewrite len_map). cbn [bind].
    rewrite write_at_0 by (rewrite !len_map; unfold len in *; lia). rewrite map_length. now rewrite skipn_map. }
  assert (Hst : exists q, skipn (length p) t = q ++ [NUL]) by (apply ends_skipn; auto; unfold len in *; lia).
  assert (T : exists b', trim (map Some (p ++ skipn (length p) t)) = Ok b').
  { destruct (first_nul (p ++ skipn (length p) t)) as (s1 & r1 & -> & Hs1); [destruct Hst as (q1 & ->); apply in_or_app; right; apply in_or_app; right; now left|].
    rewrite as_cs. destruct (trim_holds s1 (map Some r1) Hs1) as (? & ? & E & _). eauto. }
  destruct T as (b' & T).
  cbn [multipart_loop]. replace (len before <? len body) with true by lia. rewrite E1. cbn [bind]. replace (len start <? 0) with false by lia.
  rewrite E2. cbn [bind]. replace (len start + len p + len bnd <? 0) with false by lia.
  replace (len start + len p + len bnd - len start - len bnd) with (len p) by lia.
  rewrite to_int_id by lia. rewrite E3. cbn [bind]. rewrite U by auto. cbn [bind]. rewrite T. cbn [bind]. rewrite Es.
  replace (len start + 1) with (len (start ++ [CR])) by (rewrite len_app; reflexivity).
  apply (loop_end k e f' bnd body (start ++ [CR]) (w ++ [LF]) q); auto.
  - rewrite Eb', Ew, <- !app_assoc. cbn [app]. now rewrite <- !app_assoc.
  - right. split; [eauto|]. intros X. apply Hp. rewrite Ew. change (CR :: w ++ [LF]) with ([CR] ++ w ++ [LF]). now apply holds_r.
Qed.
Lemma and_then_amp s t : and_then s t = s ++ amp s ++ t.
Proof. destruct s; reflexivity. Qed.
Lemma upload_no_bnd bnd u : clean_boundary bnd -> clean_upload bnd u -> ~ holds bnd (upload_part u).
Proof.
  intros (Bne & Bn & Bcr & Blf) ((_ & _ & _ & _ & Bd) & _ & Cl & Bv). destruct (part_free bnd (as_field u)) as (P & _); auto.
  eapply Forall_impl; [|exact Cl]. now intros l (_ & _ & _ & _ & H).
Qed.
Lemma upload_pair_no_nul bnd u tid d : clean_upload bnd u -> 0 <= tid -> no_nul (upload_pair u tid d).
Proof.
  intros Hu Ht. pose proof (header_no_nul bnd u Hu) as Hh. rewrite header_form in Hh. apply no_nul_app in Hh as [_ Hh]. apply no_nul_app in Hh as [H1 Hh].
  apply no_nul_cons in Hh as [_ Hh]. apply no_nul_app in Hh as [_ Hh]. apply no_nul_app in Hh as [H2 _].
  unfold upload_pair, kept_name. apply no_nul_app. split; [now apply visible_no_nul|]. apply no_nul_app. split; [apply no_nul_dec_b; reflexivity|].
  apply no_nul_app. split; [apply no_nul_firstn; now apply visible_no_nul|]. apply no_nul_app. split; [apply no_nul_dec_b; reflexivity|].
  apply no_nul_app. split; [now apply dec_nat_no_nul|]. apply no_nul_app. split; [apply no_nul_dec_b; reflexivity|apply hex_text_no_nul].
Qed.
Lemma multipart_upload e f pre bnd xs u tail : clean_boundary bnd -> clean_preamble bnd pre -> Forall (clean_field bnd) xs -> clean_upload bnd u -> ~ holds bnd tail ->
  len (body_of pre bnd xs (upload_part u ++ bnd ++ tail)) < 2 ^ 31 ->
  129 <= mp_md5_size e -> length (mp_md5 e (up_data u)) = 16%nat -> 0 <= mp_tid e < 2 ^ 64 -> is_dir (with_dir e f) (kept_path e (up_data u)) = false ->
  let body := body_of pre bnd xs (upload_part u ++ bnd ++ tail) in
  let out := and_then (form_of xs) (upload_pair u (mp_tid e) (mp_md5 e (up_data u))) in
  (len out <= len body -> exists form, multipart_parse e f (cs body) bnd (len body) = Ok (form, upd (with_dir e f) (kept_path e (up_data u)) (Some (File (up_data u))))
     /\ cstr form = Ok out)
  /\ (len body < len out -> undefined (multipart_parse e f (cs body) bnd (len body))).
Proof.
  intros Hb Hp Hx Hu Ht Hlen Hsize Hm Htid Hdir body out.
  destruct (fields_then e f pre bnd xs (upload_part u ++ bnd ++ tail) Hb Hp Hx Hlen) as (k & t & before & gap & (Hold & _) & Hg & Eb & E). fold body in Hold, Eb, E, Hlen.
  assert (Nf : no_nul (form_of xs)) by (eapply form_no_nul; eauto).
  assert (Np := upload_pair_no_nul bnd u (mp_tid e) (mp_md5 e (up_data u)) Hu (proj1 Htid)).
  pose proof (added_le bnd [] xs) as AL. rewrite added_form in AL.
  assert (LB : len (form_of xs) + len (upload_part u) <= len body) by (unfold body, body_of; rewrite !len_app; pose proof (len_nonneg _ pre); pose proof (len_nonneg _ bnd); pose proof (len_nonneg _ tail); lia).
  assert (Lpart : 1 <= len (upload_part u)) by (destruct (part_cr (as_field u)) as (w & Ew); rewrite upload_is, Ew, len_cons; pose proof (len_nonneg _ (w ++ [LF])); lia).
  set (room := calloc (len body - len (form_of xs))).
  assert (Lroom : len room = len body - len (form_of xs)) by (unfold room, calloc, len at 1; rewrite repeat_length; lia).
  assert (Eamp : (if 0 <? len (form_of xs) then strcat (cs (form_of xs) ++ room) (L "&") else Ok (cs (form_of xs) ++ room)) = Ok (cs (form_of xs ++ amp (form_of xs)) ++ skipn (length (amp (form_of xs))) room)).
  { destruct (form_of xs) as [|c0 s0] eqn:Ef; [reflexivity|]. replace (0 <? len (c0 :: s0)) with true by (symmetry; apply Z.ltb_lt; rewrite len_cons; pose proof (len_nonneg _ s0); lia).
    cbn [amp]. rewrite strcat_cs; auto. change (len (L "&")) with 1. lia. }
  assert (Na : no_nul (form_of xs ++ amp (form_of xs))) by (apply no_nul_app; split; [exact Nf|apply amp_no_nul]).
  assert (La : len (amp (form_of xs)) <= 1) by (destruct (form_of xs); cbn; lia).
  assert (Lsk : len (skipn (length (amp (form_of xs))) room) = len body - len (form_of xs) - len (amp (form_of xs))).
  { rewrite len_skipn. unfold len in *. lia. }
  assert (Lout : len out = len (form_of xs) + len (amp (form_of xs)) + len (upload_pair u (mp_tid e) (mp_md5 e (up_data u)))) by (unfold out; rewrite and_then_amp, !len_app; lia).
  change (cs body) with (map Some body ++ [Some NUL]). unfold multipart_parse. rewrite E. fold room. split; intros Hfit.
  - rewrite (loop_one k e f bnd body before gap (upload_part u) tail t _
       (cs out ++ skipn (length (upload_pair u (mp_tid e) (mp_md5 e (up_data u)))) (skipn (length (amp (form_of xs))) room))
       (upd (with_dir e f) (kept_path e (up_data u)) (Some (File (up_data u))))); auto.
    + cbn [bind]. assert (No : no_nul out) by (unfold out; rewrite and_then_amp, app_assoc; apply no_nul_app; auto). rewrite cstr_cs by auto. cbn [bind].
      rewrite strcpy_0; [|rewrite len_app, len_map; change (len [Some NUL]) with 1; lia]. cbn [bind]. eexists. split; [reflexivity|]. now apply cstr_cs.
    + apply part_cr.
    + now apply upload_no_bnd.
    + intros stale Hst. rewrite (part_upload e f bnd u stale) by auto. rewrite Eamp. cbn [bind]. rewrite strcat_cs; auto; [|lia]. cbn [bind].
      unfold out. rewrite and_then_amp, (app_assoc (form_of xs)). reflexivity.
    + eauto.
  - destruct (loop_reach k e f bnd body before gap (upload_part u) tail t (cs (form_of xs) ++ room)) as (v & Ev); auto.
    + intros a b. destruct Hb as (Bne & Bn & Bcr & Blf). apply boundary_first; auto. right. split; [|apply upload_no_bnd; auto; repeat split; auto].
      destruct (part_cr (as_field u)) as (w & Ew). exists (CR :: w). exact Ew.
    + intros stale Hst. rewrite (part_upload e f bnd u stale) by auto. rewrite Eamp. cbn [bind].
      rewrite strcat_oob; [now exists OobWrite|auto|lia].
    + rewrite Ev. now exists v.
Qed.
Lemma upload_fits pre bnd xs u tail tid d : clean_boundary bnd -> 2 <= len bnd -> 0 <= tid < 2 ^ 64 -> length d = 16%nat ->
  len (and_then (form_of xs) (upload_pair u tid d)) <= len (body_of pre bnd xs (upload_part u ++ bnd ++ tail)).
Proof.
  intros Hb H2 Ht Hd. pose proof (added_le bnd [] xs) as AL. rewrite added_form in AL. rewrite and_then_amp, !len_app.
  assert (len (amp (form_of xs)) <= 1) by (destruct (form_of xs); cbn; lia).
  assert (K : len (kept_name tid d) <= 53).
  { unfold kept_name. rewrite !len_app, hex_text_len. change (len (L "-")) with 1. destruct (dec_nat_spec tid) as (_ & _ & _ & D); [lia|]. specialize (D 20). unfold len in *. lia. }
  assert (P : len (upload_pair u tid d) <= len (up_field u) + len (up_name u) + 63).
  { unfold upload_pair. rewrite !len_app. change (len (L "=")) with 1. change (len (L "&tmpfile=")) with 9. pose proof (visible_le (up_field u)). pose proof (visible_le (up_name u)).
    assert (len (firstn 255 (visible (up_name u))) <= len (visible (up_name u))) by (unfold len; rewrite firstn_length; lia). lia. }
  assert (Q : len (up_field u) + len (up_name u) + 60 <= len (upload_part u)).
  { unfold upload_part, part_of, disposition. cbn [fd_name fd_lines fd_value]. rewrite !len_app. change (len CRLF) with 2. change (len filename_mark) with 12. change (len [DQ]) with 1. change (len (L "Content-Disposition: form-data; name=")) with 37.
    pose proof (len_nonneg _ (up_data u)). pose proof (len_nonneg _ (flat_map (fun l => l ++ CRLF) (up_lines u))). lia. }
  unfold body_of. rewrite !len_app. pose proof (len_nonneg _ pre). pose proof (len_nonneg _ tail). lia.
Qed.
Lemma with_dir_other e f p : p <> FILE_DOWNLOAD_TMP_DIR -> with_dir e f p = f p.
Proof.
  intros H. apply str_eqb_neq in H. unfold with_dir, check_createdir. destruct (is_dir f FILE_DOWNLOAD_TMP_DIR); [reflexivity|]. destruct (f FILE_DOWNLOAD_TMP_DIR); [reflexivity|].
  destruct (mp_mkdir e); [|reflexivity]. cbn [snd]. unfold upd. now rewrite H.
Qed.
Lemma with_dir_is e f : f FILE_DOWNLOAD_TMP_DIR = Some Dir \/ f FILE_DOWNLOAD_TMP_DIR = None /\ mp_mkdir e = true -> with_dir e f FILE_DOWNLOAD_TMP_DIR = Some Dir.
Proof.
  unfold with_dir, check_createdir, is_dir. intros [E|[E ->]]; rewrite E; [exact E|]. cbn [snd]. unfold upd. now rewrite str_eqb_refl.
Qed.
Lemma kept_not_dir e data : kept_path e data <> FILE_DOWNLOAD_TMP_DIR.
Proof. intros E. apply (f_equal (@length ascii)) in E. unfold kept_path in E. rewrite !app_length in E. cbn [length L list_ascii_of_string] in E. lia. Qed.

(** Properties_Upload.v - what the multipart decoder would do with files if the array of
    /repo/ws.c:234 held the digest text and its terminator's neighbours (129 bytes). *)
From Verif Require Import Base CLib Lemmas StringUtils FileUtils HttpUtils Router WsMultipart WsRequest StringUtils_proofs WsMultipart_proofs WsUpload_proofs WsRequest_proofs Spec SpecMultipart.

(** The file system after the file is kept: the directory, the file, nothing else. *)
Definition kept (f f' : fs) (path data : str) : Prop :=
  f' (L "/tmp/wayuu") = Some Dir /\ f' path = Some (File data) /\ forall p, p <> L "/tmp/wayuu" -> p <> path -> f' p = f p.
Definition kept_in (tid : Z) (digest : str) : str := L "/tmp/wayuu/" ++ kept_name tid digest.
Definition can_keep (e : mpenv) (f : fs) (path : str) : Prop :=
  (f (L "/tmp/wayuu") = Some Dir \/ f (L "/tmp/wayuu") = None /\ mp_mkdir e = true) /\ f path <> Some Dir.

(** C74: any fields followed by a file of any bytes (NUL included): exact result, exact capacity. *)
Theorem C74_upload : forall e f pre bnd xs u tail, 129 <= mp_md5_size e -> length (mp_md5 e (up_data u)) = 16%nat -> 0 <= mp_tid e < 2 ^ 64 ->
  clean_boundary bnd -> clean_preamble bnd pre -> Forall (clean_field bnd) xs -> clean_upload bnd u -> ~ holds bnd tail ->
  let body := body_of pre bnd xs (upload_part u ++ bnd ++ tail) in
  let out := and_then (form_of xs) (upload_pair u (mp_tid e) (mp_md5 e (up_data u))) in
  let path := kept_in (mp_tid e) (mp_md5 e (up_data u)) in
  len body < 2 ^ 31 -> can_keep e f path ->
  (len out <= len body -> exists form f', multipart_parse e f (cs body) bnd (len body) = Ok (form, f') /\ cstr form = Ok out /\ kept f f' path (up_data u))
  /\ (len body < len out -> undefined (multipart_parse e f (cs body) bnd (len body))).
Proof.
  intros e f pre bnd xs u tail Hs Hm Ht Hb Hp Hx Hu Hq body out path Hl (Hd & Hf).
  assert (Ep : path = kept_path e (up_data u)) by reflexivity.
  assert (Nd : is_dir (with_dir e f) (kept_path e (up_data u)) = false).
  { unfold is_dir. rewrite with_dir_other by apply kept_not_dir. rewrite <- Ep. now destruct (f path) as [[]|]. }
  destruct (multipart_upload e f pre bnd xs u tail) as (A & B); auto. split; [|exact B]. intros H. destruct (A H) as (form & E1 & E2).
  eexists form, _. split; [exact E1|]. split; [exact E2|]. rewrite Ep. split; [|split].
  - unfold upd. replace (str_eqb _ _) with false; [now apply with_dir_is|]. symmetry. apply str_eqb_neq. intros E. now apply (kept_not_dir e (up_data u)).
  - unfold upd. now rewrite str_eqb_refl.
  - intros p H1 H2. unfold upd. apply str_eqb_neq in H2. rewrite H2. now apply with_dir_other.
Qed.
Print Assumptions C74_upload.
(** handle_api_request decodes only with a boundary of two bytes or more; then the result always fits. *)
Theorem C74_fits : forall e f pre bnd xs u tail, 129 <= mp_md5_size e -> length (mp_md5 e (up_data u)) = 16%nat -> 0 <= mp_tid e < 2 ^ 64 ->
  clean_boundary bnd -> 2 <= len bnd -> clean_preamble bnd pre -> Forall (clean_field bnd) xs -> clean_upload bnd u -> ~ holds bnd tail ->
  let body := body_of pre bnd xs (upload_part u ++ bnd ++ tail) in
  let path := kept_in (mp_tid e) (mp_md5 e (up_data u)) in
  len body < 2 ^ 31 -> can_keep e f path ->
  exists form f', multipart_parse e f (cs body) bnd (len body) = Ok (form, f') /\ kept f f' path (up_data u)
    /\ cstr form = Ok (and_then (form_of xs) (upload_pair u (mp_tid e) (mp_md5 e (up_data u)))).
Proof.
  intros e f pre bnd xs u tail Hs Hm Ht Hb H2 Hp Hx Hu Hq body path Hl Hk.
  destruct (C74_upload e f pre bnd xs u tail) as (A & _); auto. destruct A as (form & f' & E1 & E2 & E3); [now apply upload_fits|]. eauto.
Qed.
Print Assumptions C74_fits.

(** What a file leaves in the part buffer makes a file of a later plain field: its value is not
    given to the handler but written to disk. *)
Theorem C74_field_after_file_refuted : exists e u x,
  129 <= mp_md5_size e /\ (forall s, length (mp_md5 e s) = 16%nat) /\ clean_upload (L "--XyZ") u /\ clean_field (L "--XyZ") x
  /\ let body := body_of [] (L "--XyZ") [] (upload_part u ++ L "--XyZ" ++ part_of x ++ L "--XyZ" ++ L "--") in
     exists form f' path, multipart_parse e (fun _ => None) (cs body) (L "--XyZ") (len body) = Ok (form, f')
       /\ cstr form <> Ok (and_then (upload_pair u (mp_tid e) (mp_md5 e (up_data u))) (pair_of x))
       /\ f' path = Some (File (fd_value x)).
Proof.
  exists (mkMpenv (fun _ => repeat "k"%char 16) 7 true 129), (mkUpload (L "a-field-with-a-rather-long-name-so-that-it-outlives") (L "x") [] (L "data")), (mkField (L "b") [] (L "1")).
  split; [reflexivity|]. split; [reflexivity|]. split; [split; [split; [discriminate|split; [apply no_nul_dec_b; reflexivity|split; [apply text_without; reflexivity|split; [apply text_without; reflexivity|apply not_holds_dec; reflexivity]]]]|split; [apply not_holds_dec; reflexivity|split; [constructor|apply not_holds_dec; reflexivity]]]|].
  split; [apply clean_field_dec; reflexivity|]. cbv zeta.
  match goal with |- exists form f' path, ?m = _ /\ _ => assert (E : match m with Ok (form, f') => cstr form <> Ok (and_then (upload_pair (mkUpload (L "a-field-with-a-rather-long-name-so-that-it-outlives") (L "x") [] (L "data")) 7 (repeat "k"%char 16)) (pair_of (mkField (L "b") [] (L "1")))) /\ f' (kept_in 7 (repeat "k"%char 16)) = Some (File (L "1")) | UB _ => False end) by (vm_compute; split; [discriminate|reflexivity]); destruct m as [(form, f')|?]; [|contradiction] end.
  exists form, f', (kept_in 7 (repeat "k"%char 16)). destruct E. auto.
Qed.
Print Assumptions C74_field_after_file_refuted.
Example C74_case :
  let e := mkMpenv (fun _ => repeat "k"%char 16) 7 true 129 in
  let x := mkField (L "title") [] (L "holiday") in
  let u := mkUpload (L "photo") (L "me.png") [L "Content-Type: image/png"] (["P"; NUL; LF; "x"]%char) in
  let body := body_of [] (L "--XyZ") [x] (upload_part u ++ L "--XyZ" ++ L "--" ++ CRLF) in
  match multipart_parse e (fun _ => None) (cs body) (L "--XyZ") (len body) with
  | Ok (form, f') => cstr form = Ok (L "title=holiday&photo=me.png&tmpfile=7-6b6b6b6b6b6b6b6b6b6b6b6b6b6b6b6b")
     /\ f' (L "/tmp/wayuu/7-6b6b6b6b6b6b6b6b6b6b6b6b6b6b6b6b") = Some (File ["P"; NUL; LF; "x"]%char) /\ f' (L "/tmp/wayuu") = Some Dir
  | UB _ => False
  end.
Proof. vm_compute. repeat split. Qed.

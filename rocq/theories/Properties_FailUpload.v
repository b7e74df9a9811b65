(** Properties_FailUpload.v - C114: uploads that cannot be stored (/repo/ws.c, /repo/file_utils.c). *)
From Verif Require Import Lemmas WsMultipart FailFiles FailUpload SpecFailUpload FailUpload_proofs SpecMultipart Spec.

(** C114.  The form that is made of the parts does not depend on whether the files could be stored; nor
    do other files. *)
Theorem C114_form : forall w e f form boundary n form' f', 0 <= mp_tid e ->
  multipart_parse e f form boundary n = Ok (form', f') ->
  exists g, multipart_parse_e w e f form boundary n = Ok (form', g) /\ same_but_uploads (mp_tid e) f' g.
Proof. intros. now apply parse_sb. Qed.
Print Assumptions C114_form.
(** If every file opens, decoding is undefined in the same cases, and in the same way, however few bytes are taken. *)
Theorem C114_undefined : forall w e f form boundary n u, 0 <= mp_tid e -> (forall z, w_opens (w z) = true) ->
  multipart_parse_e w e f form boundary n = UB u <-> multipart_parse e f form boundary n = UB u.
Proof.
  intros w e f form boundary n u Ht W. pose proof (parse_rel e Ht w f form boundary n W) as H.
  destruct (multipart_parse e f form boundary n) as [a|v], (multipart_parse_e w e f form boundary n) as [b|v']; cbn [rel] in H; try contradiction; split; intros E; try discriminate; congruence.
Qed.
Print Assumptions C114_undefined.
(** With every file stored whole it is the decoder of C52 and C74. *)
Theorem C114_whole : forall w e f form boundary n, (forall z, w_opens (w z) = true /\ n + 1 <= Z.of_nat (w_taken (w z))) ->
  multipart_parse_e w e f form boundary n = multipart_parse e f form boundary n.
Proof.
  intros w e f form boundary n W. unfold multipart_parse_e, multipart_parse. rewrite loop_whole; [reflexivity|].
  intros z. rewrite len_calloc. destruct (W z). split; [assumption|lia].
Qed.
Print Assumptions C114_whole.
(** Storing one file: what the directory for uploads holds afterwards, for every answer. *)
Theorem C114_stored : forall w e f tf field sf td ds al t f', save_tmp_file_e w e f tf field sf td ds al = Ok (t, f') ->
  exists digest name, name = L "/tmp/wayuu/" ++ dec_nat (mp_tid e) ++ L "-" ++ digest
   /\ (forall q, q <> name -> q <> L "/tmp/wayuu" -> f' q = f q)
   /\ (f name <> Some Dir -> w_opens w = true -> exists data, slice td ds (al - ds - 2) = Ok (map Some data) /\ f' name = Some (File (firstn (w_taken w) data)))
   /\ (f name <> Some Dir -> w_opens w = false -> f' name = if w_removes w then None else f name).
Proof. exact save_exact. Qed.
Print Assumptions C114_stored.
(** A file that is named in the form is there: refuted, and the handler gets the same form. *)
Definition env : mpenv := mkMpenv (fun _ => repeat "k"%char 16) 7 true 129.
Definition posted : str :=
  L "--XyZ" ++ CRLF ++ L "Content-Disposition: form-data; name=" ++ [DQ] ++ L "photo" ++ [DQ] ++ L "; filename=" ++ [DQ] ++ L "me.png" ++ [DQ] ++ CRLF ++ CRLF
  ++ L "data" ++ CRLF ++ L "--XyZ" ++ L "--" ++ CRLF.
Definition decoded (w : writing) : option (outcome str * option node) :=
  match multipart_parse_e (fun _ => w) env (fun _ => None) (cs posted) (L "--XyZ") (len posted) with
  | Ok (form, f') => Some (cstr form, f' (L "/tmp/wayuu/7-6b6b6b6b6b6b6b6b6b6b6b6b6b6b6b6b"))
  | UB _ => None
  end.
Definition told : str := L "photo=me.png&tmpfile=7-6b6b6b6b6b6b6b6b6b6b6b6b6b6b6b6b".
Theorem C114_named_is_there_refuted : exists w e f form boundary n form' f' name,
  multipart_parse_e w e f form boundary n = Ok (form', f') /\ cstr form' = Ok (L "photo=me.png&tmpfile=" ++ name) /\ f' (L "/tmp/wayuu/" ++ name) = None.
Proof.
  exists (fun _ => mkWriting true false 0), env, (fun _ => None), (cs posted), (L "--XyZ"), (len posted).
  assert (E : decoded (mkWriting true false 0) = Some (Ok told, None)) by (vm_compute; reflexivity).
  unfold decoded in E. destruct (multipart_parse_e _ _ _ _ _ _) as [(form', f')|]; [|discriminate]. injection E as E1 E2.
  exists form', f', (L "7-6b6b6b6b6b6b6b6b6b6b6b6b6b6b6b6b"). split; [reflexivity|]. split; [rewrite E1; reflexivity|exact E2].
Qed.
Print Assumptions C114_named_is_there_refuted.
(** Each file has its own answers: the first of two may be stored and the second not, or the other way round. *)
Definition one_of (field data : str) : str :=
  CRLF ++ L "Content-Disposition: form-data; name=" ++ [DQ] ++ field ++ [DQ] ++ L "; filename=" ++ [DQ] ++ field ++ [DQ] ++ CRLF ++ CRLF ++ data ++ CRLF ++ L "--XyZ".
Definition two : str := L "--XyZ" ++ one_of (L "a") (L "data") ++ one_of (L "b") (L "more") ++ L "--" ++ CRLF.
Definition digests : mpenv := mkMpenv (fun s => firstn 16 (s ++ repeat "k"%char 16)) 7 true 129.
Definition both (w : Z -> writing) : option (outcome str * list (option node)) :=
  match multipart_parse_e w digests (fun _ => None) (cs two) (L "--XyZ") (len two) with
  | Ok (form, f') => Some (cstr form, map f' [L "/tmp/wayuu/7-646174616b6b6b6b6b6b6b6b6b6b6b6b"; L "/tmp/wayuu/7-6d6f72656b6b6b6b6b6b6b6b6b6b6b6b"])
  | UB _ => None
  end.
Definition told_two : str := L "a=a&tmpfile=7-646174616b6b6b6b6b6b6b6b6b6b6b6b&b=b&tmpfile=7-6d6f72656b6b6b6b6b6b6b6b6b6b6b6b".
Theorem C114_each_part : exists bound,
  both (fun z => mkWriting true (z <? bound) 100) = Some (Ok told_two, [Some (File (L "data")); None])
  /\ both (fun z => mkWriting true (bound <=? z) 100) = Some (Ok told_two, [None; Some (File (L "more"))])
  /\ both (fun z => mkWriting true true (if z <? bound then 1 else 3)) = Some (Ok told_two, [Some (File (L "d")); Some (File (L "mor"))]).
Proof. exists 40. vm_compute. repeat split. Qed.
Print Assumptions C114_each_part.
Example C114_case : decoded (mkWriting true true 100) = Some (Ok told, Some (File (L "data"))) /\ decoded (mkWriting true true 2) = Some (Ok told, Some (File (L "da")))
  /\ decoded (mkWriting true false 100) = Some (Ok told, None).
Proof. vm_compute. repeat split. Qed.

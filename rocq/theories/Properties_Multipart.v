(** Properties_Multipart.v - the properties of the multipart decoder. *)
From Verif Require Import Base CLib Lemmas StringUtils FileUtils HttpUtils Router WsMultipart WsRequest StringUtils_proofs WsMultipart_proofs WsRequest_proofs Spec SpecMultipart.

(** C52: the body of any list of fields decodes to the fields, in order, whatever the part buffer held. *)
Theorem C52_fields : forall e f pre bnd xs tail, clean_boundary bnd -> clean_preamble bnd pre -> Forall (clean_field bnd) xs ->
  ~ holds bnd tail -> len (body_of pre bnd xs tail) < 2 ^ 31 ->
  exists form, multipart_parse e f (cs (body_of pre bnd xs tail)) bnd (len (body_of pre bnd xs tail)) = Ok (form, f)
    /\ cstr form = Ok (form_of xs) /\ len form = len (body_of pre bnd xs tail) + 1.
Proof.
  intros e f pre bnd xs tail Hb Hp Hx Ht Hl. eexists. split; [now apply multipart_fields|]. split; [apply cstr_cs; eapply form_no_nul; eauto|].
  apply (multipart_len e f pre bnd xs tail).
Qed.
Print Assumptions C52_fields.
(** What the application's handler is given. *)
Theorem C52_request : forall v f more r pre bnd xs tail, clean_boundary bnd -> clean_preamble bnd pre -> Forall (clean_field bnd) xs ->
  ~ holds bnd tail -> len (body_of pre bnd xs tail) < 2 ^ 31 -> 2 <= len bnd ->
  exists form, cstr form = Ok (form_of xs)
    /\ handle_api_request v f (body_of pre bnd xs tail ++ more) r (len (body_of pre bnd xs tail)) bnd
       = ('(calls, r2) <- router_handle_request (v_app v) (v_routes v) (set_form r form);; Ok (calls, r2, f)).
Proof.
  intros v f more r pre bnd xs tail Hb Hp Hx Ht Hl H2.
  destruct (C52_fields (v_mp v) f pre bnd xs tail Hb Hp Hx Ht Hl) as (form & E & Hf & _). exists form. split; [exact Hf|].
  unfold handle_api_request. replace (0 <? len (body_of pre bnd xs tail)) with true by (unfold body_of; rewrite !len_app; pose proof (len_nonneg _ pre); pose proof (len_nonneg _ (flat_map (fun x => bnd ++ part_of x) xs)); pose proof (len_nonneg _ tail); lia).
  rewrite to_nat_len, read_body_enough by (rewrite app_length; lia). cbn [fst]. rewrite firstn_app, firstn_all, Nat.sub_diag, firstn_O, app_nil_r.
  replace (2 <=? len bnd) with true by lia. fold (cs (body_of pre bnd xs tail)). rewrite E. reflexivity.
Qed.
Print Assumptions C52_request.
(** A name of the characters 35 to 127 is given in full; others are cut at the first other character. *)
Theorem C52_name : forall n, (Forall (fun c => 35 <= code c <= 127) n -> visible n = n)
  /\ forall a c b, n = a ++ c :: b -> Forall (fun c => 35 <= code c <= 127) a -> code c < 35 \/ 127 < code c -> visible n = a.
Proof.
  intros n. split.
  - induction 1 as [|c n Hc _ IH]; [reflexivity|]. cbn [visible]. replace ((34 <? code c) && (code c <? 128)) with true by lia. now rewrite IH.
  - intros a c b -> Ha Hc. induction Ha as [|d a Hd _ IH]; cbn [app visible].
    + now replace ((34 <? code c) && (code c <? 128)) with false by lia.
    + replace ((34 <? code d) && (code d <? 128)) with true by lia. now rewrite IH.
Qed.
Print Assumptions C52_name.
(** Parts without a name before the first field are skipped. *)
Theorem C52_nameless : forall e f pre bnd ps xs tail, clean_boundary bnd -> clean_preamble bnd pre ->
  Forall (nameless bnd) ps -> Forall (clean_field bnd) xs -> ~ holds bnd tail -> len (nameless_then pre bnd ps xs tail) < 2 ^ 31 ->
  exists form, multipart_parse e f (cs (nameless_then pre bnd ps xs tail)) bnd (len (nameless_then pre bnd ps xs tail)) = Ok (form, f)
    /\ cstr form = Ok (form_of xs).
Proof.
  intros e f pre bnd ps xs tail Hb Hp Hn Hx Ht Hl. eexists. split; [now apply multipart_nameless|]. apply cstr_cs. eapply form_no_nul; eauto.
Qed.
Print Assumptions C52_nameless.
(** The separators are not escaped: two different submissions give the handler the same text. *)
Theorem C52_distinct_submissions_refuted : exists bnd xs ys, xs <> ys /\ Forall (clean_field bnd) xs /\ Forall (clean_field bnd) ys
  /\ clean_boundary bnd /\ form_of xs = form_of ys.
Proof.
  exists (L "--XyZ"), [mkField (L "role") [] (L "user&admin=1")], [mkField (L "role") [] (L "user"); mkField (L "admin") [] (L "1")].
  split; [discriminate|]. split; [repeat apply Forall_cons; auto; apply clean_field_dec; reflexivity|].
  split; [repeat apply Forall_cons; auto; apply clean_field_dec; reflexivity|]. split; [|reflexivity].
  split; [discriminate|]. split; [apply no_nul_dec_b; reflexivity|]. split; apply text_without; reflexivity.
Qed.
Print Assumptions C52_distinct_submissions_refuted.
Example C52_nameless_case :
  let p := CRLF ++ L "X-Note: none" ++ CRLF ++ CRLF ++ L "text" ++ CRLF in
  let body := nameless_then [] (L "--XyZ") [p; CRLF] [mkField (L "a") [] (L "1")] (L "--") in
  Forall (nameless (L "--XyZ")) [p; CRLF]
  /\ match multipart_parse (mkMpenv (fun s => s) 7 true MD5_BUF) (fun _ => None) (cs body) (L "--XyZ") (len body) with
     | Ok (form, _) => cstr form = Ok (L "a=1")
     | UB _ => False
     end.
Proof.
  split; [|vm_compute; reflexivity]. repeat apply Forall_cons; auto.
  - split; [exists (CRLF ++ L "X-Note: none" ++ CRLF ++ CRLF ++ L "text" ++ [CR]); reflexivity|]. repeat split; apply not_holds_dec; reflexivity.
  - split; [exists [CR]; reflexivity|]. repeat split; apply not_holds_dec; reflexivity.
Qed.
Example C52_case :
  let xs := [mkField (L "description") [L "Content-Type: text/plain"] (L "a long first value"); mkField (L "b") [] (L "2"); mkField (L "odd name") [] []] in
  let body := body_of [] (L "--XyZ") xs (L "--" ++ CRLF) in
  Forall (clean_field (L "--XyZ")) xs
  /\ match multipart_parse (mkMpenv (fun s => s) 7 true MD5_BUF) (fun _ => None) (cs body) (L "--XyZ") (len body) with
     | Ok (form, f) => cstr form = Ok (L "description=a long first value&b=2&odd=") /\ f (L "/tmp/wayuu") = None
     | UB _ => False
     end.
Proof. split; [repeat apply Forall_cons; auto; apply clean_field_dec; reflexivity|]. vm_compute. split; reflexivity. Qed.

(** C53: a part whose first blank line is followed by fewer than two bytes. *)
Theorem C53_no_line_end : forall e f pre bnd xs h d head name rest tail, mp_md5_size e = MD5_BUF ->
  clean_boundary bnd -> clean_preamble bnd pre -> Forall (clean_field bnd) xs ->
  no_nul h -> h = head ++ name_mark ++ name -> name <> [] ->
  h ++ d = rest ++ blank_line ++ tail -> (forall a b, h ++ d = a ++ blank_line ++ b -> (length rest <= length a)%nat) -> len tail < 2 ->
  forall q, first_boundary bnd (h ++ d) q -> len (body_of pre bnd xs ((h ++ d) ++ bnd ++ q)) < 2 ^ 31 ->
  undefined (multipart_parse e f (cs (body_of pre bnd xs ((h ++ d) ++ bnd ++ q))) bnd (len (body_of pre bnd xs ((h ++ d) ++ bnd ++ q)))).
Proof.
  intros e f pre bnd xs h d head name rest tail Hm Hb Hp Hx Hh Eh Hn Ez Hz Ht q Hq Hl. apply multipart_undefined; auto.
  intros tf stale Hs. destruct (part_reaches e f tf h d stale head name rest tail) as (ds & sf & _ & Eds & _ & U); auto.
  apply U; [|rewrite Hm; unfold MD5_BUF; lia]. intros _. pose proof (first_found (CRLF ++ CRLF) (h ++ d) stale rest tail) as F. fold blank_line in F, Eds.
  rewrite F in Eds by (auto; discriminate). injection Eds as <-. rewrite Ez, !len_app. change (len blank_line) with 4. pose proof (len_nonneg _ rest). lia.
Qed.
Print Assumptions C53_no_line_end.
(** A part of up to 21 bytes without a name, anywhere after a field: the name of that field is still in the part
    buffer, behind the new part, and the length of the name comes out negative. *)
Theorem C53_stale_name : forall e f pre bnd xs x p q,
  clean_boundary bnd -> clean_preamble bnd pre -> Forall (clean_field bnd) (xs ++ [x]) ->
  no_nul p -> len p <= 21 -> ~ holds name_mark p -> first_boundary bnd p q -> len (body_of pre bnd (xs ++ [x]) (p ++ bnd ++ q)) < 2 ^ 31 ->
  undefined (multipart_parse e f (cs (body_of pre bnd (xs ++ [x]) (p ++ bnd ++ q))) bnd (len (body_of pre bnd (xs ++ [x]) (p ++ bnd ++ q)))).
Proof. intros. now apply multipart_stale. Qed.
Print Assumptions C53_stale_name.
(** Every part that has a file name and a blank line: the digest buffer is overrun. *)
Theorem C53_upload : forall e f pre bnd xs h d head name, mp_md5_size e = MD5_BUF ->
  clean_boundary bnd -> clean_preamble bnd pre -> Forall (clean_field bnd) xs ->
  no_nul h -> h = head ++ name_mark ++ name -> name <> [] -> holds filename_mark h -> holds blank_line (h ++ d) ->
  forall q, first_boundary bnd (h ++ d) q -> len (body_of pre bnd xs ((h ++ d) ++ bnd ++ q)) < 2 ^ 31 ->
  undefined (multipart_parse e f (cs (body_of pre bnd xs ((h ++ d) ++ bnd ++ q))) bnd (len (body_of pre bnd xs ((h ++ d) ++ bnd ++ q)))).
Proof.
  intros e f pre bnd xs h d head name Hm Hb Hp Hx Hh Eh Hn Hf (za & zb & Hz) q Hq Hl. apply multipart_undefined; auto.
  intros tf stale Hs. destruct (part_reaches e f tf h d stale head name za zb) as (ds & sf & _ & Eds & S & U); auto.
  apply U; [|rewrite Hm; unfold MD5_BUF; lia]. intros N. specialize (S Hf). lia.
Qed.
Print Assumptions C53_upload.
(** So a plain field whose value quotes the file name mark is one, too. *)
Theorem C53_mark_in_value : forall e f pre bnd xs x q, mp_md5_size e = MD5_BUF ->
  clean_boundary bnd -> clean_preamble bnd pre -> Forall (clean_field bnd) xs ->
  clean_line bnd (disposition (fd_name x)) -> Forall (clean_line bnd) (fd_lines x) -> no_nul (fd_value x) -> ~ holds bnd (fd_value x) ->
  holds filename_mark (fd_value x) -> len (body_of pre bnd xs (part_of x ++ bnd ++ q)) < 2 ^ 31 ->
  undefined (multipart_parse e f (cs (body_of pre bnd xs (part_of x ++ bnd ++ q))) bnd (len (body_of pre bnd xs (part_of x ++ bnd ++ q)))).
Proof.
  intros e f pre bnd xs x q Hm Hb Hp Hx Hd Hls Hn Hv Hf Hl. rewrite <- (app_nil_r (part_of x)) in Hl |- *.
  apply (C53_upload e f pre bnd xs (part_of x) [] head_text (fd_name x ++ [DQ] ++ CRLF ++ flat_map (fun l => l ++ CRLF) (fd_lines x) ++ CRLF ++ fd_value x ++ CRLF)); auto.
  - apply (part_no_nul bnd); auto.
  - apply part_shape.
  - intros E. apply app_eq_nil in E as [_ E]. discriminate.
  - unfold part_of. do 5 apply holds_r. now apply holds_l.
  - rewrite app_nil_r. unfold part_of. apply part_blank.
  - unfold first_boundary. rewrite app_nil_r. destruct Hb as (Bne & Bn & Bcr & Blf). intros a b. apply boundary_first; auto. right.
    destruct (part_free bnd x) as (H1 & w & H2 & _); auto. { destruct Hd. tauto. } { eapply Forall_impl; [|exact Hls]. now intros l (_ & _ & _ & _ & H & _). } eauto.
Qed.
Print Assumptions C53_mark_in_value.
Example C53_case :
  let e := mkMpenv (fun _ => repeat "k"%char 16) 7 true MD5_BUF in
  let good := mkField (L "a") [] (L "1") in
  let short := CRLF ++ disposition (L "b") ++ CRLF ++ CRLF in
  let file := CRLF ++ disposition (L "b") ++ filename_mark ++ L "x.txt" ++ [DQ] ++ CRLF ++ CRLF ++ L "data" ++ CRLF in
  let body p := body_of [] (L "--XyZ") [good] (p ++ L "--XyZ" ++ L "--") in
  multipart_parse e (fun _ => None) (cs (body CRLF)) (L "--XyZ") (len (body CRLF)) = UB BadSize
  /\ multipart_parse e (fun _ => None) (cs (body short)) (L "--XyZ") (len (body short)) = UB BadSize
  /\ multipart_parse e (fun _ => None) (cs (body file)) (L "--XyZ") (len (body file)) = UB OobWrite
  /\ (exists p, first_boundary (L "--XyZ") short p) /\ (exists h d, short = h ++ d /\ no_nul h /\ holds name_mark h).
Proof.
  cbv zeta. split; [vm_compute; reflexivity|]. split; [vm_compute; reflexivity|]. split; [vm_compute; reflexivity|]. split.
  - exists []. intros a b E. apply (boundary_first (L "--XyZ") (CRLF ++ disposition (L "b") ++ CRLF ++ CRLF) []) in E; auto; [discriminate|apply text_without; reflexivity|].
    right. split; [exists (CRLF ++ disposition (L "b") ++ CRLF ++ [CR]); reflexivity|apply not_holds_dec; reflexivity].
  - exists (CRLF ++ disposition (L "b") ++ CRLF ++ CRLF), []. split; [now rewrite app_nil_r|]. split; [apply no_nul_dec_b; reflexivity|].
    exists head_text, (L "b" ++ [DQ] ++ CRLF ++ CRLF). reflexivity.
Qed.

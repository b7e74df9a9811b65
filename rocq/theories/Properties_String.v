(** Properties_String.v - C01 to C11: strings (/repo/string_utils.c). *)
From Verif Require Import Spec StringUtils StringUtils_proofs WsRequest.

(** C01.  [trim] on a string [s] stored in a larger object: the same object now holds the
    trimmed string, has the same size, and the bytes after the original terminator are
    untouched ([rest]); trimming is determined by its specification and idempotent. *)
Theorem C01_trim : forall s rest, no_nul s ->
  exists t junk, trim (cs s ++ rest) = Ok (cs t ++ junk ++ rest)
    /\ trimmed s t /\ length (cs t ++ junk) = length (cs s).
Proof. intros s rest H. destruct (trim_holds s rest H) as (t & j & ? & ? & ? & _). eauto. Qed.
Print Assumptions C01_trim.
Theorem C01_trimmed_unique : forall s t1 t2, trimmed s t1 -> trimmed s t2 -> t1 = t2.
Proof. exact trimmed_unique. Qed.
Print Assumptions C01_trimmed_unique.
Theorem C01_trim_idempotent : forall b b', trim b = Ok b' -> trim b' = Ok b'.
Proof. exact trim_idempotent. Qed.
Print Assumptions C01_trim_idempotent.
Example C01_case :
  trim (cs (L "  a b ") ++ [None]) = Ok (cs (L "a b") ++ [Some NUL; Some " "%char; Some NUL; None])
  /\ trimmed (L "  a b ") (L "a b").
Proof.
  split; [vm_compute; reflexivity|]. exists (L "  "), (L " ").
  repeat split; try (repeat constructor; cbn; tauto).
  - intros c r H. cbn in H. inv H. vm_compute. intuition discriminate.
  - intros r c H. destruct r as [|? [|? [|? [|? ?]]]]; cbn in H; inv H.
    vm_compute. intuition discriminate.
Qed.

(** C02.  The string is cut at its first character that is not an ASCII character above 34;
    the other bytes of the object keep their values. *)
Theorem C02_chop_cut : forall p c q rest, no_nul (p ++ c :: q) ->
  Forall (fun x => 34 < code x < 128) p -> ~ (34 < code c < 128) ->
  chop_string (cs (p ++ c :: q) ++ rest) = Ok (map Some p ++ Some NUL :: map Some q ++ Some NUL :: rest).
Proof.
  intros p c q rest H1 H2 H3. rewrite (chop_cut p c q rest H1 H2 H3). unfold cs. now appn.
Qed.
Print Assumptions C02_chop_cut.
Theorem C02_chop_none : forall s rest, no_nul s -> Forall (fun x => 34 < code x < 128) s ->
  chop_string (cs s ++ rest) = Ok (cs s ++ rest).
Proof. exact chop_none. Qed.
Print Assumptions C02_chop_none.
(** The two cases are exhaustive. *)
Theorem C02_cases : forall s, Forall (fun x => 34 < code x < 128) s \/
  exists p c q, s = p ++ c :: q /\ Forall (fun x => 34 < code x < 128) p /\ ~ (34 < code c < 128).
Proof.
  induction s as [|x s IH]; [now left|].
  destruct (chopped_dec x) as [H|H].
  - destruct IH as [IH|(p & c & q & -> & Hp & Hc)].
    + left. now constructor.
    + right. exists (x :: p), c, q. split; [reflexivity|]. split; [now constructor|exact Hc].
  - right. exists [], x, s. split; [reflexivity|]. split; [constructor|exact H].
Qed.
Print Assumptions C02_cases.
Example C02_case : chop_string (cs (L "abc def")) = Ok (cs (L "abc") ++ cs (L "def"))
  /\ Forall (fun x => 34 < code x < 128) (L "abc") /\ ~ (34 < code SP < 128).
Proof.
  split; [vm_compute; reflexivity|]. split; [repeat constructor|]. vm_compute. intuition discriminate.
Qed.

(** C03.  The source object is read-only: the functions return only the new string. *)
Theorem C03_at_first_separator : forall s c a b rest, no_nul s -> first_cut c s a b ->
  rtrim (cs s ++ rest) c = Ok a /\ ltrim (cs s ++ rest) c = Ok b /\ s = a ++ [c] ++ b.
Proof.
  intros s c a b rest Hn Hc. split; [eapply rtrim_cut; eauto|]. split; [eapply ltrim_cut; eauto|].
  now destruct Hc.
Qed.
Print Assumptions C03_at_first_separator.
Theorem C03_no_separator : forall s c rest, no_nul s -> ~ In c s ->
  rtrim (cs s ++ rest) c = Ok s /\ ltrim (cs s ++ rest) c = Ok s.
Proof. intros. split; [now apply rtrim_none|now apply ltrim_none]. Qed.
Print Assumptions C03_no_separator.
Theorem C03_cases : forall s c, ~ In c s \/ exists a b, first_cut c s a b.
Proof.
  intros s c. destruct (in_dec Ascii.ascii_dec c s); [right; now apply first_cut_exists|now left].
Qed.
Print Assumptions C03_cases.
Example C03_case : first_cut ":" (L "k:v:w") (L "k") (L "v:w")
  /\ rtrim (cs (L "k:v:w")) ":" = Ok (L "k") /\ ltrim (cs (L "k:v:w")) ":" = Ok (L "v:w").
Proof. repeat split; try (vm_compute; reflexivity). vm_compute. intuition discriminate. Qed.

(** C04.  [tokens d s ts] determines [ts]; [split] returns one entry per run when there are
    at most 50 runs and overruns the result otherwise; each entry is readable as a string
    exactly when its run has at most 1022 characters, and then it is the run. *)
Theorem C04_split : forall d s ts, no_nul s -> tokens d s ts ->
  (len ts <= 50 -> exists es, split s d = Ok es
     /\ Forall2 (fun e t => if len t <=? 1022 then cstr e = Ok t else undefined (cstr e)) es ts)
  /\ (50 < len ts -> undefined (split s d)).
Proof.
  intros d s ts Hn Ht. rewrite (split_eq d s ts Ht Hn). split; intros H.
  - replace (len ts <=? 50) with true by lia. eexists. split; [reflexivity|].
    pose proof (tokens_no_nul _ _ _ Ht Hn) as Hts. clear Ht H.
    induction Hts as [|t ts Hx _ IH]; cbn [map]; constructor; auto.
    destruct (len t <=? 1022) eqn:E.
    + apply entry_readable; [auto|lia].
    + eexists. apply entry_unreadable; [auto|lia].
  - replace (len ts <=? 50) with false by lia. now eexists.
Qed.
Print Assumptions C04_split.
Theorem C04_tokens_exist_unique : forall d s, exists ts, tokens d s ts /\ forall ts', tokens d s ts' -> ts' = ts.
Proof.
  intros d s. destruct (tokens_exist d s) as (ts & H). exists ts. split; auto.
  intros ts' H'. eapply tokens_unique; eauto.
Qed.
Print Assumptions C04_tokens_exist_unique.
Example C04_case : tokens (L "/,") (L ",/ab//c,") [L "ab"; L "c"]
  /\ exists e1 e2, split (L ",/ab//c,") (L "/,") = Ok [e1; e2] /\ cstr e1 = Ok (L "ab") /\ cstr e2 = Ok (L "c").
Proof.
  split.
  - change (L ",/ab//c,") with (L ",/" ++ L "ab" ++ L "//c,").
    constructor; try easy.
    + repeat constructor; cbn; tauto.
    + repeat constructor; vm_compute; intuition discriminate.
    + intros c r E. cbn in E. inv E. now left.
    + change (L "//c,") with (L "//" ++ L "c" ++ L ",").
      constructor; try easy.
      * repeat constructor; cbn; tauto.
      * repeat constructor; vm_compute; intuition discriminate.
      * intros c r E. cbn in E. inv E. cbn; tauto.
      * constructor. repeat constructor; cbn; tauto.
  - eexists _, _. split; [vm_compute; reflexivity|]. split; vm_compute; reflexivity.
Qed.

(** C05.  Whatever [delim] is, the cut is at the first colon. *)
Theorem C05_split_once_colon : forall s a b ta tb rest delim, no_nul s -> first_cut ":" s a b ->
  trimmed a ta -> trimmed b tb ->
  exists e1 e2, split_once (cs s ++ rest) delim = Ok [e1; e2]
    /\ (if len ta <=? 1022 then cstr e1 = Ok ta else undefined (cstr e1))
    /\ (if len tb <=? 1022 then cstr e2 = Ok tb else undefined (cstr e2)).
Proof.
  intros s a b ta tb rest delim Hn Hc Ha Hb. exists (entry ta), (entry tb).
  split; [eapply split_once_cut; eauto|].
  assert (Na : no_nul a /\ no_nul b).
  { destruct Hc as [-> _]. apply no_nul_app in Hn as [? Hn]. now apply no_nul_cons in Hn. }
  destruct Na as [Na Nb]. apply trimmed_no_nul in Ha; auto. apply trimmed_no_nul in Hb; auto.
  split.
  - destruct (len ta <=? 1022) eqn:E; [apply entry_readable|eexists; apply entry_unreadable]; auto; lia.
  - destruct (len tb <=? 1022) eqn:E; [apply entry_readable|eexists; apply entry_unreadable]; auto; lia.
Qed.
Print Assumptions C05_split_once_colon.
Theorem C05_split_once_none : forall s t rest delim, no_nul s -> ~ In ":"%char s -> trimmed s t ->
  exists e, split_once (cs s ++ rest) delim = Ok [e]
    /\ (if len t <=? 1022 then cstr e = Ok t else undefined (cstr e)).
Proof.
  intros s t rest delim Hn Hc Ht. exists (entry t). split; [eapply split_once_none; eauto|].
  apply trimmed_no_nul in Ht; auto.
  destruct (len t <=? 1022) eqn:E; [apply entry_readable|eexists; apply entry_unreadable]; auto; lia.
Qed.
Print Assumptions C05_split_once_none.
Example C05_case : exists e1 e2, split_once (cs (L "a= b:c;d ")) (L "=") = Ok [e1; e2]
  /\ cstr e1 = Ok (L "a= b") /\ cstr e2 = Ok (L "c;d").
Proof. eexists _, _. split; [vm_compute; reflexivity|]. split; vm_compute; reflexivity. Qed.

(** C06.  [a] is the array (at least [size] entries, entries NULL or strings). *)
Theorem C06_join_empty : forall a size d,
  (a = None \/ size <= 0 \/ exists t, a = Some (None :: t)) ->
  exists j, join a size d = Ok j /\ jcontent j = [].
Proof.
  intros [a|] size d H; [|exists JLit; auto]. unfold join.
  destruct (size <=? 0) eqn:E; [exists JLit; auto|].
  destruct H as [H|[H|[t H]]]; [discriminate|lia|]. inv H. exists JLit. auto.
Qed.
Print Assumptions C06_join_empty.
Theorem C06_join_one : forall s t d, join (Some (Some s :: t)) 1 d = Ok (JHeap s).
Proof. reflexivity. Qed.
Print Assumptions C06_join_one.
Theorem C06_join_many : forall a size d s0 last,
  no_nul d -> (forall s, In (Some s) a -> no_nul s) -> 2 <= size <= len a ->
  nth_error a 0 = Some (Some s0) -> nth_error a (Z.to_nat (size - 1)) = Some last ->
  match last with
  | Some _ => exists j, join (Some a) size d = Ok j
                /\ jcontent j = separated d (present (firstn (Z.to_nat size) a))
  | None => undefined (join (Some a) size d)
  end.
Proof.
  intros a size d s0 last Hd Ha Hs H0 Hl.
  assert (Fa : Forall ptr_no_nul a).
  { apply Forall_forall. intros p I s ->. auto. }
  destruct last as [sl|].
  - eexists. split; [eapply join_many; eauto|reflexivity].
  - eexists. eapply join_last_null; eauto.
Qed.
Print Assumptions C06_join_many.
Example C06_case : exists j, join (Some [Some (L "a"); None; Some (L "bc")]) 3 (L ", ") = Ok j
  /\ jcontent j = L "a, bc".
Proof. eexists. split; vm_compute; reflexivity. Qed.

(** C07 *)
Theorem C07_split_join : forall c l, c <> NUL -> 1 <= len l <= 50 ->
  Forall (fun s => s <> [] /\ ~ In c s /\ no_nul s /\ len s <= 1022) l ->
  exists j es, join (Some (map Some l)) (len l) [c] = Ok j
    /\ split (jcontent j) [c] = Ok es /\ Forall2 (fun e s => cstr e = Ok s) es l.
Proof.
  intros c l Hc Hl H.
  assert (Hn : Forall no_nul l) by (eapply Forall_impl; [|exact H]; cbn; tauto).
  assert (Hc1 : no_nul [c]) by (apply no_nul_cons; split; [auto|constructor]).
  exists (JHeap (separated [c] l)), (map entry l). split; [|split].
  - apply join_map; auto. intros ->. unfold len in Hl. cbn in Hl. lia.
  - cbn [jcontent]. rewrite (split_eq [c] _ l).
    + now replace (len l <=? 50) with true by lia.
    + apply tokens_separated. eapply Forall_impl; [|exact H]. cbn; tauto.
    + now apply no_nul_separated.
  - clear -H. induction H as [|s l (? & ? & ? & ?) _ IH]; constructor; auto. now apply entry_readable.
Qed.
Print Assumptions C07_split_join.
Example C07_case : exists j es, join (Some (map Some [L "x y"; L "z"])) 2 (L ",") = Ok j
  /\ split (jcontent j) (L ",") = Ok es /\ map cstr es = [Ok (L "x y"); Ok (L "z")].
Proof. eexists _, _. split; [vm_compute; reflexivity|]. split; vm_compute; reflexivity. Qed.

(** C08 *)
Theorem C08_startswith : forall s rest p, no_nul s -> no_nul p ->
  exists r, startswith (cs s ++ rest) p = Ok r /\ (r = true <-> ci_prefix p s).
Proof. exact startswith_eq. Qed.
Print Assumptions C08_startswith.
Theorem C08_startswithany : forall s rest pre tail more, no_nul s ->
  Forall (fun p => no_nul p /\ p <> []) pre -> (tail = None \/ tail = Some []) ->
  exists r, startswithany (cs s ++ rest) (map Some pre ++ tail :: more) = Ok r
            /\ (r = true <-> exists p, In p pre /\ ci_prefix p s).
Proof. intros. now apply startswithany_eq. Qed.
Print Assumptions C08_startswithany.
Theorem C08_methods : forall s rest, no_nul s ->
  exists r, startswithany (cs s ++ rest) ALLOWED_HTTP_METHODS = Ok r
    /\ (r = true <-> exists p, In p [L "GET"; L "POST"; L "PUT"; L "DELETE"] /\ ci_prefix p s).
Proof.
  intros s rest Hn.
  destruct (startswithany_eq s rest [L "GET"; L "POST"; L "PUT"; L "DELETE"] None Hn) with (more := @nil (option (list ascii)))
    as (r & E & H); auto.
  - repeat constructor; try easy.
  - exists r. split; auto.
Qed.
Print Assumptions C08_methods.
Example C08_case : startswithany (cs (L "getter")) ALLOWED_HTTP_METHODS = Ok true
  /\ startswithany (cs (L "HEAD")) ALLOWED_HTTP_METHODS = Ok false /\ ci_prefix (L "GET") (L "getter").
Proof.
  repeat split; try (vm_compute; reflexivity).
  exists (L "get"), (L "ter"). split; [reflexivity|].
  repeat constructor; apply same_letterb_spec; vm_compute; reflexivity.
Qed.

(** C09.  [data] is the buffer content (it may contain NULs), then its terminating NUL. *)
Theorem C09_text_find_after : forall data needle rest start,
  no_nul needle -> needle <> [] -> 0 <= start ->
  exists r, text_find_after (map Some data ++ Some NUL :: rest) needle start (len data) = Ok r
  /\ ((exists i, start <= i /\ occurs_at needle data i /\ r = i + len needle
        /\ (forall j, start <= j -> occurs_at needle data j -> i <= j))
      \/ (r = -1 /\ forall j, start <= j -> ~ occurs_at needle data j)).
Proof. exact text_find_after_spec. Qed.
Print Assumptions C09_text_find_after.
Example C09_case : text_find_after (cs (L "xababa")) (L "ab") 2 6 = Ok 5
  /\ occurs_at (L "ab") (L "xababa") 3 /\ text_find_after (cs (L "xababa")) (L "ab") 4 6 = Ok (-1).
Proof.
  repeat split; try (vm_compute; reflexivity). exists (L "xab"), (L "a"). split; reflexivity.
Qed.

(** C10 *)
Theorem C10_string_isalnum : forall s rest, no_nul s ->
  exists r, string_isalnum (cs s ++ rest) = Ok r /\ (r = true <-> s <> [] /\ Forall alphanumeric s).
Proof. exact string_isalnum_spec. Qed.
Print Assumptions C10_string_isalnum.
Example C10_case : string_isalnum (cs (L "aZ09")) = Ok true /\ string_isalnum (cs (L "a_")) = Ok false
  /\ string_isalnum (cs []) = Ok false.
Proof. repeat split; vm_compute; reflexivity. Qed.

(** C11.  [data] is at [pre] in its object; [n] is the length argument.  The digest is a
    16-byte MD5 value; the whole output object is described. *)
Theorem C11_md5sum : forall md5 out data n rest pre,
  length (md5 data) = 16%nat -> n = len data \/ (n <= 0 /\ data = []) -> 129 <= len out ->
  exists junk, md5sum md5 out (map Some (pre ++ data) ++ rest) (len pre) n
      = Ok (cs (hex_text (md5 data)) ++ junk ++ Some NUL :: skipn 129 out)
    /\ length junk = 95%nat /\ length (hex_text (md5 data)) = 32%nat.
Proof.
  intros md5 out data n rest pre Hm Hn Ho.
  destruct (md5sum_eq md5 out data n rest pre Hm Hn Ho) as (r & E & L). exists r. repeat split; auto.
  pose proof (hex_text_len (md5 data)) as H. unfold len in H. lia.
Qed.
Print Assumptions C11_md5sum.
Theorem C11_md5sum_small_output : forall md5 out data n rest pre,
  length (md5 data) = 16%nat -> n = len data \/ (n <= 0 /\ data = []) -> len out < 129 ->
  undefined (md5sum md5 out (map Some (pre ++ data) ++ rest) (len pre) n).
Proof. intros. eexists. now apply md5sum_oob. Qed.
Print Assumptions C11_md5sum_small_output.
Example C11_case :
  exists b, md5sum (fun _ => repeat "k"%char 16) (malloc 129) (map Some (repeat "a"%char 1024)) 0 1024 = Ok b
  /\ cstr b = Ok (L "6b6b6b6b6b6b6b6b6b6b6b6b6b6b6b6b")
  /\ md5_feed 3 (map Some (repeat "a"%char 1024)) 0 1024 = Ok (repeat "a"%char 1024).
Proof. eexists. split; [vm_compute; reflexivity|]. split; vm_compute; reflexivity. Qed.

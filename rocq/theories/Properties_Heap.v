(** Properties_Heap.v - C78, C79: who frees the blocks of the configuration code,
    and the text of a serializable (/repo/conf_parser.c). *)
From Verif Require Import ConfHeap ConfParser_proofs ConfHeap_proofs HttpUtils_proofs SpecConf SpecHeap SpecHttp Spec.

(** C78.  Reading a file never touches a block that is not live and never frees one twice; what
    it leaves behind are empty strings only, one for each blank key and blank value. *)
Theorem C78_parse : forall f path flags content ls lv st out h fr,
  f path = Some (File content) -> lines 511 content ls -> Forall2 visible ls lv ->
  parse f path flags = Ok (st, out) -> blocks_are h fr ->
  exists h1 lost, parse_h h f path flags = Ok (h1, (st, out)) /\ blocks_are h1 (lost ++ fr)
    /\ Forall (fun b => snd b = []) lost /\ forall n, left_behind lv n -> length lost = n.
Proof.
  intros f path flags content ls lv st out h fr Hf Hl V H A.
  destruct (parse_h_eq f path flags content ls lv st out h fr Hf Hl V H A) as (h1 & lost & E & A1 & F & N).
  exists h1, lost. repeat (split; [assumption|]). intros n Hn. eapply left_behind_unique; eauto.
Qed.
Print Assumptions C78_parse.
(** The number exists for every file that can be read. *)
Theorem C78_parse_count : forall f path flags content ls lv st out,
  f path = Some (File content) -> lines 511 content ls -> Forall2 visible ls lv ->
  parse f path flags = Ok (st, out) -> exists n, left_behind lv n.
Proof.
  intros f path flags content ls lv st out Hf Hl V H.
  destruct (parse_h_eq f path flags content ls lv st out (mkHeap 0 []) [] Hf Hl V H) as (h1 & lost & _ & _ & _ & N); [|eauto].
  split; [constructor|split; constructor].
Qed.
Print Assumptions C78_parse_count.
Theorem C78_parse_no_file : forall f path flags st out h, (forall c, f path <> Some (File c)) ->
  parse f path flags = Ok (st, out) -> parse_h h f path flags = Ok (h, (st, out)).
Proof. exact parse_h_nofile. Qed.
Print Assumptions C78_parse_no_file.
Theorem C78_parse_frees_all_refuted : ~ (forall f path flags st out h fr,
  parse f path flags = Ok (st, out) -> blocks_are h fr ->
  exists h1, parse_h h f path flags = Ok (h1, (st, out)) /\ blocks_are h1 fr).
Proof.
  intros H. destruct (H (fun _ => Some (File (L "a= =b"))) (L "p") [(L "a", false)] 0 [mkItem (L "a") [] []] (mkHeap 0 []) []) as (h1 & E & (P & _)).
  - vm_compute. reflexivity.
  - split; [constructor|split; constructor].
  - vm_compute in E. injection E as <-. apply Permutation_length in P. discriminate.
Qed.
Print Assumptions C78_parse_frees_all_refuted.

(** Making and freeing one item: everything is given back unless the key is empty; freeing
    the item again is undefined. *)
Theorem C78_new_and_free : forall h k v mv fr, blocks_are h fr -> len mv <= 20 ->
  exists h1 it own h2 lost, new_item_with_values h k v mv = Ok (h1, it) /\ owns it (mkItem k v mv) own /\ blocks_are h1 (own ++ fr)
    /\ free_conf_item h1 it = Ok h2 /\ blocks_are h2 (lost ++ fr) /\ Forall (fun b => snd b = []) lost
    /\ (k = [] /\ length lost = 1 \/ k <> [] /\ length lost = 0)%nat /\ undefined (free_conf_item h2 it).
Proof. exact new_and_free. Qed.
Print Assumptions C78_new_and_free.

(** new_serializable takes the items: its own are copies with the same contents, the given
    ones are gone. *)
Theorem C78_takes_items : forall h path its cs own fr, all_own its cs own -> blocks_are h (own ++ fr) -> len its <= 20 ->
  exists h1 s a own' lost, new_serializable_h h path its = Ok (h1, s)
    /\ hs_path s = path /\ hs_self s = PBlock a /\ all_own (hs_items s) cs own' /\ Forall2 plain (hs_items s) cs
    /\ blocks_are h1 ((a, []) :: own' ++ lost ++ fr) /\ Forall (fun b => snd b = []) lost /\ emptied its cs (length lost)
    /\ (forall it, In it its -> undefined (free_conf_item h1 it)).
Proof. exact new_serializable_eq. Qed.
Print Assumptions C78_takes_items.
Theorem C78_too_many : forall h path its k v mv,
  (21 <= len its -> undefined (new_serializable_h h path its)) /\ (21 <= len mv -> undefined (new_item_with_values h k v mv)).
Proof. exact too_many. Qed.
Print Assumptions C78_too_many.
Theorem C78_same_item_twice : forall h path its cs own fr it rest, all_own its cs own -> blocks_are h (own ++ fr) -> In it its ->
  undefined (new_serializable_h h path (its ++ it :: rest)).
Proof. exact twice_undefined. Qed.
Print Assumptions C78_same_item_twice.

(** write_conf frees what the serializer made, but for the empty keys - path included, which
    must be a heap block; if the file cannot be opened it frees nothing. *)
Theorem C78_write : forall h s cs own p path a out fr, all_own (hs_items s) cs own -> hs_self s = PBlock a -> hs_path s = PBlock p ->
  blocks_are h ((a, []) :: (p, path) :: own ++ fr) -> Forall2 plain (hs_items s) cs -> Forall2 (fun c t => conf_item_to_string c = Ok t) cs out ->
  exists h1 lost, write_conf_h h s true = Ok (h1, (0, out)) /\ blocks_are h1 (lost ++ fr) /\ Forall (fun b => snd b = []) lost /\ keyless cs (length lost).
Proof. exact write_conf_h_eq. Qed.
Print Assumptions C78_write.
Theorem C78_write_literal_path : forall h s path, hs_path s = PLit path -> undefined (write_conf_h h s true).
Proof. exact write_literal. Qed.
Print Assumptions C78_write_literal_path.
Theorem C78_write_cannot_open : forall h s path, hread h (hs_path s) = Ok path ->
  (len path <= 87 -> write_conf_h h s false = Ok (h, (-1, []))) /\ (88 <= len path -> undefined (write_conf_h h s false)).
Proof. exact write_fails. Qed.
Print Assumptions C78_write_cannot_open.

(** serializable_to_string loses the text of every item. *)
Theorem C78_to_string : forall h s cs own path t fr, all_own (hs_items s) cs own -> hread h (hs_path s) = Ok path -> blocks_are h (own ++ fr) ->
  serializable_to_string (mkSer path cs) = Ok t ->
  exists h1 n lost, ser_string_h h s = Ok (h1, PBlock n) /\ blocks_are h1 ((n, t) :: lost ++ own ++ fr)
    /\ Forall2 (fun c b => conf_item_to_string c = Ok (snd b)) cs (rev lost).
Proof. exact ser_string_h_eq. Qed.
Print Assumptions C78_to_string.

(** Three lines, the second with a blank key and a blank value: two empty strings are left. *)
Example C78_case : exists h1,
  parse_h (mkHeap 0 []) (fun _ => Some (File (L "a=1,2" ++ [LF] ++ L " = = = x" ++ [LF] ++ L "b=3" ++ [LF]))) (L "p") [(L "a", true); (L "", false)]
  = Ok (h1, (0, [mkItem (L "a") (L "1,2") [L "1"; L "2"]; mkItem [] [] []]))
  /\ length (h_live h1) = 2%nat /\ map snd (h_live h1) = [[]; []].
Proof. eexists. split; [vm_compute; reflexivity|]. vm_compute. auto. Qed.
(** Two items through new_serializable and write_conf. *)
Example C78_case_write :
  match
    '(h0, p) <- Ok (halloc (mkHeap 0 []) (L "file"));;
    '(h1, i1) <- new_item_with_values h0 (L "a") (L "1") [];;
    '(h2, i2) <- new_item_with_values h1 (L "m") [] [L "x"; L "y"];;
    '(h3, s) <- new_serializable_h h2 p [i1; i2];;
    write_conf_h h3 s true
  with Ok (h4, r) => h_live h4 = [] /\ r = (0, [L "a=1"; L "m=x,y"]) | UB _ => False end.
Proof. vm_compute. auto. Qed.

(** C79.  The text of a serializable, and where its 1024 bytes end. *)
Theorem C79_text : forall path items d,
  Forall (fun it => no_nul (key it) /\ no_nul (value it) /\ Forall no_nul (multivalue it)) items -> decimal d (len items) ->
  let t := L "[path=" ++ path ++ L ",n_items=" ++ d ++ flat_map (fun it => L "," ++ line_text it) items ++ L "]" in
  (len t <= 1023 -> serializable_to_string (mkSer path items) = Ok t)
  /\ (1024 <= len t -> undefined (serializable_to_string (mkSer path items))).
Proof.
  intros path items d N D. assert (d = dec (len items)) as ->.
  { apply (decimal_unique _ _ (len items)); [exact D|]. unfold dec. pose proof (len_nonneg _ items). replace (len items <? 0) with false by lia. now apply dec_nat_decimal. }
  now apply ser_string_eq.
Qed.
Print Assumptions C79_text.
Example C79_case :
  serializable_to_string (mkSer (L "/c") [mkItem (L "a") (L "1") []; mkItem (L "m") [] [L "x"; L "y"]]) = Ok (L "[path=/c,n_items=2,a=1,m=x,y]")
  /\ undefined (serializable_to_string (mkSer (L "/c") [mkItem (L "a") (repeat "v"%char 1024) []])).
Proof. split; [vm_compute; reflexivity|eexists; vm_compute; reflexivity]. Qed.

(** Properties_JsonHeap.v - which heap blocks the JSON functions leave. *)
From Coq Require Import Permutation.
From Verif Require Import JsonHeap Lemmas StringUtils_proofs JsonUtils_proofs HttpUtils_proofs ConfHeap_proofs ReqHeap_proofs JsonHeap_proofs SpecHeap SpecReqHeap SpecJsonHeap SpecJson Spec.

(** C87: json_array_of_strings leaves its result and nothing else. *)
Theorem C87_strings : forall h l ps ts, blocks_are h l -> Forall2 (shows l) ps (map Some ts) -> Forall no_nul ts ->
  exists h1 n, array_of_strings_h h (Some ps) (len ts) = Ok (h1, PBlock n)
    /\ blocks_are h1 ((n, L "[" ++ separated (L ",") (map (fun s => [DQ] ++ s ++ [DQ]) ts) ++ L "]") :: l).
Proof. intros h l ps ts A H N. eapply strings_h_eq; eauto. now apply array_of_strings_eq. Qed.
Print Assumptions C87_strings.
(** A NULL in front: the literal that join gives back is freed. *)
Theorem C87_strings_null : forall h l ps ts size, blocks_are h l -> Forall2 (shows l) ps (None :: ts) -> 1 <= size <= len ts + 1 ->
  undefined (array_of_strings_h h (Some ps) size).
Proof. intros h l ps ts size A H S. exact (strings_h_null h l ps ts size A H S). Qed.
Print Assumptions C87_strings_null.
(** json_array_of_entities: the texts of the elements and the array of them are freed; what join
    made stays if it is empty. *)
Theorem C87_entities : forall ser txt h l els ts, serializes ser txt -> blocks_are h l -> (forall x, In x els -> In x l) ->
  map (fun x => txt (snd x)) els = map Some ts -> Forall no_nul ts ->
  exists h1 n m, array_of_entities_h ser h (map (fun x => PBlock (fst x)) els) = Ok (h1, PBlock n)
    /\ blocks_are h1 ((n, L "[" ++ separated (L ",") ts ++ L "]") :: m ++ l) /\ one_if (sole_empty txt els) (length m).
Proof.
  intros ser txt h l els ts S A I E N. apply entities_h_eq; auto; rewrite E; [|now apply array_of_entities_eq].
  apply Forall_forall. intros p Hp s Es. subst p. apply in_map_iff in Hp as (t & Et & Ht). injection Et as ->. rewrite Forall_forall in N. now apply N.
Qed.
Print Assumptions C87_entities.
(** No text for the first element: none for any, but all of them are freed. *)
Theorem C87_entities_null : forall ser txt h l e els, serializes ser txt -> blocks_are h l -> (forall x, In x (e :: els) -> In x l) ->
  txt (snd e) = None -> (forall x t, In x els -> txt (snd x) = Some t -> no_nul t) ->
  exists h1 n, array_of_entities_h ser h (map (fun x => PBlock (fst x)) (e :: els)) = Ok (h1, PBlock n) /\ blocks_are h1 ((n, L "[]") :: l).
Proof. intros ser txt h l e els S A I E N. exact (entities_h_null ser txt h l e els S A I E N). Qed.
Print Assumptions C87_entities_null.
Theorem C87_ints : forall h l zs, blocks_are h l -> Forall (fun z => - 2 ^ 31 <= z < 2 ^ 31) zs ->
  exists h1 n, array_of_ints_h h (Some zs) (len zs) = Ok (h1, PBlock n) /\ blocks_are h1 ((n, L "[" ++ separated (L ",") (map dec zs) ++ L "]") :: l).
Proof. intros h l zs A H. apply ints_h_eq; [exact A|]. apply array_of_ints_eq. eapply Forall_impl; [|exact H]. unfold int_min, int_max. lia. Qed.
Print Assumptions C87_ints.
Theorem C87_key_value : forall h l k p v, blocks_are h l -> shows l p (Some v) -> no_nul k -> no_nul v ->
  exists h1 n, key_value_h h k p = Ok (h1, PBlock n) /\ blocks_are h1 ((n, ([DQ] ++ k ++ [DQ]) ++ L ":" ++ [DQ] ++ v ++ [DQ]) :: l).
Proof. intros h l k p v A P Hk Hv. unfold key_value_h. rewrite (shows_read h l p _ A P). cbn [bind]. rewrite key_value_eq by auto. cbn [bind]. alloc A. eauto. Qed.
Print Assumptions C87_key_value.
(** return_json_list: the elements, their array and the text are freed.  What stays is one block if
    the only element has an empty text, and the empty headers that were logged. *)
Theorem C87_list : forall ser txt h l a els ts r r', serializes ser txt -> blocks_are h (els ++ (a, []) :: l) ->
  map (fun x => txt (snd x)) els = map Some ts -> Forall no_nul ts -> return_json_list r (map Some ts) = Ok r' ->
  exists h1 m k, json_list_h ser h r (PBlock a) (map (fun x => PBlock (fst x)) els) = Ok (h1, r') /\ blocks_are h1 (m ++ k ++ l)
    /\ one_if (sole_empty txt els) (length m) /\ given_empties (r_headers r) (length k).
Proof.
  intros ser txt h l a els ts r r' S A E N H. rewrite <- E in H. eapply json_list_h_eq; eauto; rewrite E; [|now apply array_of_entities_eq].
  apply Forall_forall. intros p Hp s Es. subst p. apply in_map_iff in Hp as (t & Et & Ht). injection Et as ->. rewrite Forall_forall in N. now apply N.
Qed.
Print Assumptions C87_list.
(** The responses made of a text or a stream leave the text to the caller. *)
Theorem C87_json : forall h l r st p d r', blocks_are h l -> shows l p (Some d) -> return_json_with_status r st d = Ok r' ->
  exists h1 m, json_status_h h r st p = Ok (h1, r') /\ blocks_are h1 (m ++ l) /\ given_empties (r_headers r) (length m).
Proof. exact json_status_h_eq. Qed.
Print Assumptions C87_json.
Theorem C87_stream : forall h l r st c r', blocks_are h l -> return_json_stream r st c = Ok r' ->
  exists h1 m, json_stream_h h r st c = Ok (h1, r') /\ blocks_are h1 (m ++ l) /\ given_empties (r_headers r) (length m).
Proof. exact json_stream_h_eq. Qed.
Print Assumptions C87_stream.
(** A response for a new error: the error stays. *)
Theorem C87_error : forall h l r st code message e r', blocks_are h l -> new_error_with_values code message = Ok e -> status_with_error st r e = Ok r' ->
  exists h1 n, new_error_h h code message = Ok (h1, PBlock n, e)
  /\ exists h2 m e', with_error_h h1 r st (PBlock n) e = Ok (h2, r', e') /\ blocks_are h2 (m ++ (n, []) :: l) /\ given_empties (r_headers r) (length m)
  /\ err_message e' = message /\ err_code e' = (match code with [] => L "UNKNOWN" | _ => code end).
Proof. exact error_life. Qed.
Print Assumptions C87_error.
Theorem C87_response : forall h l rsp s, blocks_are h l -> return_response rsp = Ok s ->
  exists h1 n, response_h h rsp = Ok (h1, PBlock n) /\ blocks_are h1 ((n, s) :: l).
Proof. exact response_h_eq. Qed.
Print Assumptions C87_response.
(** So a list response can leak: one element with an empty text. *)
Theorem C87_balanced_refuted : exists ser txt h l a els r h1 r' m,
  serializes ser txt /\ blocks_are h (els ++ (a, []) :: l) /\ json_list_h ser h r (PBlock a) (map (fun x => PBlock (fst x)) els) = Ok (h1, r')
  /\ blocks_are h1 (m :: l).
Proof. exact list_leaks. Qed.
Print Assumptions C87_balanced_refuted.
Example C87_case :
  let h := mkHeap 3 [(0%nat, L "b"); (1%nat, []); (2%nat, L "a")] in
  let ser h p := s <- hread h p;; Ok (halloc h ([DQ] ++ s ++ [DQ])) in
  serializes ser (fun s => Some ([DQ] ++ s ++ [DQ]))
  /\ blocks_are h [(2%nat, L "a"); (0%nat, L "b"); (1%nat, [])]
  /\ (exists h1, array_of_entities_h ser h [PBlock 2; PBlock 0] = Ok (h1, PBlock 9) /\ hread h1 (PBlock 9) = Ok (L "[""a"",""b""]") /\ length (h_live h1) = 4%nat)
  /\ (exists h1 r', json_list_h ser h bare_request (PBlock 1) [PBlock 2; PBlock 0] = Ok (h1, r') /\ h_live h1 = [])
  /\ array_of_strings_h h (Some [PNull; PBlock 0]) 2 = UB BadFree.
Proof.
  cbv zeta. split; [|split].
  - intros h l n x A I. destruct (are_alloc h l ([DQ] ++ x ++ [DQ]) A) as (h1 & E & A1). exists h1, (PBlock (h_next h)). split; [rewrite (are_read h l n x A I); cbn [bind]; now rewrite E|]. eauto.
  - split; [cbn; perm|]. split; [cbn; repeat constructor; cbn; intuition discriminate|]. cbn. repeat constructor.
  - split; [eexists; split; [vm_compute; reflexivity|vm_compute; auto]|]. split; [eexists _, _; split; vm_compute; reflexivity|vm_compute; reflexivity].
Qed.

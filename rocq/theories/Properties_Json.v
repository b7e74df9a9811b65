(** Properties_Json.v - C12 to C17: JSON texts (/repo/json_utils.c, http_utils.c). *)
From Verif Require Import Spec SpecJson StringUtils JsonUtils HttpUtils JsonUtils_proofs.

(** C12.  [json_read] is the JSON reader of SpecJson.v. *)
Theorem C12_array_of_strings : forall l, Forall plain l ->
  exists t, json_array_of_strings (Some (map Some l)) (len l) = Ok t
            /\ json_read t = Some (JArr (map JStr l)).
Proof.
  intros l H. eexists. split.
  - apply array_of_strings_eq. eapply Forall_impl; [|exact H]. apply plain_no_nul.
  - apply array_read. induction H; constructor; auto. now apply plain_reads.
Qed.
Print Assumptions C12_array_of_strings.
(** The buffer suffices for all strings, plain or not, and the text is the obvious one. *)
Theorem C12_array_of_strings_text : forall l, Forall no_nul l ->
  json_array_of_strings (Some (map Some l)) (len l)
  = Ok (L "[" ++ separated (L ",") (map (fun s => [DQ] ++ s ++ [DQ]) l) ++ L "]").
Proof. exact array_of_strings_eq. Qed.
Print Assumptions C12_array_of_strings_text.
(** A NULL array or a size below 1 gives the empty array; a NULL first element is undefined
    (the literal returned by join is freed). *)
Theorem C12_array_of_strings_null : forall a size,
  (a = None \/ size < 1 -> exists t, json_array_of_strings a size = Ok t /\ json_read t = Some (JArr []))
  /\ (forall t, a = Some (None :: t) -> 1 <= size <= len t + 1 -> undefined (json_array_of_strings a size)).
Proof.
  intros a size. split.
  - intros H. exists (L "[]"). split; [|reflexivity]. destruct a; [|reflexivity].
    unfold json_array_of_strings. destruct H; [discriminate|]. now replace (size <? 1) with true by lia.
  - intros t -> H. eexists. now apply array_of_strings_null.
Qed.
Print Assumptions C12_array_of_strings_null.
Example C12_case : exists t, json_array_of_strings (Some [Some (L "a b"); Some []; Some (L "c")]) 3 = Ok t
  /\ json_read t = Some (JArr [JStr (L "a b"); JStr []; JStr (L "c")]) /\ plain (L "a b").
Proof. eexists. split; [vm_compute; reflexivity|]. split; [vm_compute; reflexivity|]. repeat constructor; discriminate. Qed.

(** C13 *)
Theorem C13_array_of_ints : forall l, Forall (fun z => - 2 ^ 31 <= z <= 2 ^ 31 - 1) l ->
  exists t, json_array_of_ints (Some l) (len l) = Ok t /\ json_read t = Some (JArr (map JInt l)).
Proof.
  intros l H. eexists. split; [now apply array_of_ints_eq|]. apply array_read. clear H.
  induction l; constructor; auto. apply dec_reads.
Qed.
Print Assumptions C13_array_of_ints.
Example C13_case : exists t, json_array_of_ints (Some [-2147483648; 0; 2147483647]) 3 = Ok t
  /\ t = L "[-2147483648,0,2147483647]".
Proof. eexists. split; vm_compute; reflexivity. Qed.

(** C14.  [l] are the strings returned by the serializer on the elements. *)
Theorem C14_array_of_entities : forall l, Forall no_nul l ->
  exists t, json_array_of_entities (map Some l) = Ok t
   /\ t = L "[" ++ separated (L ",") l ++ L "]"
   /\ (forall vs, Forall2 (fun s v => json_read s = Some v) l vs -> json_read t = Some (JArr vs)).
Proof.
  intros l H. eexists. split; [now apply array_of_entities_eq|]. split; [reflexivity|].
  intros vs Hv. now apply array_read.
Qed.
Print Assumptions C14_array_of_entities.
(** Elements without a text: one in front empties the list, one at the end is undefined, others are left out. *)
Theorem C14_null_elements : forall a, (forall s, In (Some s) a -> no_nul s) ->
  (nth_error a 0 = Some None -> json_array_of_entities a = Ok (L "[]"))
  /\ (forall s0, nth_error a 0 = Some (Some s0) -> nth_error a (length a - 1) = Some None -> undefined (json_array_of_entities a))
  /\ (forall s0 sl, nth_error a 0 = Some (Some s0) -> nth_error a (length a - 1) = Some (Some sl) ->
        exists l, json_array_of_entities a = Ok (L "[" ++ separated (L ",") l ++ L "]") /\ map Some l = filter (fun p => match p with Some _ => true | None => false end) a).
Proof.
  intros a N. assert (Fa : Forall ptr_no_nul a) by (apply Forall_forall; intros p Hp s ->; now apply N). split; [|split].
  - destruct a as [|p a]; [discriminate|]. intros E. injection E as ->. apply array_of_entities_null.
  - intros s0 H0 Hl. eexists. eapply array_of_entities_last; eauto.
  - intros s0 sl H0 Hl. exists (present a). split; [eapply array_of_entities_gaps; eauto|].
    clear. induction a as [|[s|] a IH]; cbn [present map filter]; [reflexivity|now rewrite IH|exact IH].
Qed.
Print Assumptions C14_null_elements.
Example C14_null_case : json_array_of_entities [None; Some (L "{}")] = Ok (L "[]")
  /\ json_array_of_entities [Some (L "{}"); None; Some (L "1")] = Ok (L "[{},1]") /\ json_array_of_entities [Some (L "{}"); None] = UB NullDeref.
Proof. vm_compute. repeat split; reflexivity. Qed.
Example C14_case : exists t, json_array_of_entities [Some (L "{""a"":1}"); Some (L "[true]")] = Ok t
  /\ json_read t = Some (JArr [JObj [(L "a", JInt 1)]; JArr [JBool true]])
  /\ json_read (L "{""a"":1}") = Some (JObj [(L "a", JInt 1)]).
Proof. eexists. split; [vm_compute; reflexivity|]. split; vm_compute; reflexivity. Qed.

(** C15.  A list of key/value calls and their results, joined by commas in braces, reads as
    the object with those members in that order. *)
Inductive kv_call : str -> outcome str -> str * json -> Prop :=
| kv_str : forall k v, plain k -> plain v -> kv_call k (json_key_value k (Some v)) (k, JStr v)
| kv_int : forall k z, plain k -> - 2 ^ 31 <= z <= 2 ^ 31 - 1 -> kv_call k (json_key_value_int k z) (k, JInt z)
| kv_uint : forall k z, plain k -> 0 <= z <= 2 ^ 32 - 1 -> kv_call k (json_key_value_uint32_t k z) (k, JInt z)
| kv_bool : forall k b, plain k -> kv_call k (json_key_value_bool k b) (k, JBool b).

Lemma kv_fragment k o m : kv_call k o m -> exists f, o = Ok f /\ fragment f m.
Proof.
  destruct 1 as [k v Hk Hv|k z Hk Hz|k z Hk Hz|k b Hk]; pose proof (plain_no_nul _ Hk).
  - eexists. split; [apply key_value_eq; auto; now apply plain_no_nul|now apply fragment_str].
  - eexists. split; [|now apply fragment_int]. apply key_raw_eq; auto; [apply dec_no_nul|].
    pose proof (dec_int_len z Hz). lia.
  - assert (E : dec z = dec_nat z) by (unfold dec; replace (z <? 0) with false by lia; reflexivity).
    eexists. split; [|now apply fragment_int]. unfold json_key_value_uint32_t. rewrite <- E.
    apply key_raw_eq; auto; [apply dec_no_nul|]. rewrite E.
    assert (len (dec_nat z) <= 10); [|lia]. apply dec_nat_spec; lia.
  - eexists. split; [|now apply fragment_bool]. apply key_raw_eq; auto; destruct b; try (cbn; lia);
    apply no_nul_dec_b; reflexivity.
Qed.

Theorem C15_key_values : forall calls : list (str * outcome str * (str * json)),
  Forall (fun c => kv_call (fst (fst c)) (snd (fst c)) (snd c)) calls ->
  exists fs, map (fun c => snd (fst c)) calls = map Ok fs
    /\ json_read (L "{" ++ separated (L ",") fs ++ L "}") = Some (JObj (map snd calls)).
Proof.
  intros calls H.
  assert (X : exists fs, map (fun c => snd (fst c)) calls = map Ok fs /\ Forall2 fragment fs (map snd calls)).
  { induction H as [|c calls Hc _ (fs & E & F)]; [exists []; split; [reflexivity|constructor]|].
    destruct (kv_fragment _ _ _ Hc) as (f & Ef & Ff). exists (f :: fs). cbn [map]. rewrite Ef, E.
    split; [reflexivity|now constructor]. }
  destruct X as (fs & E & F). exists fs. split; auto. now apply object_read.
Qed.
Print Assumptions C15_key_values.

Theorem C15_error_object : forall c m, plain c -> plain m ->
  exists t e', wayuu_error_json (mkError c m) = Ok (t, e')
   /\ json_read t = Some (JObj [(L "code", JStr (if len c =? 0 then L "UNKNOWN" else c)); (L "message", JStr m)]).
Proof.
  intros c m Hc Hm. set (c' := if len c =? 0 then L "UNKNOWN" else c).
  assert (Pc : plain c') by (unfold c'; destruct (len c =? 0); [repeat constructor; discriminate|auto]).
  assert (P1 : plain (L "code")) by (repeat constructor; discriminate).
  assert (P2 : plain (L "message")) by (repeat constructor; discriminate).
  unfold wayuu_error_json. cbn [err_code err_message].
  replace (if len c =? 0 then fits HTTP_MAX_ERROR_CODE_LEN (L "UNKNOWN") else Ok c) with (Ok c')
    by (unfold c'; destruct (len c =? 0); reflexivity).
  cbn [bind]. rewrite !key_value_eq by (auto using plain_no_nul). cbn [bind].
  set (f1 := ([DQ] ++ L "code" ++ [DQ]) ++ L ":" ++ [DQ] ++ c' ++ [DQ]).
  set (f2 := ([DQ] ++ L "message" ++ [DQ]) ++ L ":" ++ [DQ] ++ m ++ [DQ]).
  rewrite strcpy_0.
  2:{ rewrite len_malloc, !len_app. change (len (L "{")) with 1. change (len (L "}")) with 1.
      change (len (L ",")) with 1. lens. lia. }
  cbn [bind]. rewrite cstr_cs.
  2:{ assert (no_nul f1 /\ no_nul f2) as [N1 N2].
      { split; repeat (apply no_nul_app; split; auto using plain_no_nul); apply no_nul_dec_b; reflexivity. }
      repeat (apply no_nul_app; split; auto); apply no_nul_dec_b; reflexivity. }
  cbn [bind]. eexists _, _. split; [reflexivity|].
  replace (L "{" ++ f1 ++ L "," ++ f2 ++ L "}") with (L "{" ++ separated (L ",") [f1; f2] ++ L "}").
  2:{ cbn [separated]. now rewrite <- !app_assoc. }
  apply object_read. repeat constructor; now apply fragment_str.
Qed.
Print Assumptions C15_error_object.
Example C15_case :
  json_key_value_int (L "n") (-5) = Ok (L """n"":-5")
  /\ exists t e, wayuu_error_json (mkError [] (L "no such thing")) = Ok (t, e)
     /\ t = L "{""code"":""UNKNOWN"",""message"":""no such thing""}".
Proof. split; [vm_compute; reflexivity|]. eexists _, _. split; vm_compute; reflexivity. Qed.

(** C16.  The one-element round trip works exactly for plain strings: any quote, backslash
    or control character breaks it. *)
Theorem C16_round_trip_iff_plain : forall s, no_nul s ->
  exists t, json_array_of_strings (Some [Some s]) 1 = Ok t
            /\ (json_read t = Some (JArr [JStr s]) <-> plain s).
Proof.
  intros s H. eexists. split.
  - change 1 with (len [s]). apply (array_of_strings_eq [s]). now constructor.
  - rewrite <- array_one_iff. cbn [map separated]. rewrite <- !app_assoc. reflexivity.
Qed.
Print Assumptions C16_round_trip_iff_plain.
(** Invalid text, injected element, injected member. *)
Theorem C16_round_trip_refuted :
  (exists s t, no_nul s /\ json_array_of_strings (Some [Some s]) 1 = Ok t /\ json_read t = None)
  /\ (exists s t a b, no_nul s /\ json_array_of_strings (Some [Some s]) 1 = Ok t
        /\ json_read t = Some (JArr [JStr a; JStr b]))
  /\ (exists v f w, no_nul v /\ json_key_value (L "role") (Some v) = Ok f
        /\ json_read (L "{" ++ f ++ L "}") = Some (JObj [(L "role", w); (L "admin", JBool true); (L "x", JStr [])])).
Proof.
  split; [|split].
  - exists (L "a""b"). eexists. split; [nonul|split; vm_compute; reflexivity].
  - exists (L "a"",""b"). eexists _, _, _. split; [nonul|split; vm_compute; reflexivity].
  - exists (L "u"",""admin"":true,""x"":"""). eexists _, _.
    split; [nonul|split; vm_compute; reflexivity].
Qed.
Print Assumptions C16_round_trip_refuted.

(** C17 *)
Definition status_name (z : Z) : option str :=
  if z =? -1 then Some (L "FAIL") else if z =? 0 then Some (L "OK")
  else if z =? 1 then Some (L "ERROR") else if z =? 2 then Some (L "WARNING") else None.

Theorem C17_return_response : forall st name txt descr add datav,
  status_name st = Some name -> txt <> [] -> descr <> [] -> plain txt -> plain descr ->
  match add with Some a => json_read a = Some datav | None => datav = JStr [] end ->
  exists t, return_response (mkRsp st txt descr add) = Ok t
   /\ json_read t = Some (JObj [(L "RSP", JStr name); (L "info", JStr txt);
                                 (L "description", JStr descr); (L "data", datav)]).
Proof.
  intros st name txt descr add datav Hs Ht Hd Pt Pd Ha. unfold return_response.
  cbn [rsp_status rsp_text rsp_description rsp_additional].
  set (q := fun s : str => [DQ] ++ s ++ [DQ]).
  replace (len txt =? 0) with false by (destruct txt; [easy|symmetry; apply Z.eqb_neq; llia]).
  replace (len descr =? 0) with false by (destruct descr; [easy|symmetry; apply Z.eqb_neq; llia]).
  set (err := if st =? -1 then _ else _).
  assert (E : err = Some (q (L "RSP") ++ L ":" ++ q name) /\ plain name).
  { unfold err, status_name in *. destruct (st =? -1); [inv Hs; split; [reflexivity|repeat constructor; discriminate]|].
    destruct (st =? 0); [inv Hs; split; [reflexivity|repeat constructor; discriminate]|].
    destruct (st =? 1); [inv Hs; split; [reflexivity|repeat constructor; discriminate]|].
    destruct (st =? 2); [inv Hs; split; [reflexivity|repeat constructor; discriminate]|discriminate]. }
  destruct E as [-> Pn]. cbn [use_ptr bind]. eexists. split; [reflexivity|].
  set (data := match add with Some a => a | None => q [] end).
  set (fs := [q (L "RSP") ++ L ":" ++ q name; L " " ++ q (L "info") ++ L ":" ++ q txt;
              L " " ++ q (L "description") ++ L ":" ++ q descr; q (L "data") ++ L ":" ++ data]).
  match goal with |- json_read ?x = _ => replace x with (L "{" ++ separated (L ",") fs ++ L "}") end.
  2:{ unfold fs. cbn [separated]. change (L ", ") with (L "," ++ L " "). unfold data, q. rewrite <- !app_assoc. reflexivity. }
  apply object_read. unfold fs. repeat constructor.
  - apply (fragment_str (L "RSP")); auto. repeat constructor; discriminate.
  - exists (L " "), (L "info"), (q txt). repeat split; auto; try (repeat constructor; discriminate). now apply plain_reads.
  - exists (L " "), (L "description"), (q descr). repeat split; auto; try (repeat constructor; discriminate). now apply plain_reads.
  - exists [], (L "data"), data. repeat split; auto; try (repeat constructor; discriminate).
    unfold data. destruct add as [a|]; [exact Ha|]. subst datav. apply (plain_reads []). constructor.
Qed.
Print Assumptions C17_return_response.
Theorem C17_return_response_undefined : forall st txt descr add,
  status_name st = None \/ txt = [] \/ descr = [] ->
  undefined (return_response (mkRsp st txt descr add)).
Proof.
  intros st txt descr add H. unfold return_response. cbn [rsp_status rsp_text rsp_description rsp_additional].
  set (err := if st =? -1 then _ else _).
  assert (E : status_name st = None -> err = None).
  { unfold err, status_name. destruct (st =? -1); [easy|]. destruct (st =? 0); [easy|].
    destruct (st =? 1); [easy|]. destruct (st =? 2); easy. }
  clearbody err. destruct H as [H|[-> | ->]].
  - rewrite (E H). eexists. reflexivity.
  - destruct err; eexists; reflexivity.
  - destruct err; [|eexists; reflexivity]. cbn [use_ptr bind].
    destruct (len txt =? 0); eexists; reflexivity.
Qed.
Print Assumptions C17_return_response_undefined.
Example C17_case : exists t, return_response (mkRsp 2 (L "hi") (L "there") (Some (L "[1]"))) = Ok t
  /\ t = L "{""RSP"":""WARNING"", ""info"":""hi"", ""description"":""there"",""data"":[1]}"
  /\ json_read (L "[1]") = Some (JArr [JInt 1]).
Proof. eexists. split; [vm_compute; reflexivity|]. split; vm_compute; reflexivity. Qed.

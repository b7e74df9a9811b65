(** ScarceApi_proofs.v - lemmas about requests to the API whose blocks may be refused. *)
From Verif Require Import WsRequest Memory Scarce Lemmas StringUtils_proofs WsMultipart_proofs JsonUtils_proofs HttpUtils_proofs WsConn_proofs Router_proofs WsRequest_proofs
  WsDispatch_proofs ReqHeap_proofs Memory_proofs Defined_proofs Decode_proofs DefinedApi_proofs Scarce_proofs
  SpecMultipart SpecJson SpecHttp SpecConn SpecReq SpecRouter SpecDispatch SpecApi SpecDefined SpecDecode SpecDefinedApi SpecMemory SpecScarce SpecScarceApi Spec.

Local Notation blank2 := SpecMultipart.blank_line.

(** ** One part *)
Definition part_memory (ok : allocator) : memory := fun x _ => ok (PBody x).
Lemma ask_need ok s n : ask (part_memory ok) s n = need ok (PBody s).
Proof. reflexivity. Qed.
Lemma part_runs ok e f n old p out room x at_ : mp_md5_size e <= 128 -> len (laid p old) = n + 1 -> ends (laid p old) -> len p + 4 <= n -> no_nul out -> len (cs out ++ room) = n + 1 ->
  part_parse e f (cs out ++ room) (map Some (laid p old)) (len p) = Ok x ->
  runs ok (fun q => exists y, part_asks (laid p old) p at_ y /\ q = PBody y)
    (part_parse_a (part_memory ok) at_ e f (cs out ++ room) (map Some (laid p old)) (len p)) (Ok x).
Proof.
  intros Hm Ll He Lp No Lr X.
  destruct (part_exact e f n old p out room Hm Ll He Lp No Lr) as [(out' & room' & PG & _)|(_ & u & U)]; [|rewrite U in X; discriminate].
  unfold laid in *. set (st := skipn (length p) old) in *. clearbody st. clear old.
  destruct (first_nul (p ++ st) (ends_in _ He)) as (T & r & Et & NT).
  assert (ST : seen_as (p ++ st) T) by (split; [exact NT|right; eauto]).
  assert (En : strlen (map Some (p ++ st)) = Ok (len T)) by (rewrite Et, as_cs; now apply strlen_cs).
  assert (None_ : (forall a b, first_of name_mark T a b -> b = []) -> forall q, (fun _ => False) q <-> exists y, part_asks (p ++ st) p at_ y /\ q = PBody y).
  { intros N q. split; [intros []|]. intros (y & A & _). destruct A as [T1 a b S1 F B|T1 a b c d S1 F B C D]; pose proof (seen_unique _ _ _ ST S1) as <-; apply B; eapply N; eauto. }
  unfold part_parse in X. unfold part_parse_a. rewrite En in X. rewrite En. cbn [bind] in X. cbn [bind].
  destruct (first_of_dec FORM_DATA_NAME T) as [(a & b & F)|NF].
  2:{ assert (Es : text_find_after (map Some (p ++ st)) FORM_DATA_NAME 0 (len T) = Ok (-1)).
      { rewrite Et. now rewrite find_no_text by (auto; try discriminate; apply no_nul_dec_b; reflexivity). }
      rewrite Es in X. rewrite Es. cbn [bind] in X. cbn [bind]. change (-1 <? 1) with true in *. cbv iota in *. rewrite X.
      eapply runs_weak; [apply runs_same|]. apply None_. intros a b F. elim NF. eapply first_of_holds. exact F. }
  assert (Es : text_find_after (map Some (p ++ st)) FORM_DATA_NAME 0 (len T) = Ok (len a + 17)).
  { rewrite Et. now rewrite (find_text _ _ _ a b) by (auto; try discriminate; apply no_nul_dec_b; reflexivity). }
  rewrite Es in X. rewrite Es. cbn [bind] in X. cbn [bind]. replace (len a + 17 <? 1) with false in * by (lens; lia).
  pose proof F as (ET & _).
  assert (Em : strlen (from (map Some (p ++ st)) (len a + 17)) = Ok (len b)).
  { rewrite Et, ET. rewrite <- !app_assoc, app_assoc, map_app. rewrite from_app by (rewrite len_map, len_app; reflexivity).
    rewrite as_cs. apply strlen_cs. rewrite ET in NT. apply no_nul_app in NT as [_ NT]. now apply no_nul_app in NT as [_ NT]. }
  rewrite Em in X. rewrite Em. cbn [bind] in X. cbn [bind]. destruct b as [|b0 b].
  { change (len (@nil ascii) <=? 0) with true in *. cbv iota in *. rewrite X. eapply runs_weak; [apply runs_same|]. apply None_.
    intros a' b' F'. destruct (first_of_unique _ _ _ _ _ _ F F') as [_ <-]. reflexivity. }
  replace (len (b0 :: b) <=? 0) with false in * by (rewrite len_cons; lens; lia). cbv iota in *.
  rewrite ask_need. step X f0 E0. step X f1 E1. step X f2 E2. step X fld E3. step X ds Eds. step X tlen Etl. step X tf Etf. step X sf Esf.
  assert (LB : len blank2 = 4) by reflexivity.
  assert (AN : part_asks (p ++ st) p at_ (Field at_)) by (eapply pa_name; [exact ST|exact F|discriminate]).
  destruct (find_within blank2 (p ++ st) (len p)) as [(c & d & FB & Lc & EB)|(NB & EB)]; [discriminate|lens; lia|rewrite LB; lia| |];
    change (CRLF ++ CRLF) with blank2 in Eds; rewrite EB in Eds; injection Eds as <-.
  2:{ change (0 <? -1) with false in *. cbv iota in *. rewrite X. eapply runs_weak; [eapply runs_need; apply runs_same|].
      intros q. split; [intros [->|[]]; eauto|]. intros (y & A & ->). left. destruct A as [T1 a1 b1 S1 F1 B1|T1 a1 b1 c1 d1 S1 F1 B1 C1 D1]; [reflexivity|].
      specialize (NB c1 d1 C1). lia. }
  replace (0 <? len c + len blank2) with true in * by (lens; lia). cbv iota in *.
  assert (NFF : ~ SpecMultipart.holds FILENAME T).
  { destruct PG as [T1 S1 N1|T1 a1 S1 F1|T1 a1 b1 m1 S1 F1 B1 P1 X1 L1|T1 a1 b1 m1 c1 v1 x1 y1 V1 S1 F1 B1 P1 X1 K1 U1 L1];
      pose proof (seen_unique _ _ _ ST S1) as <-.
    - elim N1. eapply first_of_holds. exact F.
    - destruct (first_of_unique _ _ _ _ _ _ F F1). discriminate.
    - destruct FB as (FB & _). specialize (X1 c d FB). lia.
    - exact X1. }
  assert (ESF : text_find_after (map Some (p ++ st)) FILENAME 0 (len T) = Ok (-1)) by (rewrite Et, find_no_text; auto; try discriminate; apply no_nul_dec_b; reflexivity).
  rewrite ESF in Esf. injection Esf as <-. change (0 <? -1) with false in *. cbv iota in *. rewrite ask_need. rewrite X.
  eapply runs_weak; [eapply runs_need; eapply runs_need; apply runs_same|].
  intros q. split.
  - intros [->|[->|[]]]; [eauto|]. exists (Value at_). split; [|reflexivity]. destruct FB as (FB & _). eapply pa_value; [exact ST|exact F|discriminate|exact FB|exact Lc].
  - intros (y & A & ->). destruct A; auto.
Qed.

(** ** All parts *)
Lemma delimits_dec bnd body : delimits bnd body \/ ~ delimits bnd body.
Proof.
  destruct (first_of_dec bnd body) as [(a & s1 & F)|N].
  - destruct (first_of_dec bnd s1) as [(p & q & F1)|N1].
    + left. destruct F as (-> & _), F1 as (-> & _). now exists a, p, q.
    + right. intros (a2 & b2 & c2 & E). apply N1. pose proof F as (Es & M). specialize (M a2 (b2 ++ bnd ++ c2) E). rewrite E, !(app_assoc _ bnd) in Es.
      apply app_eq_app in Es as (l & [(E1 & E2)|(E1 & E2)]).
      * exists (l ++ b2), c2. rewrite E2, <- !app_assoc. reflexivity.
      * assert (l = []) as ->. { apply (f_equal (@length _)) in E1. rewrite !app_length in E1. destruct l; [reflexivity|]. cbn in E1. lia. }
        cbn [app] in E2. exists b2, c2. rewrite <- E2, <- app_assoc. reflexivity.
  - right. intros (a & b & c & E). apply N. exists a, (b ++ bnd ++ c). exact E.
Qed.
Lemma asks_delimits n bnd s old x : parts_ask n bnd s old x -> delimits bnd s.
Proof.
  intros H. assert (exists a s1 p q, first_of bnd s a s1 /\ first_of bnd s1 p q) as (a & s1 & p & q & F & F1) by (inversion H; eauto 8).
  destruct F as (-> & _), F1 as (-> & _). now exists a, p, q.
Qed.
Lemma parts_runs ok e f bnd body : mp_md5_size e <= 128 -> no_nul bnd -> 2 <= len bnd -> len body < 2 ^ 31 ->
  forall k pre s old out room x, body = pre ++ s -> (length s <= k)%nat -> len old = len body + 1 -> ends old -> no_nul out -> len (cs out ++ room) = len body + 1 ->
  multipart_loop k e f (cs body) (map Some old) (cs out ++ room) bnd (len body) (len pre) = Ok x ->
  runs ok (fun q => exists y, parts_ask (len body) bnd s old y /\ q = PBody y)
    (multipart_loop_a (part_memory ok) k e f (cs body) (Some (map Some old)) (cs out ++ room) bnd (len body) (len pre)) (Ok x).
Proof.
  intros Hm Hn H2 Hl. assert (Hne : bnd <> []) by (intros ->; change (len (@nil ascii)) with 0 in H2; lia).
  induction k as [|k IH]; intros pre s old out room x Eb Hk Lo Ho No Lr X.
  - destruct s; [|cbn in Hk; lia]. rewrite app_nil_r in Eb. subst pre. cbn [multipart_loop] in X. cbn [multipart_loop_a]. rewrite Z.ltb_irrefl in *. rewrite X.
    eapply runs_weak; [apply runs_same|]. intros q. split; [intros []|]. intros (y & A & _). apply asks_delimits in A as (a & b & c & E).
    symmetry in E. apply app_eq_nil in E as (_ & E). apply app_eq_nil in E as (E & _). contradiction.
  - cbn [multipart_loop] in X. cbn [multipart_loop_a].
    assert (No_ : ~ delimits bnd s -> forall q, (fun _ => False) q <-> exists y, parts_ask (len body) bnd s old y /\ q = PBody y).
    { intros N q. split; [intros []|]. intros (y & A & _). apply N. eapply asks_delimits. exact A. }
    destruct (Z.ltb_spec (len pre) (len body)) as [G|G].
    2:{ rewrite X. eapply runs_weak; [apply runs_same|]. apply No_. intros (a & b & c & E).
        assert (s = []) as -> by (apply len_0; subst body; rewrite len_app in G; lens; lia).
        symmetry in E. apply app_eq_nil in E as (_ & E). apply app_eq_nil in E as (E & _). contradiction. }
    destruct (first_of_dec bnd s) as [(a & s1 & F)|NF].
    2:{ assert (E1 : text_find_after (cs body) bnd (len pre) (len body) = Ok (-1)) by (unfold cs; rewrite Eb; now rewrite text_not_found by auto).
        rewrite E1 in X. rewrite E1. cbn [bind] in X. cbn [bind]. change (-1 <? 0) with true in *. cbv iota in *. rewrite X.
        eapply runs_weak; [apply runs_same|]. apply No_. intros (a & b & c & E). apply NF. exists a, (b ++ bnd ++ c). exact E. }
    assert (E1 : text_find_after (cs body) bnd (len pre) (len body) = Ok (len (pre ++ a ++ bnd))).
    { unfold cs. rewrite Eb, (find_at bnd pre s [] a s1) by auto. f_equal. rewrite !len_app. lia. }
    rewrite E1 in X. rewrite E1. cbn [bind] in X. cbn [bind]. replace (len (pre ++ a ++ bnd) <? 0) with false in * by (lens; lia).
    assert (Eb1 : body = (pre ++ a ++ bnd) ++ s1) by (destruct F as (-> & _); rewrite Eb; now rewrite <- !app_assoc).
    destruct (first_of_dec bnd s1) as [(p & q & F1)|NF].
    2:{ assert (E2 : text_find_after (cs body) bnd (len (pre ++ a ++ bnd)) (len body) = Ok (-1)) by (unfold cs; rewrite Eb1; now rewrite text_not_found by auto).
        rewrite E2 in X. rewrite E2. cbn [bind] in X. cbn [bind]. change (-1 <? 0) with true in *. cbv iota in *. rewrite X.
        eapply runs_weak; [apply runs_same|]. intros w. split; [intros []|]. intros (y & A & _).
        assert (exists a s1 p q, first_of bnd s a s1 /\ first_of bnd s1 p q) as (a' & s1' & p' & q' & F' & F1') by (inversion A; eauto 8).
        destruct (first_of_unique _ _ _ _ _ _ F F') as [<- <-]. apply NF. eapply first_of_holds. exact F1'. }
    assert (E2 : text_find_after (cs body) bnd (len (pre ++ a ++ bnd)) (len body) = Ok (len (pre ++ a ++ bnd) + len p + len bnd)).
    { unfold cs. rewrite Eb1. now rewrite (find_at bnd _ s1 [] p q) by auto. }
    rewrite E2 in X. rewrite E2. cbn [bind] in X. cbn [bind]. replace (len (pre ++ a ++ bnd) + len p + len bnd <? 0) with false in * by (lens; lia). cbv iota zeta in *.
    replace (len (pre ++ a ++ bnd) + len p + len bnd - len (pre ++ a ++ bnd) - len bnd) with (len p) in * by lia.
    assert (Lb : len body = len (pre ++ a ++ bnd) + len p + len bnd + len q) by (rewrite Eb1 at 1; rewrite len_app, (first_len _ _ _ _ F1); lia).
    assert (Lab : 2 <= len (pre ++ a ++ bnd)) by (rewrite !len_app; lens; lia).
    rewrite to_int_id in X by (lens; lia). rewrite to_int_id by (lens; lia).
    assert (E3 : memcpy (map Some old) 0 (cs body) (len (pre ++ a ++ bnd)) (len p) = Ok (map Some (laid p old))).
    { unfold memcpy. replace (slice (cs body) (len (pre ++ a ++ bnd)) (len p)) with (Ok (map Some p)).
      2:{ destruct F1 as (F1 & _). rewrite Eb1, F1 at 1. unfold cs. rewrite !map_app with (l := pre ++ a ++ bnd), map_app with (l := p), <- !app_assoc.
          symmetry. now rewrite slice_ok by (now rewrite len_map). }
      cbn [bind]. rewrite write_at_0 by (rewrite !len_map; lens; lia). unfold laid. now rewrite map_length, skipn_map, <- map_app. }
    rewrite E3 in X. rewrite E3. cbn [bind] in X. cbn [bind].
    assert (Ll : len (laid p old) = len body + 1) by (unfold laid; rewrite len_app, len_skipn; unfold len in *; lia).
    assert (He : ends (laid p old)).
    { unfold laid. apply ends_app. apply (ends_tail (firstn (length p) old)); [|now rewrite firstn_skipn].
      intros E. apply (f_equal len) in E. rewrite len_skipn in E. change (len (@nil ascii)) with 0 in E. unfold len in *. lia. }
    destruct (part_exact e f (len body) old p out room Hm Ll He ltac:(lens; lia) No Lr) as [(out1 & room1 & PG & N1 & L1 & EP)|(NP & u & EP)];
      rewrite EP in X; cbn [bind] in X; [|discriminate].
    pose proof (part_runs ok e f (len body) old p out room _ (len (pre ++ a ++ bnd)) Hm Ll He ltac:(lens; lia) No Lr EP) as RP.
    assert (At : len (pre ++ a ++ bnd) = len body - len s1) by (pose proof (first_len _ _ _ _ F1); lia).
    destruct (cleared_exists (laid p old) (ends_in _ He)) as (next & C). destruct (cleared_trim _ _ C) as (Et & Ln). rewrite Et in X. cbn [bind] in X.
    assert (Es1 : exists c rest, s1 = c :: rest).
    { destruct s1 as [|c rest]; [|eauto]. apply first_len in F1. change (len (@nil ascii)) with 0 in F1. lens. lia. }
    destruct Es1 as (c & rest & Es1).
    replace (len (pre ++ a ++ bnd) + 1) with (len ((pre ++ a ++ bnd) ++ [c])) in * by llia.
    eapply runs_weak.
    + eapply runs_bind; [exact RP|]. cbn beta iota. rewrite Et. cbn [bind].
      apply (IH ((pre ++ a ++ bnd) ++ [c]) rest next out1 room1 x); auto.
      * rewrite Eb1, Es1. now rewrite <- (app_assoc _ [c] rest).
      * apply first_len in F. rewrite Es1, len_cons in F. unfold len in *. lens. lia.
      * unfold len in *. lia.
      * eapply cleared_ends; eauto.
    + intros w. cbn beta. split.
      * intros [(y & A & ->)|(y & A & ->)]; exists y; (split; [|reflexivity]); [eapply ps_here; eauto; now rewrite <- At|eapply ps_next; eauto].
      * intros (y & A & ->). inversion A as [? a' s1' p' q' ? ? F' F1' A'|? a' s1' p' q' c' rest' ? next' ? F' F1' C' E' A']; subst s0 old0 x0.
        -- left. destruct (first_of_unique _ _ _ _ _ _ F F') as [<- <-]. destruct (first_of_unique _ _ _ _ _ _ F1 F1') as [<- <-]. exists y. rewrite At. auto.
        -- right. destruct (first_of_unique _ _ _ _ _ _ F F') as [<- <-]. destruct (first_of_unique _ _ _ _ _ _ F1 F1') as [<- <-].
           rewrite Es1 in E'. injection E' as <- <-. rewrite <- (cleared_det _ _ _ C C') in A'. eauto.
Qed.
Lemma parse_runs ok e f bnd body x : mp_md5_size e <= 128 -> no_nul bnd -> 2 <= len bnd -> len body < 2 ^ 31 ->
  multipart_parse e f (cs body) bnd (len body) = Ok x ->
  runs ok (fun w => w = PBody Fields \/ (delimits bnd body /\ w = PBody Part)
      \/ exists y, parts_ask (len body) bnd body (repeat NUL (S (length body))) y /\ w = PBody y)
    (multipart_parse_a (part_memory ok) e f (cs body) bnd (len body)) (Ok x).
Proof.
  intros Hm Hn H2 Hl X. assert (Hne : bnd <> []) by (intros ->; change (len (@nil ascii)) with 0 in H2; lia).
  unfold multipart_parse in X. unfold multipart_parse_a. rewrite to_nat_len in *. set (old := repeat NUL (S (length body))) in *.
  assert (Ec : calloc (len body + 1) = map Some old).
  { unfold old, calloc. replace (Z.to_nat (len body + 1)) with (S (length body)) by (unfold len; lia).
    generalize (S (length body)). clear. induction n as [|n IH]; [reflexivity|]. cbn [repeat map]. now rewrite IH. }
  assert (Lc : len (calloc (len body + 1)) = len body + 1) by (rewrite len_calloc; lens; lia).
  assert (Ec2 : calloc (len body + 1) = cs [] ++ calloc (len body + 1 - 1)) by (apply calloc_cs; lens; lia).
  assert (Ho : ends old) by (exists (repeat NUL (length body)); unfold old; apply (repeat_cons (length body) NUL)).
  apply bind_ok_inv in X as ((tf & f') & E & X). rewrite ask_need. cbv zeta.
  assert (Rest : runs ok (fun _ => False) (s <- cstr tf;; form' <- strcpy (cs body) 0 s;; Ok (form', f')) (Ok x)) by (rewrite X; apply runs_same).
  change (part_memory ok Part (len body + 1)) with (ok (PBody Part)).
  destruct (ok (PBody Part)) eqn:Eo.
  - assert (EQ : multipart_loop_a (part_memory ok) (length body) e f (cs body) (Some (calloc (len body + 1))) (calloc (len body + 1)) bnd (len body) 0
      = multipart_loop_a (part_memory ok) (length body) e f (cs body) (Some (map Some old)) (cs [] ++ calloc (len body + 1 - 1)) bnd (len body) 0) by (now rewrite <- Ec, <- Ec2).
    assert (EQ' : multipart_loop (length body) e f (cs body) (calloc (len body + 1)) (calloc (len body + 1)) bnd (len body) 0
      = multipart_loop (length body) e f (cs body) (map Some old) (cs [] ++ calloc (len body + 1 - 1)) bnd (len body) 0) by (now rewrite <- Ec, <- Ec2).
    rewrite EQ' in E. clear EQ'. rewrite Ec2 in Lc.
    assert (R0 : runs ok (fun w => w = PBody Fields \/ (exists y, parts_ask (len body) bnd body old y /\ w = PBody y) \/ False)
      (_ <- need ok (PBody Fields);; '(tf, f') <- multipart_loop_a (part_memory ok) (length body) e f (cs body) (Some (calloc (len body + 1))) (calloc (len body + 1)) bnd (len body) 0;;
       s <- cstr tf;; form' <- strcpy (cs body) 0 s;; Ok (form', f')) (Ok x)).
    { apply runs_need. rewrite EQ. eapply runs_bind with (a := (tf, f')); [|exact Rest].
      apply (parts_runs ok e f bnd body Hm Hn H2 Hl (length body) [] body old [] (calloc (len body + 1 - 1)) _ eq_refl (le_n _)); auto.
      unfold old. rewrite len_repeat. unfold len. lia. }
    destruct R0 as [((w & W & O) & U)|(W & U)]; [left|right]; (split; [|exact U]).
    + exists w. split; [|exact O]. tauto.
    + intros w [->|[(_ & ->)|(y & A & ->)]]; [apply W; now left|exact Eo|apply W; right; left; eauto].
  - destruct (delimits_dec bnd body) as [D|D].
    + left. split; [exists (PBody Part); split; [right; left; auto|exact Eo]|]. unfold need. destruct (ok (PBody Fields)); cbn [bind]; [|eexists; reflexivity].
      unfold cs at 1. rewrite none_delimits by auto. eexists. reflexivity.
    + destruct (none_plain (part_memory ok) (length body) e f (calloc (len body + 1)) bnd body (calloc (len body + 1)) Hn Hne D) as (K1 & K2).
      unfold cs in E at 1. rewrite K2 in E. injection E as <- <-. eapply runs_weak.
      * apply runs_need. unfold cs at 1. rewrite K1. cbn [bind]. exact Rest.
      * intros w. cbn beta. split; [tauto|]. intros [->|[(X1 & _)|(y & A & _)]]; [now left|contradiction|]. apply asks_delimits in A. contradiction.
Qed.

(** ** The route *)
Definition step_s (ok : allocator) (r : api_request) (rt : route) (m : str) : outcome api_request :=
  match rt_type rt with
  | MATCHER_TYPE_CONSTANT => Ok r
  | MATCHER_TYPE_PARAM =>
    _ <- need ok PParamText;;
    _ <- need ok PParam;;
    qs <- router_extract_param m (rt_prefix rt) (rt_param rt);;
    n <- strlen (r_form r);;
    form <- (if n =? 0 then Ok (if ok PForm then cs qs else []) else _ <- need ok PAppend;; strcat (r_form r) (L "&" ++ qs));;
    Ok (set_form r form)
  end.
Lemma route_loop_none_s ok t m r : live t -> none_selected t m -> route_loop_s ok t m r = Ok (r, None, None).
Proof.
  intros Hl Hn. induction t as [|rt t IH]; [reflexivity|]. inv Hl. inv Hn. cbn [route_loop_s]. rewrite H1. cbn [negb].
  unfold matches in H3. destruct (rt_type rt).
  - rewrite (proj2 (str_eqb_neq _ _)) by auto. auto.
  - destruct (str_eqb_spec (rt_prefix rt) m) as [E|N].
    + destruct (strstr m (rt_prefix rt)); auto.
    + destruct (strstr m (rt_prefix rt)) as [n|] eqn:S; auto. exfalso. apply H3. split; auto.
      apply strstr_substring. eauto.
Qed.
Lemma route_loop_skip_s ok a t m r : live a -> none_selected a m -> route_loop_s ok (a ++ t) m r = route_loop_s ok t m r.
Proof.
  intros Hl Hn. induction a as [|rt a IH]; [reflexivity|]. inv Hl. inv Hn. cbn [app route_loop_s]. rewrite H1. cbn [negb].
  unfold matches in H3. destruct (rt_type rt).
  - rewrite (proj2 (str_eqb_neq _ _)) by auto. auto.
  - destruct (str_eqb_spec (rt_prefix rt) m) as [E|N].
    + destruct (strstr m (rt_prefix rt)); auto.
    + destruct (strstr m (rt_prefix rt)) as [n|] eqn:S; auto. exfalso. apply H3. split; auto.
      apply strstr_substring. eauto.
Qed.
Lemma route_loop_selected_s ok t m r rt : live t -> selected t m rt ->
  route_loop_s ok t m r = (r1 <- step_s ok r rt m;; Ok (r1, rt_handler rt, rt_filter rt)).
Proof.
  intros Hl (a & b & -> & Hm & Hn). apply Forall_app in Hl as [La Lb]. rewrite route_loop_skip_s by auto.
  inv Lb. cbn [route_loop_s]. rewrite H1. cbn [negb]. unfold matches in Hm. unfold step_s. destruct (rt_type rt).
  - subst m. now rewrite str_eqb_refl.
  - destruct Hm as [S N]. rewrite (proj2 (str_eqb_neq _ _)) by auto. apply strstr_substring in S as [n ->].
    unfold need. destruct (ok PParamText); [|reflexivity]. cbn [bind]. destruct (ok PParam); [|reflexivity]. cbn [bind].
    destruct (router_extract_param m (rt_prefix rt) (rt_param rt)); [|reflexivity]. cbn [bind].
    destruct (strlen (r_form r)); [|reflexivity]. cbn [bind].
    match goal with |- context [bind ?x _] => destruct x end; reflexivity.
Qed.
Definition finish_call_s (ok : allocator) (a : callbacks) (r1 : api_request) (handler filter : option nat) : outcome (list call * api_request) :=
  match handler with
  | None => r2 <- send_status_s ok r1 400;; Ok ([], r2)
  | Some h => Ok (app_does a h filter r1)
  end.
Lemma handle_eq_s ok a t r : router_handle_request_s ok a t r =
  (matcher <- fits 255 (method_path r);; '(r1, handler, filter) <- route_loop_s ok t matcher r;; finish_call_s ok a r1 handler filter).
Proof.
  unfold router_handle_request_s, method_path, finish_call_s, app_does. destruct (fits 255 _); [|reflexivity]. cbn [bind].
  destruct (route_loop_s ok t _ r) as [((r1 & [h|]) & [g|])|]; try reflexivity. cbn [bind]. destruct (on_filter a g r1) as (r2 & pass). cbn [fst snd]. now destruct pass.
Qed.
Lemma finish_call_app a r1 h flt : finish_call a r1 (Some h) flt = Ok (app_does a h flt r1).
Proof. unfold finish_call, app_does. destruct flt as [g|]; [|reflexivity]. destruct (on_filter a g r1) as (r2 & pass). cbn [fst snd]. now destruct pass. Qed.

(** What the application gets instead: the form it had, or a NULL form. *)
Definition got (ok : allocator) (r : api_request) (rt : route) (text : str) (r1 r1' : api_request) (m : str) : Prop :=
  if ok PForm then r1' = r1
  else match rt_type rt with
       | MATCHER_TYPE_CONSTANT => r1' = r1
       | MATCHER_TYPE_PARAM => match text with
           | _ :: _ => r1' = r1
           | [] => r1' = set_form r [] /\ exists form, cstr form = Ok (rt_param rt ++ L "=" ++ skipn (length (rt_prefix rt)) m) /\ r1 = set_form r form
           end
       end.
Lemma step_runs ok r rt m text r1 : no_nul m -> no_nul (rt_param rt) -> matches rt m -> cstr (r_form r) = Ok text -> step r rt m = Ok r1 ->
  exists r1', runs ok (fun p => rt_type rt = MATCHER_TYPE_PARAM /\ (In p [PParamText; PParam] \/ (text <> [] /\ p = PAppend))) (step_s ok r rt m) (Ok r1')
    /\ got ok r rt text r1 r1' m.
Proof.
  intros Nm Np Hm C X. unfold step in X. unfold step_s, got. destruct (rt_type rt) eqn:Et.
  { injection X as <-. exists r. split; [|now destruct (ok PForm)]. eapply runs_weak; [apply runs_same|]. intros p. cbn beta. intuition discriminate. }
  apply bind_ok_inv in X as (qs & Eq & X). apply bind_ok_inv in X as (n & En & X). rewrite (strlen_cstr _ _ C) in En. injection En as <-.
  apply bind_ok_inv in X as (form & Ef & X). injection X as <-. rewrite Eq. cbn [bind]. rewrite (strlen_cstr _ _ C). cbn [bind].
  destruct text as [|c text].
  - change (len [] =? 0) with true in *. cbv iota in *. injection Ef as <-. cbn [bind].
    exists (set_form r (if ok PForm then cs qs else [])). split.
    + eapply runs_weak; [eapply runs_need; eapply runs_need; apply runs_same|]. intros p. cbn [In]. intuition congruence.
    + destruct (ok PForm); [reflexivity|]. split; [reflexivity|]. exists (cs qs). split; [|reflexivity].
      unfold matches in Hm. rewrite Et in Hm. destruct Hm as (Sb & Ne). pose proof (substring_len _ _ Sb) as SL.
      rewrite extract_param_eq in Eq by auto. destruct (len (rt_param rt) <=? 2 * len (rt_prefix rt) + 8); [|discriminate]. injection Eq as <-.
      apply cstr_cs0. apply no_nul_app. split; [exact Np|]. apply no_nul_app. split; [now apply no_nul_L|]. now apply no_nul_skipn.
  - replace (len (c :: text) =? 0) with false in * by (rewrite len_cons; lens; lia).
    exists (set_form r form). split; [|now destruct (ok PForm)]. rewrite Ef. cbn [bind].
    eapply runs_weak; [eapply runs_need; eapply runs_need; eapply runs_bind with (a := form) (W2 := fun _ => False); [eapply runs_need; apply runs_same|apply runs_same]|].
    intros p. cbn beta. cbn [In]. split; [intros [->|[->|[[->|[]]|[]]]]; split; auto; right; split; auto; discriminate|intuition congruence].
Qed.

(** What the whole router gives. *)
Definition routed (ok : allocator) (a : callbacks) (routes : list route) (m : str) (text : str) (res res' : list call * api_request) : Prop :=
  ((ok PForm = true \/ forall rt, ~ form_from_path routes m text rt) -> res' = res)
  /\ (ok PForm = false -> forall rt, form_from_path routes m text rt -> exists r form,
        cstr form = Ok (rt_param rt ++ L "=" ++ skipn (length (rt_prefix rt)) m)
        /\ match rt_handler rt with
           | None => res = ([], set_form r form) /\ res' = ([], set_form r [])
           | Some h => res = app_does a h (rt_filter rt) (set_form r form) /\ res' = app_does a h (rt_filter rt) (set_form r [])
           end).
Lemma bad_form r r' form : bad_request r = Ok r' -> bad_request (set_form r form) = Ok (set_form r' form).
Proof.
  unfold bad_request, send_http_status. replace (find_http_status_index 400 =? -1) with false by reflexivity.
  replace (negb (str_eqb [] [])) with false by reflexivity. intros E. apply bind_ok_inv in E as (b & Eb & E). rewrite Eb. cbn [bind].
  unfold log_access, http_get_header in *. apply bind_ok_inv in E as (x & Ex & E). apply bind_ok_inv in E as (y & Ey & E). injection E as <-.
  cbn in Ex, Ey |- *. rewrite Ex. cbn [bind]. rewrite Ey. cbn [bind]. reflexivity.
Qed.
Lemma set_form_twice r a b : set_form (set_form r a) b = set_form r b.
Proof. reflexivity. Qed.
Lemma router_runs ok v r m p fs text res : sound_routes v -> no_nul (m ++ L ":" ++ p) -> r_method r = m -> r_path r = p ->
  r_headers r = map stored (firstn 20 fs) -> Forall (fun nv => no_nul (fst nv) /\ no_nul (snd nv)) fs ->
  cstr (r_form r) = Ok text -> router_handle_request (v_app v) (v_routes v) r = Ok res ->
  exists res', runs ok (route_wants (v_routes v) (m ++ L ":" ++ p) fs text) (router_handle_request_s ok (v_app v) (v_routes v) r) (Ok res')
    /\ routed ok (v_app v) (v_routes v) (m ++ L ":" ++ p) text res res'.
Proof.
  intros (Lv & Np & _) Nm Em Ep Hh Hf Hc X. assert (M : method_path r = m ++ L ":" ++ p) by (unfold method_path; now rewrite Em, Ep).
  rewrite handle_request_eq in X. rewrite handle_eq_s. rewrite M in X. rewrite M. set (mp := m ++ L ":" ++ p) in *. clearbody mp.
  apply bind_ok_inv in X as (mt & Ef & X). rewrite Ef. cbn [bind]. assert (mt = mp) as ->.
  { unfold fits in Ef. match type of Ef with (if ?c then _ else _) = _ => destruct c end; congruence. }
  destruct (selected_or_none (v_routes v) mp) as [(rt & S)|N].
  - assert (Sel : forall rt', selected (v_routes v) mp rt' -> rt' = rt) by (intros rt' S'; symmetry; eapply selected_unique; eauto).
    assert (NN : ~ none_selected (v_routes v) mp).
    { intros N. destruct S as (a & b & E & Mt & _). unfold none_selected in N. rewrite E in N. apply Forall_app in N as [_ N]. inv N. contradiction. }
    assert (Mt : matches rt mp) by (destruct S as (a & b & E & Mt & _); exact Mt).
    assert (Npr : no_nul (rt_param rt)).
    { destruct S as (a & b & E & _). rewrite E in Np. apply Forall_app in Np as [_ Np]. now inv Np. }
    rewrite (route_loop_selected _ _ _ rt) in X by auto. rewrite (route_loop_selected_s ok _ _ _ rt) by auto.
    apply bind_ok_inv in X as (((r1 & hd) & flt) & E1 & X). apply bind_ok_inv in E1 as (r1' & E1 & Y). injection Y as <- <- <-.
    destruct (step_runs ok r rt mp text r1' Nm Npr Mt Hc E1) as (r2 & RS & Gt).
    assert (H1 : r_headers r1' = map stored (firstn 20 fs)).
    { unfold step in E1. destruct (rt_type rt); [injection E1 as <-; exact Hh|]. apply bind_ok_inv in E1 as (? & _ & E1). apply bind_ok_inv in E1 as (? & _ & E1).
      apply bind_ok_inv in E1 as (? & _ & E1). injection E1 as <-. exact Hh. }
    assert (Fp : forall rt', form_from_path (v_routes v) mp text rt' <-> rt' = rt /\ rt_type rt = MATCHER_TYPE_PARAM /\ text = []).
    { intros rt'. unfold form_from_path. split; [intros (S' & T' & E'); apply Sel in S'; subst; auto|intros (-> & T' & E'); auto]. }
    assert (G2 : (ok PForm = true \/ ~ (rt_type rt = MATCHER_TYPE_PARAM /\ text = []) -> r2 = r1')
       /\ (ok PForm = false -> rt_type rt = MATCHER_TYPE_PARAM /\ text = [] -> r2 = set_form r [] /\ exists form, cstr form = Ok (rt_param rt ++ L "=" ++ skipn (length (rt_prefix rt)) mp) /\ r1' = set_form r form)).
    { unfold got in Gt. destruct (ok PForm); [split; [auto|discriminate]|]. destruct (rt_type rt); [split; [auto|intros _ (? & _); discriminate]|].
      destruct text; [split; [intros [Y|Y]; [discriminate|tauto]|auto]|]. split; [auto|]. intros _ (_ & Y). discriminate. }
    destruct G2 as (G2 & G3).
    destruct (rt_handler rt) as [hd|] eqn:Eh.
    + rewrite finish_call_app in X. injection X as <-. exists (app_does (v_app v) hd (rt_filter rt) r2). split.
      * eapply runs_weak; [eapply runs_bind; [eapply runs_bind; [exact RS|apply runs_same]|apply runs_same]|].
        intros q. cbn beta. unfold route_wants. split.
        -- intros [[W|[]]|[]]. right. exists rt. auto.
        -- intros [(W & _)|(rt' & S' & [(W & _)|W])]; [contradiction| |]; apply Sel in S'; subst rt'; [congruence|auto].
      * split.
        -- intros Y. rewrite G2; [reflexivity|]. destruct Y as [Y|Y]; [auto|]. right. intros Z. apply (Y rt). now apply Fp.
        -- intros Y rt' Z. apply Fp in Z as (-> & Z). destruct (G3 Y Z) as (-> & form & Cf & ->). exists r, form. rewrite Eh. auto.
    + unfold finish_call, reject_routing_request in X. apply bind_ok_inv in X as (r3 & E3 & X). injection X as <-.
      assert (H2 : r_headers r2 = map stored (firstn 20 fs)).
      { unfold got in Gt. destruct (ok PForm); [now subst|]. destruct (rt_type rt); [now subst|]. destruct text; [|now subst]. destruct Gt as (-> & _). exact Hh. }
      assert (E4 : bad_request r2 = Ok (set_form r3 (r_form r2))).
      { assert (r2 = set_form r1' (r_form r2)) as Q.
        { unfold got in Gt. assert (Q0 : r1' = set_form r1' (r_form r1')) by (destruct r1'; reflexivity).
          destruct (ok PForm); [now subst|]. destruct (rt_type rt); [now subst|]. destruct text; [|now subst]. destruct Gt as (-> & form & _ & ->). reflexivity. }
        rewrite Q at 1. now apply bad_form. }
      exists ([], set_form r3 (r_form r2)). split.
      * eapply runs_weak; [eapply runs_bind; [eapply runs_bind; [exact RS|apply runs_same]|cbn beta iota; unfold finish_call_s; eapply runs_bind; [apply (bad_runs ok r2 fs _ H2 Hf E4)|apply runs_same]]|].
        intros q. cbn beta. unfold route_wants. split.
        -- intros [[W|[]]|[W|[]]]; right; exists rt; auto.
        -- intros [(W & _)|(rt' & S' & [(_ & W)|W])]; [contradiction| |]; apply Sel in S'; subst rt'; auto.
      * split.
        -- intros Y. f_equal. assert (Q : r2 = r1'). { apply G2. destruct Y as [Y|Y]; [auto|]. right. intros Z. apply (Y rt). now apply Fp. }
           rewrite Q in E4. rewrite E3 in E4. injection E4 as E4. rewrite Q. now rewrite <- E4.
        -- intros Y rt' Z. apply Fp in Z as (-> & Z). destruct (G3 Y Z) as (E2 & form & Cf & E5). exists r3, form. rewrite Eh. split; [exact Cf|].
           rewrite E2. split; [|reflexivity]. f_equal.
           assert (Q : bad_request (set_form r1' form) = Ok (set_form r3 form)) by now apply bad_form. rewrite E5, set_form_twice in Q. rewrite E5 in E3. rewrite E3 in Q. now injection Q.
  - assert (NS : forall rt, ~ selected (v_routes v) mp rt).
    { intros rt (a & b & E & Mt & _). unfold none_selected in N. rewrite E in N. apply Forall_app in N as [_ N]. inv N. contradiction. }
    rewrite route_loop_none in X by auto. rewrite route_loop_none_s by auto. cbn [bind] in X. cbn [bind]. unfold finish_call, reject_routing_request in X.
    apply bind_ok_inv in X as (r3 & E3 & X). injection X as <-. exists ([], r3). split.
    + eapply runs_weak; [unfold finish_call_s; eapply runs_bind; [apply (bad_runs ok r fs _ Hh Hf E3)|apply runs_same]|].
      intros q. cbn beta. unfold route_wants. split; [intros [W|[]]; auto|]. intros [(_ & W)|(rt & S & _)]; [auto|]. elim (NS _ S).
    + split; [reflexivity|]. intros _ rt (S & _). elim (NS _ S).
Qed.

(** ** The body *)
Lemma form_runs ok v f after r n bnd text : n < 2 ^ 31 -> no_nul bnd -> mp_md5_size (v_mp v) = MD5_BUF -> r_form r = cs [] -> form_given n bnd after text ->
  exists form, cstr form = Ok text
    /\ runs ok (body_wants n bnd after)
         (if 0 <? n then
            _ <- need ok (PBody Form);;
            let body := fst (read_body (Z.to_nat n) after NUL) in
            let form := map Some body ++ [Some NUL] in
            if 2 <=? len bnd then
              '(form', f') <- multipart_parse_a (fun x _ => ok (PBody x)) (v_mp v) f form bnd n;;
              Ok (set_form r form', f')
            else Ok (set_form r form, f)
          else Ok (r, f)) (Ok (set_form r form, f))
    /\ handle_api_request v f after r n bnd = ('(calls, r2) <- router_handle_request (v_app v) (v_routes v) (set_form r form);; Ok (calls, r2, f)).
Proof.
  intros Hn Nb Hm R Fg. assert (Er : set_form r (cs []) = r) by (destruct r; cbn in R |- *; now rewrite R).
  change (fun x (_ : Z) => ok (PBody x)) with (part_memory ok).
  destruct (Z_le_dec n 0) as [G|G].
  { exists (cs []). assert (text = []) as -> by (inversion Fg; [reflexivity|lia|lia]). split; [reflexivity|]. rewrite Er. replace (0 <? n) with false by lia. split.
    - eapply runs_weak; [apply runs_same|]. intros w. unfold body_wants. split; [intros []|lia].
    - unfold handle_api_request. replace (0 <? n) with false by lia. reflexivity. }
  assert (HB : exists body, request_body n after body) by (inversion Fg; [lia|eauto|eauto]). destruct HB as (body & Hr).
  assert (UB' : forall b, request_body n after b -> b = body) by (intros b Hb; eapply body_unique; eauto).
  pose proof (DefinedApi_proofs.body_len _ _ _ Hr ltac:(lia)) as Lb.
  unfold handle_api_request. replace (0 <? n) with true by lia. rewrite (body_read _ _ _ Hr) by lia. cbv zeta. fold (cs body).
  destruct Fg as [A|body' text A B2 R2 S2|body' text A B2 R2 S2]; [lia| |]; apply UB' in R2; subst body'.
  - exists (cs body). split; [now apply cstr_seen|]. replace (2 <=? len bnd) with false by lia. split; [|reflexivity].
    eapply runs_weak; [eapply runs_need; apply runs_same|]. intros w. unfold body_wants. split; [intros [->|[]]; split; [lia|now left]|].
    intros (_ & [->|(X & _)]); [now left|lia].
  - replace (2 <=? len bnd) with true by lia.
    destruct (decode_exact (v_mp v) f bnd body ltac:(rewrite Hm; unfold MD5_BUF; lia) Nb ltac:(lia) ltac:(lia)) as [(text' & D & N & Lt & E)|(ND & e & E)]; [|now elim (ND text)].
    pose proof (decoded_det _ _ _ _ _ _ _ S2 D) as <-.
    pose proof (parse_runs ok (v_mp v) f bnd body _ ltac:(rewrite Hm; unfold MD5_BUF; lia) Nb ltac:(lia) ltac:(lia) E) as RP. rewrite Lb in E, RP.
    eexists. split; [|split; [|rewrite E; reflexivity]]; [now apply cstr_cs|].
    eapply runs_weak; [eapply runs_need; eapply runs_bind; [exact RP|apply runs_same]|].
    intros w. cbn beta. unfold body_wants. split.
    + intros [->|[[->|[(X & ->)|(y & X & ->)]]|[]]]; (split; [lia|]); [now left| | |]; right; (split; [lia|]); [now left| |]; right; exists body; (split; [exact Hr|]); eauto.
    + intros (_ & [->|(_ & [->|(b & Hb & [(X & ->)|(y & X & ->)])])]); auto; apply UB' in Hb; subst b; right; left; right; [left; auto|right; eauto].
Qed.

(** ** The whole request *)
Definition replied (ok : allocator) (v : wsenv) (m p text : str) (res res' : result) : Prop :=
  ((ok PForm = true \/ forall rt, ~ form_from_path (v_routes v) (m ++ L ":" ++ p) text rt) -> res' = res)
  /\ (ok PForm = false -> forall rt, form_from_path (v_routes v) (m ++ L ":" ++ p) text rt -> form_lost v m p rt res res').
Lemma finish_replied ok v m p text t f calls r calls' r' :
  routed ok (v_app v) (v_routes v) (m ++ L ":" ++ p) text (calls, r) (calls', r') ->
  replied ok v m p text (finish (TApi calls) r t f) (finish (TApi calls') r' t f).
Proof.
  intros (A & B). split.
  - intros Y. specialize (A Y). injection A as -> ->. reflexivity.
  - intros Y rt Z. destruct (B Y rt Z) as (r0 & form & C & D). destruct (finish_same (TApi calls) r t f) as (A1 & A2 & A3 & _). destruct (finish_same (TApi calls') r' t f) as (B1 & B2 & B3 & _).
    unfold form_lost. rewrite A1, A2, A3, B1, B2, B3. split; [reflexivity|]. exists r0, form. split; [exact C|].
    destruct (rt_handler rt) as [h|]; destruct D as (D1 & D2).
    + rewrite <- D1, <- D2. auto.
    + injection D1 as -> ->. injection D2 as -> ->. auto.
Qed.
Local Opaque get_line header_loop header_loop_s get_path_and_query_string get_path_and_query_s startswith handle_static_routes handle_static_routes_s handle_api_request
  bad_request send_status_s write_at connection_add connection_add_s startswithany parse_request_line parse_url too_many_connections finish router_handle_request router_handle_request_s.
Lemma api_rest_runs ok v f t1 socket peer rl m url b s1 fs n bnd after mount p q text res : zbuf b -> no_nul m -> no_nul url -> len url <= 254 -> api_url url ->
  sound_routes v -> ~ bad_headers s1 -> headers s1 fs -> announced s1 (-1) [] n bnd after -> ~ ends_bare s1 ->
  url_parts url (mount ++ p) q -> len mount = 4 -> form_given n bnd after text ->
  accept_rest v f t1 (req2 socket peer rl m url) m url b s1 = Ok res ->
  exists res', runs ok (fun w => (exists k i x, line_at s1 k i x /\ line_wants k i x w) \/ url_wants url w \/ w = PApiPath
      \/ body_wants n bnd after w \/ route_wants (v_routes v) (m ++ L ":" ++ p) fs text w)
    (rest_s ok v f t1 (req2 socket peer rl m url) m url b s1) (Ok res') /\ replied ok v m p text res res'.
Proof.
  intros Hz Nm Nu Lu Ha Sr Nb Hh An Eb P L4 Fg X. unfold accept_rest in X. unfold rest_s. destruct (zbuf_A b Hz) as (b1 & Eb1 & Z1).
  rewrite Eb1 in X. rewrite Eb1. cbn [bind] in X. cbn [bind].
  destruct (line_of_exists 1024 ltac:(lia) s1) as (l & rest & Hl). destruct (seen_exists l) as (t & Ht).
  destruct (zbuf_line b1 l s1 rest t Z1 Hl Ht) as (b2 & G & Z2 & _). rewrite G in X. rewrite G. cbn [bind] in X. cbn [bind].
  change (r_ip (req2 socket peer rl m url)) with peer in *.
  assert (ZR : zrep (mkH b2 rest [] None [] (-1) peer (calloc MAX_SESSION)) []).
  { split; [reflexivity|]. split; [constructor|]. exists []. exists (calloc 63). split; [reflexivity|]. split; [constructor|]. reflexivity. }
  apply bind_ok_inv in X as (h & E & X).
  pose proof (Scarce_proofs.loop_runs ok (length s1) s1 b1 (mkH b2 rest [] None [] (-1) peer (calloc MAX_SESSION)) (len l) [] 0 h G Z1 ltac:(lia) ZR E) as RL.
  destruct (header_loop_total (length s1) s1 b1 (mkH b2 rest [] None [] (-1) peer (calloc MAX_SESSION)) (len l) [] G Z1 ltac:(lia) ZR)
    as [(_ & e & E')|(_ & h' & fs' & E' & Hh' & R1 & R2 & sess & R3)]; rewrite E in E'; [discriminate|]. injection E' as <-.
  pose proof (headers_unique _ _ Hh _ Hh') as ->. cbn [app] in R1, R2.
  destruct (loop_announces_bare (length s1) s1 b1 (mkH b2 rest [] None [] (-1) peer (calloc MAX_SESSION)) (len l) h n bnd after G Z1 ltac:(lia) (ex_intro _ _ ZR) Nb E An) as (Dn & <- & <-).
  destruct Dn as [<-|(_ & _ & Bare)]; [|contradiction].
  assert (Sz : Memory_proofs.sized h) by (eapply Memory_proofs.header_sized; [|exact E]; split; [constructor|cbn; lia]). destruct Sz as (Nbd & Hsm).
  cbn zeta in X. pose proof (url_parts_eq url (mount ++ p) q Nu Lu P) as Ep. rewrite Ep in X. cbn [bind] in X.
  pose proof (url_runs ok url (mount ++ p, q) Nu Ep) as RU.
  destruct (api_eq url Nu) as (api & Ea & Hap). rewrite Ea in X. cbn [bind] in X.
  destruct api; [|exfalso; apply Hap in Ha; discriminate]. cbn [negb] in X.
  assert (Np : no_nul (mount ++ p)).
  { destruct P as (ts & T & _). apply tokens_no_nul in T; [|exact Nu]. now inv T. }
  apply no_nul_app in Np as [_ Np].
  assert (Ec : cstr (from (cs (mount ++ p)) (len API_MOUNT)) = Ok p).
  { change (len API_MOUNT) with (Z.of_nat 4). rewrite from_cs_skip by (unfold len in L4; lia). now rewrite cstr_cs0 by exact Np. }
  rewrite Ec in X. cbn [bind] in X. set (r := set_path _ p) in X.
  destruct (form_runs ok v f (hs_stream h) r (hs_length h) (hs_boundary h) text ltac:(lia) Nbd (proj2 (proj2 Sr)) eq_refl Fg) as (form & Cf & RF & EH).
  rewrite EH in X. apply bind_ok_inv in X as (((calls & r6) & f') & X1 & X). injection X as <-.
  apply bind_ok_inv in X1 as ((calls0 & r60) & X1 & Y). injection Y as -> -> <-.
  destruct (router_runs ok v (set_form r form) m p fs text (calls, r6) Sr) as ((calls' & r6') & RR & RD); auto.
  { apply no_nul_app. split; [exact Nm|]. apply no_nul_app. split; [apply no_nul_dec_b; reflexivity|exact Np]. }
  exists (finish (TApi calls') r6' t1 f). split; [|now apply finish_replied].
  eapply runs_weak.
  - eapply runs_bind; [exact RL|]. eapply runs_bind; [exact RU|]. cbn beta iota zeta. rewrite Ea. cbn [bind negb]. rewrite Ec. cbn [bind]. eapply runs_need.
    change (set_path (set_query _ q) p) with r. unfold handle_api_request_s. eapply runs_bind with (a := (calls', r6', f)).
    + eapply runs_bind; [exact RF|]. cbn beta iota. eapply runs_bind; [exact RR|]. apply runs_same.
    + apply runs_same.
  - intros w. cbn beta. cbn [Nat.add length]. tauto.
Qed.
Lemma api_scarce_runs ok v f t socket peer stream seen m u s1 fs n bnd after mount p q text res : sound_limits v t peer -> sound_routes v ->
  first_line stream seen m (Some u) s1 -> 2 <= len seen -> allowed m -> let_in v t peer u -> api_url u -> url_parts u (mount ++ p) q -> len mount = 4 ->
  ~ bad_headers s1 -> headers s1 fs -> announced s1 (-1) [] n bnd after -> ~ ends_bare s1 -> form_given n bnd after text ->
  accept_request v f t socket peer stream = Ok res ->
  exists res', runs ok (api_wants v m p u s1 fs n bnd after text) (accept_scarce ok v f t socket peer stream) (Ok res') /\ replied ok v m p text res res'.
Proof.
  intros (Hp & Hr & Ho) Sr FL S2 Al LI Ha P L4 Nb Hh An Eb Fg X. destruct (first_line_reads _ _ _ _ _ FL) as (b & k & j & Z & G & Nm & PL & PU & HU).
  rewrite accept_unfold in X. rewrite scarce_unfold. unfold new_request in *. rewrite fits_ok in * by lia. cbn [bind] in X. cbn [bind]. rewrite G in X. rewrite G. cbn [bind] in X. cbn [bind].
  rewrite PL in X by lia. rewrite PL by lia. cbn [bind] in X. cbn [bind].
  destruct (methods_eq m Nm) as (okm & Em & Hm). rewrite Em in X. rewrite Em. cbn [bind] in X. cbn [bind]. fold (req0 socket peer) in *.
  destruct okm; [|apply Hm in Al; discriminate]. cbn [negb] in *. rewrite PU in X. rewrite PU. cbn [bind] in X. cbn [bind]. destruct (HU u eq_refl) as (Nu & Lu).
  destruct (admit_total v t socket peer u Hr Ho Nu Lu Hp) as (okm & t1 & Ea & Hadm).
  change (r_ip (set_url _ u)) with peer in *. rewrite Ea in X. cbn [bind] in X. destruct okm; [|apply Hadm in LI; discriminate]. cbn [negb] in X.
  pose proof (add_runs ok (v_limits v) t socket peer u _ Ea) as RA.
  change (set_url (set_method (set_request_line (req0 socket peer) (firstn (length seen - 2) seen)) m) u) with (req2 socket peer (firstn (length seen - 2) seen) m u) in *.
  destruct (api_rest_runs ok v f t1 socket peer (firstn (length seen - 2) seen) m u b s1 fs n bnd after mount p q text res Z Nm Nu Lu Ha Sr Nb Hh An Eb P L4 Fg X) as (res' & RR & RD).
  exists res'. split; [|exact RD]. eapply runs_weak.
  - do 3 eapply runs_need. eapply runs_bind; [exact RA|]. cbn beta iota. cbn [negb]. exact RR.
  - intros w. cbn beta. unfold api_wants. destruct LI as (_ & Free). cbn [In]. intuition (subst; auto 10).
Qed.

(** ** Requests that are turned away *)
Lemma no_fields_log p : log_wants [] p <-> p = PStamp.
Proof. unfold log_wants. cbn [firstn map In]. tauto. Qed.
Lemma refused_runs ok v f t socket peer stream seen m u s1 : sound_limits v t peer -> first_line stream seen m (Some u) s1 -> 2 <= len seen ->
  ~ allowed m \/ ~ let_in v t peer u ->
  runs ok (fun p => In p [PRequest; PPeer; PLine; PStamp] \/ (allowed m /\ p = PUrl /\ (some_rule (v_limits v) \/ len (occupied t) < len t)))
    (accept_scarce ok v f t socket peer stream) (accept_request v f t socket peer stream).
Proof.
  intros S FL S2 D. destruct (refused_total v f t socket peer stream seen m u s1 S FL S2 D) as (res & X & _). rewrite X. destruct S as (Hp & Hr & Ho).
  destruct (first_line_reads _ _ _ _ _ FL) as (b & n & j & Z & G & Nm & PL & PU & HU).
  rewrite accept_unfold in X. rewrite scarce_unfold. unfold new_request in *. rewrite fits_ok in * by lia. cbn [bind] in X. cbn [bind]. rewrite G in X. rewrite G. cbn [bind] in X. cbn [bind].
  rewrite PL in X by lia. rewrite PL by lia. cbn [bind] in X. cbn [bind].
  destruct (methods_eq m Nm) as (okm & Em & Hm). rewrite Em in X. rewrite Em. cbn [bind] in X. cbn [bind]. fold (req0 socket peer) in *.
  destruct okm; cbn [negb] in *.
  - assert (Al : allowed m) by now apply Hm. destruct D as [D|D]; [contradiction|]. rewrite PU in X. rewrite PU. cbn [bind] in X. cbn [bind]. destruct (HU u eq_refl) as (Nu & Lu).
    destruct (admit_total v t socket peer u Hr Ho Nu Lu Hp) as (okm & t1 & Ea & Hadm).
    change (r_ip (set_url _ u)) with peer in *. rewrite Ea in X. cbn [bind] in X. destruct okm; [elim D; now apply Hadm|]. cbn [negb] in X.
    pose proof (add_runs ok (v_limits v) t socket peer u _ Ea) as RA. apply bind_ok_inv in X as (r3 & E3 & X). injection X as <-.
    eapply runs_weak.
    + do 3 eapply runs_need. eapply runs_bind; [exact RA|]. cbn beta iota. cbn [negb]. eapply runs_bind; [eapply (many_runs ok _ []); [reflexivity|constructor|exact E3]|apply runs_same].
    + intros w. cbn beta. rewrite no_fields_log. cbn [In]. intuition (subst; auto 10).
  - assert (Al : ~ allowed m) by (intros Y; apply Hm in Y; discriminate). apply bind_ok_inv in X as (r3 & E3 & X). injection X as <-.
    eapply runs_weak.
    + do 3 eapply runs_need. eapply runs_bind; [eapply (bad_runs ok _ []); [reflexivity|constructor|exact E3]|apply runs_same].
    + intros w. cbn beta. rewrite no_fields_log. cbn [In]. intuition (subst; auto 10).
Qed.

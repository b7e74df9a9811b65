(** HttpUtils_proofs.v - proofs about HttpUtils.v. *)
From Verif Require Export JsonUtils_proofs FileUtils_proofs HttpUtils SpecHttp SpecConf Spec.

Lemma dec_nat_decimal n : 0 <= n -> decimal (dec_nat n) n.
Proof.
  intros H. destruct (dec_nat_spec n H) as (D & V & (c & t & E & Hc) & _).
  split; [rewrite E; discriminate|]. split; auto. split; auto. intros t' Et. rewrite E in Et. inv Et.
  now apply Hc.
Qed.

(** Decimal texts are unique. *)
Lemma value_digits_bounds d : Forall (fun c => digit c = true) d -> forall acc, 0 <= acc ->
  acc * 10 ^ len d <= value_of_digits acc d < (acc + 1) * 10 ^ len d.
Proof.
  induction 1 as [|c d Hc _ IH]; intros acc Ha; cbn [value_of_digits]; [rewrite len_nil; lia|].
  unfold digit in Hc. rewrite len_cons, Z.pow_add_r by (lens; lia). specialize (IH (10 * acc + (code c - 48))).
  pose proof (Z.pow_pos_nonneg 10 (len d) ltac:(lia) ltac:(lens; lia)). nia.
Qed.
Lemma value_digits_inj d1 : Forall (fun c => digit c = true) d1 -> forall d2 a1 a2,
  Forall (fun c => digit c = true) d2 -> length d1 = length d2 -> 0 <= a1 -> 0 <= a2 ->
  value_of_digits a1 d1 = value_of_digits a2 d2 -> a1 = a2 /\ d1 = d2.
Proof.
  induction 1 as [|c d Hc _ IH]; intros [|c2 d2] a1 a2 F2 EL H1 H2 E; try discriminate; [auto|].
  inv F2. cbn [value_of_digits] in E. unfold digit in *. 
  apply IH in E as [Ea ->]; auto; try lia. assert (a1 = a2 /\ code c = code c2) as [-> Ec] by lia.
  apply code_inj in Ec. subst. auto.
Qed.
Lemma decimal_len d n : decimal d n -> (d = L "0" /\ n = 0) \/ (10 ^ (len d - 1) <= n < 10 ^ len d).
Proof.
  intros (Hne & F & V & Z0). destruct d as [|c d]; [easy|].
  destruct (ceq_spec c "0") as [->|N].
  - rewrite (Z0 d eq_refl) in *. left. split; auto.
  - right. subst n. inv F. cbn [value_of_digits]. rewrite len_cons.
    replace (len d + 1 - 1) with (len d) by lia. rewrite Z.pow_add_r by (lens; lia).
    unfold digit in H1. pose proof (value_digits_bounds d H2 (10 * 0 + (code c - 48))) as B.
    assert (code c <> 48). { intros X. apply N. apply code_inj. rewrite X. reflexivity. }
    pose proof (Z.pow_pos_nonneg 10 (len d) ltac:(lia) ltac:(lens; lia)). nia.
Qed.
Lemma decimal_unique d1 d2 n : decimal d1 n -> decimal d2 n -> d1 = d2.
Proof.
  intros H1 H2. pose proof (decimal_len _ _ H1) as L1. pose proof (decimal_len _ _ H2) as L2.
  assert (P : forall d n, decimal d n -> 0 < len d) by (intros d m (X & _); destruct d; [easy|llia]).
  pose proof (P _ _ H1). pose proof (P _ _ H2).
  assert (E : len d1 = len d2).
  { destruct L1 as [[-> E1]|L1], L2 as [[-> E2]|L2]; auto; try (exfalso; subst n).
    - pose proof (Z.pow_pos_nonneg 10 (len d2 - 1)). lia.
    - pose proof (Z.pow_pos_nonneg 10 (len d1 - 1)). lia.
    - assert (len d1 - 1 < len d2) by (apply (Z.pow_lt_mono_r_iff 10); lia).
      assert (len d2 - 1 < len d1) by (apply (Z.pow_lt_mono_r_iff 10); lia). lia. }
  destruct H1 as (_ & F1 & V1 & _), H2 as (_ & F2 & V2 & _).
  eapply (value_digits_inj d1 F1 d2 0 0 F2); [unfold len in E; lia|lia|lia|congruence].
Qed.

(** ** http_get_header *)
Lemma strcmp_cstr b n name : cstr b = Ok n -> no_nul name -> strcmp_eq b (cs name) = Ok (str_eqb n name).
Proof.
  intros H Hn. apply cstr_inv in H as (Hb & r & ->). rewrite <- (app_nil_r (cs name)).
  now apply strcmp_eq_cs.
Qed.

Lemma get_header_eq hs hl name v : Forall2 holds hs hl -> no_nul name -> lookup hl name v ->
  get_header_loop hs name = Ok v.
Proof.
  intros F Hn. revert v. induction F as [|h [n x] hs hl [Hh Hv] _ IH]; intros v Hl.
  - inversion Hl as [|a ? ? ? ? E]; [reflexivity|]. destruct a; discriminate.
  - cbn [fst snd] in *. cbn [get_header_loop]. rewrite (strcmp_cstr _ _ _ Hh Hn). cbn [bind].
    inversion Hl as [l n' Hi E1 E2 E3|a n' v' b Hi E1 E2 E3]; subst.
    + destruct (str_eqb_spec n name) as [->|Hne]; [exfalso; apply Hi; now left|].
      apply IH. constructor. intros I. apply Hi. now right.
    + destruct a as [|[n0 x0] a].
      * inv E1. rewrite str_eqb_refl. exact Hv.
      * inv E1. destruct (str_eqb_spec n name) as [->|Hne]; [exfalso; apply Hi; now left|].
        apply IH. constructor. intros I. apply Hi. now right.
Qed.

Lemma lookup_exists hl name : exists v, lookup hl name v.
Proof.
  induction hl as [|[n x] hl IH].
  - exists []. constructor. auto.
  - destruct (str_eqb_spec n name) as [->|Hne]; [exists x; now apply (lk_found [])|].
    destruct IH as [v Hv]. exists v. inversion Hv as [l n' Hi E1 E2 E3|a n' v' b Hi E1 E2 E3]; subst.
    + constructor. intros [E|I]; auto.
    + apply (lk_found ((n, x) :: a)). intros [E|I]; auto.
Qed.

Lemma lookup_unique hl name v1 v2 : lookup hl name v1 -> lookup hl name v2 -> v1 = v2.
Proof.
  induction hl as [|[n x] hl IH]; intros H1 H2.
  - inversion H1 as [|a ? ? ? ? E]; [|destruct a; discriminate].
    inversion H2 as [|a ? ? ? ? E]; [|destruct a; discriminate]. reflexivity.
  - assert (A : forall v, lookup ((n, x) :: hl) name v -> (n = name /\ v = x) \/ (n <> name /\ lookup hl name v)).
    { intros v Hv. inversion Hv as [l n' Hi E1 E2 E3|a n' v' b Hi E1 E2 E3]; subst.
      - right. split; [intros ->; apply Hi; now left|]. constructor. intros I. apply Hi. now right.
      - destruct a as [|[n0 x0] a]; inv E1; [auto|]. right. split; [intros ->; apply Hi; now left|].
        constructor. intros I. apply Hi. now right. }
    destruct (A _ H1) as [[-> ->]|[N1 L1]], (A _ H2) as [[E ->]|[N2 L2]]; subst; try easy. auto.
Qed.

(** ** log_access *)
Lemma no_nul_L s : forallb (fun c => negb (ceq c NUL)) (L s) = true -> no_nul (L s).
Proof. apply no_nul_dec_b. Qed.

Lemma log_access_eq r hl st : has_headers r hl ->
  exists rf ua, lookup hl (L "Referer") rf /\ lookup hl (L "User-Agent") ua /\
   log_access r st = Ok (add_log r (mkEntry (r_ip r) (r_request_line r) st (r_response_length r) rf ua)).
Proof.
  intros H. destruct (lookup_exists hl (L "Referer")) as [rf Hrf].
  destruct (lookup_exists hl (L "User-Agent")) as [ua Hua]. exists rf, ua. repeat split; auto.
  unfold log_access, http_get_header.
  rewrite (get_header_eq _ hl (L "Referer") rf); auto; [|apply no_nul_L; reflexivity]. cbn [bind].
  rewrite (get_header_eq _ hl (L "User-Agent") ua); auto. apply no_nul_L; reflexivity.
Qed.

Ltac req_fields := cbn [r_socket r_headers r_content_type r_form r_method r_url r_path r_query r_ip r_username r_session r_request_line r_response_length r_sends r_log].

(** The request after several sends. *)
Definition prints (r : api_request) (l : list str) : api_request :=
  mkReq (r_socket r) (r_headers r) (r_content_type r) (r_form r) (r_method r) (r_url r)
    (r_path r) (r_query r) (r_ip r) (r_username r) (r_session r) (r_request_line r)
    (r_response_length r) (r_sends r ++ l) (r_log r).
Definition after (r : api_request) (sends : list str) (n : Z) : api_request :=
  set_response_length (prints r sends) n.
Lemma print_prints r l d : http_print (prints r l) d = prints r (l ++ [d]).
Proof. unfold http_print, prints. req_fields. now rewrite <- app_assoc. Qed.
Lemma print_one r d : http_print r d = prints r [d].
Proof. reflexivity. Qed.
Lemma prints_nil r : prints r [] = r.
Proof. unfold prints. rewrite app_nil_r. now destruct r. Qed.
Lemma prints_app r a b : prints (prints r a) b = prints r (a ++ b).
Proof. unfold prints. req_fields. now rewrite <- app_assoc. Qed.

Lemma sent_prints r l : r_sent (prints r l) = r_sent r ++ concat l.
Proof. unfold r_sent, prints. req_fields. apply concat_app. Qed.

Lemma answered_log r hl st sends n : has_headers r hl ->
  exists r', log_access (after r sends n) st = Ok r' /\ answered_by r r' hl st sends n.
Proof.
  intros H. destruct (log_access_eq (after r sends n) hl st) as (rf & ua & Hrf & Hua & E); auto.
  eexists. split; [exact E|]. split; [repeat split|]. split; [reflexivity|]. split; [reflexivity|].
  exists rf, ua. repeat split; auto.
Qed.

Lemma by_answered r r' hl st sends n : answered_by r r' hl st sends n -> answered r r' hl st (concat sends) n.
Proof. intros (A & B & C). split; [exact A|]. split; [|exact C]. unfold r_sent. rewrite B. apply concat_app. Qed.
Lemma by_answered_bytes r r' hl st sends bytes n : answered_by r r' hl st sends n -> concat sends = bytes -> answered r r' hl st bytes n.
Proof. intros A <-. now apply by_answered. Qed.

(** ** The status table *)
Lemma supported_index st line : supported st line ->
  find_http_status_index st <> -1 /\ http_start (find_http_status_index st) = line ++ CRLF
  /\ len line <= 34.
Proof.
  intros H. unfold supported, status_lines in H. cbn [In] in H.
  repeat destruct H as [H|H]; try easy; inv H; vm_compute; repeat split; discriminate.
Qed.
Lemma unsupported_index st : (forall line, ~ supported st line) -> find_http_status_index st = -1.
Proof.
  intros H. unfold find_http_status_index, HTTP_ERROR_STATUS. cbn [status_index_loop].
  repeat (match goal with |- context [st =? ?x] => destruct (st =? x) eqn:?E end;
    [exfalso; apply Z.eqb_eq in E; subst st; eapply H; unfold supported, status_lines; cbn [In]; intuition eauto|clear E]).
  reflexivity.
Qed.

(** ** send_http_status *)
Definition status_body (msg : str) : str := match msg with [] => [] | _ => msg ++ CRLF end.
Definition status_message (line msg : str) (d : str) : str :=
  message line [server; L "Content-Length: " ++ d] (status_body msg).

Lemma to_u32_twice a b c : to_u32 (to_u32 (a + b) + c) = (a + (b + c)) mod 2 ^ 32.
Proof. unfold to_u32. rewrite Zplus_mod_idemp_l. f_equal. lia. Qed.

Lemma print_twice r a n b m : 
  set_response_length (http_print (set_response_length (http_print r a) n) b) m
  = after r [a; b] m.
Proof. unfold after, http_print, prints, set_response_length. req_fields. rewrite <- app_assoc. reflexivity. Qed.

Lemma send_status_general r status b :
  (let r1 := http_print r b in
    let r2 := set_response_length r1 (r_response_length r1 + len b) in
    let r3 := http_print r2 CRLF in
    let r4 := set_response_length r3 (r_response_length r3 + len CRLF) in
    log_access r4 status)
  = log_access (after r [b; CRLF] (r_response_length r + len (b ++ CRLF))) status.
Proof.
  cbv zeta. f_equal. rewrite print_twice. unfold after, set_response_length. f_equal.
  cbn [r_response_length http_print]. change (len CRLF) with 2. rewrite to_u32_twice. unfold to_u32.
  rewrite len_app. reflexivity.
Qed.

Lemma send_status_text line msg : exists b, b ++ CRLF = status_message line msg (dec_nat (len (status_body msg)))
  /\ b = (match msg with
          | [] => line ++ CRLF ++ server ++ CRLF ++ L "Content-Length: 0" ++ CRLF
          | _ => line ++ CRLF ++ server ++ CRLF ++ L "Content-Length: " ++ dec_nat (len msg + 2) ++ CRLF ++ CRLF ++ msg
          end).
Proof.
  eexists. split; [|reflexivity]. destruct msg as [|c m].
  - unfold status_message, message, status_body. cbn [flat_map]. change (dec_nat (len [])) with (L "0").
    change (L "Content-Length: 0") with (L "Content-Length: " ++ L "0").
    rewrite <- !app_assoc. reflexivity.
  - set (msg := c :: m). unfold status_message, message. change (status_body msg) with (msg ++ CRLF).
    cbn [flat_map]. rewrite len_app. change (len CRLF) with 2. rewrite <- !app_assoc. reflexivity.
Qed.

Lemma send_status_unfold r status line msg : supported status line ->
  send_http_status r status msg =
  (b <- match msg with
        | [] => fits 1024 (line ++ CRLF ++ server ++ CRLF ++ L "Content-Length: 0" ++ CRLF)
        | _ => cl <- fits 100 (L "Content-Length: " ++ dec_nat (len msg + 2) ++ CRLF ++ CRLF);;
               fits 1024 (line ++ CRLF ++ server ++ CRLF ++ cl ++ msg)
        end;;
   log_access (after r [b; CRLF] (r_response_length r + len (b ++ CRLF))) status).
Proof.
  intros H. destruct (supported_index _ _ H) as (I & S & _). unfold send_http_status.
  replace (find_http_status_index status =? -1) with false by (symmetry; now apply Z.eqb_neq).
  rewrite S. change WAYUU_HTTP_SERVER_STRING with (server ++ CRLF).
  change HTTP_CONTENT_LENGTH_ZERO with (L "Content-Length: 0" ++ CRLF).
  destruct msg as [|c m]; cbn [str_eqb negb].
  - rewrite <- !app_assoc. apply bind_ext. intros b.
    apply send_status_general.
  - destruct (fits 100 _); [|reflexivity]. cbn [bind]. rewrite <- !app_assoc. apply bind_ext. intros b.
    apply send_status_general.
Qed.

(** The size of everything before the final CRLF. *)
Definition status_size (line msg : str) : Z :=
  len (status_message line msg (dec_nat (len (status_body msg)))) - 2.

Lemma status_size_eq line msg : status_size line msg =
  len (match msg with
       | [] => line ++ CRLF ++ server ++ CRLF ++ L "Content-Length: 0" ++ CRLF
       | _ => line ++ CRLF ++ server ++ CRLF ++ L "Content-Length: " ++ dec_nat (len msg + 2) ++ CRLF ++ CRLF ++ msg
       end).
Proof.
  unfold status_size. destruct (send_status_text line msg) as (b & <- & ->).
  rewrite len_app. change (len CRLF) with 2. lia.
Qed.

Lemma len_CRLF : len CRLF = 2. Proof. reflexivity. Qed.
#[global] Hint Rewrite len_CRLF : len.
Lemma len_server : len server = 19. Proof. reflexivity. Qed.

Lemma send_status_by r hl status line msg : supported status line -> has_headers r hl ->
  status_size line msg <= 1023 ->
  exists r', send_http_status r status msg = Ok r'
   /\ exists b, b ++ CRLF = status_message line msg (dec_nat (len (status_body msg)))
      /\ answered_by r r' hl status [b; CRLF] (r_response_length r + len (b ++ CRLF)).
Proof.
  intros Hs Hh Hl. rewrite (send_status_unfold r status line msg Hs).
  destruct (send_status_text line msg) as (b & E & Eb). rewrite status_size_eq, <- Eb in Hl. 
  destruct msg as [|c m].
  - rewrite <- Eb, fits_ok by lia. cbn [bind]. destruct (answered_log r hl status [b; CRLF] (r_response_length r + len (b ++ CRLF)) Hh) as (r' & G & A). eauto.
  - set (msg := c :: m) in *. rewrite fits_ok.
    2:{ assert (len msg <= 1000).
        { rewrite Eb in Hl. rewrite !len_app, !len_CRLF, len_server in Hl.
          change (len (L "Content-Length: ")) with 16 in Hl. lens. lia. }
        assert (len (dec_nat (len msg + 2)) <= 4) by (apply dec_nat_spec; lens; lia).
        rewrite !len_app. change (len (L "Content-Length: ")) with 16. rewrite len_CRLF. lia. }
    cbn [bind]. rewrite <- !app_assoc in *. rewrite <- Eb, fits_ok by lia. cbn [bind]. destruct (answered_log r hl status [b; CRLF] (r_response_length r + len (b ++ CRLF)) Hh) as (r' & G & A). eauto.
Qed.

Lemma send_status_ok r hl status line msg : supported status line -> has_headers r hl ->
  status_size line msg <= 1023 ->
  exists r', send_http_status r status msg = Ok r'
   /\ let bytes := status_message line msg (dec_nat (len (status_body msg))) in
      answered r r' hl status bytes (r_response_length r + len bytes).
Proof.
  intros Hs Hh Hl. destruct (send_status_by r hl status line msg Hs Hh Hl) as (r' & E & b & <- & A).
  exists r'. split; [exact E|]. cbv zeta. eapply by_answered_bytes; [exact A|]. cbn [concat]. now rewrite app_nil_r.
Qed.

Lemma send_status_oob r status line msg : supported status line ->
  1023 < status_size line msg -> send_http_status r status msg = UB OobWrite.
Proof.
  intros Hs Hl. rewrite (send_status_unfold r status line msg Hs). rewrite status_size_eq in Hl.
  destruct msg as [|c m].
  - now rewrite fits_oob by lia.
  - set (msg := c :: m) in *. unfold fits at 1. destruct (_ <=? 100); [|reflexivity]. cbn [bind].
    rewrite <- !app_assoc. now rewrite fits_oob by lia.
Qed.

Lemma send_status_unsupported r status msg : (forall line, ~ supported status line) ->
  send_http_status r status msg = Ok r.
Proof. intros H. unfold send_http_status. now rewrite unsupported_index. Qed.

(** ** JSON responses *)
Definition json_head (line : str) : str := line ++ CRLF ++ flat_map (fun h => h ++ CRLF) (server :: cors ++ [L "Content-Type: application/json"]).

Lemma json_headers_eq r status line : supported status line ->
  return_json_headers r status = Ok (len (json_head line), http_print r (json_head line)).
Proof.
  intros H. destruct (supported_index _ _ H) as (I & S & Hl). unfold return_json_headers.
  replace (find_http_status_index status =? -1) with false by (symmetry; now apply Z.eqb_neq).
  rewrite S.
  replace ((line ++ CRLF) ++ WAYUU_HTTP_SERVER_STRING ++ HTTP_ACCESS_CONTROL ++ CONTENT_TYPE_JSON) with (json_head line).
  - rewrite fits_ok; [reflexivity|]. unfold json_head. rewrite !len_app, len_CRLF.
    match goal with |- context [flat_map ?f ?l] => assert (len (flat_map f l) <= 400) by (vm_compute; discriminate) end. lia.
  - unfold json_head. rewrite <- !app_assoc. reflexivity.
Qed.

Lemma json_headers_unsupported r status : (forall line, ~ supported status line) ->
  return_json_headers r status = Ok (0, r).
Proof. intros H. unfold return_json_headers. now rewrite unsupported_index. Qed.

Definition json_message (line data d : str) : str :=
  message line (server :: cors ++ [L "Content-Type: application/json"; L "Content-Length: " ++ d]) (data ++ CRLF).
Definition json_tail (data d : str) : str := L "Content-Length: " ++ d ++ CRLF ++ CRLF ++ data ++ CRLF.

Lemma json_message_eq line data d : json_message line data d = json_head line ++ json_tail data d.
Proof. unfold json_message, json_head, json_tail, message. cbn [cors flat_map app]. rewrite <- !app_assoc. reflexivity. Qed.

Lemma return_json_general r hl r1 n status pre data : has_headers r hl ->
  return_json_headers r status = Ok (n, r1) -> r1 = prints r pre -> n = len (concat pre) ->
  len data + 2 < 2 ^ 64 ->
  exists r', return_json_with_status r status data = Ok r'
    /\ let sends := pre ++ [L "Content-Length: " ++ dec_nat (len (data ++ CRLF)) ++ CRLF ++ CRLF; data; CRLF] in
       answered_by r r' hl status sends (len (concat sends)).
Proof.
  intros Hh E -> -> Hd. unfold return_json_with_status. rewrite E. cbn [bind].
  assert (D : len (dec_nat (len data + 2)) <= 20).
  { apply dec_nat_spec; [lens; lia|lia|]. eapply Z.lt_trans; [exact Hd|]. reflexivity. }
  rewrite fits_ok.
  2:{ rewrite !len_app. change (len (L "Content-Length: ")) with 16. rewrite len_CRLF. lia. }
  cbn [bind]. cbv zeta. rewrite (len_app _ data CRLF), len_CRLF.
  set (b := L "Content-Length: " ++ dec_nat (len data + 2) ++ CRLF ++ CRLF).
  rewrite !print_prints, <- !app_assoc. cbn [app].
  replace (set_response_length _ _) with (after r (pre ++ [b; data; CRLF]) (len (concat (pre ++ [b; data; CRLF])))).
  - now apply answered_log.
  - unfold after. f_equal. rewrite concat_app. cbn [concat]. rewrite app_nil_r, !len_app, len_CRLF. lia.
Qed.

Lemma json_sends_eq line data : concat ([json_head line] ++ [L "Content-Length: " ++ dec_nat (len (data ++ CRLF)) ++ CRLF ++ CRLF; data; CRLF])
  = json_message line data (dec_nat (len (data ++ CRLF))).
Proof. rewrite json_message_eq. unfold json_tail. cbn [app concat]. rewrite app_nil_r, <- !app_assoc. reflexivity. Qed.

Lemma return_json_by r hl status line data : has_headers r hl -> supported status line ->
  len data + 2 < 2 ^ 64 ->
  exists r', return_json_with_status r status data = Ok r'
    /\ let sends := [json_head line; L "Content-Length: " ++ dec_nat (len (data ++ CRLF)) ++ CRLF ++ CRLF; data; CRLF] in
       answered_by r r' hl status sends (len (concat sends)).
Proof.
  intros Hh Hs Hd. refine (return_json_general r hl _ _ status [json_head line] data Hh (json_headers_eq r status line Hs) eq_refl _ Hd).
  cbn [concat]. now rewrite app_nil_r.
Qed.
Lemma return_json_ok r hl status line data : has_headers r hl -> supported status line ->
  len data + 2 < 2 ^ 64 ->
  exists r', return_json_with_status r status data = Ok r'
    /\ let bytes := json_message line data (dec_nat (len (data ++ CRLF))) in
       answered r r' hl status bytes (len bytes).
Proof.
  intros Hh Hs Hd. destruct (return_json_by r hl status line data Hh Hs Hd) as (r' & E & A). exists r'. split; [exact E|].
  cbv zeta. rewrite <- json_sends_eq. now apply by_answered.
Qed.

Lemma return_json_unsupported r hl status data : has_headers r hl -> (forall line, ~ supported status line) ->
  len data + 2 < 2 ^ 64 ->
  exists r', return_json_with_status r status data = Ok r'
    /\ let bytes := json_tail data (dec_nat (len (data ++ CRLF))) in
       answered r r' hl status bytes (len bytes).
Proof.
  intros Hh Hs Hd.
  destruct (return_json_general r hl r 0 status [] data) as (r' & E & A); auto.
  - now apply json_headers_unsupported.
  - symmetry. apply prints_nil.
  - exists r'. split; [exact E|]. cbv zeta in *. cbn [app] in A. apply by_answered in A.
    replace (json_tail data (dec_nat (len (data ++ CRLF)))) with (concat [L "Content-Length: " ++ dec_nat (len (data ++ CRLF)) ++ CRLF ++ CRLF; data; CRLF]); [exact A|].
    unfold json_tail. cbn [concat]. rewrite app_nil_r, <- !app_assoc. reflexivity.
Qed.

(** ** Content types *)
Lemma strrchr_none s c : strrchr s c = None <-> ~ In c s.
Proof.
  induction s as [|x s IH]; cbn [strrchr In]; [intuition|].
  destruct (strrchr s c) as [n|] eqn:E.
  - split; [discriminate|]. intros H. exfalso. apply H. right.
    destruct (in_dec ascii_dec c s); auto. apply IH in n0. discriminate.
  - destruct (ceq_spec x c) as [->|N].
    + split; [discriminate|]. intros H. exfalso. auto.
    + split; auto. intros _ [X|X]; auto. apply IH in X; auto.
Qed.
Lemma strrchr_app a c b : ~ In c b -> strrchr (a ++ c :: b) c = Some (length a).
Proof.
  intros H. induction a as [|x a IH]; cbn [app strrchr length].
  - apply strrchr_none in H. now rewrite H, ceq_refl.
  - now rewrite IH.
Qed.

(** ** direct_file *)
Definition session_lines (sess : str) : list str :=
  match sess with [] => [] | _ => [L "X-Session: " ++ sess; L "Set-Cookie:WSSESSION=" ++ sess] end.
Definition ok_start : str := L "HTTP/1.1 200 OK" ++ CRLF ++ server ++ CRLF.

Lemma ct_len name : len (get_content_type name) <= 100.
Proof.
  unfold get_content_type. destruct (strrchr name ".") as [[|n]|]; [vm_compute; discriminate| |vm_compute; discriminate].
  repeat (match goal with |- context [if ?b then _ else _] => destruct b end; try (vm_compute; discriminate)).
Qed.

Definition header_sends (name sess : str) : list str :=
  [ok_start; ok_start ++ get_content_type name]
  ++ match sess with [] => [] | _ => [flat_map (fun h => h ++ CRLF) (session_lines sess)] end ++ [CRLF].
Lemma header_sends_eq name sess : concat (header_sends name sess)
  = ok_start ++ ok_start ++ get_content_type name ++ flat_map (fun h => h ++ CRLF) (session_lines sess) ++ CRLF.
Proof. unfold header_sends. rewrite concat_app. destruct sess; cbn [concat app flat_map]; rewrite ?app_nil_r, <- ?app_assoc; reflexivity. Qed.

Lemma return_headers_eq r name sess : cstr (r_session r) = Ok sess -> len sess <= 493 ->
  return_headers r name = Ok (len (concat (header_sends name sess)), prints r (header_sends name sess)).
Proof.
  intros Hs Hl. unfold return_headers.
  change (HTTP_OK_START ++ WAYUU_HTTP_SERVER_STRING) with ok_start.
  rewrite fits_ok by (vm_compute; discriminate). cbn [bind].
  pose proof (ct_len name). rewrite fits_ok by (rewrite len_app; change (len ok_start) with 38; lia). cbn [bind].
  change (r_session (http_print (http_print r ok_start) (ok_start ++ get_content_type name))) with (r_session r).
  rewrite Hs. cbn [bind]. rewrite (print_one r ok_start), print_prints. cbn [app].
  destruct sess as [|c s].
  - change (0 <? len []) with false. cbv iota. cbn [bind]. rewrite print_prints. unfold header_sends. cbn [app concat].
    rewrite app_nil_r, !len_app. do 2 f_equal. lia.
  - set (sess := c :: s) in *. replace (0 <? len sess) with true by (unfold sess; llia).
    rewrite fits_ok.
    2:{ rewrite !len_app, len_CRLF. change (len (L "X-Session: ")) with 11. change (len (L "Set-Cookie:WSSESSION=")) with 21. lia. }
    cbn [bind]. rewrite !print_prints. cbn [app].
    replace (header_sends name sess) with [ok_start; ok_start ++ get_content_type name; L "X-Session: " ++ sess ++ CRLF ++ L "Set-Cookie:WSSESSION=" ++ sess ++ CRLF; CRLF].
    + cbn [concat]. rewrite app_nil_r, !len_app. do 2 f_equal. lia.
    + unfold header_sends. change (session_lines sess) with [L "X-Session: " ++ sess; L "Set-Cookie:WSSESSION=" ++ sess]. cbn [app flat_map].
      rewrite app_nil_r, <- !app_assoc. reflexivity.
Qed.

Lemma to_u32_int z : to_u32 (to_int z) = to_u32 z.
Proof. unfold to_u32, to_int. lia. Qed.

Lemma return_headers_oob r name sess : cstr (r_session r) = Ok sess -> 494 <= len sess ->
  return_headers r name = UB OobWrite.
Proof.
  intros Hs Hl. unfold return_headers.
  change (HTTP_OK_START ++ WAYUU_HTTP_SERVER_STRING) with ok_start.
  rewrite fits_ok by (vm_compute; discriminate). cbn [bind].
  pose proof (ct_len name). rewrite fits_ok by (rewrite len_app; change (len ok_start) with 38; lia). cbn [bind].
  change (r_session (http_print (http_print r ok_start) (ok_start ++ get_content_type name))) with (r_session r).
  rewrite Hs. cbn [bind]. replace (0 <? len sess) with true by lia. rewrite fits_oob; [reflexivity|].
  rewrite !len_app, len_CRLF. change (len (L "X-Session: ")) with 11. change (len (L "Set-Cookie:WSSESSION=")) with 21. lia.
Qed.

Lemma int_add_ok a b : - 2 ^ 31 <= a + b <= 2 ^ 31 - 1 -> int_add a b = Ok (a + b).
Proof. intros H. unfold int_add, int_min, int_max. destruct (Z.ltb_spec (a + b) (- 2 ^ 31)); [lia|]. destruct (Z.ltb_spec (2 ^ 31 - 1) (a + b)); [lia|]. reflexivity. Qed.
Lemma int_add_over a b : 2 ^ 31 - 1 < a + b -> int_add a b = UB IntOverflow.
Proof. intros H. unfold int_add, int_min, int_max. destruct (Z.ltb_spec (2 ^ 31 - 1) (a + b)); [|lia]. now rewrite orb_true_r. Qed.
Lemma int_add_inv a b c : int_add a b = Ok c -> c = a + b /\ - 2 ^ 31 <= a + b <= 2 ^ 31 - 1.
Proof.
  unfold int_add, int_min, int_max. destruct (Z.ltb_spec (a + b) (- 2 ^ 31)); [discriminate|]. destruct (Z.ltb_spec (2 ^ 31 - 1) (a + b)); [discriminate|].
  intros E. injection E as <-. lia.
Qed.
Lemma header_sends_len name sess : len sess <= 493 -> len (concat (header_sends name sess)) <= 1300.
Proof.
  intros H. rewrite header_sends_eq. pose proof (ct_len name). rewrite !len_app, len_CRLF. change (len ok_start) with 38.
  destruct sess as [|c s]; cbn [session_lines flat_map]; [rewrite len_nil; lia|]. rewrite !len_app, !len_CRLF, len_nil.
  change (len (L "X-Session: ")) with 11. change (len (L "Set-Cookie:WSSESSION=")) with 21. lia.
Qed.

Lemma direct_file_by_exact f r hl name content sess : has_headers r hl -> f name = Some (File content) ->
  len (concat (header_sends name sess)) + len content <= 2 ^ 31 - 1 -> cstr (r_session r) = Ok sess -> len sess <= 493 ->
  exists r', direct_file f r name = Ok (0, r')
   /\ let sends := header_sends name sess ++ [content] in answered_by r r' hl 200 sends (len (concat sends)).
Proof.
  intros Hh Hf Hc Hs Hl. unfold direct_file, is_file. rewrite Hf. cbn [negb].
  rewrite (return_headers_eq r name sess) by auto. cbn [bind]. unfold return_file. rewrite Hf.
  pose proof (len_nonneg _ (concat (header_sends name sess))). pose proof (len_nonneg _ content).
  replace (int_max <? len content) with false by (unfold int_max; lia). cbn [bind].
  rewrite int_add_ok by lia. cbn [bind].
  rewrite print_prints. set (hd := header_sends name sess) in *.
  replace (set_response_length _ _) with (after r (hd ++ [content]) (len (concat (hd ++ [content])))).
  2:{ unfold after. f_equal. rewrite concat_app, len_app. cbn [concat]. now rewrite app_nil_r. }
  destruct (answered_log r hl 200 (hd ++ [content]) (len (concat (hd ++ [content]))) Hh) as (r' & E & A).
  rewrite E. cbn [bind]. eauto.
Qed.
Lemma direct_file_over f r name content sess : f name = Some (File content) -> cstr (r_session r) = Ok sess -> len sess <= 493 ->
  2 ^ 31 - 1 < len (concat (header_sends name sess)) + len content -> exists u, direct_file f r name = UB u.
Proof.
  intros Hf Hs Hl Hc. unfold direct_file, is_file. rewrite Hf. cbn [negb].
  rewrite (return_headers_eq r name sess) by auto. cbn [bind]. unfold return_file. rewrite Hf.
  destruct (int_max <? len content); cbn [bind]; [eauto|]. rewrite int_add_over by lia. cbn [bind]. eauto.
Qed.
Lemma direct_file_eq_exact f r hl name content sess : has_headers r hl -> f name = Some (File content) ->
  len (concat (header_sends name sess)) + len content <= 2 ^ 31 - 1 -> cstr (r_session r) = Ok sess -> len sess <= 493 ->
  exists r', direct_file f r name = Ok (0, r')
   /\ let bytes := (ok_start ++ ok_start ++ get_content_type name
                     ++ flat_map (fun h => h ++ CRLF) (session_lines sess) ++ CRLF) ++ content in
      answered r r' hl 200 bytes (len bytes).
Proof.
  intros Hh Hf Hc Hs Hl. destruct (direct_file_by_exact f r hl name content sess Hh Hf Hc Hs Hl) as (r' & E & A). exists r'. split; [exact E|].
  cbv zeta in *. apply by_answered in A. rewrite concat_app, header_sends_eq in A. cbn [concat] in A. rewrite app_nil_r in A. exact A.
Qed.

Lemma direct_file_by f r hl name content sess : has_headers r hl -> f name = Some (File content) ->
  len content <= 2 ^ 31 - 2048 -> cstr (r_session r) = Ok sess -> len sess <= 493 ->
  exists r', direct_file f r name = Ok (0, r')
   /\ let sends := header_sends name sess ++ [content] in answered_by r r' hl 200 sends (len (concat sends)).
Proof. intros Hh Hf Hc Hs Hl. apply direct_file_by_exact; auto. pose proof (header_sends_len name sess Hl). lia. Qed.
Lemma direct_file_eq f r hl name content sess : has_headers r hl -> f name = Some (File content) ->
  len content <= 2 ^ 31 - 2048 -> cstr (r_session r) = Ok sess -> len sess <= 493 ->
  exists r', direct_file f r name = Ok (0, r')
   /\ let bytes := (ok_start ++ ok_start ++ get_content_type name
                     ++ flat_map (fun h => h ++ CRLF) (session_lines sess) ++ CRLF) ++ content in
      answered r r' hl 200 bytes (len bytes).
Proof. intros Hh Hf Hc Hs Hl. apply direct_file_eq_exact; auto. pose proof (header_sends_len name sess Hl). lia. Qed.

(** ** Streams *)
Lemma stream_loop_eq ls lv : Forall2 visible ls lv -> forall c fuel n r,
  lines 1022 c ls -> (length c <= fuel)%nat -> 0 <= n <= 2 ^ 31 - 1 ->
  stream_loop fuel c n r = if n + len (concat lv) <=? 2 ^ 31 - 1 then Ok (n + len (concat lv), prints r lv) else UB IntOverflow.
Proof.
  induction 1 as [|l v ls lv Hv _ IH]; intros c fuel n r Hl Hf Hn; apply lines_fgets in Hl; change (1022 + 1) with (1024 - 1) in Hl.
  - replace (n + len (concat [])) with n by (cbn [concat]; rewrite len_nil; lia). destruct (Z.leb_spec n (2 ^ 31 - 1)); [|lia].
    destruct fuel; cbn [stream_loop]; rewrite Hl, prints_nil; reflexivity.
  - destruct Hl as (rest & E & Hl & Hr). destruct fuel as [|fuel]; [lia|]. cbn [stream_loop]. rewrite E.
    rewrite (visible_upto _ _ Hv). cbn [concat]. rewrite len_app. pose proof (len_nonneg _ v). pose proof (len_nonneg _ (concat lv)).
    destruct (Z_le_dec (n + len v) (2 ^ 31 - 1)) as [G|G].
    + rewrite int_add_ok by lia. cbn [bind]. rewrite IH by (auto; lia). rewrite Z.add_assoc. destruct (_ <=? _); [|reflexivity].
      f_equal. f_equal. rewrite print_one. apply prints_app.
    + rewrite int_add_over by lia. cbn [bind]. destruct (Z.leb_spec (n + (len v + len (concat lv))) (2 ^ 31 - 1)); [lia|reflexivity].
Qed.

(** The sums of a stream's length that stay defined: those that fit in an int, and two that
    come back through size_t as negative numbers. *)
Definition counts (total body : Z) : Prop := total <= 2 ^ 31 - 1 \/ 2 ^ 31 - 3 < body <= 2 ^ 31 - 1.
Lemma json_head_len status line : supported status line -> 0 <= len (json_head line) <= 1000.
Proof.
  unfold supported, status_lines. cbn [In]. intros H.
  repeat (destruct H as [H|H]; [injection H as _ <-; vm_compute; split; discriminate|]). easy.
Qed.
Lemma to_int_id n : - 2 ^ 31 <= n <= 2 ^ 31 - 1 -> to_int n = n.
Proof. intros H. unfold to_int. rewrite Z.mod_small by lia. lia. Qed.
Lemma to_int_back n : 2 ^ 31 - 1 < n <= 2 ^ 32 -> to_int n = n - 2 ^ 32.
Proof.
  intros H. unfold to_int. replace (n + 2 ^ 31) with (n - 2 ^ 31 + 1 * 2 ^ 32) by lia. rewrite Z.mod_add by lia. rewrite Z.mod_small by lia. lia.
Qed.
Lemma stream_by_exact r hl status line content ls lv : has_headers r hl -> supported status line ->
  lines 1022 content ls -> Forall2 visible ls lv ->
  let sends := [json_head line; CRLF] ++ lv ++ [CRLF] in
  (counts (len (concat sends)) (len (concat lv)) ->
   exists r', return_json_stream r status content = Ok r' /\ answered_by r r' hl status sends (len (concat sends)))
  /\ (~ counts (len (concat sends)) (len (concat lv)) -> return_json_stream r status content = UB IntOverflow).
Proof.
  intros Hh Hs Hl Hv sends. pose proof (json_head_len _ _ Hs) as B. pose proof (len_nonneg _ (concat lv)) as B'.
  assert (T : len (concat sends) = len (json_head line) + 2 + len (concat lv) + 2).
  { unfold sends. rewrite !concat_app. cbn [concat]. rewrite !app_nil_r, !len_app, len_CRLF. lia. }
  unfold return_json_stream. rewrite (json_headers_eq r status line) by auto. cbn [bind].
  unfold send_stream. rewrite (stream_loop_eq ls lv Hv) by (auto; lia). rewrite Z.add_0_l, len_CRLF.
  assert (D : forall k, to_u32 k = to_u32 (len (concat sends)) ->
     exists r', log_access (set_response_length (http_print (prints (http_print (prints r [json_head line]) CRLF) lv) CRLF) k) status = Ok r'
       /\ answered_by r r' hl status sends (len (concat sends))).
  { intros k K. rewrite (print_prints r [_]), prints_app, print_prints, <- app_assoc.
    replace (set_response_length _ _) with (after r sends (len (concat sends))).
    - now apply answered_log.
    - unfold after, set_response_length. f_equal. now rewrite K. }
  unfold counts. destruct (Z.leb_spec (len (concat lv)) (2 ^ 31 - 1)) as [G|G]; cbn [bind].
  - cbv zeta. rewrite (print_one r). destruct (Z_le_dec (len (concat lv) + 2) (2 ^ 31 - 1)) as [G2|G2].
    + rewrite to_int_id by lia. destruct (Z_le_dec (len (json_head line) + (len (concat lv) + 2)) (2 ^ 31 - 1)) as [G3|G3].
      * rewrite int_add_ok by lia. cbn [bind]. destruct (Z_le_dec (len (concat sends)) (2 ^ 31 - 1)) as [G4|G4].
        -- rewrite int_add_ok by lia. cbn [bind]. split; [intros _|intros N; elim N; lia]. apply D. f_equal. lia.
        -- rewrite int_add_over by lia. split; [intros N; lia|reflexivity].
      * rewrite int_add_over by lia. split; [intros N; lia|reflexivity].
    + rewrite to_int_back by lia. rewrite int_add_ok by lia. cbn [bind]. rewrite int_add_ok by lia. cbn [bind].
      split; [intros _|intros N; elim N; lia]. apply D. unfold to_u32. rewrite <- (Z.mod_add _ 1 (2 ^ 32)) by lia. f_equal. lia.
  - split; [intros N; lia|reflexivity].
Qed.
Lemma stream_by r hl status line content ls lv : has_headers r hl -> supported status line ->
  lines 1022 content ls -> Forall2 visible ls lv -> len (concat lv) <= 2 ^ 31 - 2048 ->
  exists r', return_json_stream r status content = Ok r'
   /\ let sends := [json_head line; CRLF] ++ lv ++ [CRLF] in answered_by r r' hl status sends (len (concat sends)).
Proof.
  intros Hh Hs Hl Hv Hn. destruct (stream_by_exact r hl status line content ls lv Hh Hs Hl Hv) as (A & _). apply A. left.
  pose proof (json_head_len _ _ Hs) as B. rewrite !concat_app. cbn [concat]. rewrite !app_nil_r, !len_app, len_CRLF. lia.
Qed.
Lemma stream_eq r hl status line content ls lv : has_headers r hl -> supported status line ->
  lines 1022 content ls -> Forall2 visible ls lv ->
  let bytes := json_head line ++ CRLF ++ concat lv ++ CRLF in
  (counts (len bytes) (len (concat lv)) ->
   exists r', return_json_stream r status content = Ok r' /\ answered r r' hl status bytes (len bytes))
  /\ (~ counts (len bytes) (len (concat lv)) -> return_json_stream r status content = UB IntOverflow).
Proof.
  intros Hh Hs Hl Hv bytes. destruct (stream_by_exact r hl status line content ls lv Hh Hs Hl Hv) as (A & B).
  assert (E : concat ([json_head line; CRLF] ++ lv ++ [CRLF]) = bytes) by (unfold bytes; rewrite !concat_app; cbn [concat]; now rewrite !app_nil_r, <- app_assoc).
  rewrite E in *. split; [|exact B]. intros C. destruct (A C) as (r' & R & S). exists r'. split; [exact R|]. apply by_answered in S. now rewrite E in S.
Qed.

Lemma lines_concat n c ls : lines n c ls -> concat ls = c.
Proof.
  induction 1; cbn [concat]; auto using app_nil_r.
  - rewrite IHlines, <- app_assoc. reflexivity.
  - now rewrite IHlines.
Qed.
Lemma visible_lines_no_nul c ls : concat ls = c -> no_nul c -> Forall2 visible ls ls.
Proof.
  revert c; induction ls as [|l ls IH]; intros c E Hn; [constructor|]. cbn [concat] in E. subst c.
  apply no_nul_app in Hn as [Hl Hn]. constructor; eauto using visible_self.
Qed.

(** ** get_path_and_query_string *)
Lemma path_query_none url : no_nul url -> tokens (L "?") url [] -> get_path_and_query_string url = UB UninitRead.
Proof. intros Hn Ht. unfold get_path_and_query_string. now rewrite (split_eq _ _ _ Ht Hn). Qed.
Lemma path_query_eq url p ts : no_nul url -> tokens (L "?") url (p :: ts) -> len ts <= 49 ->
  len p <= 1022 -> len (hd [] ts) <= 1022 ->
  get_path_and_query_string url = Ok (p, hd [] ts).
Proof.
  intros Hn Ht Hl Hp Hq. unfold get_path_and_query_string. rewrite (split_eq _ _ _ Ht Hn).
  replace (len (p :: ts) <=? 50) with true by (rewrite len_cons; lia). cbn [bind map].
  pose proof (tokens_no_nul _ _ _ Ht Hn) as F. inv F.
  rewrite entry_readable by auto. cbn [bind]. destruct ts as [|q ts]; cbn [map hd] in *; [reflexivity|].
  inv H2. rewrite entry_readable by auto. reflexivity.
Qed.

Lemma path_query_oob url p ts : no_nul url -> tokens (L "?") url (p :: ts) ->
  49 < len ts \/ 1022 < len p \/ 1022 < len (hd [] ts) -> undefined (get_path_and_query_string url).
Proof.
  intros Hn Ht H. unfold get_path_and_query_string. rewrite (split_eq _ _ _ Ht Hn).
  destruct (Z.leb_spec (len (p :: ts)) 50) as [Hl|Hl]; [|eexists; reflexivity]. cbn [bind map].
  rewrite len_cons in Hl.
  pose proof (tokens_no_nul _ _ _ Ht Hn) as F. inv F.
  destruct (Z_le_dec (len p) 1022); [|rewrite entry_unreadable by (auto; lia); eexists; reflexivity].
  rewrite entry_readable by auto. cbn [bind]. destruct ts as [|q ts]; cbn [map hd] in *; [cbn in H; lia|].
  inv H3. rewrite entry_unreadable by (auto; lia). eexists. reflexivity.
Qed.

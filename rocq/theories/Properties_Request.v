(** Properties_Request.v - C46-C51: reading lines, the request line, headers and bodies (/repo/ws.c). *)
From Verif Require Import WsRequest Lemmas StringUtils_proofs ConfParser_proofs WsConn_proofs WsRequest_proofs
  SpecJson SpecHttp SpecConn SpecReq Spec.

(** C46 *)
Theorem C46_get_line : forall size s l rest b, line_of size s l rest ->
  (len l + 1 <= len b -> get_line s b size = Ok (len l, cs l ++ skipn (S (length l)) b, rest))
  /\ (len b < len l + 1 -> undefined (get_line s b size)).
Proof. intros size s l rest b H. split; [now apply get_line_eq|now apply (get_line_oob size s l rest)]. Qed.
Print Assumptions C46_get_line.
(** There is exactly one such line, so get_line stays inside every buffer of the size it is told. *)
Theorem C46_one_line : forall size s, 1 <= size ->
  exists l rest, line_of size s l rest /\ (forall l' rest', line_of size s l' rest' -> l' = l /\ rest' = rest)
  /\ forall b, size <= len b -> exists b', get_line s b size = Ok (len l, b', rest) /\ length b' = length b
       /\ (no_nul l -> cstr b' = Ok l).
Proof.
  intros size s Hs. destruct (line_of_exists size Hs s) as (l & rest & H). exists l, rest. split; [exact H|]. split.
  - intros l' rest' H'. destruct (line_of_unique _ _ _ _ _ _ H' H). auto.
  - intros b Hb. pose proof H as (_ & Hl & _). eexists. split; [apply get_line_eq; [exact H|lia]|]. split.
    + rewrite app_length, cs_length, skipn_length. unfold len in *. lia.
    + intros Hn. now apply cstr_cs.
Qed.
Print Assumptions C46_one_line.
Example C46_case : get_line (L "GET /" ++ [LF] ++ L "Host") (calloc 1024) 1024
    = Ok (6, cs (L "GET /" ++ [LF]) ++ calloc 1017, L "Host")
  /\ get_line (L "abcdef") (calloc 4) 4 = Ok (3, cs (L "abc"), L "def")
  /\ undefined (get_line (L "abcdef") (calloc 4) 8).
Proof. split; [|split]; [vm_compute; reflexivity|vm_compute; reflexivity|]. eexists. vm_compute. reflexivity. Qed.

(** C47.  [read_lines] calls get_line on one buffer until it returns 0. *)
Theorem C47_lines_partition_the_stream : forall size s, 2 <= size ->
  exists ls, pieces size s ls /\ (forall ls', pieces size s ls' -> ls' = ls) /\ concat ls = s /\
  forall b k, size <= len b -> (length ls < k)%nat ->
    exists l b', read_lines k s b size = Ok (l ++ [(0, b')]) /\
      Forall2 (fun x line => fst x = len line /\ length (snd x) = length b /\ (no_nul line -> cstr (snd x) = Ok line)) l ls.
Proof.
  intros size s Hs. destruct (pieces_exist size Hs s) as (ls & H). exists ls. split; [exact H|]. split; [|split].
  - now apply pieces_unique.
  - now apply (pieces_concat size).
  - intros b k. now apply read_lines_eq.
Qed.
Print Assumptions C47_lines_partition_the_stream.
(** The header loop makes at most as many rounds as there are bytes: its result does not depend on
    how many more are allowed. *)
Theorem C47_header_loop_ends : forall s b h n k, get_line s b 1024 = Ok (n, hs_buf h, hs_stream h) -> (length s <= k)%nat ->
  header_loop k n h = header_loop (length s) n h.
Proof. intros. eapply header_loop_fuel; eauto. Qed.
Print Assumptions C47_header_loop_ends.
Example C47_case : pieces 4 (L "ab" ++ [LF] ++ L "cdefg") [L "ab" ++ [LF]; L "cde"; L "fg"].
Proof.
  assert (A : forall l : str, Forall (fun c => c <> LF) l -> ~ In LF l).
  { intros l F I. rewrite Forall_forall in F. exact (F _ I eq_refl). }
  eapply (pc_line 4 _ _ (L "cdefg")); [discriminate| |].
  { split; [reflexivity|]. split; [vm_compute; discriminate|]. left. exists (L "ab"). split; [reflexivity|]. apply A. repeat constructor; discriminate. }
  eapply (pc_line 4 _ _ (L "fg")); [discriminate| |].
  { split; [reflexivity|]. split; [vm_compute; discriminate|]. right. split; [apply A; repeat constructor; discriminate|]. left. reflexivity. }
  eapply (pc_line 4 _ _ []); [discriminate| |constructor].
  split; [reflexivity|]. split; [vm_compute; discriminate|]. right. split; [apply A; repeat constructor; discriminate|]. right. reflexivity.
Qed.

(** C48 *)
Theorem C48_request_line : forall stream m u line s1, asks stream m u line s1 ->
  exists n b, get_line stream (calloc 1024) 1024 = Ok (n, b, s1)
    /\ parse_request_line b = Ok (firstn (length line - 2) line, m, len m)
    /\ parse_url b (len m) = Ok (firstn 254 u).
Proof. intros stream m u line s1 H. destruct (asks_parse _ _ _ _ _ H) as (b & E & _ & P & U). eauto. Qed.
Print Assumptions C48_request_line.
(** When no blank follows the URL (the line fills the buffer or the peer stops sending), the scan
    runs on over NULs and is in bounds exactly if the URL starts at offset 769 at the latest. *)
Theorem C48_no_blank_after_url : forall m sp u n, no_nul u -> Forall blank sp -> Forall (fun c => ~ blank c) u ->
  len (m ++ sp ++ u) + Z.of_nat n = 1024 -> (1 <= n)%nat ->
  (len (m ++ sp) <= 769 -> parse_url (map Some (m ++ sp ++ u ++ repeat NUL n)) (len m) = Ok (firstn 254 u))
  /\ (769 < len (m ++ sp) -> undefined (parse_url (map Some (m ++ sp ++ u ++ repeat NUL n)) (len m))).
Proof.
  intros m sp u n Hn Hs Hu Hl H1. rewrite parse_url_open by auto. split; intros H.
  - now replace (len (m ++ sp) <=? 769) with true by lia.
  - replace (len (m ++ sp) <=? 769) with false by lia. eexists. reflexivity.
Qed.
Print Assumptions C48_no_blank_after_url.
(** A method of more than 254 bytes is cut there and the next bytes are taken as the URL. *)
Theorem C48_long_method : forall w c rest st, let line := w ++ c :: rest in
  no_nul line -> Forall (fun c => ~ blank c) w -> blank c -> 254 < len w -> len line <= 1023 ->
  parse_request_line (cs line ++ st) = Ok (firstn (length line - 2) line, firstn 254 w, 254)
  /\ parse_url (cs line ++ st) 254 = Ok (firstn 254 (skipn 254 w)).
Proof. exact long_method. Qed.
Print Assumptions C48_long_method.
(** A first line with fewer than two bytes before a NUL - in particular a connection closed
    without sending anything - makes the server write before the start of a heap object. *)
Theorem C48_short_line_undefined : forall v f t socket peer stream line s1 seen,
  line_of 1024 stream line s1 -> seen_as line seen -> len seen < 2 ->
  undefined (accept_request v f t socket peer stream).
Proof. exact short_line_oob. Qed.
Print Assumptions C48_short_line_undefined.
Example C48_case : asks (L "GET /a?b HTTP/1.1" ++ CRLF ++ L "Host: x") (L "GET") (L "/a?b") (L "GET /a?b HTTP/1.1" ++ CRLF) (L "Host: x")
  /\ line_of 1024 [] [] [] /\ seen_as [] [].
Proof.
  assert (A : forall (l : str) x, Forall (fun c => c <> x) l -> ~ In x l).
  { intros l x F I. rewrite Forall_forall in F. exact (F _ I eq_refl). }
  assert (B : forall x, forallb (fun c => negb (ceq c x)) [HT; LF; VT; FF; CR; SP] = true -> ~ blank x).
  { intros x F I. rewrite forallb_forall in F. specialize (F _ I). now rewrite ceq_refl in F. }
  split; [|split].
  - split; [|split; [apply no_nul_dec_b; reflexivity|split; [|split; [|split]]]].
    + split; [reflexivity|]. split; [vm_compute; discriminate|]. left. exists (L "GET /a?b HTTP/1.1" ++ [CR]). split; [reflexivity|].
      apply A. repeat constructor; discriminate.
    + split; [discriminate|]. split; [apply no_nul_dec_b; reflexivity|]. repeat constructor; apply B; reflexivity.
    + split; [discriminate|]. split; [apply no_nul_dec_b; reflexivity|]. repeat constructor; apply B; reflexivity.
    + vm_compute. discriminate.
    + exists (L " "), " "%char, (L "HTTP/1.1" ++ CRLF). split; [reflexivity|]. split; [discriminate|].
      split; [repeat constructor; cbn; tauto|cbn; tauto].
  - split; [reflexivity|]. split; [cbn; lia|]. right. split; [easy|now right].
  - split; [constructor|now left].
Qed.

(** C49, C50.  [section s (nothing_told ip) x after]: the header lines of the stream [s] tell [x]. *)
Theorem C49_header_section : forall s ip x after b line, section s (nothing_told ip) x after ->
  shows b line -> len b = 1024 ->
  exists n b2 s2 h, get_line s b 1024 = Ok (n, b2, s2)
    /\ header_loop (length s) n (mkH b2 s2 [] None [] (-1) ip (calloc 64)) = Ok h
    /\ hs_stream h = after /\ stores h x.
Proof.
  intros s ip x after b line H (st & Eb) Lb. destruct (line_of_exists 1024 ltac:(lia) s) as (l & rest & Hl).
  pose proof Hl as (_ & Hle & _). pose proof (get_line_eq 1024 s l rest b Hl ltac:(lia)) as G.
  do 3 eexists. destruct (header_loop_eq s _ x after H (length s) line b
    (mkH (cs l ++ skipn (S (length l)) b) rest [] None [] (-1) ip (calloc 64)) (len l) G) as (h & E & R & A).
  - exists st. auto.
  - lia.
  - split; [reflexivity|]. split; [constructor|]. repeat (split; [reflexivity|]). exists (calloc 63).
    split; [reflexivity|]. split; [constructor|]. reflexivity.
  - exists h. split; [exact G|]. split; [exact E|]. split; [exact A|]. now apply rep_stores.
Qed.
Print Assumptions C49_header_section.
(** A name of 64 bytes or more, or a value of 256 or more, is stored without terminator: reading it
    as a string runs out of its array. *)
Theorem C49_long_fields_unterminated : forall line st name value, no_nul line -> len line <= 1023 -> field_of line (name, value) ->
  exists h, store_header (cs line ++ st) [] = Ok [h]
    /\ (64 <= len name -> undefined (cstr (h_name h))) /\ (256 <= len value -> undefined (cstr (h_value h)))
    /\ (len name <= 63 -> cstr (h_name h) = Ok name) /\ (len value <= 255 -> cstr (h_value h) = Ok value).
Proof.
  intros line st name value Hn Hl Hf. exists (stored (name, value)).
  destruct (field_facts line (name, value) Hn Hf) as (N1 & N2 & _).
  split; [apply (store_header_eq line st [] [(name, value)]); auto; right; exists (name, value); auto|].
  cbn [stored fst snd h_name h_value fst snd] in *. repeat split; intros H.
  - rewrite filled_long by (auto; lia). eexists. reflexivity.
  - rewrite filled_long by (auto; lia). eexists. reflexivity.
  - apply filled_holds; auto; lia.
  - apply filled_holds; auto; lia.
Qed.
Print Assumptions C49_long_fields_unterminated.
(** A section: one field, the length, a blank line. *)
Example C49_case : section (L "Content-Length:  12" ++ CRLF ++ CRLF ++ L "BODY") (nothing_told (L "1.2.3.4"))
    (mkTold [(L "Content-Length", L "12")] None [] 12 (L "1.2.3.4") []) (L "BODY")
  /\ field_of (L "Content-Length:  12" ++ CRLF) (L "Content-Length", L "12").
Proof.
  assert (F : field_of (L "Content-Length:  12" ++ CRLF) (L "Content-Length", L "12")).
  { exists (L "Content-Length"), (L "  12" ++ CRLF). split; [split; [reflexivity|apply not_in_text; reflexivity]|]. split.
    - exists [], []. split; [reflexivity|]. split; [constructor|]. split; [constructor|]. split.
      + intros c r E. inv E. apply not_blank_char. reflexivity.
      + intros r c E. change (snd (L "a", L "Content-Length")) with (L "Content-Lengt" ++ L "h") in E.
        change (fst (L "Content-Length", L "12")) with (L "Content-Lengt" ++ ["h"%char]) in E.
        apply app_inj_tail in E as [_ <-]. apply not_blank_char. reflexivity.
    - exists (L "  "), CRLF. split; [reflexivity|]. split; [repeat constructor; cbn; tauto|]. split; [repeat constructor; cbn; tauto|]. split.
      + intros c r E. inv E. apply not_blank_char. reflexivity.
      + intros r c E. change (snd (L "Content-Length", L "12")) with (L "1" ++ ["2"%char]) in E.
        apply app_inj_tail in E as [_ <-]. apply not_blank_char. reflexivity. }
  split; [|exact F].
  apply (sc_line _ (L "Content-Length:  12" ++ CRLF) (CRLF ++ L "BODY") _ (mkTold [(L "Content-Length", L "12")] None [] 12 (L "1.2.3.4") [])).
  - split; [reflexivity|]. split; [vm_compute; discriminate|]. left. exists (L "Content-Length:  12" ++ [CR]).
    split; [reflexivity|apply not_in_text; reflexivity].
  - discriminate.
  - intros [H|H]; discriminate H.
  - apply no_nul_dec_b. reflexivity.
  - split; [|split; [|split; [|split; [|split]]]]; cbn [td_fields td_type td_boundary td_length td_ip td_session nothing_told].
    + right. exists (L "Content-Length", L "12"). auto.
    + left. split; [apply not_ci_prefix; reflexivity|reflexivity].
    + left. split; [left; apply not_ci_prefix; reflexivity|reflexivity].
    + right. split; [exists (L "Content-Length:"), (L "  12" ++ CRLF); split; [reflexivity|apply ci_equal_lower; reflexivity]|].
      exists (L " 12" ++ CRLF). split; [exists (L "Content-Length: "); split; reflexivity|].
      exists (L " "), [], (L "12"), CRLF. split; [reflexivity|]. split; [repeat constructor; cbn; tauto|]. split; [now left|].
      split; [repeat constructor|]. split; [intros c t E; inv E; reflexivity|]. split; [discriminate|]. split; [reflexivity|lia].
    + left. split; [apply not_ci_prefix; reflexivity|reflexivity].
    + right. right. right. split; [|split; [apply not_ci_prefix; reflexivity|reflexivity]].
      intros [H|H]; revert H; apply not_ci_prefix; reflexivity.
  - apply (sc_blank _ CRLF); [|now right]. split; [reflexivity|]. split; [vm_compute; discriminate|]. left. exists [CR].
    split; [reflexivity|apply not_in_text; reflexivity].
Qed.

(** C50: single header lines; the header's name in any case. *)
Theorem C50_content_length : forall h v st old n, ci_equal (L "Content-Length: ") h -> no_nul v -> int_at v n ->
  take_length (cs (h ++ v) ++ st) old = Ok n.
Proof.
  intros h v st old n Hh Hv Hi. destruct (named _ _ v Hh) as [P T]. apply take_length_eq.
  - apply no_nul_app. split; auto. eapply ci_no_nul; eauto. apply no_nul_dec_b. reflexivity.
  - right. split; [exact (ci_prefix_part (L "Content-Length:") (L " ") _ P)|]. exists v. auto.
Qed.
Print Assumptions C50_content_length.
(** The offset is fixed: without the blank after the colon the first character of the value is lost. *)
Theorem C50_content_length_tight : forall h c v st old n, ci_equal (L "Content-Length:") h -> no_nul (c :: v) -> int_at v n ->
  take_length (cs (h ++ c :: v) ++ st) old = Ok n.
Proof.
  intros h c v st old n Hh Hv Hi. destruct (named _ _ (c :: v) Hh) as [P _]. apply take_length_eq.
  - apply no_nul_app. split; auto. eapply ci_no_nul; eauto. apply no_nul_dec_b. reflexivity.
  - right. split; [exact P|]. exists v. split; auto. exists (h ++ [c]). split; [now rewrite <- app_assoc|].
    apply Forall2_length in Hh. rewrite app_length, <- Hh. reflexivity.
Qed.
Print Assumptions C50_content_length_tight.
Theorem C50_session : forall h v st b s, ci_equal (L "X-Session:") h -> no_nul v -> trimmed v s -> len b = 64 ->
  (len v <= 63 -> exists b', take_session (cs (h ++ v) ++ st) b = Ok b' /\ cstr b' = Ok s /\ len b' = 64)
  /\ (64 <= len v -> undefined (take_session (cs (h ++ v) ++ st) b)).
Proof.
  intros h v st b s Hh Hv Hs Hb. destruct (named _ _ v Hh) as [P T].
  assert (Hn : no_nul (h ++ v)). { apply no_nul_app. split; auto. eapply ci_no_nul; eauto. apply no_nul_dec_b. reflexivity. }
  split; intros Hl.
  - destruct (take_session_new (h ++ v) st b v s) as (b' & E & junk & -> & Ns & L64); auto; [now left|].
    eexists. split; [exact E|]. split; [now apply cstr_cs|exact L64].
  - rewrite (take_session_oob (h ++ v) st b v) by (auto; now left). eexists. reflexivity.
Qed.
Print Assumptions C50_session.
(** An Authorization header is cut at the same offset, inside its own name. *)
Theorem C50_authorization : forall a h v st b s, ci_equal (L "Authorizat") a -> ci_equal (L "ion:") h -> no_nul v ->
  trimmed (h ++ v) s -> len b = 64 ->
  (len (h ++ v) <= 63 -> exists b', take_session (cs (a ++ h ++ v) ++ st) b = Ok b' /\ cstr b' = Ok s /\ len b' = 64)
  /\ (64 <= len (h ++ v) -> undefined (take_session (cs (a ++ h ++ v) ++ st) b)).
Proof.
  intros a h v st b s Ha Hh Hv Hs Hb. destruct (named _ _ (h ++ v) Ha) as [_ T].
  assert (P : session_line (a ++ h ++ v)).
  { right. exists (a ++ h), v. split; [now rewrite <- app_assoc|]. exact (Forall2_app Ha Hh). }
  assert (Hn : no_nul (a ++ h ++ v)).
  { apply no_nul_app. split; [|apply no_nul_app; split; auto]; eapply ci_no_nul; eauto; apply no_nul_dec_b; reflexivity. }
  split; intros Hl.
  - destruct (take_session_new (a ++ h ++ v) st b (h ++ v) s) as (b' & E & junk & -> & Ns & L64); auto.
    eexists. split; [exact E|]. split; [now apply cstr_cs|exact L64].
  - rewrite (take_session_oob (a ++ h ++ v) st b (h ++ v)) by auto. eexists. reflexivity.
Qed.
Print Assumptions C50_authorization.
(** A cookie header: the ten bytes after 'Cookie: ' are skipped whatever they are, the rest, line
    ending included, is the session if none is set and it is shorter than 64 bytes. *)
Theorem C50_cookie : forall h skipped v st b, ci_equal (L "Cookie: ") h -> len skipped = 10 -> no_nul (skipped ++ v) ->
  len b = 64 ->
  (forall junk, b = cs [] ++ junk -> exists b', take_cookie (cs (h ++ skipped ++ v) ++ st) b = Ok b'
     /\ cstr b' = Ok (if len v <=? 63 then v else []))
  /\ (forall s junk, no_nul s -> s <> [] -> b = cs s ++ junk -> take_cookie (cs (h ++ skipped ++ v) ++ st) b = Ok b).
Proof.
  intros h sk v st b Hh Hk Hv Hb. destruct (named _ _ (sk ++ v) Hh) as [P _].
  assert (Hn : no_nul (h ++ sk ++ v)). { apply no_nul_app. split; auto. eapply ci_no_nul; eauto. apply no_nul_dec_b. reflexivity. }
  assert (P' : ci_prefix (L "Cookie:") (h ++ sk ++ v)) by exact (ci_prefix_part (L "Cookie:") (L " ") _ P).
  assert (T : tail_at 18 (h ++ sk ++ v) v).
  { exists (h ++ sk). split; [now rewrite <- app_assoc|]. apply Forall2_length in Hh. rewrite app_length, <- Hh. unfold len in Hk.
    change (length (L "Cookie: ")) with 8%nat. lia. }
  split.
  - intros junk E. destruct (take_cookie_new (h ++ sk ++ v) st b v) as (b' & E' & j & -> & Ns & _); auto.
    + exists junk. split; [exact E|]. split; [constructor|exact Hb].
    + eexists. split; [exact E'|]. now apply cstr_cs.
  - intros s junk Hs Hne E. apply (take_cookie_kept _ st b s); auto. exists junk. auto.
Qed.
Print Assumptions C50_cookie.
Theorem C50_real_ip : forall h c w st x t, ci_equal (L "X-Real-IP: ") h -> no_nul (c :: w) -> ~ blank c -> trimmed (c :: w) t ->
  exists b', take_ip (cs (h ++ c :: w) ++ map Some st) x = Ok (firstn 24 t, b').
Proof.
  intros h c w st x t Hh Hv Hb Ht. destruct (named _ _ (c :: w) Hh) as [P _].
  assert (Hn : no_nul (h ++ c :: w)). { apply no_nul_app. split; auto. eapply ci_no_nul; eauto. apply no_nul_dec_b. reflexivity. }
  destruct (take_ip_new (h ++ c :: w) st x (h ++ t) t) as (st' & E & _); auto.
  - exact (ci_prefix_part (L "X-Real-IP:") (L " ") _ P).
  - destruct Ht as (l & r & E & Hl & Hr & E1 & E2). destruct l as [|c1 l].
    2:{ exfalso. inversion E; subst. now inv Hl. }
    cbn in E. destruct t as [|t0 t]. { exfalso. cbn in E. subst r. now inv Hr. }
    rewrite E. exists [], r. split; [now rewrite <- app_assoc|]. split; [constructor|]. split; [exact Hr|]. split.
    + intros y z Ey. destruct h as [|c' h]; [inv Hh|]. inv Ey. inversion Hh as [|? ? ? ? H2 H3]; subst. apply not_blank_char.
      destruct H2 as [<-|[H2|H2]]; [reflexivity| |]; vm_compute in H2;
        repeat (destruct H2 as [H2|H2]; [inversion H2; reflexivity|]); elim H2.
    + intros y z Ey. destruct (exists_last (l := t0 :: t) ltac:(discriminate)) as (t' & c' & Et). rewrite Et in *.
      rewrite app_assoc in Ey. apply app_inj_tail in Ey as [_ <-]. now apply (E2 t' c').
  - exists h. split; [reflexivity|]. apply Forall2_length in Hh. rewrite <- Hh. reflexivity.
  - eauto.
Qed.
Print Assumptions C50_real_ip.
(** Without the blank the first byte of the value is lost. *)
Theorem C50_real_ip_tight : forall h c w st x t, ci_equal (L "X-Real-IP:") h -> no_nul (c :: w) -> ~ blank c -> trimmed (c :: w) (c :: t) ->
  exists b', take_ip (cs (h ++ c :: w) ++ map Some st) x = Ok (firstn 24 t, b').
Proof.
  intros h c w st x t Hh Hv Hb Ht. destruct (named _ _ (c :: w) Hh) as [P _].
  assert (Hn : no_nul (h ++ c :: w)). { apply no_nul_app. split; auto. eapply ci_no_nul; eauto. apply no_nul_dec_b. reflexivity. }
  destruct (take_ip_new (h ++ c :: w) st x (h ++ c :: t) t) as (st' & E & _); auto.
  - destruct Ht as (l & r & E & Hl & Hr & E1 & E2). destruct l as [|c1 l].
    2:{ exfalso. inversion E; subst. now inv Hl. }
    change ([] ++ (c :: t) ++ r) with ((c :: t) ++ r) in E. rewrite E. exists [], r. split; [now rewrite <- app_assoc|]. split; [constructor|]. split; [exact Hr|]. split.
    + intros y z Ey. destruct h as [|c' h]; [inv Hh|]. inv Ey. inversion Hh as [|? ? ? ? H2 H3]; subst. apply not_blank_char.
      destruct H2 as [<-|[H2|H2]]; [reflexivity| |]; vm_compute in H2;
        repeat (destruct H2 as [H2|H2]; [inversion H2; reflexivity|]); elim H2.
    + intros y z Ey. destruct (exists_last (l := c :: t) ltac:(discriminate)) as (t' & c' & Et). rewrite Et in *.
      rewrite app_assoc in Ey. apply app_inj_tail in Ey as [_ <-]. now apply (E2 t' c').
  - exists (h ++ [c]). split; [now rewrite <- app_assoc|]. apply Forall2_length in Hh. rewrite app_length, <- Hh. reflexivity.
  - eauto.
Qed.
Print Assumptions C50_real_ip_tight.
(** The content type keeps everything up to a ';', the line ending included when there is none. *)
Theorem C50_content_type : forall h v st x, ci_equal (L "Content-Type: ") h -> no_nul v ->
  (forall a b, first_cut ";" v a b -> take_content_type (cs (h ++ v) ++ st) x = Ok (Some a))
  /\ (~ In ";"%char v -> take_content_type (cs (h ++ v) ++ st) x = Ok (Some v)).
Proof.
  intros h v st x Hh Hv. destruct (named _ _ v Hh) as [P T].
  assert (Hn : no_nul (h ++ v)). { apply no_nul_app. split; auto. eapply ci_no_nul; eauto. apply no_nul_dec_b. reflexivity. }
  split; intros; apply take_content_type_eq; auto; right; (split; [exact (ci_prefix_part (L "Content-Type:") (L " ") _ P)|]);
    exists v; eexists; (split; [exact T|split; [|reflexivity]]); [left; eauto|right; auto].
Qed.
Print Assumptions C50_content_type.
(** The multipart boundary: the text after 'boundary=' to the end of the line, trimmed, after two dashes. *)
Theorem C50_boundary : forall line st x a b t, no_nul line -> ci_prefix form_data line -> ci_cut (L "boundary=") line a b ->
  trimmed (L "--" ++ b) t ->
  (len b <= 97 -> take_boundary (cs line ++ st) x = Ok t) /\ (98 <= len b -> undefined (take_boundary (cs line ++ st) x)).
Proof.
  intros line st x a b t Hn Hp Hc Ht. split; intros Hl.
  - apply take_boundary_eq; auto. right. split; [exact Hp|]. exists a, b. auto.
  - rewrite (take_boundary_oob line st x a b) by auto. eexists. reflexivity.
Qed.
Print Assumptions C50_boundary.
(** A cookie line of fewer than 18 bytes does not set the session to anything it contains: the bytes
    an earlier, longer header line left in the line buffer are taken.  Here the session becomes part of
    the Host header of the same request. *)
Theorem C50_short_cookie_refuted : exists l1 l2 rest h1 h2,
  ~ session_line l1 /\ ~ ci_prefix (L "Cookie:") l1 /\ ~ session_line l2 /\ ~ ci_prefix (L "Cookie:") l2
  /\ read_headers (l1 ++ rest) = Ok h1 /\ read_headers (l2 ++ rest) = Ok h2
  /\ cstr (hs_session h1) = Ok [] /\ cstr (hs_session h2) = Ok (L "secret" ++ CRLF).
Proof.
  exists (L "Host: x" ++ CRLF), (L "User-Agent: browsesecret" ++ CRLF), (L "Cookie: a" ++ CRLF ++ CRLF).
  eexists. eexists. split; [intros [H|H]; revert H; apply not_ci_prefix; reflexivity|]. split; [apply not_ci_prefix; reflexivity|].
  split; [intros [H|H]; revert H; apply not_ci_prefix; reflexivity|]. split; [apply not_ci_prefix; reflexivity|].
  split; [vm_compute; reflexivity|]. split; [vm_compute; reflexivity|]. split; vm_compute; reflexivity.
Qed.
Print Assumptions C50_short_cookie_refuted.
Example C50_case : exists h, read_headers (L "content-length: 12" ++ CRLF ++ L "Cookie: WSSESSION=abc" ++ CRLF ++ L "X-Session: tok " ++ CRLF ++
    L "x-real-ip: 10.0.0.1" ++ CRLF ++ L "Content-Type: multipart/form-data; boundary=XyZ" ++ CRLF ++ CRLF ++ L "body") = Ok h
  /\ hs_length h = 12 /\ cstr (hs_session h) = Ok (L "tok") /\ hs_ip h = L "10.0.0.1" /\ hs_boundary h = L "--XyZ"
  /\ hs_content_type h = Some (L "multipart/form-data") /\ hs_stream h = L "body" /\ len (hs_headers h) = 5.
Proof. eexists. split; [vm_compute; reflexivity|]. repeat split; vm_compute; reflexivity. Qed.

(** C51 *)
Theorem C51_body : forall n s, read_body n s NUL = if (n <=? length s)%nat then (firstn n s, skipn n s)
  else (s ++ repeat (last s NUL) (n - length s), []).
Proof.
  intros n s. destruct (Nat.leb_spec n (length s)); [now apply read_body_enough|apply read_body_short; lia].
Qed.
Print Assumptions C51_body.
(** What the router gets: the request with the body as its form, when no multipart boundary was announced. *)
Theorem C51_form : forall v f s r n boundary, len boundary < 2 ->
  handle_api_request v f s r n boundary =
  ('(calls, r2) <- router_handle_request (v_app v) (v_routes v)
     (if 0 <? n then set_form r (cs (firstn (Z.to_nat n) s ++ repeat (last s NUL) (Z.to_nat n - length s))) else r);;
   Ok (calls, r2, f)).
Proof.
  intros v f s r n boundary Hb. unfold handle_api_request. destruct (Z.ltb_spec 0 n) as [H|H]; [|reflexivity].
  replace (2 <=? len boundary) with false by lia. cbn [bind].
  assert (E : fst (read_body (Z.to_nat n) s NUL) = firstn (Z.to_nat n) s ++ repeat (last s NUL) (Z.to_nat n - length s)).
  { rewrite C51_body. destruct (Nat.leb_spec (Z.to_nat n) (length s)) as [L|L]; cbn [fst].
    - replace (Z.to_nat n - length s)%nat with O by lia. cbn. now rewrite app_nil_r.
    - now rewrite firstn_all2 by lia. }
  rewrite E. reflexivity.
Qed.
Print Assumptions C51_form.
Example C51_case : read_body 3 (L "abcdef") NUL = (L "abc", L "def") /\ read_body 4 (L "ab") NUL = (L "abbb", [])
  /\ read_body 2 [] NUL = ([NUL; NUL], []).
Proof. repeat split. Qed.

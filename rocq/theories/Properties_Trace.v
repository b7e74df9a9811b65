(** Properties_Trace.v - C90: what a request writes to the application log (/repo/ws.c, router.c,
    http_utils.c, file_utils.c, log.c). *)
From Verif Require Import Trace Lemmas WsMultipart_proofs WsConn_proofs WsRequest_proofs WsDispatch_proofs WsApi_proofs Log_proofs Trace_proofs TraceForm_proofs Tame_proofs Properties_Dispatch
  SpecJson SpecHttp SpecConn SpecReq SpecRouter SpecDispatch SpecApi SpecMultipart SpecLog SpecTrace Spec.

Local Opaque bad_request too_many_connections accept_rest_t accept_request_t accept_request connection_add connection_add_t finish
  handle_static_routes_t handle_api_request_t multipart_parse_t read_body.

(** C90.  Handling a request does not depend on what is logged: [accept_request_t] is
    [accept_request] with the messages beside its result. *)
Theorem C90_same_result : forall v f t socket peer stream,
  accept_request v f t socket peer stream = match accept_request_t v f t socket peer stream with Ok (res, _) => Ok res | UB u => UB u end.
Proof. intros. apply traces_fst, accept_traces. Qed.
Print Assumptions C90_same_result.

(** Of the messages exactly those of at least the logger's level are written, in order. *)
Theorem C90_written : forall v f t socket peer stream res ms s, accept_request_t v f t socket peer stream = Ok (res, ms) -> lg_file s <> LogClosed ->
  exists s', write_all s ms = Ok s' /\ logged s s' (at_least (lg_level s) ms).
Proof.
  intros v f t socket peer stream res ms s E Hs. apply accept_kept, kept_level in E. destruct (write_all_eq ms E s Hs) as (s' & E1 & E2 & _). eauto.
Qed.
Print Assumptions C90_written.

(** ** Every request *)
Theorem C90_bad_method : forall v f t socket peer stream m u line s1 res ms, asks stream m u line s1 -> len peer <= 15 -> ~ allowed m ->
  accept_request_t v f t socket peer stream = Ok (res, ms) -> ms = [request_note peer line].
Proof.
  intros v f t socket peer stream m u line s1 res ms A Hp Ha E. destruct (accept_start_t v f t socket peer stream m u line s1 A ltac:(lia)) as (b & _ & H & _).
  rewrite (H Ha) in E. apply bind_ok_inv in E as (r2 & _ & E). now injection E as _ <-.
Qed.
Print Assumptions C90_bad_method.
(** A refused connection: the log says why, if debug messages are written. *)
Theorem C90_refused : forall v f t socket peer stream m u line s1 t1 res ms, asks stream m u line s1 -> len peer <= 15 -> allowed m ->
  Forall (fun r => no_nul (l_path r)) (v_limits v) -> Forall ok_path (occupied t) ->
  connection_add (v_limits v) t socket peer (firstn 254 u) = Ok (false, t1) ->
  accept_request_t v f t socket peer stream = Ok (res, ms) ->
  exists why, ms = [request_note peer line; why] /\ refusal (v_limits v) t peer (firstn 254 u) why.
Proof.
  intros v f t socket peer stream m u line s1 t1 res ms A Hp Ha Hr Ht Hc E. destruct (accept_start_t v f t socket peer stream m u line s1 A ltac:(lia)) as (b & _ & _ & H).
  pose proof A as (_ & _ & _ & (_ & Nu & _) & _).
  destruct (refused_notes _ _ _ _ _ _ Hr Ht (no_nul_firstn _ _ Nu) Hc) as (why & Ew & R). rewrite (H Ha), Ew in E. cbn [bind negb] in E.
  apply bind_ok_inv in E as (r3 & _ & E). injection E as _ <-. eauto.
Qed.
Print Assumptions C90_refused.
(** A request that is admitted: its request line, then the first twenty header fields, each as a
    trace message; for a method other than GET outside the API nothing more. *)
Theorem C90_not_get : forall v f t socket peer stream m u line s1 t1 x after p q res ms, asks stream m u line s1 -> len peer <= 15 -> allowed m ->
  connection_add (v_limits v) t socket peer (firstn 254 u) = Ok (true, t1) ->
  section s1 (nothing_told peer) x after -> url_parts (firstn 254 u) p q -> ~ api_url (firstn 254 u) -> ~ is_get m ->
  accept_request_t v f t socket peer stream = Ok (res, ms) -> ms = opening peer line x.
Proof.
  intros v f t socket peer stream m u line s1 t1 x after p q res ms A Hp Ha Hc Hs Hu N1 N2 E.
  destruct (accept_start_t v f t socket peer stream m u line s1 A ltac:(lia)) as (b & Lb & _ & H). pose proof A as (_ & _ & (_ & Nm & _) & (_ & Nu & _) & _).
  destruct (accept_rest_start_t v f t1 socket peer (firstn (length line - 2) line) m (firstn 254 u) b line s1 x after p q) as (r & R & C & _); auto; [rewrite len_firstn; lia|].
  rewrite (H Ha), (add_admitted _ _ _ _ _ _ Hc) in E. cbn [bind negb] in E. rewrite (C N1 N2) in E. apply bind_ok_inv in E as ([res0 ms0] & E1 & E).
  apply bind_ok_inv in E1 as (r6 & _ & E1). injection E1 as _ <-. now injection E as _ <-.
Qed.
Print Assumptions C90_not_get.
(** A static request: two debug messages, and a warning for each of the two files tried that is
    not there. *)
Theorem C90_static : forall v f t socket peer stream m u line s1 t1 x after p q junk res ms, asks stream m u line s1 -> len peer <= 15 -> is_get m ->
  connection_add (v_limits v) t socket peer (firstn 254 u) = Ok (true, t1) ->
  section s1 (nothing_told peer) x after -> url_parts (firstn 254 u) p q -> ~ api_url (firstn 254 u) -> cstr (v_stk v) = Ok junk ->
  accept_request_t v f t socket peer stream = Ok (res, ms) ->
  exists p2 warnings, static_target v junk p p2 /\ ms = opening peer line x ++ static_notes v (td_ip x) p p2 ++ warnings
    /\ looked_for f (v_static_root v ++ L "/" ++ p2) (v_static_root v ++ L "/" ++ v_index v) warnings.
Proof.
  intros v f t socket peer stream m u line s1 t1 x after p q junk res ms A Hp Hg Hc Hs Hu N1 Hj E.
  eapply static_shape in E as (p2 & w & Ep & -> & Hw); eauto. exists p2, w. split; [eapply static_path_target; eauto|]. auto.
Qed.
Print Assumptions C90_static.
(** An API request: what was asked, the messages of a multipart form if there is one, and what the
    router found. *)
Theorem C90_api : forall v f t socket peer stream m u p q line x after t1 res ms,
  api_asked v t socket peer stream m u p q line x after t1 -> live (v_routes v) ->
  accept_request_t v f t socket peer stream = Ok (res, ms) ->
  exists form rn, ms = opening peer line x ++ api_notes m (firstn 254 u) p q x ++ form ++ rn
    /\ (td_length x <= 0 \/ len (td_boundary x) < 2 -> form = []) /\ Forall (form_note (td_ip x)) form
    /\ routed (v_routes v) m (firstn 254 u) p (td_ip x) rn.
Proof.
  intros v f t socket peer stream m u p q line x after t1 res ms A Hl E. eapply api_shape in E as (fm & f' & mp & rn & Ef & -> & Hr); eauto.
  exists mp, rn. split; [reflexivity|]. split; [|split; [eapply form_step_notes, Ef|exact Hr]].
  intros K. unfold form_step in Ef. cbv zeta in Ef. destruct (0 <? td_length x) eqn:Q1; [|now injection Ef as _ _ <-].
  destruct (2 <=? len (td_boundary x)) eqn:Q2; [lia|now injection Ef as _ _ <-].
Qed.
Print Assumptions C90_api.

(** ** What is written at the level the program starts with *)
(** Only three things: a file that is not there, a form part without a name, a file in /tmp/wayuu
    that cannot be written. *)
Theorem C90_loud : forall v f t socket peer stream res ms, accept_request_t v f t socket peer stream = Ok (res, ms) ->
  Forall (loud_note (v_static_root v)) (at_least 2 ms).
Proof. intros v f t socket peer stream res ms E. eapply kept_loud, accept_kept, E. Qed.
Print Assumptions C90_loud.
Theorem C90_at_start : lg_level log_init = 2 /\ forall v f t socket peer stream res ms, accept_request_t v f t socket peer stream = Ok (res, ms) ->
  exists s, write_all log_init ms = Ok s /\ lg_out s = map (fun m => (fst m, snd m, LogStderr)) (at_least 2 ms) /\ lg_exited s = false.
Proof.
  split; [reflexivity|]. intros v f t socket peer stream res ms E. destruct (C90_written _ _ _ _ _ _ _ _ log_init E) as (s & E1 & E2 & _ & E3); [discriminate|].
  exists s. split; [exact E1|]. split; [exact E2|exact E3].
Qed.
Print Assumptions C90_at_start.
(** A form of nameless parts followed by fields: one warning for each nameless part, no more. *)
Theorem C90_nameless : forall v f t socket peer stream m u p q line x after t1 pre bnd ps xs tail more res ms,
  api_asked v t socket peer stream m u p q line x after t1 -> live (v_routes v) ->
  td_boundary x = bnd -> 2 <= len bnd -> td_length x = len (nameless_then pre bnd ps xs tail) -> after = nameless_then pre bnd ps xs tail ++ more ->
  clean_boundary bnd -> clean_preamble bnd pre -> Forall (nameless bnd) ps -> Forall (clean_field bnd) xs -> ~ SpecMultipart.holds bnd tail ->
  len (nameless_then pre bnd ps xs tail) < 2 ^ 31 ->
  accept_request_t v f t socket peer stream = Ok (res, ms) -> at_least 2 ms = repeat (no_form_data (td_ip x)) (length ps).
Proof.
  intros v f t socket peer stream m u p q line x after t1 pre bnd ps xs tail more res ms A Hl Eb H2 El Ea Hb Hp Hn Hx Ht Hlen E.
  eapply api_shape in E as (fm & f' & mp & rn & Ef & -> & Hr); eauto. rewrite (api_loud _ _ _ _ _ _ _ _ _ _ _ Hr).
  assert (Em : mp = repeat (no_form_data (td_ip x)) (length ps)).
  { destruct (nameless_step v f (td_ip x) more pre bnd ps xs tail) as (fm' & K); auto. rewrite Eb, El, Ea, K in Ef. congruence. }
  rewrite Em. clear. induction (length ps) as [|n IH]; [reflexivity|]. cbn [repeat]. unfold at_least in *. cbn [filter]. change (2 <=? fst (no_form_data (td_ip x))) with true. cbv iota. now rewrite IH.
Qed.
Print Assumptions C90_nameless.
(** Each of these is one line, if the headers were well formed (C81_address)... *)
Theorem C90_one_line : forall v f t socket peer stream m u p q line x after t1 res ms n,
  api_asked v t socket peer stream m u p q line x after t1 -> live (v_routes v) -> one_line peer -> 0 <= mp_tid (v_mp v) ->
  accept_request_t v f t socket peer stream = Ok (res, ms) -> In n (at_least 2 ms) -> one_line (snd n).
Proof.
  intros v f t socket peer stream m u p q line x after t1 res ms n A Hl Hp Ht E Hn. pose proof A as (s1 & _ & _ & _ & _ & _ & Hs & _).
  pose proof (section_ip_line _ _ _ _ Hs Hp) as Hi.
  eapply api_shape in E as (fm & f' & mp & rn & Ef & Em & Hr); eauto. rewrite Em, (api_loud _ _ _ _ _ _ _ _ _ _ _ Hr) in Hn. apply filter_In in Hn as [Hn Hv].
  apply form_step_louds in Ef; auto. unfold louds in Ef. rewrite Forall_forall in Ef. apply (Ef _ Hn). lia.
Qed.
Print Assumptions C90_one_line.
Theorem C90_one_line_static : forall v f t socket peer stream m u line s1 t1 x after p q res ms n, asks stream m u line s1 -> len peer <= 15 -> is_get m ->
  connection_add (v_limits v) t socket peer (firstn 254 u) = Ok (true, t1) ->
  section s1 (nothing_told peer) x after -> url_parts (firstn 254 u) p q -> ~ api_url (firstn 254 u) ->
  one_line (v_static_root v) -> one_line (v_index v) -> one_line (v_favicon v) ->
  accept_request_t v f t socket peer stream = Ok (res, ms) -> In n (at_least 2 ms) -> one_line (snd n).
Proof.
  intros v f t socket peer stream m u line s1 t1 x after p q res ms n A Hp Hg Hc Hs Hu N1 H1 H2 H3 E Hn.
  assert (Hl : one_line p) by (eapply url_path_line; [exact Hu|]; destruct A as (_ & _ & _ & (_ & _ & F) & _); now apply Forall_firstn).
  eapply static_shape in E as (p2 & w & Ep & Em & Hw); eauto. rewrite Em, (static_loud v f _ _ _ _ _ _ Hw) in Hn.
  apply (static_path_line v p) in Ep; auto.
  assert (K : forall name, one_line name -> one_line (L "File not found: " ++ v_static_root v ++ L "/" ++ name)).
  { intros name H I. apply in_app_or in I as [I|I]; [revert I; now apply text_without|]. apply in_app_or in I as [I|I]; [now apply H1|].
    apply in_app_or in I as [I|I]; [revert I; now apply text_without|]. now apply H. }
  destruct Hw as [H|H4 H5|H4 H5]; repeat (destruct Hn as [Hn|Hn]); try easy; subst n; now apply K.
Qed.
Print Assumptions C90_one_line_static.
(** ... but an X-Real-IP header without a value makes one message two lines. *)
Theorem C90_one_line_refuted : exists v f t socket peer stream res ms n,
  one_line peer /\ one_line (v_static_root v) /\ one_line (v_index v) /\ one_line (v_favicon v)
  /\ accept_request_t v f t socket peer stream = Ok (res, ms) /\ In n (at_least 2 ms) /\ n = no_form_data [LF].
Proof.
  exists demo, demo_fs, demo_table, 9, (L "1.2.3.4"), (L "POST /api/x HTTP/1.1" ++ CRLF ++ L "X-Real-IP:" ++ CRLF
    ++ L "Content-Type: multipart/form-data; boundary=B" ++ CRLF ++ L "Content-Length: 8" ++ CRLF ++ CRLF ++ L "--Ba" ++ [LF] ++ L "--B").
  eexists _, _, _. do 4 (split; [apply text_without; reflexivity|]). split; [vm_compute; reflexivity|]. split; [|reflexivity]. vm_compute. now left.
Qed.
Print Assumptions C90_one_line_refuted.

(** ** The session *)
(** The session token is never written at that level: with other tokens the same is logged. *)
Theorem C90_session : forall v f t socket peer stream stream' m u p q line x x' after t1 res ms res' ms',
  api_asked v t socket peer stream m u p q line x after t1 -> api_asked v t socket peer stream' m u p q line x' after t1 ->
  same_but_session x x' -> live (v_routes v) ->
  accept_request_t v f t socket peer stream = Ok (res, ms) -> accept_request_t v f t socket peer stream' = Ok (res', ms') ->
  at_least 2 ms = at_least 2 ms'.
Proof.
  intros v f t socket peer stream stream' m u p q line x x' after t1 res ms res' ms' A A' (_ & S2 & S3 & S4) Hl E E'.
  eapply api_shape in E as (fm & f1 & mp & rn & Ef & Em & Hr); eauto. eapply api_shape in E' as (fm' & f1' & mp' & rn' & Ef' & Em' & Hr'); eauto.
  rewrite Em, Em', (api_loud _ _ _ _ _ _ _ _ _ _ _ Hr), (api_loud _ _ _ _ _ _ _ _ _ _ _ Hr'). rewrite <- S2, <- S3, <- S4, Ef in Ef'. congruence.
Qed.
Print Assumptions C90_session.
Theorem C90_session_static : forall v f t socket peer stream stream' m u line s1 s1' t1 x x' after after' p q res ms res' ms',
  asks stream m u line s1 -> asks stream' m u line s1' -> len peer <= 15 -> is_get m ->
  connection_add (v_limits v) t socket peer (firstn 254 u) = Ok (true, t1) ->
  section s1 (nothing_told peer) x after -> section s1' (nothing_told peer) x' after' -> url_parts (firstn 254 u) p q -> ~ api_url (firstn 254 u) ->
  accept_request_t v f t socket peer stream = Ok (res, ms) -> accept_request_t v f t socket peer stream' = Ok (res', ms') ->
  at_least 2 ms = at_least 2 ms'.
Proof.
  intros v f t socket peer stream stream' m u line s1 s1' t1 x x' after after' p q res ms res' ms' A A' Hp Hg Hc Hs Hs' Hu N1 E E'.
  eapply static_shape in E as (p2 & w & Ep & Em & Hw); eauto. eapply static_shape in E' as (p2' & w' & Ep' & Em' & Hw'); eauto.
  rewrite Em, Em', (static_loud v f _ _ _ _ _ _ Hw), (static_loud v f _ _ _ _ _ _ Hw'). assert (p2' = p2) as -> by congruence. eapply looked_same; eauto.
Qed.
Print Assumptions C90_session_static.
(** With debug messages (option -d) it is written for every API request. *)
Theorem C90_session_debug : forall v f t socket peer stream m u p q line x after t1 res ms s,
  api_asked v t socket peer stream m u p q line x after t1 -> live (v_routes v) -> lg_level s = 1 -> lg_file s <> LogClosed ->
  accept_request_t v f t socket peer stream = Ok (res, ms) ->
  exists s' text d a, write_all s ms = Ok s' /\ In (1, text, d) (lg_out s') /\ text = a ++ L ", SESSION:" ++ td_session x ++ L " ".
Proof.
  intros v f t socket peer stream m u p q line x after t1 res ms s A Hl Hv Hs E. destruct (C90_written _ _ _ _ _ _ _ _ s E Hs) as (s' & Ew & Ho & _).
  eapply api_shape in E as (fm & f1 & mp & rn & Ef & Em & Hr); eauto.
  exists s', (L "IP:" ++ td_ip x ++ L ", URL:" ++ firstn 254 u ++ L ", METHOD:" ++ m ++ L ", PATH:" ++ p ++ L ", SESSION:" ++ td_session x ++ L " "), (where_to s),
    (L "IP:" ++ td_ip x ++ L ", URL:" ++ firstn 254 u ++ L ", METHOD:" ++ m ++ L ", PATH:" ++ p).
  split; [exact Ew|]. split; [|now rewrite <- !app_assoc]. rewrite Ho. apply in_or_app. right. apply in_map_iff.
  exists (debug (L "IP:" ++ td_ip x ++ L ", URL:" ++ firstn 254 u ++ L ", METHOD:" ++ m ++ L ", PATH:" ++ p ++ L ", SESSION:" ++ td_session x ++ L " ")).
  split; [reflexivity|]. apply filter_In. split; [|now rewrite Hv]. rewrite Em. apply in_or_app. right. now left.
Qed.
Print Assumptions C90_session_debug.

(** ** http_log_headers *)
Theorem C90_log_headers : forall s r hl, has_headers r hl -> lg_level s <= 1 -> lg_file s <> LogClosed ->
  exists s', http_log_headers s r = Ok s' /\ logged s s' (debug (L "Found " ++ dec (len hl) ++ L " headers") :: header_notes hl).
Proof.
  intros s r hl Hh Hv Hs. unfold http_log_headers, log_level_is_enabled, LOG_DEBUG. replace (lg_level s <=? 1) with true by lia.
  assert (Ll : len (r_headers r) = len hl) by (unfold len; unfold has_headers in Hh; clear - Hh; induction Hh; cbn [length]; lia). rewrite Ll.
  set (m0 := debug (L "Found " ++ dec (len hl) ++ L " headers")).
  assert (K : Forall level_ok (m0 :: header_notes hl)).
  { constructor; [split; discriminate|]. clear. induction hl; cbn [header_notes map]; constructor; auto. split; discriminate. }
  destruct (write_all_eq _ K s Hs) as (s' & E1 & E2 & _). exists s'. split.
  - rewrite <- E1. cbn [write_all]. unfold m0. cbn [fst snd debug]. destruct (logger s 1 _); cbn [bind]; [now apply log_lines_eq|reflexivity].
  - replace (at_least (lg_level s) (m0 :: header_notes hl)) with (m0 :: header_notes hl) in E2; [exact E2|].
    symmetry. apply filter_all. clear - Hv. intros m [<-|I]; [cbn; lia|]. apply in_map_iff in I as (nv & <- & _). cbn. lia.
Qed.
Print Assumptions C90_log_headers.
Theorem C90_log_headers_off : forall s r, 1 < lg_level s -> http_log_headers s r = Ok s.
Proof. intros s r H. unfold http_log_headers, log_level_is_enabled, LOG_DEBUG. now replace (lg_level s <=? 1) with false by lia. Qed.
Print Assumptions C90_log_headers_off.
(** A stored name or value that fills its array has no end: printing it is undefined. *)
Theorem C90_log_headers_unterminated : forall s r h, In h (r_headers r) -> lg_level s <= 1 ->
  Forall (fun c => exists a, c = Some a /\ a <> NUL) (h_name h) \/ Forall (fun c => exists a, c = Some a /\ a <> NUL) (h_value h) ->
  undefined (http_log_headers s r).
Proof.
  intros s r h Hin Hv Hu. unfold http_log_headers, log_level_is_enabled, LOG_DEBUG. replace (lg_level s <=? 1) with true by lia.
  destruct (logger s 1 _) as [s1|u]; cbn [bind]; [|eexists; reflexivity]. clear Hv s. revert s1.
  assert (U : forall b, Forall (fun c => exists a, c = Some a /\ a <> NUL) b -> undefined (cstr b)).
  { induction 1 as [|c b (a & -> & Ha) _ (u & IH)]; [now exists OobRead|]. exists u. cbn [cstr]. rewrite ceq_neq by auto. now rewrite IH. }
  induction (r_headers r) as [|h0 hs IH]; [destruct Hin|]. intros s1. cbn [log_header_lines].
  destruct Hin as [->|Hin].
  - destruct Hu as [Hu|Hu]; apply U in Hu as (u & Hu).
    + rewrite Hu. now exists u.
    + destruct (cstr (h_name h)) as [n|u']; cbn [bind]; [|now exists u']. rewrite Hu. now exists u.
  - destruct (cstr (h_name h0)) as [n|u]; cbn [bind]; [|now exists u]. destruct (cstr (h_value h0)) as [w|u]; cbn [bind]; [|now exists u].
    destruct (logger s1 _ _) as [s2|u]; cbn [bind]; [|now exists u]. now apply IH.
Qed.
Print Assumptions C90_log_headers_unterminated.

(** The messages of three requests. *)
Definition notes_of (f : fs) (stream : str) : option (list (Z * str)) :=
  match accept_request_t demo f demo_table 9 (L "1.2.3.4") stream with Ok (_, ms) => Some ms | UB _ => None end.
Example C90_case :
  notes_of demo_fs (L "GET /b.txt HTTP/1.1" ++ CRLF ++ L "Host: h" ++ CRLF ++ CRLF)
  = Some [trace (L "IP: 1.2.3.4, Request: GET /b.txt HTTP/1.1" ++ CRLF); trace (L "Found header: Host, h"); debug (L "Handle static route: /b.txt");
          debug (L "IP:1.2.3.4 GET: /b.txt, PATH: /www//b.txt"); warn (L "File not found: /www//b.txt")]
  /\ notes_of demo_fs (L "GET /api/x?a=1 HTTP/1.1" ++ CRLF ++ L "X-Session: tok" ++ CRLF ++ CRLF)
  = Some [trace (L "IP: 1.2.3.4, Request: GET /api/x?a=1 HTTP/1.1" ++ CRLF); trace (L "Found header: X-Session, tok");
          debug (L "IP:1.2.3.4, URL:/api/x?a=1, METHOD:GET, PATH:/x, SESSION:tok "); debug (L "IP: 1.2.3.4 PARAMETERS: a=1"); debug (L "Router handle request GET:/x")]
  /\ notes_of (fun _ => None) (L "GET / HTTP/1.1" ++ CRLF ++ CRLF)
  = Some [trace (L "IP: 1.2.3.4, Request: GET / HTTP/1.1" ++ CRLF); debug (L "Handle static route: /"); debug (L "IP:1.2.3.4 GET: /index.html, PATH: /www//index.html");
          not_found (L "/www//index.html"); not_found (L "/www//index.html")]
  /\ at_least 2 (match notes_of demo_fs (L "GET /b.txt HTTP/1.1" ++ CRLF ++ CRLF) with Some ms => ms | None => [] end) = [not_found (L "/www//b.txt")].
Proof. repeat split; vm_compute; reflexivity. Qed.
Example C90_case_headers :
  match accept_request demo demo_fs demo_table 9 (L "1.2.3.4") (L "GET /a.txt HTTP/1.1" ++ CRLF ++ L "Host: h" ++ CRLF ++ CRLF),
        accept_request demo demo_fs demo_table 9 (L "1.2.3.4") (L "GET /a.txt HTTP/1.1" ++ CRLF ++ repeat "n"%char 64 ++ L ": v" ++ CRLF ++ CRLF) with
  | Ok res, Ok res' =>
    match http_log_headers (log_set_level log_init 1) (o_req res) with
    | Ok s => lg_out s = [(1, L "Found 1 headers", LogStderr); (1, L "HEADER: Host, VALUE: h", LogStderr)]
    | UB _ => False
    end
    /\ http_log_headers (log_set_level log_init 1) (o_req res') = UB OobRead /\ http_log_headers log_init (o_req res') = Ok log_init
  | _, _ => False
  end.
Proof. vm_compute. repeat split. Qed.

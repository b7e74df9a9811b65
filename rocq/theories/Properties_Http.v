(** Properties_Http.v - C29 to C36: HTTP responses (/repo/http_utils.c). *)
From Verif Require Import StringUtils FileUtils HttpUtils HttpUtils_proofs SpecConf SpecHttp Spec.

(** C29, C30.  [line] is the status line of the status; the message body is empty or the
    text followed by CRLF. *)
Theorem C29_status_response : forall r hl status line msg, supported status line -> has_headers r hl ->
  exists d, decimal d (match msg with [] => 0 | _ => len msg + 2 end) /\
  let bytes := message line [server; L "Content-Length: " ++ d]
                 (match msg with [] => [] | _ => msg ++ CRLF end) in
  (len bytes <= 1025 ->
     exists r', send_http_status r status msg = Ok r'
       /\ answered r r' hl status bytes (r_response_length r + len bytes)).
Proof.
  intros r hl status line msg Hs Hh. exists (dec_nat (len (status_body msg))). split.
  - replace (match msg with [] => 0 | _ => len msg + 2 end) with (len (status_body msg)).
    + apply dec_nat_decimal. lens. lia.
    + destruct msg; [reflexivity|]. unfold status_body. now rewrite len_app, len_CRLF.
  - cbv zeta. intros Hl. eapply send_status_ok; eauto. unfold status_size, status_message. unfold status_body in *. lia.
Qed.
Print Assumptions C29_status_response.
Theorem C29_unsupported_status : forall r status msg, (forall line, ~ supported status line) ->
  send_http_status r status msg = Ok r.
Proof. exact send_status_unsupported. Qed.
Print Assumptions C29_unsupported_status.
(** The helpers of the API are calls with these statuses and no message. *)
Theorem C29_helpers : forall r,
  ok r = send_http_status r 200 [] /\ created r = send_http_status r 201 []
  /\ bad_request r = send_http_status r 400 [] /\ not_authenticated r = send_http_status r 401 []
  /\ forbidden r = send_http_status r 403 [] /\ not_found r = send_http_status r 404 []
  /\ too_many_connections r = send_http_status r 429 [] /\ internal_server_error r = send_http_status r 500 [].
Proof. repeat split. Qed.
Print Assumptions C29_helpers.
Definition sample_request : api_request :=
  mkReq 4 [mkHeader (cs (L "Referer")) (cs (L "x"))] None (calloc 10) (L "GET") (L "/") (L "/") [] (L "1.2.3.4") []
    (cs []) (L "GET / HTTP/1.1") 0 [] [].
Example C29_case : exists r', send_http_status sample_request 404 (L "gone") = Ok r'
  /\ r_sent r' = L "HTTP/1.1 404 NOT FOUND" ++ CRLF ++ L "Server: WAYUU/1.5.0" ++ CRLF ++ L "Content-Length: 6" ++ CRLF
                 ++ CRLF ++ L "gone" ++ CRLF
  /\ r_response_length r' = 72 /\ has_headers sample_request [(L "Referer", L "x")]
  /\ supported 404 (L "HTTP/1.1 404 NOT FOUND").
Proof.
  eexists. split; [vm_compute; reflexivity|]. split; [vm_compute; reflexivity|]. split; [vm_compute; reflexivity|].
  split; [repeat constructor|]. vm_compute. tauto.
Qed.

Theorem C30_overflow_threshold : forall r hl status line msg d, supported status line -> has_headers r hl ->
  decimal d (match msg with [] => 0 | _ => len msg + 2 end) ->
  let head := line ++ CRLF ++ server ++ CRLF ++ L "Content-Length: " ++ d ++ CRLF in
  let size := match msg with [] => len head | _ => len (head ++ CRLF ++ msg) end in
  (size <= 1023 -> exists r', send_http_status r status msg = Ok r')
  /\ (1024 <= size -> undefined (send_http_status r status msg)).
Proof.
  intros r hl status line msg d Hs Hh Hd head size.
  assert (D : d = dec_nat (len (status_body msg))).
  { apply (decimal_unique _ _ (len (status_body msg))).
    - replace (len (status_body msg)) with (match msg with [] => 0 | _ => len msg + 2 end); auto.
      destruct msg; [reflexivity|]. unfold status_body. now rewrite len_app, len_CRLF.
    - apply dec_nat_decimal. lens. lia. }
  assert (S : size = status_size line msg).
  { unfold size, head. rewrite status_size_eq, D. destruct msg as [|c m].
    - reflexivity.
    - set (msg := c :: m) in *. change (status_body msg) with (msg ++ CRLF).
      replace (len (msg ++ CRLF)) with (len msg + 2) by now rewrite len_app, len_CRLF.
      rewrite <- !app_assoc. reflexivity. }
  rewrite S. split; intros H.
  - destruct (send_status_ok r hl status line msg) as (r' & E & _); eauto.
  - rewrite (send_status_oob r status line msg) by (auto; lia). eexists. reflexivity.
Qed.
Print Assumptions C30_overflow_threshold.
Example C30_case : undefined (send_http_status sample_request 200 (repeat "a"%char 1000))
  /\ exists r', send_http_status sample_request 200 (repeat "a"%char 900) = Ok r'.
Proof. split; eexists; vm_compute; reflexivity. Qed.

(** C31 *)
Theorem C31_json_response : forall r hl status line data, supported status line -> has_headers r hl ->
  len data + 2 < 2 ^ 64 ->
  exists d r', decimal d (len (data ++ CRLF)) /\ return_json_with_status r status data = Ok r' /\
  let bytes := message line (server :: cors ++ [L "Content-Type: application/json"; L "Content-Length: " ++ d])
                 (data ++ CRLF) in
  answered r r' hl status bytes (len bytes).
Proof.
  intros r hl status line data Hs Hh Hd. destruct (return_json_ok r hl status line data Hh Hs Hd) as (r' & E & A).
  exists (dec_nat (len (data ++ CRLF))), r'. split; [apply dec_nat_decimal; lens; lia|]. split; auto.
Qed.
Print Assumptions C31_json_response.
(** For any other status the status line and the fixed headers are missing. *)
Theorem C31_json_unsupported : forall r hl status data, (forall line, ~ supported status line) -> has_headers r hl ->
  len data + 2 < 2 ^ 64 ->
  exists d r', decimal d (len (data ++ CRLF)) /\ return_json_with_status r status data = Ok r' /\
  let bytes := L "Content-Length: " ++ d ++ CRLF ++ CRLF ++ data ++ CRLF in
  answered r r' hl status bytes (len bytes).
Proof.
  intros r hl status data Hs Hh Hd. destruct (return_json_unsupported r hl status data Hh Hs Hd) as (r' & E & A).
  exists (dec_nat (len (data ++ CRLF))), r'. split; [apply dec_nat_decimal; lens; lia|]. split; auto.
Qed.
Print Assumptions C31_json_unsupported.
Theorem C31_helpers : forall r data ents json, json_array_of_entities ents = Ok json ->
  return_json r data = return_json_with_status r 200 data
  /\ created_with_json r data = return_json_with_status r 201 data
  /\ return_json_list r ents = return_json_with_status r 200 json
  /\ (forall e e' t, wayuu_error_json e = Ok (t, e') ->
        bad_request_with_error r e = return_json_with_status r 400 t
        /\ forbidden_with_error r e = return_json_with_status r 403 t
        /\ internal_server_error_with_error r e = return_json_with_status r 500 t).
Proof.
  intros r data ents json E. split; [reflexivity|]. split; [reflexivity|]. split.
  - unfold return_json_list. now rewrite E.
  - intros e e' t Et. unfold bad_request_with_error, forbidden_with_error, internal_server_error_with_error, status_with_error.
    rewrite Et. auto.
Qed.
Print Assumptions C31_helpers.
Example C31_case : exists r', return_json sample_request (L "[1]") = Ok r'
  /\ r_sent r' = L "HTTP/1.1 200 OK" ++ CRLF ++ L "Server: WAYUU/1.5.0" ++ CRLF ++ L "Access-Control-Allow-Origin: *" ++ CRLF
    ++ L "Access-Control-Allow-Methods: GET, POST, DELETE, PUT" ++ CRLF ++ L "Access-Control-Allow-Headers: Content-Type" ++ CRLF
    ++ L "Content-Type: application/json" ++ CRLF ++ L "Content-Length: 5" ++ CRLF ++ CRLF ++ L "[1]" ++ CRLF
  /\ r_response_length r' = 226.
Proof. eexists. split; [vm_compute; reflexivity|]. split; vm_compute; reflexivity. Qed.

(** C32 *)
Definition ct (t : str) : str := L "Content-Type: " ++ t ++ CRLF.
Definition types_by_extension : list (str * str) :=
  [(L "html", L "text/html"); (L "js", L "text/html"); (L "png", L "image/png"); (L "jpg", L "image/jpeg");
   (L "jpeg", L "image/jpeg"); (L "zip", L "application/zip"); (L "css", L "text/css"); (L "svg", L "image/svg+xml");
   (L "ico", L "image/vnd.microsoft.icon"); (L "txt", L "text/plain"); (L "csv", L "application/octet-stream")].
Definition types_by_mime : list (str * str) :=
  [(L "text/html", L "text/html"); (L "image/png", L "image/png"); (L "image/jpeg", L "image/jpeg");
   (L "application/zip", L "application/zip"); (L "text/css", L "text/css"); (L "text/plain", L "text/plain");
   (L "text/csv", L "application/octet-stream")].

Theorem C32_by_extension : forall base ext, base <> [] -> ~ In "."%char ext ->
  (forall t, In (ext, t) types_by_extension -> get_content_type (base ++ L "." ++ ext) = ct t)
  /\ (~ In ext (map fst types_by_extension) -> get_content_type (base ++ L "." ++ ext) = ct (L "text/csv")).
Proof.
  intros base ext Hb He. change (L "." ++ ext) with ("."%char :: ext). unfold get_content_type.
  rewrite strrchr_app by auto. destruct base as [|b base]; [easy|]. cbn [length].
  change (skipn (S (length base)) ((b :: base) ++ "."%char :: ext)) with (skipn (length base) (base ++ "."%char :: ext)).
  rewrite skipn_app, skipn_all, Nat.sub_diag. cbn [skipn app]. split.
  - intros t I. unfold types_by_extension in I. cbn [In] in I.
    repeat (destruct I as [I|I]; [inv I; reflexivity|]). easy.
  - intros N. unfold types_by_extension in N. cbn [map fst In] in N.
    assert (X : forall y, L "" = [] -> ~ (y = ext) -> str_eqb ("."%char :: ext) ("."%char :: y) = false).
    { intros y _ Hy. apply str_eqb_neq. intros E. inv E. auto. }
    change (L ".html") with ("."%char :: L "html"). change (L ".js") with ("."%char :: L "js").
    change (L ".png") with ("."%char :: L "png"). change (L ".jpg") with ("."%char :: L "jpg").
    change (L ".jpeg") with ("."%char :: L "jpeg"). change (L ".zip") with ("."%char :: L "zip").
    change (L ".css") with ("."%char :: L "css"). change (L ".svg") with ("."%char :: L "svg").
    change (L ".ico") with ("."%char :: L "ico"). change (L ".txt") with ("."%char :: L "txt").
    change (L ".csv") with ("."%char :: L "csv").
    rewrite !X by (auto; tauto). reflexivity.
Qed.
Print Assumptions C32_by_extension.
Theorem C32_no_extension : forall name, ~ In "."%char name ->
  get_content_type name = ct (L "text/html") /\ get_content_type (L "." ++ name) = ct (L "text/html").
Proof.
  intros name H. split.
  - unfold get_content_type. apply strrchr_none in H. now rewrite H.
  - unfold get_content_type. change (L "." ++ name) with ([] ++ "."%char :: name). now rewrite strrchr_app.
Qed.
Print Assumptions C32_no_extension.
Theorem C32_by_mime : forall mime,
  (forall t, In (mime, t) types_by_mime -> get_content_type_for_mime mime = ct t)
  /\ (~ In mime (map fst types_by_mime) -> get_content_type_for_mime mime = ct (L "text/csv")).
Proof.
  intros mime. unfold get_content_type_for_mime. split.
  - intros t I. unfold types_by_mime in I. cbn [In] in I. repeat (destruct I as [I|I]; [inv I; reflexivity|]). easy.
  - intros N. unfold types_by_mime in N. cbn [map fst In] in N.
    assert (X : forall y, ~ (y = mime) -> str_eqb mime y = false).
    { intros y Hy. apply str_eqb_neq. intros E. auto. }
    rewrite !X by tauto. reflexivity.
Qed.
Print Assumptions C32_by_mime.
Theorem C32_yaml_never : forall name, get_content_type name <> ct (L "text/yaml")
  /\ get_content_type_for_mime name <> ct (L "text/yaml").
Proof.
  intros name. split.
  - unfold get_content_type. destruct (strrchr name ".") as [[|n]|]; try discriminate.
    destruct (str_eqb_spec (skipn (S n) name) (L ".csv")) as [->|N]; [vm_compute; discriminate|].
    repeat (match goal with |- (if ?b then _ else _) <> _ => destruct b end; try discriminate).
  - destruct (C32_by_mime name) as [A B].
    destruct (in_dec (list_eq_dec ascii_dec) name (map fst types_by_mime)) as [I|I].
    + apply in_map_iff in I as ([m t] & E & I). cbn in E. subst m. rewrite (A t I). intros X.
      unfold types_by_mime in I. cbn [In] in I. repeat (destruct I as [I|I]; [inv I; discriminate|]). easy.
    + rewrite (B I). discriminate.
Qed.
Print Assumptions C32_yaml_never.
Example C32_case : get_content_type (L "a.b.png") = ct (L "image/png") /\ get_content_type (L "data.yaml") = ct (L "text/csv")
  /\ get_content_type (L "data.csv") = ct (L "application/octet-stream").
Proof. repeat split; vm_compute; reflexivity. Qed.

(** C33.  The head as sent: the status line and Server header come twice. *)
Theorem C33_static_file : forall f r hl name content sess, f name = Some (File content) ->
  has_headers r hl -> cstr (r_session r) = Ok sess ->
  let start := L "HTTP/1.1 200 OK" ++ CRLF ++ L "Server: WAYUU/1.5.0" ++ CRLF in
  let bytes := start ++ start ++ get_content_type name
               ++ (if len sess =? 0 then [] else L "X-Session: " ++ sess ++ CRLF ++ L "Set-Cookie:WSSESSION=" ++ sess ++ CRLF)
               ++ CRLF ++ content in
  (len sess <= 493 /\ len bytes <= 2 ^ 31 - 1 -> exists r', direct_file f r name = Ok (0, r') /\ answered r r' hl 200 bytes (len bytes))
  /\ (494 <= len sess \/ 2 ^ 31 - 1 < len bytes -> undefined (direct_file f r name)).
Proof.
  intros f r hl name content sess Hf Hh Hs start bytes.
  assert (E : bytes = concat (header_sends name sess) ++ content).
  { rewrite header_sends_eq. unfold bytes, start. change (L "HTTP/1.1 200 OK" ++ CRLF ++ L "Server: WAYUU/1.5.0" ++ CRLF) with ok_start.
    replace (if len sess =? 0 then [] else L "X-Session: " ++ sess ++ CRLF ++ L "Set-Cookie:WSSESSION=" ++ sess ++ CRLF)
      with (flat_map (fun h => h ++ CRLF) (session_lines sess)); [now rewrite <- !app_assoc|].
    destruct sess as [|c s]; [reflexivity|]. replace (len (c :: s) =? 0) with false by (symmetry; apply Z.eqb_neq; llia).
    cbn [session_lines flat_map]. rewrite <- !app_assoc, app_nil_r. reflexivity. }
  clearbody bytes. subst bytes. rewrite len_app. split.
  - intros (Hl & Hc). destruct (direct_file_eq_exact f r hl name content sess Hh Hf Hc Hs Hl) as (r' & R & A).
    exists r'. split; [exact R|]. cbv zeta in A. rewrite <- header_sends_eq, len_app in A. exact A.
  - intros H. destruct (Z_le_dec (len sess) 493) as [Hl|Hl].
    + eapply direct_file_over; eauto. lia.
    + unfold direct_file, is_file. rewrite Hf. cbn [negb]. rewrite (return_headers_oob r name sess) by (auto; lia). eexists. reflexivity.
Qed.
Print Assumptions C33_static_file.
Theorem C33_not_a_file : forall f r name, (forall c, f name <> Some (File c)) -> direct_file f r name = Ok (-1, r).
Proof.
  intros f r name H. unfold direct_file, is_file. destruct (f name) as [[c|]|]; try reflexivity. now specialize (H c).
Qed.
Print Assumptions C33_not_a_file.
Example C33_case : exists r', direct_file (fun _ => Some (File (L "body"))) sample_request (L "/x.txt") = Ok (0, r')
  /\ r_sent r' = L "HTTP/1.1 200 OK" ++ CRLF ++ L "Server: WAYUU/1.5.0" ++ CRLF ++ L "HTTP/1.1 200 OK" ++ CRLF ++ L "Server: WAYUU/1.5.0" ++ CRLF
                 ++ L "Content-Type: text/plain" ++ CRLF ++ CRLF ++ L "body".
Proof. eexists. split; vm_compute; reflexivity. Qed.

(** C34.  The stream is read in pieces of at most 1022 bytes; of each piece what precedes
    its first NUL is sent.  The length of the answer is added up in ints; of the sums too large for
    an int, two are taken through size_t on the way and come out right in the end. *)
Theorem C34_stream : forall r hl status line content, supported status line -> has_headers r hl ->
  no_nul content ->
  let bytes := message line (server :: cors ++ [L "Content-Type: application/json"]) (content ++ CRLF) in
  (len bytes <= 2 ^ 31 - 1 \/ 2 ^ 31 - 3 < len content <= 2 ^ 31 - 1 ->
    exists r', return_json_stream r status content = Ok r' /\ answered r r' hl status bytes (len bytes))
  /\ (2 ^ 31 - 1 < len content \/ len content <= 2 ^ 31 - 3 /\ 2 ^ 31 - 1 < len bytes -> undefined (return_json_stream r status content)).
Proof.
  intros r hl status line content Hs Hh Hn bytes. destruct (lines_exist 1022 content) as [ls Hl]; [lia|].
  pose proof (lines_concat _ _ _ Hl) as E. pose proof (visible_lines_no_nul _ _ E Hn) as V.
  destruct (stream_eq r hl status line content ls ls Hh Hs Hl V) as (A & B). rewrite E in A, B.
  replace (json_head line ++ CRLF ++ content ++ CRLF) with bytes in A, B by (unfold bytes, message, json_head; now rewrite <- !app_assoc).
  assert (LE : len content <= len bytes) by (unfold bytes, message; rewrite !len_app; lens; lia).
  split; [exact A|]. intros H. eexists. apply B. unfold counts. lia.
Qed.
Print Assumptions C34_stream.
Theorem C34_stream_with_nuls : forall r hl status line content ls lv, supported status line -> has_headers r hl ->
  lines 1022 content ls -> Forall2 visible ls lv ->
  let bytes := message line (server :: cors ++ [L "Content-Type: application/json"]) (concat lv ++ CRLF) in
  (len bytes <= 2 ^ 31 - 1 \/ 2 ^ 31 - 3 < len (concat lv) <= 2 ^ 31 - 1 ->
    exists r', return_json_stream r status content = Ok r' /\ answered r r' hl status bytes (len bytes))
  /\ (2 ^ 31 - 1 < len (concat lv) \/ len (concat lv) <= 2 ^ 31 - 3 /\ 2 ^ 31 - 1 < len bytes -> undefined (return_json_stream r status content)).
Proof.
  intros r hl status line content ls lv Hs Hh Hl V bytes.
  destruct (stream_eq r hl status line content ls lv Hh Hs Hl V) as (A & B).
  replace (json_head line ++ CRLF ++ concat lv ++ CRLF) with bytes in A, B by (unfold bytes, message, json_head; now rewrite <- !app_assoc).
  assert (LE : len (concat lv) <= len bytes) by (unfold bytes, message; rewrite !len_app; lens; lia).
  split; [exact A|]. intros H. eexists. apply B. unfold counts. lia.
Qed.
Print Assumptions C34_stream_with_nuls.
Example C34_case : exists r', return_json_stream sample_request 201 (L "{" ++ [LF] ++ L "}" ++ [NUL] ++ L "x" ++ [LF] ++ L "y") = Ok r'
  /\ skipn 199 (r_sent r') = L "json" ++ CRLF ++ CRLF ++ L "{" ++ [LF] ++ L "}" ++ L "y" ++ CRLF.
Proof. eexists. split; vm_compute; reflexivity. Qed.

(** C35 *)
Theorem C35_path_and_query : forall P Q, P <> [] -> ~ In "?"%char P -> no_nul P -> no_nul Q ->
  len P <= 1022 -> len Q <= 1022 ->
  get_path_and_query_string P = Ok (P, [])
  /\ (forall ts, tokens (L "?") Q ts -> len ts <= 49 ->
        get_path_and_query_string (P ++ L "?" ++ Q) = Ok (P, hd [] ts)).
Proof.
  intros P Q Hne Hi NP NQ LP LQ.
  assert (FP : Forall (fun c => ~ In c (L "?")) P) by (rewrite Forall_forall; intros c Hc [<-|[]]; auto).
  split.
  - rewrite (path_query_eq P P []); auto; [|cbn; lia|cbn; lia].
    rewrite <- (app_nil_r P) at 1. apply (tokens_more _ [] P []); auto; [discriminate|]. constructor. constructor.
  - intros ts Ht Hl. rewrite (path_query_eq _ P ts); auto.
    + apply no_nul_app. split; auto. apply no_nul_app. split; auto. apply no_nul_L. reflexivity.
    + apply (tokens_more _ [] P (L "?" ++ Q)); auto.
      * intros c r E. inv E. now left.
      * now apply (tokens_skip (L "?") "?"%char); [left|].
    + destruct ts as [|t ts]; [cbn; lia|]. cbn [hd]. inv Ht. rewrite !len_app in LQ. lens. lia.
Qed.
Print Assumptions C35_path_and_query.
(** A query without further '?' is passed on whole. *)
Theorem C35_whole_query : forall P Q, P <> [] -> ~ In "?"%char P -> ~ In "?"%char Q -> no_nul P -> no_nul Q ->
  len P <= 1022 -> len Q <= 1022 -> get_path_and_query_string (P ++ L "?" ++ Q) = Ok (P, Q).
Proof.
  intros P Q Hne Hi HQ NP NQ LP LQ. destruct Q as [|c q].
  - destruct (C35_path_and_query P [] Hne Hi NP NQ LP LQ) as [_ H]. apply (H []); [|cbn; lia]. constructor. constructor.
  - set (Q := c :: q) in *. destruct (C35_path_and_query P Q Hne Hi NP NQ LP LQ) as [_ H]. apply (H [Q]); [|cbn; lia].
    rewrite <- (app_nil_r Q) at 1. apply (tokens_more _ [] Q []); auto; [discriminate| |discriminate|constructor; constructor].
    rewrite Forall_forall. intros x Hx [<-|[]]. auto.
Qed.
Print Assumptions C35_whole_query.
Theorem C35_undefined : forall url, Forall (eq "?"%char) url -> undefined (get_path_and_query_string url).
Proof.
  intros url H. rewrite path_query_none; [eexists; reflexivity| |].
  - eapply Forall_impl; [|exact H]. intros c <-. discriminate.
  - constructor. eapply Forall_impl; [|exact H]. intros c <-. now left.
Qed.
Print Assumptions C35_undefined.
(** The limits are those of split: 50 tokens, each of the two used at most 1022 bytes. *)
Theorem C35_limits : forall url p ts, no_nul url -> tokens (L "?") url (p :: ts) ->
  (49 < len ts \/ 1022 < len p \/ 1022 < len (hd [] ts)) <-> undefined (get_path_and_query_string url).
Proof.
  intros url p ts Hn Ht. split; [eapply path_query_oob; eauto|]. intros [u U].
  destruct (Z_lt_dec 49 (len ts)); [auto|]. destruct (Z_lt_dec 1022 (len p)); [auto|].
  destruct (Z_lt_dec 1022 (len (hd [] ts))); [auto|]. rewrite (path_query_eq url p ts) in U by (auto; lia). discriminate.
Qed.
Print Assumptions C35_limits.
Example C35_case : get_path_and_query_string (L "/a/b?x=1&y=2?z") = Ok (L "/a/b", L "x=1&y=2")
  /\ undefined (get_path_and_query_string (L "??")).
Proof. split; [vm_compute; reflexivity|]. eexists. vm_compute. reflexivity. Qed.

(** C36 *)
Theorem C36_header_lookup : forall r hl name v, has_headers r hl -> no_nul name -> lookup hl name v ->
  http_get_header r name = Ok v.
Proof. intros. eapply get_header_eq; eauto. Qed.
Print Assumptions C36_header_lookup.
Theorem C36_total : forall hl name, exists v, lookup hl name v /\ forall v', lookup hl name v' -> v' = v.
Proof.
  intros hl name. destruct (lookup_exists hl name) as [v H]. exists v. split; auto. intros v' H'.
  eapply lookup_unique; eauto.
Qed.
Print Assumptions C36_total.
Example C36_case : http_get_header
   (set_headers sample_request [mkHeader (cs (L "host")) (cs (L "a")); mkHeader (cs (L "Host")) (cs (L "b")); mkHeader (cs (L "Host")) (cs (L "c"))])
   (L "Host") = Ok (L "b")
  /\ lookup [(L "host", L "a"); (L "Host", L "b"); (L "Host", L "c")] (L "Host") (L "b").
Proof.
  split; [vm_compute; reflexivity|]. apply (lk_found [(L "host", L "a")]). intros [H|[]]. discriminate.
Qed.

(** Properties_Dispatch.v - C54, C55, C56, C62, C70, C71: dispatch of requests (/repo/ws.c). *)
From Verif Require Import WsRequest Lemmas StringUtils_proofs HttpUtils_proofs WsConn_proofs WsRequest_proofs WsDispatch_proofs
  SpecJson SpecHttp SpecConn SpecReq SpecDispatch Spec.

Local Opaque send_http_status bad_request too_many_connections accept_rest accept_request startswithany get_line parse_request_line
  parse_url connection_add finish.

(** C54.  Which way a request goes is decided by its method and URL alone. *)
Theorem C54_exclusive : forall v f t socket peer stream m u line s1 res, asks stream m u line s1 ->
  accept_request v f t socket peer stream = Ok res ->
  match o_taken res with
  | TBadMethod => ~ allowed m
  | TTooMany => allowed m
  | TNotGet => allowed m /\ ~ api_url (firstn 254 u) /\ ~ is_get m
  | TStatic => ~ api_url (firstn 254 u) /\ is_get m
  | TApi calls => allowed m /\ api_url (firstn 254 u) /\
      exists r, router_handle_request (v_app v) (v_routes v) r = Ok (calls, o_req res) /\ r_method r = m /\ r_url r = firstn 254 u
  end.
Proof.
  intros v f t socket peer stream m u line s1 res A E.
  assert (Hp : len peer <= 23).
  { destruct (Z_le_dec (len peer) 23); [auto|]. exfalso. rewrite accept_unfold in E. unfold new_request in E.
    rewrite fits_oob in E by lia. discriminate E. }
  destruct (accept_start v f t socket peer stream m u line s1 A Hp) as (b & Lb & H1 & H2).
  pose proof A as (_ & _ & (_ & Nm & _) & (_ & Nu & _) & _).
  destruct (methods_eq m Nm) as ([|] & _ & Hr).
  - assert (Al : allowed m) by now apply Hr. rewrite (H2 Al) in E. apply bind_ok_inv in E as ([adm t1] & _ & E). destruct adm; cbn [negb] in E.
    + apply accept_rest_taken in E; [|now apply no_nul_firstn]. destruct (o_taken res); try tauto.
    + apply bind_ok_inv in E as (r3 & _ & E). injection E as <-. rewrite finish_taken. exact Al.
  - assert (Al : ~ allowed m) by (intros X; apply Hr in X; discriminate). rewrite (H1 Al) in E.
    apply bind_ok_inv in E as (r2 & _ & E). injection E as <-. rewrite finish_taken. exact Al.
Qed.
Print Assumptions C54_exclusive.
(** The five ways in full.  [finish]ed results are written out: the socket is closed and its table
    entry removed. *)
Theorem C54_other_methods : forall v f t socket peer stream m u line s1, asks stream m u line s1 -> len peer <= 15 -> ~ allowed m ->
  exists r r', request_read r socket (firstn (length line - 2) line) m [] /\ r_ip r = peer
    /\ answered r r' [] 400 (status_bytes (L "HTTP/1.1 400 Bad Request")) (len (status_bytes (L "HTTP/1.1 400 Bad Request")))
    /\ accept_request v f t socket peer stream = Ok (mkResult TBadMethod r' (connection_del t socket) [socket] f).
Proof.
  intros v f t socket peer stream m u line s1 A Hp Ha.
  destruct (accept_start v f t socket peer stream m u line s1 A ltac:(lia)) as (b & Lb & H1 & _).
  destruct (req1_told socket peer (firstn (length line - 2) line) m) as (R & Hh & Ip).
  destruct (empty_status _ _ 400 (L "HTTP/1.1 400 Bad Request") ltac:(vm_compute; tauto) Hh) as (r' & E & An); [apply R|].
  exists (req1 socket peer (firstn (length line - 2) line) m), r'. split; [exact R|]. split; [exact Ip|]. split; [exact An|].
  rewrite (H1 Ha). change (bad_request ?r) with (send_http_status r 400 []). rewrite E. cbn [bind].
  rewrite (finish_ok _ _ _ _ socket); [reflexivity|]. rewrite (answered_socket _ _ _ _ _ _ An). apply R.
Qed.
Print Assumptions C54_other_methods.
Theorem C54_over_limit : forall v f t socket peer stream m u line s1 t1, asks stream m u line s1 -> len peer <= 15 -> allowed m ->
  connection_add (v_limits v) t socket peer (firstn 254 u) = Ok (false, t1) ->
  exists r r', request_read r socket (firstn (length line - 2) line) m (firstn 254 u) /\ r_ip r = peer
    /\ answered r r' [] 429 (status_bytes (L "HTTP/1.1 429 Too many connections")) (len (status_bytes (L "HTTP/1.1 429 Too many connections")))
    /\ accept_request v f t socket peer stream = Ok (mkResult TTooMany r' (connection_del t1 socket) [socket] f).
Proof.
  intros v f t socket peer stream m u line s1 t1 A Hp Ha Hc.
  destruct (accept_start v f t socket peer stream m u line s1 A ltac:(lia)) as (b & Lb & _ & H2).
  destruct (req2_told socket peer (firstn (length line - 2) line) m (firstn 254 u)) as (R & Hh & Ip).
  destruct (empty_status _ _ 429 (L "HTTP/1.1 429 Too many connections") ltac:(vm_compute; tauto) Hh) as (r' & E & An); [apply R|].
  exists (req2 socket peer (firstn (length line - 2) line) m (firstn 254 u)), r'. split; [exact R|]. split; [exact Ip|]. split; [exact An|].
  rewrite (H2 Ha), Hc. cbn [bind negb]. change (too_many_connections ?r) with (send_http_status r 429 []). rewrite E. cbn [bind].
  rewrite (finish_ok _ _ _ _ socket); [reflexivity|]. rewrite (answered_socket _ _ _ _ _ _ An). apply R.
Qed.
Print Assumptions C54_over_limit.
Theorem C54_not_get : forall v f t socket peer stream m u line s1 t1 x after p q, asks stream m u line s1 -> len peer <= 15 -> allowed m ->
  connection_add (v_limits v) t socket peer (firstn 254 u) = Ok (true, t1) ->
  section s1 (nothing_told peer) x after -> short_fields x -> url_parts (firstn 254 u) p q ->
  ~ api_url (firstn 254 u) -> ~ is_get m ->
  exists r r', request_read r socket (firstn (length line - 2) line) m (firstn 254 u) /\ request_told r x p q
    /\ answered r r' (firstn 20 (td_fields x)) 400 (status_bytes (L "HTTP/1.1 400 Bad Request")) (len (status_bytes (L "HTTP/1.1 400 Bad Request")))
    /\ accept_request v f t socket peer stream = Ok (mkResult TNotGet r' (connection_del t1 socket) [socket] f).
Proof.
  intros v f t socket peer stream m u line s1 t1 x after p q A Hp Ha Hc Hs Hf Hu N1 N2.
  destruct (accept_start v f t socket peer stream m u line s1 A ltac:(lia)) as (b & Lb & _ & H2).
  pose proof A as (_ & _ & (_ & Nm & _) & (_ & Nu & _) & _).
  destruct (accept_rest_start v f t1 socket peer (firstn (length line - 2) line) m (firstn 254 u) b line s1 x after p q)
    as (r & R & C & _); auto; [rewrite len_firstn; lia|].
  destruct (R p) as [Rr Rt]. destruct (empty_status (r p) (firstn 20 (td_fields x)) 400 (L "HTTP/1.1 400 Bad Request") ltac:(vm_compute; tauto)) as (r' & E & An).
  { apply Rt. } { apply Rr. }
  exists (r p), r'. split; [exact Rr|]. split; [exact Rt|]. split; [exact An|].
  rewrite (H2 Ha), Hc. cbn [bind negb]. rewrite (C N1 N2). change (bad_request ?r) with (send_http_status r 400 []). rewrite E. cbn [bind].
  rewrite (finish_ok _ _ _ _ socket); [reflexivity|]. rewrite (answered_socket _ _ _ _ _ _ An). apply Rr.
Qed.
Print Assumptions C54_not_get.
(** A static request is handled by handle_static_routes (C55); an API request by
    handle_api_request (C51, C38), its path being the URL's path without its first four bytes. *)
Theorem C54_static : forall v f t socket peer stream m u line s1 t1 x after p q, asks stream m u line s1 -> len peer <= 15 -> is_get m ->
  connection_add (v_limits v) t socket peer (firstn 254 u) = Ok (true, t1) ->
  section s1 (nothing_told peer) x after -> short_fields x -> url_parts (firstn 254 u) p q -> ~ api_url (firstn 254 u) ->
  exists r, request_read r socket (firstn (length line - 2) line) m (firstn 254 u) /\ request_told r x p q
    /\ accept_request v f t socket peer stream
       = (r' <- handle_static_routes v f r;; Ok (mkResult TStatic r' (connection_del t1 (r_socket r')) [r_socket r'] f)).
Proof.
  intros v f t socket peer stream m u line s1 t1 x after p q A Hp Ha Hc Hs Hf Hu N1.
  assert (Al : allowed m). { exists (L "GET"). split; [now left|]. exists m, []. split; [now rewrite app_nil_r|exact Ha]. }
  destruct (accept_start v f t socket peer stream m u line s1 A ltac:(lia)) as (b & Lb & _ & H2).
  pose proof A as (_ & _ & (_ & Nm & _) & (_ & Nu & _) & _).
  destruct (accept_rest_start v f t1 socket peer (firstn (length line - 2) line) m (firstn 254 u) b line s1 x after p q)
    as (r & R & _ & C & _); auto; [rewrite len_firstn; lia|].
  destruct (R p) as [Rr Rt]. exists (r p). split; [exact Rr|]. split; [exact Rt|].
  rewrite (H2 Al), Hc. cbn [bind negb]. rewrite (C N1 Ha). apply bind_ext. intros r6. now rewrite (finish_ok _ _ _ _ (r_socket r6)).
Qed.
Print Assumptions C54_static.
Theorem C54_api : forall v f t socket peer stream m u line s1 t1 x after p q, asks stream m u line s1 -> len peer <= 15 -> allowed m ->
  connection_add (v_limits v) t socket peer (firstn 254 u) = Ok (true, t1) ->
  section s1 (nothing_told peer) x after -> short_fields x -> url_parts (firstn 254 u) p q -> api_url (firstn 254 u) ->
  exists mount p' r, p = mount ++ p' /\ len mount = 4
    /\ request_read r socket (firstn (length line - 2) line) m (firstn 254 u) /\ request_told r x p' q
    /\ accept_request v f t socket peer stream
       = ('(calls, r', f') <- handle_api_request v f after r (td_length x) (td_boundary x);;
          Ok (mkResult (TApi calls) r' (connection_del t1 (r_socket r')) [r_socket r'] f')).
Proof.
  intros v f t socket peer stream m u line s1 t1 x after p q A Hp Ha Hc Hs Hf Hu N1.
  destruct (accept_start v f t socket peer stream m u line s1 A ltac:(lia)) as (b & Lb & _ & H2).
  pose proof A as (_ & _ & (_ & Nm & _) & (_ & Nu & _) & _).
  destruct (accept_rest_start v f t1 socket peer (firstn (length line - 2) line) m (firstn 254 u) b line s1 x after p q)
    as (r & R & _ & _ & C); auto; [rewrite len_firstn; lia|].
  destruct (api_path _ _ _ N1 Hu) as (h & p' & Ep & Eh). exists h, p', (r p'). split; [exact Ep|].
  split; [apply Forall2_length in Eh; unfold len; rewrite <- Eh; reflexivity|]. destruct (R p') as [Rr Rt]. split; [exact Rr|]. split; [exact Rt|].
  rewrite (H2 Ha), Hc. cbn [bind negb]. rewrite (C h p' Ep Eh N1). apply bind_ext. intros [[calls r6] f']. now rewrite (finish_ok _ _ _ _ (r_socket r6)).
Qed.
Print Assumptions C54_api.
(** A small site and application for the examples. *)
Definition demo_fs : fs := fun name =>
  if str_eqb name (L "/www//index.html") then Some (File (L "INDEX"))
  else if str_eqb name (L "/www//a.txt") then Some (File (L "TEXT"))
  else if str_eqb name (L "/www//../etc/passwd") then Some (File (L "root:x:0")) else None.
Definition demo_app : callbacks := mkApp (fun _ r => (r, true)) (fun n r => set_response_length r (Z.of_nat n)).
Definition demo : wsenv :=
  mkEnv demo_app [mkRoute MATCHER_TYPE_CONSTANT (L "GET:/x") [] (Some 7%nat) None true] [] (L "/www") (L "/index.html") (L "/f.ico") (mkMpenv (fun s => s) 1 true MD5_BUF) (cs (L "junk")).
Definition demo_table : list conn := repeat free_slot 3.
Definition demo_get (m u : str) := accept_request demo demo_fs demo_table 9 (L "1.2.3.4") (m ++ L " " ++ u ++ L " HTTP/1.1" ++ CRLF ++ CRLF).
Definition way (m u : str) : option (route_taken * str) :=
  match demo_get m u with Ok res => Some (o_taken res, r_sent (o_req res)) | UB _ => None end.
Example C54_case :
  option_map fst (way (L "PATCH") (L "/api/x")) = Some TBadMethod
  /\ option_map fst (way (L "POST") (L "/a.txt")) = Some TNotGet
  /\ option_map fst (way (L "GET") (L "/a.txt")) = Some TStatic
  /\ option_map fst (way (L "GET") (L "/API/x?a")) = Some (TApi [CallHandler 7%nat])
  /\ option_map fst (way (L "GET") (L "/api/y")) = Some (TApi []).
Proof. vm_compute. repeat split; reflexivity. Qed.

(** C55 *)
Theorem C55_serves_the_file : forall v f r hl junk sess p content,
  has_headers r hl -> cstr (r_session r) = Ok sess -> len sess <= 493 ->
  cstr (v_stk v) = Ok junk -> static_target v junk (r_path r) p -> len (v_static_root v ++ L "/" ++ p) <= 1023 ->
  f (v_static_root v ++ L "/" ++ p) = Some (File content) -> len content <= 2 ^ 31 - 2048 ->
  exists r', handle_static_routes v f r = Ok r'
    /\ answered (set_path r p) r' hl 200 (file_message (v_static_root v ++ L "/" ++ p) sess content)
         (len (file_message (v_static_root v ++ L "/" ++ p) sess content)).
Proof. intros. eapply static_serves; eauto. Qed.
Print Assumptions C55_serves_the_file.
Theorem C55_missing_is_index : forall v f r hl junk sess p content,
  has_headers r hl -> cstr (r_session r) = Ok sess -> len sess <= 493 ->
  cstr (v_stk v) = Ok junk -> static_target v junk (r_path r) p -> len (v_static_root v ++ L "/" ++ p) <= 1023 ->
  (forall c, f (v_static_root v ++ L "/" ++ p) <> Some (File c)) -> len (v_static_root v ++ L "/" ++ v_index v) <= 1023 ->
  f (v_static_root v ++ L "/" ++ v_index v) = Some (File content) -> len content <= 2 ^ 31 - 2048 ->
  exists r', handle_static_routes v f r = Ok r'
    /\ answered (set_path r p) r' hl 200 (file_message (v_static_root v ++ L "/" ++ v_index v) sess content)
         (len (file_message (v_static_root v ++ L "/" ++ v_index v) sess content)).
Proof. intros. eapply static_index; eauto. Qed.
Print Assumptions C55_missing_is_index.
(** Without an index page a missing file is not answered at all: nothing is sent, nothing logged. *)
Theorem C55_no_index_no_answer : forall v f r junk p,
  cstr (v_stk v) = Ok junk -> static_target v junk (r_path r) p -> len (v_static_root v ++ L "/" ++ p) <= 1023 ->
  (forall c, f (v_static_root v ++ L "/" ++ p) <> Some (File c)) -> len (v_static_root v ++ L "/" ++ v_index v) <= 1023 ->
  (forall c, f (v_static_root v ++ L "/" ++ v_index v) <> Some (File c)) ->
  exists r', handle_static_routes v f r = Ok r' /\ r_sent r' = r_sent r /\ r_log r' = r_log r.
Proof. intros. exists (set_path r p). split; [eapply static_none; eauto|split; reflexivity]. Qed.
Print Assumptions C55_no_index_no_answer.
Theorem C55_long_path : forall v f r junk p, cstr (v_stk v) = Ok junk -> static_target v junk (r_path r) p ->
  1023 < len (v_static_root v ++ L "/" ++ p) -> undefined (handle_static_routes v f r).
Proof. intros. eapply static_long; eauto. Qed.
Print Assumptions C55_long_path.
(** Confinement: whatever is sent is a file whose resolved name begins with the resolved root. *)
Theorem C55_confined : forall v f r hl junk sess p root,
  has_headers r hl -> cstr (r_session r) = Ok sess -> len sess <= 493 ->
  (forall name c, f name = Some (File c) -> len c <= 2 ^ 31 - 2048) ->
  cstr (v_stk v) = Ok junk -> static_target v junk (r_path r) p ->
  resolves (v_static_root v) root -> no_dot_dot p -> no_dot_dot (v_index v) ->
  forall r', handle_static_routes v f r = Ok r' ->
  r_sent r' = r_sent r
  \/ exists name content more, f name = Some (File content) /\ resolves name (root ++ more)
       /\ r_sent r' = r_sent r ++ file_message name sess content.
Proof.
  intros v f r hl junk sess p root Hh Hs Hl Hf Hj Ht Hr Np Ni r' E.
  destruct (Z_lt_dec 1023 (len (v_static_root v ++ L "/" ++ p))) as [G|G].
  { destruct (static_long v f r junk p Hj Ht G) as (u & U). congruence. }
  assert (D : forall x, (exists c, f x = Some (File c)) \/ (forall c, f x <> Some (File c))).
  { intros x. destruct (f x) as [[c|]|]; [left; now exists c|right; discriminate|right; discriminate]. }
  destruct (D (v_static_root v ++ L "/" ++ p)) as [(c & Fc)|M].
  - right. destruct (static_serves v f r hl junk sess p c) as (r2 & E2 & A); auto; [lia|eapply Hf; eauto|].
    assert (r2 = r') by congruence. subst r2. destruct (in_root _ _ _ Hr Np) as (m & Rm).
    exists (v_static_root v ++ L "/" ++ p), c, m. split; [exact Fc|]. split; [exact Rm|]. destruct A as (_ & -> & _). reflexivity.
  - rewrite (static_eq v f r junk p Hj Ht) in E by (clear - G; revert G; llia).
    rewrite fits_ok in E by lia. cbn [bind] in E. rewrite direct_file_missing in E by auto. cbn [bind] in E.
    change (-1 <? 0) with true in E. cbv iota in E. apply bind_ok_inv in E as (x & Ex & E). apply fits_inv in Ex as (-> & _).
    destruct (D (v_static_root v ++ L "/" ++ v_index v)) as [(c & Fc)|M2].
    + right. destruct (direct_file_eq f (set_path r p) hl _ c sess Hh Fc (Hf _ _ Fc) Hs Hl) as (r2 & E2 & A). rewrite E2 in E. cbn [bind] in E.
      assert (r2 = r') by congruence. subst r2. destruct (in_root _ _ _ Hr Ni) as (m & Rm).
      exists (v_static_root v ++ L "/" ++ v_index v), c, m. split; [exact Fc|]. split; [exact Rm|]. cbv zeta in A. rewrite file_message_eq in A.
      destruct A as (_ & -> & _). reflexivity.
    + left. rewrite direct_file_missing in E by auto. cbn [bind] in E. injection E as <-. reflexivity.
Qed.
Print Assumptions C55_confined.
(** With '..' every file of a file system without links can be fetched: as many '..' as the root is
    deep lead to its top. *)
Theorem C55_dot_dot_escapes : forall v f r hl junk sess root k target content,
  has_headers r hl -> cstr (r_session r) = Ok sess -> len sess <= 493 -> cstr (v_stk v) = Ok junk -> junk <> [] -> last junk NUL <> "/"%char ->
  plain_fs f -> resolves (v_static_root v) root -> len root <= Z.of_nat (S k) -> (exists segs, resolves target segs) ->
  f target = Some (File content) -> len content <= 2 ^ 31 - 2048 ->
  r_path r = concat (repeat (L "/..") (S k)) ++ L "/" ++ target -> len (v_static_root v ++ L "/" ++ r_path r) <= 1023 ->
  exists r', handle_static_routes v f r = Ok r'
    /\ answered (set_path r (r_path r)) r' hl 200 (file_message (v_static_root v ++ L "/" ++ r_path r) sess content)
         (len (file_message (v_static_root v ++ L "/" ++ r_path r) sess content)).
Proof.
  intros v f r hl junk sess root k target content Hh Hs Hl Hj Hne Hla Hf Hr Hk (segs & Ht) Hc Hlc Hp Hlp.
  eapply static_serves; eauto.
  - destruct junk as [|c j] using rev_ind; [easy|]. rewrite last_last in Hla. apply (st_plain v _ _ j c); auto.
    rewrite Hp. cbn [repeat concat app In]. intros [E|[E|[E|[]]]]; discriminate.
  - rewrite <- Hc. apply (Hf _ _ segs); [|exact Ht]. rewrite Hp. eapply (climbs _ root (S k)); eauto. unfold len in Hk. lia.
Qed.
Print Assumptions C55_dot_dot_escapes.

Example C55_case :
  way (L "GET") (L "/a.txt?q") = Some (TStatic, file_message (L "/www//a.txt") [] (L "TEXT"))
  /\ way (L "GET") (L "/b.txt") = Some (TStatic, file_message (L "/www//index.html") [] (L "INDEX"))
  /\ way (L "GET") (L "/../etc/passwd") = Some (TStatic, file_message (L "/www//../etc/passwd") [] (L "root:x:0"))
  /\ resolves (L "/www//../etc/passwd") [L "etc"; L "passwd"].
Proof.
  split; [vm_compute; reflexivity|]. split; [vm_compute; reflexivity|]. split; [vm_compute; reflexivity|].
  exists ([L "www"] ++ repeat (L "..") 1 ++ [L "etc"; L "passwd"]). split; [|vm_compute; reflexivity].
  assert (T : forall w, w <> [] -> forallb (fun c => negb (ceq c "/")) w = true -> tokens (L "/") w [w]).
  { intros w Hw F. rewrite <- (app_nil_r w) at 1. apply (tokens_more _ [] w []); auto; [|discriminate|constructor; constructor].
    rewrite forallb_forall in F. apply Forall_forall. intros c Hc [<-|[]]. specialize (F _ Hc). discriminate F. }
  apply (tokens_app (L "/") (L "/www") [L "www"] (L "/../etc/passwd") (repeat (L "..") 1 ++ [L "etc"; L "passwd"]) "/"%char);
    [|apply (ups_tokens 1 (L "etc/passwd"))|now left].
  - apply (tokens_app (L "/") [] [] (L "www") [L "www"] "/"%char); [constructor; constructor|now apply T|now left].
  - apply (tokens_app (L "/") (L "etc") [L "etc"] (L "passwd") [L "passwd"] "/"%char); [now apply T|now apply T|now left].
Qed.

(** C56.  The stack decides.  Uninitialised stack memory makes every static request undefined. *)
Definition with_stack (v : wsenv) (b : list (option ascii)) : wsenv :=
  mkEnv (v_app v) (v_routes v) (v_limits v) (v_static_root v) (v_index v) (v_favicon v) (v_mp v) b.
Theorem C56_uninitialised : forall v f r n, undefined (handle_static_routes (with_stack v (repeat None n)) f r).
Proof.
  intros v f r n. destruct n as [|n].
  - exists OobRead. now apply junk_undefined.
  - exists UninitRead. now apply junk_undefined.
Qed.
Print Assumptions C56_uninitialised.
Theorem C56_empty_text : forall v f r rest, ~ In (r_path r) [L "/"; L "/index.html"; L "/favicon.ico"] ->
  undefined (handle_static_routes (with_stack v (Some NUL :: rest)) f r).
Proof. intros v f r rest H. exists OobRead. apply junk_oob; auto. Qed.
Print Assumptions C56_empty_text.
(** With text on the stack: the same request is answered from path/index.html or from path,
    whatever the path's own last byte is. *)
Theorem C56_stack_decides : forall v f r hl sess j c rest c1 c2,
  has_headers r hl -> cstr (r_session r) = Ok sess -> len sess <= 493 -> no_nul j -> c <> "/"%char -> c <> NUL ->
  ~ In (r_path r) [L "/"; L "/index.html"; L "/favicon.ico"] -> len (v_static_root v) + len (r_path r) <= 1012 ->
  f (v_static_root v ++ L "/" ++ r_path r ++ L "index.html") = Some (File c1) ->
  f (v_static_root v ++ L "/" ++ r_path r) = Some (File c2) -> len c1 <= 2 ^ 31 - 2048 -> len c2 <= 2 ^ 31 - 2048 ->
  exists r1 r2, handle_static_routes (with_stack v (cs (j ++ L "/") ++ rest)) f r = Ok r1
    /\ handle_static_routes (with_stack v (cs (j ++ [c]) ++ rest)) f r = Ok r2
    /\ r_sent r1 = r_sent r ++ file_message (v_static_root v ++ L "/" ++ r_path r ++ L "index.html") sess c1
    /\ r_sent r2 = r_sent r ++ file_message (v_static_root v ++ L "/" ++ r_path r) sess c2.
Proof.
  intros v f r hl sess j c rest c1 c2 Hh Hs Hl Nj Hc Hc0 Hp Hlen F1 F2 L1 L2.
  destruct (static_serves (with_stack v (cs (j ++ L "/") ++ rest)) f r hl (j ++ L "/") sess (r_path r ++ L "index.html") c1) as (r1 & E1 & A1); auto.
  { apply cstr_cs. nonul. } { now apply (st_slash _ _ _ j). }
  { cbn [v_static_root with_stack]. rewrite !len_app. change (len (L "/")) with 1. change (len (L "index.html")) with 10. lia. }
  destruct (static_serves (with_stack v (cs (j ++ [c]) ++ rest)) f r hl (j ++ [c]) sess (r_path r) c2) as (r2 & E2 & A2); auto.
  { apply cstr_cs. nonul. } { now apply (st_plain _ _ _ j c). } { cbn [v_static_root with_stack]. rewrite !len_app. change (len (L "/")) with 1. lia. }
  exists r1, r2. destruct A1 as (_ & S1 & _), A2 as (_ & S2 & _). split; [exact E1|]. split; [exact E2|]. split; [exact S1|exact S2].
Qed.
Print Assumptions C56_stack_decides.
(** So a directory (a path ending in '/', not a regular file) is in general answered with the
    site's index page and not with its own. *)
Theorem C56_directory : forall v f r hl sess j c rest d content,
  has_headers r hl -> cstr (r_session r) = Ok sess -> len sess <= 493 -> no_nul j -> c <> "/"%char -> c <> NUL ->
  r_path r = d ++ L "/" -> d <> [] -> len (v_static_root v) + len (r_path r) <= 1012 ->
  (forall x, f (v_static_root v ++ L "/" ++ r_path r) <> Some (File x)) -> len (v_static_root v ++ L "/" ++ v_index v) <= 1023 ->
  f (v_static_root v ++ L "/" ++ v_index v) = Some (File content) -> len content <= 2 ^ 31 - 2048 ->
  exists r', handle_static_routes (with_stack v (cs (j ++ [c]) ++ rest)) f r = Ok r'
    /\ r_sent r' = r_sent r ++ file_message (v_static_root v ++ L "/" ++ v_index v) sess content.
Proof.
  intros v f r hl sess j c rest d content Hh Hs Hl Nj Hc Hc0 Hp Hd Hlen Fn Hi Fi Lc.
  destruct (static_index (with_stack v (cs (j ++ [c]) ++ rest)) f r hl (j ++ [c]) sess (r_path r) content) as (r2 & E2 & A2); auto.
  { apply cstr_cs. nonul. }
  { apply (st_plain _ _ _ j c); auto. rewrite Hp. intros [E|[E|[E|[]]]].
    - destruct d as [|x d]; [easy|]. destruct d; discriminate E.
    - change (L "/index.html") with (L "/index.htm" ++ L "l") in E. apply app_inj_tail in E as [_ E]. discriminate.
    - change (L "/favicon.ico") with (L "/favicon.ic" ++ L "o") in E. apply app_inj_tail in E as [_ E]. discriminate. }
  { cbn [v_static_root with_stack]. rewrite !len_app. change (len (L "/")) with 1. lia. }
  exists r2. destruct A2 as (_ & S2 & _). split; [exact E2|exact S2].
Qed.
Print Assumptions C56_directory.

Example C56_case :
  let r := set_path (req2 9 (L "1.2.3.4") [] (L "GET") (L "/d/")) (L "/d/") in
  let f := fun name => if str_eqb name (L "/www//d/index.html") then Some (File (L "DIR")) else demo_fs name in
  let sent b := match handle_static_routes (with_stack demo b) f r with Ok r' => Some (r_sent r') | UB _ => None end in
  sent (cs (L "old/") ++ calloc 9) = Some (file_message (L "/www//d/index.html") [] (L "DIR"))
  /\ sent (cs (L "old") ++ calloc 9) = Some (file_message (L "/www//index.html") [] (L "INDEX"))
  /\ sent (cs [] ++ calloc 9) = None.
Proof. vm_compute. repeat split; reflexivity. Qed.

(** C62 *)
Theorem C62_closed_and_removed : forall v f t socket peer stream res,
  accept_request v f t socket peer stream = Ok res -> keeps_socket (v_app v) ->
  o_closed res = [socket]
  /\ (socket <> 0 -> ~ In socket (map c_socket t) -> Forall (fun c => c_socket c = 0 -> c = free_slot) t -> o_table res = t).
Proof. intros v f t socket peer stream res E K. destruct (accept_closes v f t socket peer stream res E K) as (H1 & _ & H2). auto. Qed.
Print Assumptions C62_closed_and_removed.

Example C62_case : keeps_socket demo_app
  /\ match demo_get (L "GET") (L "/api/x") with Ok res => o_closed res = [9] /\ o_table res = demo_table | UB _ => False end.
Proof. split; [split; reflexivity|]. vm_compute. split; reflexivity. Qed.

(** C70.  A whole connection asking for a static file. *)
Theorem C70_get_static_file : forall v f t socket peer stream m u line s1 t1 x after p q junk p2 content,
  asks stream m u line s1 -> len peer <= 15 -> is_get m ->
  connection_add (v_limits v) t socket peer (firstn 254 u) = Ok (true, t1) ->
  section s1 (nothing_told peer) x after -> short_fields x -> url_parts (firstn 254 u) p q -> ~ api_url (firstn 254 u) ->
  cstr (v_stk v) = Ok junk -> static_target v junk p p2 -> len (v_static_root v ++ L "/" ++ p2) <= 1023 ->
  f (v_static_root v ++ L "/" ++ p2) = Some (File content) -> len content <= 2 ^ 31 - 2048 ->
  exists r, accept_request v f t socket peer stream = Ok (mkResult TStatic r (connection_del t1 socket) [socket] f)
    /\ let bytes := file_message (v_static_root v ++ L "/" ++ p2) (td_session x) content in
       r_sent r = bytes /\ exists referer agent,
         lookup (firstn 20 (td_fields x)) (L "Referer") referer /\ lookup (firstn 20 (td_fields x)) (L "User-Agent") agent
         /\ r_log r = [mkEntry (td_ip x) (firstn (length line - 2) line) 200 (len bytes mod 2 ^ 32) referer agent].
Proof.
  intros v f t socket peer stream m u line s1 t1 x after p q junk p2 content A Hp Ha Hc Hs Hf Hu N1 Hj Ht Hl Hfc Hlc.
  destruct (C54_static v f t socket peer stream m u line s1 t1 x after p q A Hp Ha Hc Hs Hf Hu N1) as (r & R & T & E).
  destruct T as (Tp & Tq & Ti & Tt & Ts & Tsl & Th). destruct R as (Rs & Rm & Ru & Rl & R0 & Rsent & Rlog & _).
  assert (Lse : len (td_session x) <= 493).
  { destruct (cstr_inv _ _ Ts) as (_ & rest & Es). rewrite Es in Tsl. revert Tsl. clear. unfold cs. llia. }
  destruct (static_serves v f r (firstn 20 (td_fields x)) junk (td_session x) p2 content) as (r' & E' & An); auto; [now rewrite Tp|].
  exists r'. rewrite E, E'. cbn [bind].
  assert (Sk : r_socket r' = socket) by (rewrite (answered_socket _ _ _ _ _ _ An); exact Rs). rewrite Sk. split; [reflexivity|].
  cbv zeta. destruct An as (_ & S1 & _ & ref & ag & H1 & H2 & H3).
  split; [rewrite S1; change (r_sent (set_path r p2)) with (r_sent r); rewrite Rsent; reflexivity|]. exists ref, ag. split; [exact H1|]. split; [exact H2|].
  rewrite H3. change (r_log (set_path r p2)) with (r_log r). change (r_ip (set_path r p2)) with (r_ip r).
  change (r_request_line (set_path r p2)) with (r_request_line r). rewrite Rlog, Ti, Rl. reflexivity.
Qed.
Print Assumptions C70_get_static_file.

Example C70_case : match accept_request demo demo_fs demo_table 9 (L "1.2.3.4")
    (L "get /a.txt?q HTTP/1.1" ++ CRLF ++ L "User-Agent: ua" ++ CRLF ++ L "X-Session: tok" ++ CRLF ++ CRLF) with
  | Ok res => r_sent (o_req res) = file_message (L "/www//a.txt") (L "tok") (L "TEXT")
      /\ r_log (o_req res) = [mkEntry (L "1.2.3.4") (L "get /a.txt?q HTTP/1.1") 200 (len (file_message (L "/www//a.txt") (L "tok") (L "TEXT"))) [] (L "ua")]
  | UB _ => False
  end.
Proof. vm_compute. split; reflexivity. Qed.

(** C71.  A URL of question marks only. *)
Theorem C71_no_path : forall v f t socket peer stream m u line s1 t1 x after, asks stream m u line s1 -> len peer <= 15 -> allowed m ->
  Forall (eq "?"%char) u -> connection_add (v_limits v) t socket peer (firstn 254 u) = Ok (true, t1) ->
  section s1 (nothing_told peer) x after -> accept_request v f t socket peer stream = UB UninitRead.
Proof.
  intros v f t socket peer stream m u line s1 t1 x after A Hp Ha Hu Hc Hs.
  destruct (accept_start v f t socket peer stream m u line s1 A ltac:(lia)) as (b & Lb & _ & H2).
  pose proof A as (_ & _ & (_ & Nm & _) & (_ & Nu & _) & _). rewrite (H2 Ha), Hc. cbn [bind negb].
  apply (accept_rest_no_path _ _ _ _ _ _ _ _ _ line _ x after); [now apply no_nul_firstn|exact Lb|exact Hs|]. constructor. apply Forall_forall. intros c Hi.
  rewrite Forall_forall in Hu. rewrite <- (Hu c); [now left|]. rewrite <- (firstn_skipn 254 u). apply in_or_app. now left.
Qed.
Print Assumptions C71_no_path.
Example C71_case : demo_get (L "GET") (L "??") = UB UninitRead.
Proof. vm_compute. reflexivity. Qed.

(** C72.  What the client takes for the body is the file, if the session holds no carriage return.
    A session taken from a cookie that ends its header line does: it includes the line end, and the
    empty line it makes ends the header section before Set-Cookie. *)
Theorem C72_body_is_the_file : forall name sess content, ~ In CR sess -> message_body (file_message name sess content) content.
Proof. intros. now apply body_plain. Qed.
Print Assumptions C72_body_is_the_file.
Theorem C72_cookie_session_splits : forall v f t socket peer stream m u line s1 t1 x after p q junk p2 content tok,
  asks stream m u line s1 -> len peer <= 15 -> is_get m ->
  connection_add (v_limits v) t socket peer (firstn 254 u) = Ok (true, t1) ->
  section s1 (nothing_told peer) x after -> short_fields x -> url_parts (firstn 254 u) p q -> ~ api_url (firstn 254 u) ->
  cstr (v_stk v) = Ok junk -> static_target v junk p p2 -> len (v_static_root v ++ L "/" ++ p2) <= 1023 ->
  f (v_static_root v ++ L "/" ++ p2) = Some (File content) -> len content <= 2 ^ 31 - 2048 ->
  td_session x = tok ++ CRLF -> ~ In CR tok ->
  exists res, accept_request v f t socket peer stream = Ok res
    /\ message_body (r_sent (o_req res)) (L "Set-Cookie:WSSESSION=" ++ tok ++ CRLF ++ CRLF ++ CRLF ++ content).
Proof.
  intros. destruct (C70_get_static_file v f t socket peer stream m u line s1 t1 x after p q junk p2 content) as (r & E & S); auto.
  eexists. split; [exact E|]. cbn [o_req]. cbv zeta in S. destruct S as (-> & _). rewrite H12. now apply body_split.
Qed.
Print Assumptions C72_cookie_session_splits.
Example C72_case : match accept_request demo demo_fs demo_table 9 (L "1.2.3.4")
    (L "GET /a.txt HTTP/1.1" ++ CRLF ++ L "Cookie: WSSESSION=tok" ++ CRLF ++ CRLF) with
  | Ok res => r_sent (o_req res) = file_message (L "/www//a.txt") (L "tok" ++ CRLF) (L "TEXT")
  | UB _ => False
  end.
Proof. vm_compute. reflexivity. Qed.

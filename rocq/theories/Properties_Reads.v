(** Properties_Reads.v - C89: reads that fail (/repo/ws.c:90-114, 291-300, 486-489). *)
From Verif Require Import Reads Lemmas WsRequest_proofs Reads_proofs SpecReq SpecReads Spec.

(** C89.  Without failures the model is that of C46-C56. *)
Theorem C89_no_failures : forall v f t socket peer s, accept_reads v f t socket peer (map Got s) = accept_request v f t socket peer s.
Proof. exact reads_accept. Qed.
Print Assumptions C89_no_failures.
(** A failed read ends a line as a LF does, but leaves nothing in it. *)
Theorem C89_get_line : forall size g, 1 <= size -> exists l rest, line_got size g l rest
  /\ forall b, len l + 1 <= len b -> get_line_r g b size = Ok (len l, cs l ++ skipn (S (length l)) b, rest).
Proof.
  intros size g H. destruct (line_got_exists size g H) as (l & rest & G). exists l, rest. split; [exact G|]. intros b Hb. now apply get_line_got.
Qed.
Print Assumptions C89_get_line.
(** When fewer than two bytes come before the first failure - so after every failed TLS handshake,
    which is only logged - the server writes before the start of a heap object, whatever follows. *)
Theorem C89_first_line : forall v f t socket peer g line g1 seen,
  line_got 1024 g line g1 -> seen_as line seen -> len seen < 2 -> undefined (accept_reads v f t socket peer g).
Proof.
  intros v f t socket peer g line g1 seen Hl Hs H2. pose proof Hl as (_ & _ & Hle & _). rewrite reads_unfold.
  destruct (new_request socket peer) as [r0|u] eqn:E0; cbn [bind]; [|eexists; reflexivity].
  rewrite (get_line_got 1024 _ _ _ _ ltac:(lia) Hl) by (rewrite len_calloc; lia). cbn [bind].
  unfold begins. rewrite E0. cbn [bind]. unfold parse_request_line.
  replace (cs line ++ skipn (S (length line)) (calloc 1024)) with (map Some line ++ Some NUL :: skipn (S (length line)) (calloc 1024))
    by (unfold cs; now rewrite <- app_assoc).
  rewrite upto_nul_cstr. cbn [bind]. rewrite (upto_seen _ _ Hs). unfold wr. rewrite write_at_neg by lia. eexists. reflexivity.
Qed.
Print Assumptions C89_first_line.
Theorem C89_handshake_failed : forall v f t socket peer g, undefined (accept_reads v f t socket peer (Failed :: g)).
Proof.
  intros v f t socket peer g. apply (C89_first_line v f t socket peer (Failed :: g) [] g []).
  - exists (Failed :: g). split; [reflexivity|]. split; [cbn; lia|]. right. right. split; [easy|]. split; [cbn; lia|]. now right.
  - split; [constructor|now left].
  - cbn. lia.
Qed.
Print Assumptions C89_handshake_failed.
(** A request line is used as far as it came; the last two bytes, taken for CRLF, are not logged. *)
Theorem C89_request_line : forall g m u line g1, line_got 1024 g line g1 -> asks line m u line [] ->
  exists n b, get_line_r g (calloc 1024) 1024 = Ok (n, b, g1)
    /\ parse_request_line b = Ok (firstn (length line - 2) line, m, len m)
    /\ parse_url b (len m) = Ok (firstn 254 u).
Proof.
  intros g m u line g1 Hl H. destruct (asks_parse _ _ _ _ _ H) as (b & E & _ & P & U). pose proof Hl as (_ & _ & Hle & _). destruct H as (Hl0 & _).
  rewrite (get_line_eq 1024 line line [] (calloc 1024) Hl0) in E by (rewrite len_calloc; lia).
  exists (len line), b. split; [|auto]. rewrite (get_line_got 1024 _ _ _ _ ltac:(lia) Hl) by (rewrite len_calloc; lia). congruence.
Qed.
Print Assumptions C89_request_line.
(** The header section tells what its lines tell, up to the first failure at the start of a line;
    what comes after that is read as the body. *)
Theorem C89_header_section : forall g ip x after b line, section_got g (nothing_told ip) x after -> shows b line -> len b = 1024 ->
  exists n b2 g2 h, get_line_r g b 1024 = Ok (n, b2, g2)
    /\ header_loop_r (length g) n (mkH b2 [] [] None [] (-1) ip (calloc 64)) g2 = Ok (h, after) /\ stores h x.
Proof.
  intros g ip x after b line H (st & Eb) Lb. destruct (line_got_exists 1024 g ltac:(lia)) as (l & rest & Hl).
  pose proof Hl as (_ & _ & Hle & _). pose proof (get_line_got 1024 g l rest b ltac:(lia) Hl ltac:(lia)) as G.
  destruct (section_got_eq _ _ _ _ H (length g) line b (told_nothing ip)) as (h & E & R).
  - exists st. auto.
  - lia.
  - split; [reflexivity|]. split; [constructor|]. repeat (split; [reflexivity|]). exists (calloc 63). split; [reflexivity|]. split; [constructor|]. reflexivity.
  - unfold read_loop in E. rewrite G in E. cbn [bind] in E. do 3 eexists. exists h. split; [exact G|]. split; [exact E|]. now apply rep_stores.
Qed.
Print Assumptions C89_header_section.
(** A failed read at the start of a header line has exactly the effect of an empty line sent there... *)
Theorem C89_line_start : forall v f t socket peer l ls g, whole_line l -> Forall (fun l => whole_line l /\ ~ blank_line l) ls ->
  accept_reads v f t socket peer (map Got (l ++ concat ls) ++ Failed :: g)
    = accept_reads v f t socket peer (map Got (l ++ concat ls) ++ Got LF :: g).
Proof. intros v f t socket peer l ls g Hl F. apply accept_alike; auto. intros k h b Hb. now apply failed_is_blank. Qed.
Print Assumptions C89_line_start.
(** ... and one in the body that of sending the byte before it again (a NUL at its start). *)
Theorem C89_body : forall v f t socket peer l ls e g s, whole_line l -> Forall (fun l => whole_line l /\ ~ blank_line l) ls -> blank_line e -> as_if g s ->
  accept_reads v f t socket peer (map Got (l ++ concat ls ++ e) ++ g) = accept_request v f t socket peer (l ++ concat ls ++ e ++ s).
Proof.
  intros v f t socket peer l ls e g s Hl F He A. apply as_if_fill in A. subst s. rewrite <- reads_accept.
  assert (We : whole_line e).
  { destruct He as [-> | ->]; [exists []|exists [CR]]; (split; [reflexivity|]); (split; [|cbn; lia]); [easy|]. intros [X|[]]. discriminate X. }
  replace (map Got (l ++ concat ls ++ e) ++ g) with (map Got (l ++ concat ls) ++ map Got e ++ g) by (now rewrite !map_app, <- !app_assoc).
  replace (map Got (l ++ concat ls ++ e ++ fill NUL g)) with (map Got (l ++ concat ls) ++ map Got e ++ map Got (fill NUL g)) by (now rewrite !map_app, <- !app_assoc).
  apply accept_alike; auto.
  - now rewrite !app_length, (map_length Got (fill NUL g)), fill_length.
  - apply body_alike; auto. intros k. apply fill_body.
Qed.
Print Assumptions C89_body.
(** [as_if] names one text for each list of reads. *)
Theorem C89_as_if : forall g, exists s, as_if g s /\ forall s', as_if g s' -> s' = s.
Proof. intros g. exists (fill NUL g). split; [now apply as_if_fill|]. intros s' H. now apply as_if_fill. Qed.
Print Assumptions C89_as_if.
(** So a read that fails once can change a request: here the length and the session are lost and
    the handler sees an empty form; with a length given before, it sees a header as its form. *)
Definition reads_env : wsenv :=
  mkEnv (mkApp (fun _ r => (r, true)) (fun n r => set_response_length r (Z.of_nat n))) [mkRoute MATCHER_TYPE_CONSTANT (L "POST:/x") [] (Some 7%nat) None true]
    [] (L "/www") (L "/index.html") (L "/f.ico") (mkMpenv (fun s => s) 1 true MD5_BUF) (cs (L "junk")).
Definition reads_table : table := repeat free_slot 100.
Definition reads_start : str := L "POST /api/x HTTP/1.1" ++ CRLF.
Definition reads_rest : str := L "X-Session: tok" ++ CRLF ++ L "Content-Length: 4" ++ CRLF ++ CRLF ++ L "abcd".
Theorem C89_transparent_refuted : exists v f t socket peer before after a b,
  accept_reads v f t socket peer (map Got (before ++ after)) = Ok a
  /\ accept_reads v f t socket peer (map Got before ++ Failed :: map Got after) = Ok b
  /\ o_taken a = o_taken b /\ cstr (r_form (o_req a)) = Ok (L "abcd") /\ cstr (r_form (o_req b)) = Ok []
  /\ cstr (r_session (o_req a)) = Ok (L "tok") /\ cstr (r_session (o_req b)) = Ok [].
Proof.
  exists reads_env, (fun _ => None), reads_table, 9, (L "1.2.3.4"), reads_start, reads_rest. eexists _, _.
  split; [vm_compute; reflexivity|]. split; [vm_compute; reflexivity|]. vm_compute. repeat split.
Qed.
Print Assumptions C89_transparent_refuted.
Example C89_case :
  let go g := accept_reads reads_env (fun _ => None) reads_table 9 (L "1.2.3.4") g in
  match go (map Got (reads_start ++ L "Content-Length: 14" ++ CRLF) ++ Failed :: map Got reads_rest),
        go (map Got (reads_start ++ L "Content-Length: 6" ++ CRLF ++ CRLF) ++ [Failed; Got "a"%char; Failed; Got "b"%char]) with
  | Ok a, Ok b => o_taken a = TApi [CallHandler 7%nat] /\ cstr (r_form (o_req a)) = Ok (L "X-Session: tok")
      /\ r_form (o_req b) = map Some ([NUL] ++ L "aabbb" ++ [NUL])
      /\ match go (map Got (L "PUT /z HTTP/1.1") ++ Failed :: map Got reads_rest) with Ok c => r_request_line (o_req c) = L "PUT /z HTTP/1" | UB _ => False end
  | _, _ => False
  end.
Proof. vm_compute. repeat split; reflexivity. Qed.

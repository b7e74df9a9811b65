(** Properties_Sends.v - C88: sends that fail (/repo/http_utils.c:251-261). *)
From Verif Require Import Base Lemmas FileUtils HttpUtils HttpUtils_proofs Properties_Http Sends Sends_proofs SpecConf SpecHttp SpecSends Spec.

(** C88.  What each response gives to the socket, call by call. *)
Theorem C88_status_sends : forall r hl status line msg, supported status line -> has_headers r hl ->
  exists d, decimal d (match msg with [] => 0 | _ => len msg + 2 end) /\
  let head := line ++ CRLF ++ server ++ CRLF ++ L "Content-Length: " ++ d ++ CRLF
              ++ match msg with [] => [] | _ => CRLF ++ msg end in
  (len head <= 1023 -> exists r', send_http_status r status msg = Ok r'
     /\ answered_by r r' hl status [head; CRLF] (r_response_length r + len head + 2)).
Proof.
  intros r hl status line msg Hs Hh. exists (dec_nat (len (status_body msg))). split.
  - replace (match msg with [] => 0 | _ => len msg + 2 end) with (len (status_body msg)).
    + apply dec_nat_decimal. lens. lia.
    + destruct msg; [reflexivity|]. unfold status_body. now rewrite len_app, len_CRLF.
  - cbv zeta.
    set (head := line ++ CRLF ++ server ++ CRLF ++ L "Content-Length: " ++ dec_nat (len (status_body msg)) ++ CRLF
              ++ match msg with [] => [] | _ => CRLF ++ msg end).
    assert (M : head ++ CRLF = status_message line msg (dec_nat (len (status_body msg)))).
    { unfold head, status_message, message. destruct msg; cbn [status_body flat_map]; rewrite <- ?app_assoc; cbn [app]; reflexivity. }
    intros Hl. destruct (send_status_by r hl status line msg Hs Hh) as (r' & E & b & Eb & A).
    + unfold status_size. rewrite <- M, len_app, len_CRLF. lia.
    + exists r'. split; [exact E|]. rewrite <- M in Eb. apply app_inv_tail in Eb. subst b. rewrite len_app, len_CRLF, Z.add_assoc in A. exact A.
Qed.
Print Assumptions C88_status_sends.
Theorem C88_json_sends : forall r hl status line data, supported status line -> has_headers r hl -> len data + 2 < 2 ^ 64 ->
  exists r' d, decimal d (len data + 2) /\ return_json_with_status r status data = Ok r'
  /\ let sends := [json_start line; L "Content-Length: " ++ d ++ CRLF ++ CRLF; data; CRLF] in
     answered_by r r' hl status sends (len (concat sends)).
Proof.
  intros r hl status line data Hs Hh Hl. destruct (return_json_by r hl status line data Hh Hs Hl) as (r' & E & A).
  exists r', (dec_nat (len (data ++ CRLF))). split; [rewrite len_app, len_CRLF; apply dec_nat_decimal; lens; lia|]. auto.
Qed.
Print Assumptions C88_json_sends.
Theorem C88_file_sends : forall f r hl name content sess, f name = Some (File content) -> has_headers r hl -> cstr (r_session r) = Ok sess ->
  len sess <= 493 -> len content <= 2 ^ 31 - 2048 ->
  exists r', direct_file f r name = Ok (0, r')
  /\ let sends := file_start (get_content_type name) sess ++ [content] in answered_by r r' hl 200 sends (len (concat sends)).
Proof.
  intros f r hl name content sess Hf Hh Hs Hl Hc. destruct (direct_file_by f r hl name content sess Hh Hf Hc Hs Hl) as (r' & E & A). exists r'. split; [exact E|].
  rewrite <- file_start_eq. exact A.
Qed.
Print Assumptions C88_file_sends.
Theorem C88_stream_sends : forall r hl status line content ls lv, supported status line -> has_headers r hl -> lines 1022 content ls -> Forall2 visible ls lv ->
  len (concat lv) <= 2 ^ 31 - 2048 ->
  exists r', return_json_stream r status content = Ok r'
  /\ let sends := [json_start line; CRLF] ++ lv ++ [CRLF] in answered_by r r' hl status sends (len (concat sends)).
Proof. intros r hl status line content ls lv Hs Hh Hl V Hn. exact (stream_by r hl status line content ls lv Hh Hs Hl V Hn). Qed.
Print Assumptions C88_stream_sends.
Theorem C88_mime_sends : forall r status line mime, supported status line ->
  let head := line ++ CRLF ++ flat_map (fun h => h ++ CRLF) (server :: cors) ++ get_content_type_for_mime mime in
  exists r', return_headers_with_mime r status mime = Ok (len head, r') /\ same_request r r' /\ r_log r' = r_log r
  /\ r_response_length r' = r_response_length r /\ r_sends r' = r_sends r ++ [head].
Proof. exact mime_sends. Qed.
Print Assumptions C88_mime_sends.

(** What can arrive: of each call's data a beginning, and that in every combination. *)
Theorem C88_arrives : forall r w, (exists n, arrived n r = w) <-> exists ps, Forall2 prefix ps (r_sends r) /\ w = concat ps.
Proof.
  intros r w. split.
  - intros (n & <-). rewrite arrived_eq. eexists. split; [apply pieces_prefix|reflexivity].
  - intros (ps & P & ->). exists (cutter ([] ++ map (@length _) ps)). rewrite arrived_eq. f_equal. now apply cutter_pieces.
Qed.
Print Assumptions C88_arrives.
(** All of it arrives exactly when every call sends all of its data; when the connection is
    done for after the first call that does not, a beginning of the whole arrives. *)
Theorem C88_complete : forall n r, arrived n r = r_sent r <-> forall before d later, r_sends r = before ++ d :: later -> d = [] \/ complete (n before d) d.
Proof.
  intros n r. rewrite arrived_eq. unfold r_sent. rewrite complete_iff. cbn [app]. reflexivity.
Qed.
Print Assumptions C88_complete.
Theorem C88_final : forall n r, final n -> prefix (arrived n r) (r_sent r).
Proof. intros n r F. rewrite arrived_eq. now apply final_pieces. Qed.
Print Assumptions C88_final.
(** The program never notices: an access log entry says that a response was sent that never
    arrived, and without finality bytes are missing in the middle. *)
Theorem C88_logged_arrived_refuted : exists r r' n e, return_json_with_status r 200 (L "[1]") = Ok r' /\ r_log r' = [e] /\ e_status e = 200 /\ e_length e = len (r_sent r')
  /\ 0 < len (r_sent r') /\ final n /\ arrived n r' = [].
Proof.
  exists (mkReq 4 [] None (calloc 10) (L "GET") (L "/") (L "/") [] (L "1.2.3.4") [] (cs []) (L "GET / HTTP/1.1") 0 [] []). eexists _, (fun _ _ => Broken), _.
  split; [vm_compute; reflexivity|]. split; [reflexivity|]. split; [reflexivity|]. split; [vm_compute; reflexivity|]. split; [vm_compute; reflexivity|].
  split; [intros before d later e _; now right|]. vm_compute. reflexivity.
Qed.
Print Assumptions C88_logged_arrived_refuted.
Theorem C88_prefix_refuted : exists r r' n, return_json_with_status r 200 (L "[1,2]") = Ok r' /\ ~ prefix (arrived n r') (r_sent r')
  /\ exists a, arrived n r' = a ++ L "Content-Length: 7" ++ CRLF ++ CRLF ++ L "[1," ++ CRLF.
Proof.
  exists (mkReq 4 [] None (calloc 10) (L "GET") (L "/") (L "/") [] (L "1.2.3.4") [] (cs []) (L "GET / HTTP/1.1") 0 [] []). eexists _, (fun b d => Wrote (if Nat.eqb (length b) 2 then 3 else length d)).
  split; [vm_compute; reflexivity|]. split.
  - intros (t & E). apply (f_equal (fun s => nth (Z.to_nat (len (json_start (L "HTTP/1.1 200 OK")) + 24)) (s ++ [NUL]) NUL)) in E. revert E.
    match goal with |- nth _ (r_sent ?r' ++ _) _ = _ -> _ => set (x := arrived _ _) end. vm_compute in x. subst x.
    rewrite <- app_assoc. intros E. vm_compute in E. discriminate.
  - eexists (json_start (L "HTTP/1.1 200 OK")). vm_compute. reflexivity.
Qed.
Print Assumptions C88_prefix_refuted.

(** A client can tell that a JSON response is not complete: once the head has arrived, the body
    is as long as the head says exactly when all has arrived, and otherwise shorter. *)
Theorem C88_json_detectable : forall n r hl status line data, supported status line -> has_headers r hl -> len data + 2 < 2 ^ 64 -> r_sends r = [] ->
  exists r' d, decimal d (len data + 2) /\ return_json_with_status r status data = Ok r'
  /\ let a := json_start line in let b := L "Content-Length: " ++ d ++ CRLF ++ CRLF in
     (complete (n [] a) a -> complete (n [a] b) b ->
      exists body, arrived n r' = a ++ b ++ body /\ len body <= len data + 2 /\ (len body = len data + 2 <-> arrived n r' = r_sent r')).
Proof.
  intros n r hl status line data Hs Hh Hl H0. destruct (C88_json_sends r hl status line data Hs Hh Hl) as (r' & d & D & E & A).
  exists r', d. split; [exact D|]. split; [exact E|]. cbv zeta in *. intros Ca Cb.
  assert (S : r_sends r' = [json_start line; L "Content-Length: " ++ d ++ CRLF ++ CRLF; data; CRLF]) by (destruct A as (_ & A & _); rewrite A, H0; reflexivity).
  rewrite arrived_eq. unfold r_sent. rewrite S.
  destruct (pieces_two n _ _ data CRLF Ca Cb) as (p & q & P & Q & G). rewrite G. exists (p ++ q). split; [reflexivity|].
  destruct (prefix_len _ _ P) as [P1 P2], (prefix_len _ _ Q) as [Q1 Q2]. rewrite len_app. change (len CRLF) with 2 in *. split; [lia|].
  cbn [concat]. rewrite app_nil_r. split.
  - intros X. rewrite P2, Q2 by lia. rewrite <- !app_assoc. reflexivity.
  - intros X. apply app_inv_head, app_inv_head in X. rewrite <- len_app, X, len_app. reflexivity.
Qed.
Print Assumptions C88_json_detectable.
(** A static response names no length: cut anywhere in the file it is the complete response of a
    shorter file... *)
Theorem C88_file_cut : forall f r hl name content sess k, f name = Some (File content) -> has_headers r hl -> cstr (r_session r) = Ok sess ->
  len sess <= 493 -> len content <= 2 ^ 31 - 2048 -> r_sends r = [] ->
  exists n f' r1 r2, final n /\ f' name = Some (File (firstn k content))
  /\ direct_file f r name = Ok (0, r1) /\ direct_file f' r name = Ok (0, r2) /\ arrived n r1 = r_sent r2.
Proof.
  intros f r hl name content sess k Hf Hh Hs Hl Hc H0.
  destruct (C88_file_sends f r hl name content sess Hf Hh Hs Hl Hc) as (r1 & E1 & _ & A1 & _).
  destruct (C88_file_sends (fun _ => Some (File (firstn k content))) r hl name (firstn k content) sess eq_refl Hh Hs Hl) as (r2 & E2 & _ & A2 & _).
  { pose proof (prefix_len _ _ (prefix_firstn k content)). lia. }
  exists (fun b d => if Nat.ltb (length b) (length (file_start (get_content_type name) sess)) then Wrote (length d)
                     else Wrote (if Nat.eqb (length b) (length (file_start (get_content_type name) sess)) then k else 0)).
  eexists _, r1, r2. split; [|split; [|split; [exact E1|split; [exact E2|]]]]; [|reflexivity|].
  - intros before d later e N. left. destruct (Nat.ltb_spec (length before) (length (file_start (get_content_type name) sess))) as [X|X].
    + elim N. exists (length d). auto.
    + replace (Nat.ltb _ _) with false by (symmetry; apply Nat.ltb_ge; rewrite app_length; lia).
      replace (Nat.eqb _ _) with false by (symmetry; apply Nat.eqb_neq; rewrite app_length; cbn [length]; lia). reflexivity.
  - rewrite arrived_eq. unfold r_sent. rewrite A1, A2, H0. cbn [app]. rewrite concat_app. apply cut_last.
Qed.
Print Assumptions C88_file_cut.
(** ... and a stream from which a send was lost is the complete response to another stream. *)
Theorem C88_stream_cut : forall r hl status line content x l y lv1 v lv2, supported status line -> has_headers r hl -> r_sends r = [] ->
  lines 1022 content (x ++ l :: y) -> Forall2 visible (x ++ l :: y) (lv1 ++ v :: lv2) -> length x = length lv1 -> len (concat (lv1 ++ v :: lv2)) <= 2 ^ 31 - 2048 ->
  exists n content' r1 r2, lines 1022 content' (x ++ y) /\ return_json_stream r status content = Ok r1 /\ return_json_stream r status content' = Ok r2 /\ arrived n r1 = r_sent r2.
Proof.
  intros r hl status line content x l y lv1 v lv2 Hs Hh H0 Hl V Hx Hn. destruct (lines_drop _ _ _ _ _ Hl) as (content' & Hl').
  destruct (C88_stream_sends r hl status line content _ _ Hs Hh Hl V Hn) as (r1 & E1 & _ & A1 & _).
  assert (V' : Forall2 visible (x ++ y) (lv1 ++ lv2)).
  { apply Forall2_app_inv_l in V as (a & b & Va & Vb & E). assert (La : length a = length lv1) by (rewrite <- Hx; symmetry; eapply Forall2_length; eauto).
    apply app_eq_len in E as [<- <-]; [|auto]. inversion Vb; subst. now apply Forall2_app. }
  assert (Hn' : len (concat (lv1 ++ lv2)) <= 2 ^ 31 - 2048) by (revert Hn; rewrite !concat_app; cbn [concat]; rewrite !len_app; pose proof (len_nonneg _ v); lia).
  destruct (C88_stream_sends r hl status line content' _ _ Hs Hh Hl' V' Hn') as (r2 & E2 & _ & A2 & _).
  exists (cutter (map (@length _) ([json_start line; CRLF] ++ lv1) ++ 0%nat :: map (@length _) (lv2 ++ [CRLF]))), content', r1, r2.
  split; [exact Hl'|]. split; [exact E1|]. split; [exact E2|]. rewrite arrived_eq. unfold r_sent. rewrite A1, A2, H0. cbn [app].
  replace (map (@length _) (json_start line :: CRLF :: lv1) ++ 0%nat :: map (@length _) (lv2 ++ [CRLF]))
    with ([] ++ map (@length _) (json_start line :: CRLF :: (lv1 ++ [] :: lv2 ++ [CRLF]))) by (generalize (json_start line), CRLF; intros h e; cbn [map app]; rewrite (map_app _ lv1); cbn [map]; reflexivity).
  rewrite cutter_pieces; [|reflexivity|].
  - cbn [concat]. rewrite <- !app_assoc, !concat_app. cbn [concat]. rewrite concat_app. reflexivity.
  - assert (R : forall a, Forall2 prefix a a) by (induction a; constructor; auto; exists []; now rewrite app_nil_r).
    do 2 (constructor; [exists []; now rewrite app_nil_r|]). rewrite <- app_assoc. apply Forall2_app; [apply R|]. constructor; [exists v; reflexivity|apply R].
Qed.
Print Assumptions C88_stream_cut.
(** Which responses hand the socket a call without data (SSL_write must not be called so). *)
Theorem C88_empty_sends : forall f r hl r' status line, has_headers r hl -> r_sends r = [] -> supported status line ->
  (forall msg, send_http_status r status msg = Ok r' -> ~ In [] (r_sends r'))
  /\ (forall data, len data + 2 < 2 ^ 64 -> return_json_with_status r status data = Ok r' -> (In [] (r_sends r') <-> data = []))
  /\ (forall name content sess, f name = Some (File content) -> cstr (r_session r) = Ok sess ->
        direct_file f r name = Ok (0, r') -> (In [] (r_sends r') <-> content = []))
  /\ (forall content ls lv, lines 1022 content ls -> Forall2 visible ls lv ->
        return_json_stream r status content = Ok r' -> (In [] (r_sends r') <-> In [] lv)).
Proof.
  intros f r hl r' status line Hh H0 Hs.
  assert (N : line <> []) by (intros ->; revert Hs; unfold supported, status_lines; cbn [In]; intuition discriminate).
  assert (J : json_start line <> []) by (unfold json_start; destruct line; [congruence|discriminate]).
  split; [|split; [|split]].
  - intros msg E. destruct (C88_status_sends r hl status line msg Hs Hh) as (d & D & X). cbv zeta in X.
    set (head := line ++ _) in X. destruct (Z.le_gt_cases (len head) 1023) as [Y|Y].
    + destruct (X Y) as (r2 & E2 & _ & A & _). rewrite E in E2. injection E2 as <-. rewrite A, H0. unfold head. destruct line; [congruence|]. cbn [app In]. intuition discriminate.
    + destruct (C30_overflow_threshold r hl status line msg d Hs Hh D) as [_ U]. destruct U as (u & U); [|congruence].
      revert Y. unfold head. destruct msg; rewrite !len_app, ?len_nil; lia.
  - intros data Hl E. destruct (C88_json_sends r hl status line data Hs Hh Hl) as (r2 & d & _ & E2 & _ & A & _). rewrite E in E2. injection E2 as <-.
    rewrite A, H0. cbn [app In]. split; [|auto]. intros [X|[X|[X|[X|[]]]]]; auto; try congruence; discriminate.
  - intros name content sess Hf Hse E. destruct (Z.le_gt_cases (len sess) 493) as [Y|Y].
    + destruct (Z.le_gt_cases (len (concat (header_sends name sess)) + len content) (2 ^ 31 - 1)) as [Hc|Hc]; [|destruct (direct_file_over f r name content sess Hf Hse Y) as (u & U); [lia|congruence]].
      destruct (direct_file_by_exact f r hl name content sess Hh Hf Hc Hse Y) as (r2 & E2 & _ & A & _). rewrite file_start_eq in A. rewrite E in E2. injection E2 as <-. rewrite A, H0.
      cbn [app]. rewrite in_app_iff. split; [|intros ->; right; now left]. intros [X|[X|[]]]; auto. exfalso. revert X. unfold file_start. rewrite !in_app_iff.
      destruct sess; cbn [In]; intuition discriminate.
    + destruct (C33_static_file f r hl name content sess Hf Hh Hse) as [_ U]. destruct U as (u & U); [lia|congruence].
  - intros content ls lv Hl V E. destruct (stream_by_exact r hl status line content ls lv Hh Hs Hl V) as (S1 & S2).
    assert (D : forall a b, counts a b \/ ~ counts a b) by (intros a b; unfold counts; lia).
    destruct (D (len (concat ([json_head line; CRLF] ++ lv ++ [CRLF]))) (len (concat lv))) as [D1|D1]; [|rewrite (S2 D1) in E; discriminate].
    destruct (S1 D1) as (r2 & E2 & _ & A & _). rewrite E in E2. injection E2 as <-. change (json_head line) with (json_start line) in A.
    rewrite A, H0. cbn [app In]. rewrite in_app_iff. cbn [In]. split; [|auto]. intros [X|[X|[X|[X|[]]]]]; auto; try congruence; discriminate.
Qed.
Print Assumptions C88_empty_sends.
(** As main starts the program no send can kill it; if SIGPIPE were not ignored, the first one
    on a broken connection would. *)
Theorem C88_sigpipe : forall n sends,
  k_killed (transmit main_ignores_sigpipe n sends) = false
  /\ (k_killed (transmit false n sends) = true <-> exists before d later, sends = before ++ d :: later /\ n before d = Broken).
Proof. intros n sends. split; [unfold main_ignores_sigpipe; now rewrite transmit_eq|]. apply killed_iff. Qed.
Print Assumptions C88_sigpipe.
Example C88_case :
  let r := mkReq 4 [] None (calloc 10) (L "GET") (L "/") (L "/") [] (L "1.2.3.4") [] (cs (L "tok")) (L "GET / HTTP/1.1") 0 [] [] in
  match direct_file (fun _ => Some (File (L "0123456789"))) r (L "/a.txt"), send_http_status r 404 [] with
  | Ok (_, r1), Ok r2 =>
    length (r_sends r1) = 5%nat /\ length (r_sends r2) = 2%nat
    /\ skipn 139 (arrived (fun b d => Wrote (if Nat.eqb (length b) 4 then 4 else length d)) r1) = L "tok" ++ CRLF ++ CRLF ++ L "0123"
    /\ arrived (fun b d => if Nat.eqb (length b) 0 then Wrote 8 else Broken) r2 = L "HTTP/1.1"
    /\ map e_length (r_log r2) = [66]
  | _, _ => False
  end.
Proof. vm_compute. repeat split; reflexivity. Qed.

(** Properties_LogLine.v - C91: the bytes of the application log (/repo/log.c:63-92). *)
From Verif Require Import LogLine Trace Lemmas LogLine_proofs Tame_proofs Trace_proofs Properties_Dispatch SpecTime SpecLog SpecLogLine Spec.

Local Opaque accept_request_t.

(** C91.  When one thread logs, the log can be read back: what is written for two sequences of
    messages is the same only if they are the same messages at times that look the same, provided
    no text has a line feed before a digit. *)
Theorem C91_defined : forall es, Forall regular es -> exists out, log_bytes es = Ok out.
Proof. intros es H. destruct (bytes_ok es H) as (out & E & _). eauto. Qed.
Print Assumptions C91_defined.
Theorem C91_readable : forall es es' out, Forall regular es -> Forall regular es' ->
  log_bytes es = Ok out -> log_bytes es' = Ok out -> Forall2 tells_same es es'.
Proof. exact bytes_injective. Qed.
Print Assumptions C91_readable.
(** The condition is needed: a text with a line feed before a digit can be a forged entry. *)
Theorem C91_forged_refuted : exists es es' out, Forall placed es /\ Forall placed es' /\ Forall (fun e => 0 <= sd_level e <= 5) es /\ Forall (fun e => 0 <= sd_level e <= 5) es'
  /\ log_bytes es = Ok out /\ log_bytes es' = Ok out /\ length es <> length es'.
Proof.
  exists [mkSaid 0 7 2 (L "a.c") (L "f") 1 (L "x" ++ [LF] ++ L "01-01-70 00:00:00 7 ERROR a.c:f:2: y")],
    [mkSaid 0 7 2 (L "a.c") (L "f") 1 (L "x"); mkSaid 0 7 4 (L "a.c") (L "f") 2 (L "y")]. eexists.
  assert (P : forall l x txt, placed (mkSaid 0 7 l (L "a.c") (L "f") x txt)).
  { intros. split; [cbn; lia|]. split; [cbn; lia|]. split; vm_compute; intuition discriminate. }
  split; [repeat constructor; apply P|]. split; [repeat constructor; apply P|]. split; [repeat constructor; cbn; lia|]. split; [repeat constructor; cbn; lia|].
  split; [vm_compute; reflexivity|]. split; [vm_compute; reflexivity|]. discriminate.
Qed.
Print Assumptions C91_forged_refuted.

(** No request can do that: whatever is sent, no message of ws.c, router.c, http_utils.c or
    file_utils.c has a line feed before a digit. *)
Theorem C91_tame : forall v f t socket peer stream res ms, plain_setup v -> one_line peer ->
  accept_request_t v f t socket peer stream = Ok (res, ms) -> Forall (fun m => tame (snd m)) ms.
Proof. exact accept_told. Qed.
Print Assumptions C91_tame.
(** So no client can make its request look like other messages, or others'. *)
Theorem C91_unforged : forall v es es' out, plain_setup v -> Forall placed es -> Forall placed es' -> Forall (of_request v) es -> Forall (of_request v) es' ->
  log_bytes es = Ok out -> log_bytes es' = Ok out -> Forall2 tells_same es es'.
Proof.
  intros v es es' out P F F' R R'. assert (K : forall l, Forall placed l -> Forall (of_request v) l -> Forall regular l).
  { intros l A B. apply Forall_forall. intros e I. rewrite Forall_forall in A, B. destruct (A e I) as (A1 & A2 & A3 & A4).
    destruct (B e I) as (f & t & socket & peer & stream & res & ms & Op & E & Im). pose proof (C91_tame _ _ _ _ _ _ _ _ P Op E) as T.
    apply accept_kept, kept_level in E. rewrite Forall_forall in E, T. specialize (E _ Im). specialize (T _ Im). unfold level_ok in E. cbn [fst snd] in E, T.
    split; [exact A1|]. split; [exact A2|]. split; [lia|]. auto. }
  apply bytes_injective; auto.
Qed.
Print Assumptions C91_unforged.

(** ** Several threads *)
(** If every message's three calls come one after another, the log is that of one thread. *)
Theorem C91_in_turn : forall ths order es cs, in_turn ths order es -> all_calls ths = Ok cs ->
  exists out rest, lrun ([], cs) (flat_map (fun k => [k; k; k]) order) = Some (out, rest) /\ log_bytes es = Ok out /\ Forall (fun c => c = []) rest.
Proof. intros ths order es cs I E. exact (in_turn_run ths order es I cs [] E). Qed.
Print Assumptions C91_in_turn.
(** Nothing makes them do so: from the log it does not follow who said what. *)
Theorem C91_mixed_refuted : exists e0 e1 e0' e1' cs cs' sched sched' out rest rest', regular e0 /\ regular e1 /\ regular e0' /\ regular e1'
  /\ all_calls [[e0]; [e1]] = Ok cs /\ all_calls [[e0']; [e1']] = Ok cs'
  /\ lrun ([], cs) sched = Some (out, rest) /\ lrun ([], cs') sched' = Some (out, rest') /\ concat rest = [] /\ concat rest' = []
  /\ sd_thread e0 = sd_thread e0' /\ sd_thread e1 = sd_thread e1' /\ sd_text e0 <> sd_text e0' /\ sd_text e1 <> sd_text e1'
  /\ ~ exists order es, in_turn [[e0]; [e1]] order es /\ log_bytes es = Ok out.
Proof.
  exists (mkSaid 0 1 2 (L "a.c") (L "f") 1 (L "x")), (mkSaid 0 2 2 (L "a.c") (L "f") 1 (L "y")),
    (mkSaid 0 1 2 (L "a.c") (L "f") 1 (L "y")), (mkSaid 0 2 2 (L "a.c") (L "f") 1 (L "x")).
  eexists _, _, [0; 1; 0; 0; 1; 1]%nat, [0; 1; 1; 1; 0; 0]%nat, _, _, _.
  assert (P : forall th txt, 0 <= th -> In txt [L "x"; L "y"] -> regular (mkSaid 0 th 2 (L "a.c") (L "f") 1 txt)).
  { intros th txt Ht Hx. split; [cbn; lia|]. split; [exact Ht|]. split; [cbn; lia|]. split; [vm_compute; intuition discriminate|]. split; [vm_compute; intuition discriminate|].
    apply one_tame. destruct Hx as [<-|[<-|[]]]; vm_compute; intuition discriminate. }
  do 2 (split; [apply P; [lia|cbn; auto]|]). do 2 (split; [apply P; [lia|cbn; auto]|]).
  do 6 (split; [vm_compute; reflexivity|]). split; [reflexivity|]. split; [reflexivity|]. split; [discriminate|]. split; [discriminate|].
  intros (order & es & I & E).
  assert (K : forall ths order es, in_turn ths order es -> length es = length (concat ths)).
  { clear. induction 1 as [ths F|a e t b k order es _ _ IH]; [induction F as [|? ? -> _ IH]; auto|]. cbn [length]. rewrite IH, !concat_app. cbn [concat]. rewrite !app_length. cbn [length]. lia. }
  pose proof (K _ _ _ I) as Ln. cbn in Ln. destruct es as [|a [|b [|? ?]]]; try discriminate Ln. clear K Ln.
  assert (Ks : forall ths order es e, in_turn ths order es -> In e es -> In e (concat ths)).
  { clear. induction 1 as [|a e0 t b k order es _ _ IH]; [intros []|]. rewrite !concat_app in *. cbn [concat] in *. intros [<-|J].
    - apply in_or_app. right. now left.
    - specialize (IH J). apply in_app_or in IH as [IH|IH]; apply in_or_app; auto. right. now right. }
  pose proof (Ks _ _ _ a I (or_introl eq_refl)) as Ia. pose proof (Ks _ _ _ b I (or_intror (or_introl eq_refl))) as Ib. cbn in Ia, Ib.
  destruct Ia as [<-|[<-|[]]], Ib as [<-|[<-|[]]]; vm_compute in E; discriminate E.
Qed.
Print Assumptions C91_mixed_refuted.
(** Whatever the order, a line is written for each message that is one line, and no more. *)
Theorem C91_lines : forall ths cs sched out rest, Forall (Forall in_line) ths -> all_calls ths = Ok cs ->
  lrun ([], cs) sched = Some (out, rest) -> Forall (fun c => c = []) rest -> line_count out = length (concat ths).
Proof.
  intros ths cs sched out rest F E H R. apply run_count in H. cbn [fst snd] in H.
  assert (Er : concat rest = []) by (induction R as [|? ? -> _ IH]; auto). rewrite Er in H. cbn [concat] in H.
  rewrite <- (all_count ths cs F E). change (line_count []) with 0%nat in H. lia.
Qed.
Print Assumptions C91_lines.

Example C91_case :
  log_bytes [mkSaid 1700000000 140737353 2 (L "ws.c") (L "main") 12 (L "up"); mkSaid 1700000001 140737353 3 (L "http_utils.c") (L "direct_file") 207 (L "File not found: /x")]
  = Ok (L "14-11-23 22:13:20 140737353 INFO  ws.c:main:12: up" ++ [LF] ++ L "14-11-23 22:13:21 140737353 WARN  http_utils.c:direct_file:207: File not found: /x" ++ [LF])
  /\ lrun ([], [[L "a: "; L "x"; [LF]]; [L "b: "; L "y"; [LF]]]) [0; 1; 0; 0; 1; 1]%nat = Some (L "a: b: x" ++ [LF] ++ L "y" ++ [LF], [[]; []])
  /\ plain_setup demo.
Proof.
  split; [vm_compute; reflexivity|]. split; [vm_compute; reflexivity|].
  split; [apply one_lit; reflexivity|]. split; [apply one_lit; reflexivity|]. split; [apply one_lit; reflexivity|]. split; [vm_compute; discriminate|].
  split; repeat constructor; apply one_lit; reflexivity.
Qed.

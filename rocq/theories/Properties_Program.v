(** Properties_Program.v - C104: the whole program, from its command line to its answers
    (/repo/main.c, the accept loop and the worker threads of /repo/ws.c). *)
From Verif Require Import Program Program_proofs Properties_Dispatch SpecConf SpecStart SpecSafe SpecReq SpecEffects SpecDefinedApi SpecWorkers SpecConn SpecDispatch SpecProgram Spec.
From Coq Require Import Permutation.

(** C104.  Whatever the command line, the files, the machine, the connections and the schedule of the
    main thread and the workers, a program that has got somewhere was asked for this configuration and
    lacked nothing; each connection taken so far was turned away, left open, or queued; it was turned
    away exactly if the lists say so, and left open only if more than 1024 were to come; at most 1024
    wait; they are taken in the order they came; the taken ones are answered or in work; each answer is the one the connection would get alone, or 429; no
    file has been touched but the upload directory; and with at least one worker the program comes to
    rest after at most eight steps for each connection, with nothing left to do. *)
Theorem C104_answers : forall m f args routes coming sched g s, Forall proper coming -> program_run m f args routes coming sched = Some (Ok (g, s)) ->
  running m f args (st_config g) /\ load_limits f (cf_root (st_config g)) = Ok (st_rules g) /\ st_routes g = routes
  /\ exists past kept taken, coming = past ++ p_coming s /\ dealt past kept (p_denied s) (p_lost s)
     /\ Forall (let_in_by f (cf_root (st_config g))) (kept ++ p_lost s) /\ Forall (fun a => ~ let_in_by f (cf_root (st_config g)) a) (p_denied s)
     /\ (len coming <= 1024 -> p_lost s = [])
     /\ len (w_queue (p_pool s)) <= 1024
     /\ map (connection routes (st_rules g)) kept = taken ++ w_queue (p_pool s) /\ Permutation taken (answered (p_pool s) ++ in_work (p_pool s))
     /\ (forall q k r, In (q, k, r) (w_answers (p_pool s)) -> (exists res, alone f q = Ok res /\ o_taken res = k /\ o_req res = r) \/ refused k r)
     /\ w_fs (p_pool s) (L "/tmp/wayuu") = Some Dir /\ (forall p, p <> L "/tmp/wayuu" -> w_fs (p_pool s) p = f p)
     /\ (some_worker m -> len sched <= 8 * len coming /\ ((forall w, pstep g s w = None) -> p_coming s = [] /\ w_queue (p_pool s) = [] /\ in_work (p_pool s) = [])).
Proof.
  intros m f args routes coming sched g s P H. pose proof (answers m f args routes coming sched g s P H) as (R & El & Er & past & kept & taken & A).
  split; [exact R|]. split; [exact El|]. split; [exact Er|]. exists past, kept, taken. rewrite (as_connections f args g kept (proj1 R)), Er in A. exact A.
Qed.
Print Assumptions C104_answers.

(** A connection is answered with 429 only if a rule of the limits file that counts is for its URL. *)
Theorem C104_refused : forall m f args routes coming sched g s, Forall proper coming -> Forall (fun a => keeps_socket (ar_app a)) coming ->
  program_run m f args routes coming sched = Some (Ok (g, s)) ->
  forall q r, In (q, TTooMany, r) (w_answers (p_pool s)) -> exists rule, in_force (st_rules g) rule /\ ci_prefix (l_path rule) (r_url r).
Proof. exact refusals. Qed.
Print Assumptions C104_refused.

(** If its behaviour is undefined, the start was, or the lists are for some peer, or a worker has been
    given a request that is undefined on its own; the limits do not matter. *)
Theorem C104_blame : forall m f args routes coming sched u, Forall proper coming -> program_run m f args routes coming sched = Some (UB u) ->
  undefined (main_run m f args)
  \/ exists c rules a, running m f args c /\ load_limits f (cf_root c) = Ok rules /\ In a coming
      /\ (bad_lists f (cf_root c) (inet_ntoa (ar_addr a)) \/ some_worker m /\ let_in_by f (cf_root c) a /\ undefined (alone f (connection routes rules a))).
Proof.
  intros m f args routes coming sched u P H. destruct (undefined_only m f args routes coming sched u P H) as [A|(c & rules & a & R & A)]; [now left|].
  right. exists c, rules, a. split; [exact R|]. rewrite (as_connection f args (mkSettings c rules routes) (proj1 R)) in A. exact A.
Qed.
Print Assumptions C104_blame.

(** And this is exact, limits or not: some schedule is undefined if and only if an option does not fit;
    or everything a start needs up to the limits file is there and that file has a path that does not
    fit; or the program runs and the lists are undefined for some peer, or it has a worker and some peer
    the lists let in has sent a request that is not harmless. *)
Theorem C104_undefined : forall m f args routes coming, Forall ordinary coming -> ordinary_routes routes -> ordinary_files f ->
  ((exists sched u, program_run m f args routes coming sched = Some (UB u)) <->
   (bad_options f args
    \/ exists c, main_options f args = Ok (Launch c) /\ m_logfile m = true /\ upload_dir m f /\ tls_ready m c /\ bad_rules f (cf_root c))
   \/ exists c rules a, running m f args c /\ load_limits f (cf_root c) = Ok rules /\ In a coming
      /\ (bad_lists f (cf_root c) (inet_ntoa (ar_addr a))
          \/ some_worker m /\ let_in_by f (cf_root c) a /\ ~ harmless (q_env (connection routes rules a)) f empty_table (inet_ntoa (ar_addr a)) (ar_stream a))).
Proof.
  intros m f args routes coming H1 H2 H3. rewrite <- Safe_proofs.run_bad, (undefined_when m f args routes coming H1 H2 H3).
  split; (intros [A|(c & rules & a & R & A)]; [now left|]); right; exists c, rules, a; (split; [exact R|]).
  - rewrite (as_connection f args (mkSettings c rules routes) (proj1 R)) in A. exact A.
  - rewrite (as_connection f args (mkSettings c rules routes) (proj1 R)). exact A.
Qed.
Print Assumptions C104_undefined.

(** Names other than those that begin with the static root, the lists and limits of the roots the command
    line names, and the upload directory make no difference to anything the program does in any schedule.
    (Names with ".." begin with the static root too: C55, C104_case.) *)
Theorem C104_secret : forall m args f1 f2 routes coming sched, same_files args f1 f2 -> Forall (fun a => mp_md5_size (ar_mp a) = 36) coming ->
  seen (program_run m f1 args routes coming sched) = seen (program_run m f2 args routes coming sched).
Proof. exact same_seen. Qed.
Print Assumptions C104_secret.

(** Concrete: three connections, of which the second is turned away, two workers. *)
Definition good_machine (threads : nat -> bool) : machine := mkMachine true true (fun _ => true) (fun _ => true) 3 true (fun _ => 0) (fun _ _ _ => true) threads (fun _ => true) true.
Definition files (secret page : str) : fs := fun p =>
  if str_eqb p (L "/srv") then Some Dir else if str_eqb p (L "/srv/etc/deny") then Some (File (L "9.9.9.9"))
  else if str_eqb p (L "/etc/shadow") then Some (File secret) else if str_eqb p (L "/etc/wayuu/www//a.txt") then Some (File page)
  else if str_eqb p (L "/etc/wayuu/www//../../passwd") then Some (File (L "root:x:0")) else None.
Definition peer (last : Z) (socket : Z) (stream : str) : arrival :=
  mkArrival (mkAddr last last last last) socket stream demo_app (mkMpenv (fun s => s) 1 true 36) (cs (L "junk")).
Definition get (p : str) : str := L "GET " ++ p ++ L " HTTP/1.1" ++ CRLF ++ CRLF.
Definition three : list arrival := [peer 1 4 (get (L "/a.txt")); peer 9 5 (get (L "/a.txt")); peer 2 6 (get (L "/../../passwd"))].
Definition turns : list who := [Main; Worker 0; Main; Worker 0; Main; Worker 1; Worker 1; Worker 0; Worker 1; Worker 0; Worker 1; Worker 0; Worker 1; Worker 0; Worker 1; Worker 0; Worker 1].
Definition told (x : option (outcome (settings * program))) :=
  match x with
  | Some (Ok (_, s)) => Some (map (fun a => (q_socket (fst (fst a)), map e_status (r_log (snd a)), skipn (length (r_sent (snd a)) - 8) (r_sent (snd a)))) (w_answers (p_pool s)),
                              map ar_socket (p_denied s), map ar_socket (p_lost s), map ar_socket (p_coming s))
  | _ => None
  end.
Definition two (i : nat) : bool := Nat.ltb i 2.
Definition run_of threads f coming sched := program_run (good_machine threads) f [L "-r"; L "/srv"] [] coming sched.
Example C104_case :
  told (run_of two (files (L "x") (L "TEXT-TEXT")) three turns) = Some ([(4, [200], L "EXT-TEXT"); (6, [200], L "root:x:0")], [5], [], [])
  /\ told (run_of two (files (L "x") (L "HELLO-YOU")) three turns) = Some ([(4, [200], L "ELLO-YOU"); (6, [200], L "root:x:0")], [5], [], [])
  /\ (forall x y page sched, seen (run_of two (files x page) three sched) = seen (run_of two (files y page) three sched))
  /\ len turns = 17
  /\ run_of two (files [] []) [peer 1 4 []] [Main; Worker 1; Worker 1] = Some (UB OobWrite)
  /\ told (run_of two (files [] []) [peer 9 4 []] [Main]) = Some ([], [4], [], [])
  /\ (forall sched u, run_of (fun _ => false) (files [] []) [peer 1 4 []] sched <> Some (UB u))
  /\ told (run_of two (files [] []) (repeat (peer 1 4 []) 1024 ++ [peer 1 5 []]) (repeat Main 1025)) = Some ([], [], [5], []).
Proof.
  split; [vm_compute; reflexivity|]. split; [vm_compute; reflexivity|]. split.
  { intros x y page sched. apply C104_secret.
    - split; [reflexivity|]. split; [reflexivity|]. intros root [->|I]; [split; [reflexivity|]|].
      + intros name [<-|[<-|[<-|[]]]]; reflexivity.
      + vm_compute in I. destruct I as [I|[]]. injection I as <-. split; [reflexivity|]. intros name [<-|[<-|[<-|[]]]]; reflexivity.
    - repeat constructor. }
  split; [reflexivity|]. split; [vm_compute; reflexivity|]. split; [vm_compute; reflexivity|]. split; [|vm_compute; reflexivity].
  intros sched u H. apply C104_blame in H as [(u' & H)|(c & rules & a & (E & _) & _ & _ & B)].
  - vm_compute in H. discriminate H.
  - destruct B as [B|((i & _ & T) & _)]; [|discriminate T]. assert (R : cf_root c = L "/srv") by (vm_compute in E; injection E as <-; reflexivity). rewrite R in B. destruct B as [B|[(x & B & X)|(_ & x & B & _)]]; [now vm_compute in B| |discriminate B].
    injection B as <-. vm_compute in X. now apply X.
  - constructor; [|constructor]. split; [|reflexivity]. repeat split; vm_compute; discriminate.
Qed.

(** Properties_ScarceStart.v - C108: the program when memory for its own tables and for the accept loop is
    short (/repo/ws.c, /repo/file_utils.c). *)
From Verif Require Import Program ScarceStart Start_proofs ScarceStart_proofs Properties_Program SpecConf SpecStart SpecDispatch SpecProgram SpecScarceStart Spec.

(** C108.  With every block given, this is the program of C104. *)
Theorem C108_given : forall ok m f args routes coming sched, (forall b, ok b = true) ->
  program_scarce ok m f args routes coming sched = program_run m f args routes coming sched.
Proof. exact scarce_given. Qed.
Print Assumptions C108_given.

(** Whatever is refused, and whatever the schedule: the behaviour is undefined, or nothing is different.  No
    refusal is noticed, logged or answered. *)
Theorem C108_same : forall ok m f args routes coming sched,
  (exists u, program_scarce ok m f args routes coming sched = Some (UB u))
  \/ program_scarce ok m f args routes coming sched = program_run m f args routes coming sched.
Proof. exact scarce_same. Qed.
Print Assumptions C108_same.

(** The start is undefined exactly if it is with enough memory, or it gets to its tables and a block it
    wants is refused: the queue, or the limits if some line of the limits file begins with a slash.  It does
    not need the table of connections or the elements of the queue. *)
Theorem C108_start : forall ok m f args,
  undefined (main_run_s ok m f args) <->
  undefined (main_run m f args) \/ exists c b, gets_to_tables m f args c /\ start_wants f (cf_root c) b /\ ok b = false.
Proof. exact start_undefined. Qed.
Print Assumptions C108_start.

(** And the running program: some schedule is undefined if and only if one is with enough memory, or a
    wanted block is refused. *)
Theorem C108_undefined : forall ok m f args routes coming, Forall proper coming ->
  ((exists sched u, program_scarce ok m f args routes coming sched = Some (UB u)) <->
   (exists sched u, program_run m f args routes coming sched = Some (UB u)) \/ exists b, program_wants m f args coming b /\ ok b = false).
Proof. exact scarce_undefined. Qed.
Print Assumptions C108_undefined.

(** A step of a worker that is defined with enough memory: exactly when it is not. *)
Theorem C108_worker : forall ok g s k st s', nth_error (w_threads (p_pool s)) k = Some st -> plain_step st -> pstep g s (Worker k) = Some (Ok s') ->
  ((exists u, pstep_s ok g s (Worker k) = Some (UB u)) <-> exists b, step_wants st b /\ ok b = false).
Proof. exact step_undefined. Qed.
Print Assumptions C108_worker.

(** Concrete: the three connections of C104, and one block refused. *)
Definition without (b : block) : supply := fun x =>
  match b, x with
  | BLive, BLive | BLimits, BLimits | BQueue, BQueue | BElements, BElements => false
  | BPeer n, BPeer k | BDeny n, BDeny k | BDenyText n, BDenyText k | BAllow n, BAllow k | BAllowText n, BAllowText k => negb (Nat.eqb n k)
  | _, _ => true
  end.
Definition run_without b coming sched := program_scarce (without b) (good_machine two) (files (L "x") (L "TEXT-TEXT")) [L "-r"; L "/srv"] [] coming sched.
Definition fails (x : option (outcome (settings * program))) : bool := match x with Some (UB NullDeref) => true | _ => false end.
Definition served := Some ([(4, [200], L "EXT-TEXT"); (6, [200], L "root:x:0")], [5], @nil Z, @nil Z).
Definition brew : str := L "BREW /a.txt HTTP/1.1" ++ CRLF ++ CRLF.
Definition four_hundred (x : option (outcome (settings * program))) :=
  match x with Some (Ok (_, s)) => Some (map (fun a => (q_socket (fst (fst a)), map e_status (r_log (snd a)))) (w_answers (p_pool s))) | _ => None end.
Example C108_case :
  told (run_without (BAllow 2) three turns) = served /\ told (run_without (BPeer 3) three turns) = served
  /\ fails (run_without BQueue three []) = true
  /\ (told (run_without BElements three []) = Some ([], [], [], [4; 5; 6]) /\ fails (run_without BElements three [Main]) = true)
  /\ told (run_without BElements [peer 9 5 []; peer 9 6 []] [Main; Main]) = Some ([], [5; 6], [], [])
  /\ (told (run_without (BPeer 1) three [Main]) = Some ([], [], [], [5; 6]) /\ fails (run_without (BPeer 1) three [Main; Main]) = true)
  /\ fails (run_without (BDeny 0) three [Main; Main; Main]) = true
  /\ fails (run_without (BDenyText 0) three [Main; Main; Main]) = true
  /\ (told (run_without BLimits three [Main; Worker 0; Worker 0]) = Some ([], [], [], [5; 6]) /\ fails (run_without BLimits three [Main; Worker 0; Worker 0; Worker 0]) = true)
  /\ four_hundred (run_without BLimits [peer 1 4 brew] [Main; Worker 0; Worker 0; Worker 0]) = Some [(4, [400])]
  /\ (told (run_without BLive three [Main; Worker 0; Worker 0; Worker 0]) = Some ([], [], [], [5; 6]) /\ fails (run_without BLive three [Main; Worker 0; Worker 0; Worker 0; Worker 0]) = true)
  /\ fails (run_without BLive [peer 1 4 brew] [Main; Worker 0; Worker 0; Worker 0]) = true.
Proof. vm_compute. repeat split. Qed.
(** With a rule for the path the table of connections is read at once; with any rule the limits are wanted at
    the start. *)
Definition ruled : fs := fun p => if str_eqb p (L "/srv/etc/limits") then Some (File (L "# none" ++ [LF] ++ L "/a,5,5" ++ [LF])) else files [] (L "TEXT-TEXT") p.
Definition run_ruled b coming sched := program_scarce (without b) (good_machine two) ruled [L "-r"; L "/srv"] [] coming sched.
Example C108_rules :
  fails (run_ruled BLimits three []) = true
  /\ fails (run_ruled BLive three [Main; Worker 0; Worker 0; Worker 0]) = true
  /\ told (run_ruled BLive [peer 1 4 (get (L "/b.txt"))] [Main; Worker 0; Worker 0; Worker 0]) = Some ([], [], [], []).
Proof. vm_compute. repeat split. Qed.
(** With an empty deny file nothing is copied out of it; the allow file is read from its own block. *)
Definition listing : fs := fun p =>
  if str_eqb p (L "/srv/etc/deny") then Some (File [])
  else if str_eqb p (L "/srv/etc/allow") then Some (File (inet_ntoa (ar_addr (peer 1 4 [])))) else files [] (L "TEXT-TEXT") p.
Definition run_listing b coming sched := program_scarce (without b) (good_machine two) listing [L "-r"; L "/srv"] [] coming sched.
Example C108_lists :
  told (run_listing (BDenyText 0) [peer 1 4 []] [Main]) = told (run_listing (BPeer 9) [peer 1 4 []] [Main])
  /\ fails (run_listing (BDenyText 0) [peer 1 4 []] [Main]) = false
  /\ fails (run_listing (BDeny 0) [peer 1 4 []] [Main]) = true
  /\ fails (run_listing (BAllow 0) [peer 1 4 []] [Main]) = true
  /\ fails (run_listing (BAllowText 0) [peer 1 4 []] [Main]) = true.
Proof. vm_compute. repeat split. Qed.

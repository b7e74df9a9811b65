(** Properties_Defined.v - C98: exactly which requests are undefined (/repo/ws.c:accept_request and
    what it calls, outside the API). *)
From Verif Require Import WsRequest Lemmas Defined_proofs Properties_Dispatch SpecHttp SpecConn SpecReq SpecDispatch SpecDefined Spec.

Local Opaque accept_request.

(** C98.  Every stream has a first line, and what follows it has header fields, so that the
    theorems below speak about every byte stream. *)
Theorem C98_every_stream : forall stream, exists seen m url s1 fs, first_line stream seen m url s1 /\ headers s1 fs.
Proof.
  intros stream. destruct (first_line_exists stream) as (seen & m & url & s1 & H). destruct (headers_exist s1) as (fs & Hf).
  now exists seen, m, url, s1, fs.
Qed.
Print Assumptions C98_every_stream.
(** Outside the API a request is undefined exactly if something is [wrong] with it... *)
Theorem C98_exactly : forall v f t socket peer stream junk seen m url s1,
  sound_setting v f t peer junk -> first_line stream seen m url s1 -> (forall u, url = Some u -> ~ api_url u) ->
  (undefined (accept_request v f t socket peer stream) <-> wrong v f t peer junk seen m url s1).
Proof.
  intros v f t socket peer stream junk seen m url s1 S H N.
  destruct (accept_total v f t socket peer stream junk seen m url s1 S H N) as [(W & U)|(W & res & R)]; [tauto|].
  split; [|tauto]. intros (u & E). congruence.
Qed.
Print Assumptions C98_exactly.
(** ...so that all others are handled to the end. *)
Theorem C98_handled : forall v f t socket peer stream junk seen m url s1,
  sound_setting v f t peer junk -> first_line stream seen m url s1 -> (forall u, url = Some u -> ~ api_url u) ->
  ~ wrong v f t peer junk seen m url s1 -> exists res, accept_request v f t socket peer stream = Ok res.
Proof.
  intros v f t socket peer stream junk seen m url s1 S H N W.
  destruct (accept_total v f t socket peer stream junk seen m url s1 S H N) as [(W' & _)|(_ & R)]; [tauto|exact R].
Qed.
Print Assumptions C98_handled.
(** What is wrong before the URL decides who answers, is so for the API too, in any setting. *)
Theorem C98_reading : forall v f t socket peer stream seen m url s1,
  len peer <= 15 -> Forall (fun r => no_nul (l_path r)) (v_limits v) -> Forall (fun c => no_nul (c_path c)) (occupied t) ->
  first_line stream seen m url s1 ->
  len seen < 2 \/ (allowed m /\ url = None)
  \/ (allowed m /\ exists u, url = Some u /\ let_in v t peer u /\
       (bad_headers s1 \/ (exists ts, tokens (L "?") u ts /\ (ts = [] \/ 50 < len ts)))) ->
  undefined (accept_request v f t socket peer stream).
Proof. exact accept_reading. Qed.
Print Assumptions C98_reading.

Lemma demo_sound : sound_setting demo demo_fs demo_table (L "1.2.3.4") (L "junk").
Proof.
  do 8 (split; [first [constructor; fail|vm_compute; congruence|vm_compute; constructor]|]).
  intros name content E. apply (Z.le_trans _ 100); [|lia]. revert E. unfold demo_fs.
  repeat (destruct (str_eqb _ _); [intros [= <-]; vm_compute; congruence|]). discriminate.
Qed.
(** One byte more in a header line: the user agent matters only if a file is found, the session
    always, the name of a field and other values never. *)
Local Transparent accept_request.
Definition defined_with (f : fs) (u h : str) : bool :=
  match accept_request demo f demo_table 9 (L "1.2.3.4") (L "GET " ++ u ++ L " HTTP/1.1" ++ CRLF ++ h ++ CRLF ++ CRLF) with Ok _ => true | UB _ => false end.
Definition field (name : str) (n : nat) : str := name ++ L ": " ++ repeat "x"%char n.
Example C98_case :
  map (fun n => defined_with demo_fs (L "/a.txt") (field (L "User-Agent") n)) [255; 256]%nat = [true; false]
  /\ map (fun n => defined_with (fun _ => None) (L "/a.txt") (field (L "User-Agent") n)) [255; 256]%nat = [true; true]
  /\ map (fun n => defined_with demo_fs (L "/a.txt") (field (L "Accept") n)) [255; 256]%nat = [true; true]
  /\ map (fun n => defined_with demo_fs (L "/a.txt") (field (repeat "N"%char n) 3)) [255; 256]%nat = [true; true]
  /\ map (fun n => defined_with (fun _ => None) (L "/a.txt") (field (L "X-Session") n)) [60; 61]%nat = [true; false]
  /\ map (fun u => defined_with demo_fs u []) [L "/a.txt"; L "?"; L "/a.txt?x"] = [true; false; true]
  /\ sound_setting demo demo_fs demo_table (L "1.2.3.4") (L "junk").
Proof. repeat (split; [vm_compute; reflexivity|]). exact demo_sound. Qed.

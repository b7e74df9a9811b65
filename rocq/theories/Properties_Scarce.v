(** Properties_Scarce.v - C106: a request whose small blocks may be refused (/repo/ws.c:accept_request and
    what it calls, outside the API). *)
From Verif Require Import WsRequest Scarce Lemmas Defined_proofs Scarce_proofs Properties_Dispatch Properties_Defined SpecHttp SpecConn SpecReq SpecDispatch SpecDefined SpecScarce Spec.

Local Opaque accept_request accept_scarce.

(** C106.  If every block is given, every connection goes as before, whatever is sent. *)
Theorem C106_given : forall ok v f t socket peer stream, (forall p, ok p = true) ->
  accept_scarce ok v f t socket peer stream = accept_request v f t socket peer stream.
Proof. intros. now apply scarce_given. Qed.
Print Assumptions C106_given.
(** A request that is handled to the end with all blocks is undefined exactly if a block it wants is refused... *)
Theorem C106_undefined : forall ok v f t socket peer stream junk seen m url s1 res,
  sound_setting v f t peer junk -> first_line stream seen m url s1 -> (forall u, url = Some u -> ~ api_url u) ->
  accept_request v f t socket peer stream = Ok res ->
  (undefined (accept_scarce ok v f t socket peer stream) <-> exists p, wants v f t peer junk m url s1 p /\ ok p = false).
Proof.
  intros ok v f t socket peer stream junk seen m url s1 res S F N E.
  destruct (scarce_runs ok v f t socket peer stream junk seen m url s1 res S F N E) as (res' & [(P & U)|(P & Q)] & _); [tauto|].
  split; [intros (u & X); congruence|]. intros (p & W & X). rewrite (P p W) in X. discriminate.
Qed.
Print Assumptions C106_undefined.
(** ... otherwise it is answered the same, ... *)
Theorem C106_same : forall ok v f t socket peer stream junk seen m url s1 res res',
  sound_setting v f t peer junk -> first_line stream seen m url s1 -> (forall u, url = Some u -> ~ api_url u) ->
  accept_request v f t socket peer stream = Ok res -> accept_scarce ok v f t socket peer stream = Ok res' ->
  ok PFile = true \/ ~ file_sent res -> res' = res.
Proof.
  intros ok v f t socket peer stream junk seen m url s1 res res' S F N E E' H.
  destruct (scarce_runs ok v f t socket peer stream junk seen m url s1 res S F N E) as (r & [(_ & u & U)|(_ & Q)] & A & _); [congruence|].
  assert (r = res') as <- by congruence. now apply A.
Qed.
Print Assumptions C106_same.
(** ... but for a file whose content had no room: its headers go out alone, and the access log says
    that all of it was sent. *)
Theorem C106_lost : forall ok v f t socket peer stream junk seen m url s1 res res',
  sound_setting v f t peer junk -> first_line stream seen m url s1 -> (forall u, url = Some u -> ~ api_url u) ->
  accept_request v f t socket peer stream = Ok res -> accept_scarce ok v f t socket peer stream = Ok res' ->
  ok PFile = false -> file_sent res -> content_lost f res res'.
Proof.
  intros ok v f t socket peer stream junk seen m url s1 res res' S F N E E' H X.
  destruct (scarce_runs ok v f t socket peer stream junk seen m url s1 res S F N E) as (r & [(_ & u & U)|(_ & Q)] & _ & A); [congruence|].
  assert (r = res') as <- by congruence. now apply A.
Qed.
Print Assumptions C106_lost.
(** Only the content of a file and the copy of the query text are never missed. *)
Theorem C106_survives : forall ok v f t socket peer stream junk seen m url s1 res,
  sound_setting v f t peer junk -> first_line stream seen m url s1 -> (forall u, url = Some u -> ~ api_url u) ->
  accept_request v f t socket peer stream = Ok res -> (forall p, ok p = false -> In p [PQueryText; PFile]) ->
  exists res', accept_scarce ok v f t socket peer stream = Ok res'.
Proof.
  intros ok v f t socket peer stream junk seen m url s1 res S F N E H.
  destruct (scarce_runs ok v f t socket peer stream junk seen m url s1 res S F N E) as (r & [((p & W & X) & _)|(_ & Q)] & _); [|now exists r].
  apply H in X. elim (wants_not_spare v f t peer junk m url s1 p W X).
Qed.
Print Assumptions C106_survives.
(** Three blocks are wanted by every connection: with one of them refused it is undefined whatever is
    sent, to the API too. *)
Theorem C106_always : forall ok v f t socket peer stream p, In p [PRequest; PPeer; PLine] -> ok p = false ->
  undefined (accept_scarce ok v f t socket peer stream).
Proof. exact scarce_first. Qed.
Print Assumptions C106_always.

(** Whatever is refused, a connection that is handled to the end, whatever it sent and to the API or not,
    has the effect it has with all blocks given, a file without its text apart; of the blocks of the router
    only the one for a form made from the path must be given. *)
Theorem C106_completed : forall ok v f t socket peer stream res', ok PForm = true ->
  accept_scarce ok v f t socket peer stream = Ok res' ->
  exists res, accept_request v f t socket peer stream = Ok res
    /\ (res' = res \/ (ok PFile = false /\ content_lost f res res')).
Proof. intros ok v f t socket peer stream res' H. exact (scarce_le ok v f t socket peer stream H res'). Qed.
Print Assumptions C106_completed.

Local Transparent accept_request accept_scarce.
(** A file is sent without its text; without a block for a field name, the session or the log line
    the request is undefined, but the session is only missed if the file is there. *)
Definition with_blocks (ok : allocator) (f : fs) : option (list Z * list Z * Z) :=
  match accept_scarce ok demo f demo_table 9 (L "1.2.3.4") (L "GET /a.txt HTTP/1.1" ++ CRLF ++ L "Host: x" ++ CRLF ++ CRLF) with
  | Ok res => Some (map e_status (r_log (o_req res)), map e_length (r_log (o_req res)), len (concat (r_sends (o_req res)))) | UB _ => None end.
Definition total (f : fs) : Z :=
  match with_blocks (fun _ => true) f with Some (_, _, n) => n | None => 0 end.
Example C106_case :
  with_blocks (fun _ => true) demo_fs = Some ([200], [total demo_fs], total demo_fs)
  /\ with_blocks (fun p => match p with PFile => false | _ => true end) demo_fs = Some ([200], [total demo_fs], total demo_fs - 4)
  /\ with_blocks (fun p => match p with PName 0 => false | _ => true end) demo_fs = None
  /\ with_blocks (fun p => match p with PName 1 => false | _ => true end) demo_fs = Some ([200], [total demo_fs], total demo_fs)
  /\ with_blocks (fun p => match p with PSession => false | _ => true end) demo_fs = None
  /\ with_blocks (fun p => match p with PSession => false | _ => true end) (fun _ => None) = Some ([], [], total (fun _ => None))
  /\ with_blocks (fun p => match p with PQueryText | PReferer | PAgent | PQuery => false | _ => true end) demo_fs = Some ([200], [total demo_fs], total demo_fs)
  /\ sound_setting demo demo_fs demo_table (L "1.2.3.4") (L "junk").
Proof. repeat (split; [vm_compute; reflexivity|]). exact demo_sound. Qed.

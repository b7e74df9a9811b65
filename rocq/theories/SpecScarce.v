(** SpecScarce.v - which blocks a request outside the API cannot do without. *)
From Verif Require Import Base CLib WsRequest Scarce SpecJson SpecHttp SpecConn SpecReq SpecDispatch SpecDefined Spec.
(** From the model only the type [place] and the record types are used here. *)

(** Line [n] of the header section reads [t], and the lines before it held [k] fields. *)
Inductive line_at : str -> nat -> nat -> str -> Prop :=
| la_here : forall s l rest t, line_of 1024 s l rest -> l <> [] -> ~ blank_line l -> seen_as l t -> line_at s 0 0 t
| la_plain : forall s l rest t0 n k t, line_of 1024 s l rest -> l <> [] -> ~ blank_line l -> seen_as l t0 ->
    ~ In ":"%char t0 -> line_at rest n k t -> line_at s (S n) k t
| la_field : forall s l rest t0 n k t, line_of 1024 s l rest -> l <> [] -> ~ blank_line l -> seen_as l t0 ->
    In ":"%char t0 -> line_at rest n k t -> line_at s (S n) (S k) t.

(** The blocks a header line needs. *)
Definition line_wants (n k : nat) (t : str) (p : place) : Prop :=
  ((k < 20)%nat /\ In p [PList n; PName n; PFirst n; PSecond n])
  \/ ((k < 20)%nat /\ In ":"%char t /\ p = PValue n)
  \/ (ci_prefix (L "Content-Type:") t /\ p = PType n)
  \/ (ci_prefix (L "X-Real-IP:") t /\ p = PRealIp n)
  \/ ((session_line t \/ ci_prefix (L "Cookie:") t) /\ p = PSession).

(** The blocks the access log needs after these fields. *)
Definition log_wants (fs : list (str * str)) (p : place) : Prop :=
  p = PStamp
  \/ (In (L "Referer") (map fst (firstn 20 fs)) /\ p = PReferer)
  \/ (In (L "User-Agent") (map fst (firstn 20 fs)) /\ p = PAgent).

(** The blocks taking a URL apart needs. *)
Definition url_wants (u : str) (p : place) : Prop :=
  In p [PParts; PCopy; PPieces; PPath]
  \/ exists ts, tokens (L "?") u ts /\ ((exists i, 0 <= i < len ts /\ p = PPiece i) \/ (2 <= len ts /\ p = PQuery)).

(** The blocks a static file needs: but not the block for its content. *)
Definition file_wants (v : wsenv) (f : fs) (junk path : str) (fs : list (str * str)) (p : place) : Prop :=
  p = PPathText
  \/ ((In path [L "/"; L "/index.html"; L "/favicon.ico"] \/ exists j, junk = j ++ L "/") /\ p = PNewPath)
  \/ (found v f junk path /\ (p = PMime \/ p = PSession \/ log_wants fs p)).

(** The rules in force end at the first without a path. *)
Definition some_rule (rules : list limit) : Prop := exists r rs, rules = r :: rs /\ l_path r <> [].

(** The blocks a request outside the API cannot do without: [m], [url] and [s1] as in [first_line]. *)
Definition wants (v : wsenv) (f : fs) (t : table) (peer junk m : str) (url : option str) (s1 : str) (p : place) : Prop :=
  In p [PRequest; PPeer; PLine]
  \/ (~ allowed m /\ p = PStamp)
  \/ (allowed m /\ exists u, url = Some u
      /\ ((p = PUrl /\ (some_rule (v_limits v) \/ len (occupied t) < len t))
          \/ (~ let_in v t peer u /\ p = PStamp)
          \/ (let_in v t peer u
              /\ ((exists n k x, line_at s1 n k x /\ line_wants n k x p)
                  \/ url_wants u p
                  \/ exists path q fs, url_parts u path q /\ headers s1 fs
                       /\ ((~ is_get m /\ log_wants fs p) \/ (is_get m /\ file_wants v f junk path fs p)))))).

(** The same request answered the same way. *)
Definition same_but (res res' : result) : Prop :=
  o_taken res' = o_taken res /\ o_table res' = o_table res /\ o_closed res' = o_closed res /\ o_fs res' = o_fs res
  /\ r_log (o_req res') = r_log (o_req res) /\ r_response_length (o_req res') = r_response_length (o_req res).
(** A static file was sent. *)
Definition file_sent (res : result) : Prop := o_taken res = TStatic /\ r_log (o_req res) <> [].
(** ... and without its content: the same answer, logged with the length it should have had. *)
Definition content_lost (f : fs) (res res' : result) : Prop :=
  same_but res res' /\ exists name content, f name = Some (File content)
    /\ r_sends (o_req res) = r_sends (o_req res') ++ [content]
    /\ r_response_length (o_req res') = len (concat (r_sends (o_req res'))) + len content.

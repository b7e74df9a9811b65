(** Properties_Conn.v - C57, C58, C60, C61: the connection table and the limit rules (/repo/ws.c). *)
From Coq Require Import Permutation.
From Verif Require Import StringUtils WsConn Lemmas StringUtils_proofs ConfParser_proofs WsConn_proofs SpecConf SpecJson SpecConn Spec.

(** C57.  [run rules empty_table evs] executes the events one after another with connection_add
    and connection_del. *)
Theorem C57_at_most_one_more : forall rules evs answers open r t, Forall (fun r => no_nul (l_path r)) rules ->
  history rules evs answers open -> in_force rules r -> run rules empty_table evs = Ok (answers, t) ->
  (forall n, counts (on (l_path r)) (occupied t) n -> n <= Z.max 0 (l_max r + 1))
  /\ (forall ip n, counts (on_from (l_path r) ip) (occupied t) n -> n <= Z.max 0 (l_max_ip r + 1)).
Proof.
  intros rules evs answers open r t Hr H I R.
  destruct (history_run _ _ _ _ Hr H) as (t' & R' & T). rewrite R in R'. inv R'. destruct T as (_ & P & _ & _ & _ & Pa).
  destruct (history_bounds _ _ _ _ _ Hr H I) as [B1 B2].
  assert (Nr : no_nul (l_path r)). { clear - Hr I. induction I; inv Hr; auto. }
  assert (Q : forall c, In c (occupied t') -> no_nul (c_path c)).
  { intros c Hc. rewrite Forall_forall in Pa. apply Pa. eapply Permutation_in; eauto. }
  split.
  - intros n C. rewrite (counts_filter _ (fun c => onb (l_path r) (c_path c))) in C.
    + subst n. rewrite (Permutation_len _ _ (filter_Permutation _ _ _ P)). exact B1.
    + intros c Hc. apply onb_iff; auto.
  - intros ip n C. rewrite (counts_filter _ (fun c => onb (l_path r) (c_path c) && str_eqb ip (c_ip c))) in C.
    + subst n. rewrite (Permutation_len _ _ (filter_Permutation _ _ _ P)). apply B2.
    + intros c Hc. rewrite andb_true_iff, str_eqb_eq, onb_iff; auto. unfold on_from, on. split; intros [X Y]; auto.
Qed.
Print Assumptions C57_at_most_one_more.
(** Every bound is attained, so one connection more than the rule says. *)
Theorem C57_attained : forall p m seconds ip, no_nul p -> p <> [] -> len p <= 511 -> no_nul ip -> len ip <= 15 -> 0 <= m <= 1023 ->
  exists evs answers open t, history [mkLimit p m m seconds] evs answers open
    /\ run [mkLimit p m m seconds] empty_table evs = Ok (answers, t)
    /\ counts (on p) (occupied t) (m + 1) /\ counts (on_from p ip) (occupied t) (m + 1).
Proof.
  intros p m k ip Np Hp Lp Ni Li Hm.
  assert (H : history [mkLimit p m m k] (same_opens (Z.to_nat (m + 1)) ip p) (repeat true (Z.to_nat (m + 1))) (same_conns (Z.to_nat (m + 1)) ip p)).
  { apply same_opens_history; auto; lia. }
  assert (Hr : Forall (fun r => no_nul (l_path r)) [mkLimit p m m k]) by (constructor; auto).
  destruct (history_run _ _ _ _ Hr H) as (t & R & T). destruct T as (_ & P & _).
  exists (same_opens (Z.to_nat (m + 1)) ip p), (repeat true (Z.to_nat (m + 1))), (same_conns (Z.to_nat (m + 1)) ip p), t.
  split; [exact H|]. split; [exact R|].
  assert (Le : len (occupied t) = m + 1). { rewrite (Permutation_len _ _ P), same_conns_len. lia. }
  destruct (same_conns_on (Z.to_nat (m + 1)) ip p) as [O1 O2]. rewrite <- Le.
  split; apply counts_all; (eapply Permutation_Forall; [apply Permutation_sym, P|]); auto.
Qed.
Print Assumptions C57_attained.
Example C57_case : let rule := mkLimit (L "/api") 1 1 60 in let ip := L "10.0.0.1" in
  run [rule] empty_table [Open 4 ip (L "/api/a"); Open 5 ip (L "/API/b"); Open 6 ip (L "/api/c"); Open 7 ip (L "/x"); Close 4; Open 6 ip (L "/api/c")]
  = Ok ([true; true; false; true; true; true],
        mkConn 6 (L "/api/c") ip :: mkConn 5 (L "/API/b") ip :: mkConn 7 (L "/x") ip :: skipn 3 empty_table).
Proof. vm_compute. reflexivity. Qed.

(** C58 *)
Theorem C58_accounting : forall rules evs answers open, Forall (fun r => no_nul (l_path r)) rules ->
  history rules evs answers open ->
  exists t, run rules empty_table evs = Ok (answers, t) /\ Permutation (occupied t) open
    /\ NoDup (map c_socket open) /\ len t = 1024.
Proof.
  intros rules evs answers open Hr H. destruct (history_run _ _ _ _ Hr H) as (t & R & T). exists t.
  destruct T as (Le & P & _ & ND & _). auto.
Qed.
Print Assumptions C58_accounting.
Theorem C58_refused_only_for_cause : forall rules evs answers open t s ip path ok t', Forall (fun r => no_nul (l_path r)) rules ->
  history rules evs answers open -> run rules empty_table evs = Ok (answers, t) ->
  0 < s -> ~ In s (map c_socket open) -> no_nul path -> len path <= 511 -> len ip <= 15 ->
  connection_add rules t s ip path = Ok (ok, t') ->
  (ok = false <-> over_limit rules open ip path \/ len open = 1024)
  /\ (ok = false -> t' = t)
  /\ (ok = true -> exists a b, t = a ++ free_slot :: b /\ t' = a ++ mkConn s path ip :: b).
Proof.
  intros rules evs answers open t s ip path ok t' Hr H R Hs Hi Np Lp Li E.
  destruct (history_run _ _ _ _ Hr H) as (t0 & R0 & T). rewrite R in R0. inv R0.
  destruct (add_tracks rules t0 open s ip path Hr T Hs Hi Np Lp Li) as [A1 A2].
  destruct T as (Le & P & _ & _ & _ & Pa).
  assert (Lo : len open <= 1024). { rewrite <- (Permutation_len _ _ P). rewrite <- Le. apply filter_le. }
  assert (D : (over_limit rules open ip path \/ len open = 1024) \/ (~ over_limit rules open ip path /\ len open < 1024)).
  { pose proof (overb_iff rules open ip path Hr Pa Np) as O. destruct (overb rules open ip path); [left; left; now apply O|].
    destruct (Z.eq_dec (len open) 1024); [left; now right|]. right. split; [|lia]. intros X. apply O in X. discriminate. }
  destruct D as [D|[D1 D2]].
  - rewrite (A1 D) in E. inv E. split; [tauto|]. split; [auto|discriminate].
  - destruct (A2 D1 D2) as (a & b & E1 & _ & E2 & _). rewrite E2 in E. inv E.
    split; [|split; [discriminate|eauto]]. split; [discriminate|]. intros [X|X]; [tauto|lia].
Qed.
Print Assumptions C58_refused_only_for_cause.
(** Every history can be continued by every event. *)
Theorem C58_every_event_is_answered : forall rules evs answers open ev, Forall (fun r => no_nul (l_path r)) rules ->
  history rules evs answers open -> match ev with Open _ _ path => no_nul path | Close _ => True end ->
  exists ok open', happens rules open ev ok open'.
Proof.
  intros rules evs answers open ev Hr H W. destruct (history_run _ _ _ _ Hr H) as (t & R & T). destruct T as (Le & P & _ & _ & _ & Pa).
  apply happens_exists; auto. rewrite <- (Permutation_len _ _ P). rewrite <- Le. apply filter_le.
Qed.
Print Assumptions C58_every_event_is_answered.
(** A path or address that does not fit its slot overruns it. *)
Theorem C58_long_path : forall rules t s ip path v, connection_validate rules t ip path = Ok true ->
  In v t -> c_socket v = 0 -> 511 < len path \/ 15 < len ip -> undefined (connection_add rules t s ip path).
Proof.
  intros rules t s ip path v V I Hv Hl. unfold connection_add. rewrite V. cbn [bind]. apply claim_long; [now apply (free_room t v)|lia].
Qed.
Print Assumptions C58_long_path.
Example C58_case : let ip := L "10.0.0.1" in
  history [mkLimit (L "/a") 0 5 0] [Open 4 ip (L "/a"); Open 5 ip (L "/A1"); Open 6 ip (L "/b"); Close 4] [true; false; true; true]
    [mkConn 6 (L "/b") ip]
  /\ exists t, run [mkLimit (L "/a") 0 5 0] empty_table [Open 4 ip (L "/a"); Open 5 ip (L "/A1"); Open 6 ip (L "/b"); Close 4]
       = Ok ([true; false; true; true], t) /\ occupied t = [mkConn 6 (L "/b") ip].
Proof.
  intros ip. split.
  - assert (Hr : Forall (fun r => no_nul (l_path r)) [mkLimit (L "/a") 0 5 0]) by (constructor; [nonul|auto]).
    change [true; false; true; true] with (((([] ++ [true]) ++ [false]) ++ [true]) ++ [true]).
    change [Open 4 ip (L "/a"); Open 5 ip (L "/A1"); Open 6 ip (L "/b"); Close 4] with (((([] ++ [Open 4 ip (L "/a")]) ++ [Open 5 ip (L "/A1")]) ++ [Open 6 ip (L "/b")]) ++ [Close 4]).
    assert (N : forall s, s = L "/a" \/ s = L "/A1" \/ s = L "/b" \/ s = ip -> no_nul s).
    { intros s [-> | [-> | [-> | ->]]]; unfold ip; nonul. }
    assert (Ad : forall open p, no_nul p -> Forall (fun c => no_nul (c_path c)) open -> overb [mkLimit (L "/a") 0 5 0] open ip p = false -> ~ over_limit [mkLimit (L "/a") 0 5 0] open ip p).
    { intros open p Np Po O X. apply overb_iff in X; auto. congruence. }
    econstructor; [econstructor; [econstructor; [econstructor; [constructor|..]|..]|..]|..].
    + cbn. split; [lia|]. split; [tauto|]. split; [auto|]. split; [auto|]. lia.
    + apply h_admit; [|cbn; lia]. apply Ad; auto.
    + cbn. split; [lia|]. split; [lia|]. split; [auto|]. split; [auto|]. lia.
    + apply h_refuse. left. apply overb_iff; auto. constructor; auto. apply N. auto.
    + cbn. split; [lia|]. split; [lia|]. split; [auto|]. split; [auto|]. lia.
    + apply h_admit; [|cbn; lia]. apply Ad; auto.
    + cbn. lia.
    + apply (h_close _ [mkConn 6 (L "/b") ip] 4 (L "/a") ip []).
  - eexists. split; vm_compute; reflexivity.
Qed.

(** C60.  [ls] are the lines of the file, [vs] what of them precedes a NUL byte. *)
Theorem C60_limits_file : forall f root content ls vs rules, len root <= 276 ->
  f (root ++ L "/etc/limits") = Some (File content) ->
  text_lines content ls -> Forall2 visible ls vs -> rules_of 64 vs rules -> load_limits f root = Ok rules.
Proof. exact load_limits_eq. Qed.
Print Assumptions C60_limits_file.
Theorem C60_no_file : forall f root, len root <= 276 -> (forall c, f (root ++ L "/etc/limits") <> Some (File c)) -> load_limits f root = Ok [].
Proof. exact load_limits_none. Qed.
Print Assumptions C60_no_file.
(** A path field of more than 511 bytes, or a root of more than 276. *)
Theorem C60_long_path : forall f root content ls pre v t p more post rules, len root <= 276 ->
  f (root ++ L "/etc/limits") = Some (File content) ->
  text_lines content ls -> Forall2 visible ls (pre ++ v :: post) -> rules_of 64 pre rules -> len rules < 64 ->
  v = "/"%char :: t -> tokens (L ",") v (p :: more) -> 511 < len p -> undefined (load_limits f root).
Proof. exact load_limits_long. Qed.
Print Assumptions C60_long_path.
Theorem C60_long_root : forall f root, 276 < len root -> undefined (load_limits f root).
Proof. exact load_limits_oob. Qed.
Print Assumptions C60_long_root.
Definition C60_text : str := L "# path,max,per ip,seconds" ++ [LF] ++ L "/api, 10,-2,60" ++ [LF] ++ L "/x,5" ++ [LF; LF]
  ++ L "x/y,1,2" ++ [LF] ++ L "/static,7,,8x" ++ [LF] ++ L "/last,+3,y".
Example C60_case : load_limits (fun p => if str_eqb p (L "/r/etc/limits") then Some (File C60_text) else None) (L "/r")
  = Ok [mkLimit (L "/api") 10 (-2) 60; mkLimit (L "/static") 7 8 0; mkLimit (L "/last") 3 0 0].
Proof. vm_compute. reflexivity. Qed.

(** C61 *)
Theorem C61_seconds_unused : forall rules rules' t evs,
  Forall2 (fun a b => l_path a = l_path b /\ l_max a = l_max b /\ l_max_ip a = l_max_ip b) rules rules' ->
  run rules t evs = run rules' t evs.
Proof. exact run_seconds. Qed.
Print Assumptions C61_seconds_unused.
(** An open connection stays in the table until it is closed. *)
Theorem C61_never_expires : forall rules evs1 evs2 answers1 open1 answers t c, Forall (fun r => no_nul (l_path r)) rules ->
  history rules evs1 answers1 open1 -> In c open1 -> ~ In (Close (c_socket c)) evs2 ->
  run rules empty_table (evs1 ++ evs2) = Ok (answers, t) -> In c (occupied t).
Proof. exact never_expires. Qed.
Print Assumptions C61_never_expires.
Example C61_case : let ip := L "10.0.0.1" in
  run [mkLimit (L "/a") 1 1 0] empty_table [Open 4 ip (L "/a"); Open 5 ip (L "/b"); Close 5]
  = run [mkLimit (L "/a") 1 1 3600] empty_table [Open 4 ip (L "/a"); Open 5 ip (L "/b"); Close 5]
  /\ run [mkLimit (L "/a") 1 1 0] empty_table [Open 4 ip (L "/a")] = Ok ([true], mkConn 4 (L "/a") ip :: skipn 1 empty_table).
Proof. split; vm_compute; reflexivity. Qed.

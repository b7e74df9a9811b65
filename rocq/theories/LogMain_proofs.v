(** LogMain_proofs.v - lemmas about the logger, the access log and option processing. *)
From Verif Require Import HttpUtils LogMain FileUtils WsConn Lemmas HttpUtils_proofs WsConn_proofs SpecJson SpecHttp SpecConn SpecMain Spec.

(** ** Logger *)
Definition dest (f : logfile) : logfile := match f with LogNull => LogStderr | _ => f end.

Lemma logger_quiet s l t : l < lg_level s -> logger s l t = Ok s.
Proof. intros H. unfold logger. now replace (l <? lg_level s) with true by lia. Qed.

Lemma logger_writes s l t : lg_level s <= l -> 0 <= l <= 5 -> lg_file s <> LogClosed ->
  logger s l t = Ok (mkLog (lg_level s) (dest (lg_file s)) (lg_out s ++ [(l, t, dest (lg_file s))])
                       (if l =? 5 then true else lg_exited s)).
Proof.
  intros H H5 Hf. unfold logger. replace (l <? lg_level s) with false by lia.
  replace ((l <? 0) || (5 <? l)) with false by lia. destruct (lg_file s); try reflexivity. now elim Hf.
Qed.

Lemma log_history calls thr o b : written thr calls o b -> Forall proper calls ->
  forall f o0, f <> LogClosed ->
  exists s, log_run (mkLog thr f o0 false) calls = Ok s
    /\ lg_out s = o0 ++ map (fun m => (fst m, snd m, dest f)) o /\ lg_exited s = b.
Proof.
  induction 1; intros Hp f o0 Hf.
  - eexists. split; [reflexivity|]. cbn. now rewrite app_nil_r.
  - inv Hp. exact (IHwritten H3 f o0 Hf).
  - inv Hp. cbn [log_run lg_exited]. rewrite logger_quiet by (cbn; lia). cbn [bind]. auto.
  - inv Hp. cbn [log_run lg_exited]. rewrite logger_writes; [|cbn; lia|auto|exact Hf].
    cbn [bind lg_level lg_file lg_out lg_exited]. replace (l =? 5) with false by lia.
    destruct (IHwritten H5 (dest f) (o0 ++ [(l, t, dest f)])) as (s & E & Ho & Hb).
    { destruct f; cbn; congruence. }
    exists s. split; [exact E|]. split; [|exact Hb]. rewrite Ho, <- app_assoc. cbn [map app fst snd].
    now replace (dest (dest f)) with (dest f) by now destruct f.
  - inv Hp. cbn [log_run lg_exited]. rewrite logger_writes; [|cbn; lia|lia|exact Hf].
    cbn [bind lg_level lg_file lg_out lg_exited]. replace (5 =? 5) with true by lia.
    eexists. split; [destruct c; reflexivity|]. split; reflexivity.
Qed.

Lemma written_exists calls : forall thr, exists o b, written thr calls o b.
Proof.
  induction calls as [|[l|l t] c IH]; intros thr.
  - eexists _, _; constructor.
  - destruct (IH l) as (o & b & H). eexists _, _. constructor; eauto.
  - destruct (IH thr) as (o & b & H). destruct (Z_lt_dec l thr).
    + eexists _, _. apply w_quiet; eauto.
    + destruct (Z.eq_dec l 5) as [->|N]; [eexists _, _; apply w_fatal; lia|].
      eexists _, _. apply w_say; eauto. lia.
Qed.

Lemma written_unique thr calls o b : written thr calls o b ->
  forall o' b', written thr calls o' b' -> o' = o /\ b' = b.
Proof.
  induction 1; intros o' b' H'; inv H'; auto; try lia.
  destruct (IHwritten _ _ H10) as [-> ->]. auto.
Qed.

(** ** Command line *)
Definition opts_of (i : item) : list opt :=
  match i with
  | Debug => [OptD] | Plain => [OptF] | Bind a _ => [OptB a] | Port a _ => [OptP a] | Root a _ => [OptR a]
  | Operand _ => []
  end.

Lemma getopt_item i rest : well_formed i -> getopt (words i ++ rest) = opts_of i ++ getopt rest.
Proof.
  destruct i as [| |a [|]|a [|]|a [|]|a]; intros W; cbn [words with_value opts_of well_formed] in *;
    try (destruct rest; reflexivity); try reflexivity;
    try (destruct a as [|c t]; [now elim W|]; destruct rest; reflexivity).
  destruct a as [|c t]; [reflexivity|]. cbn [app getopt]. destruct (ceq c "-") eqn:E; [|reflexivity].
  apply ceq_true in E. subst. destruct W as [W|W]; [inv W; reflexivity|]. now elim (W t).
Qed.

Lemma getopt_items l rest : Forall well_formed l ->
  getopt (flat_map words l ++ rest) = flat_map opts_of l ++ getopt rest.
Proof.
  induction 1 as [|i l W F IH]; [reflexivity|]. cbn [flat_map]. rewrite <- app_assoc.
  rewrite getopt_item by auto. now rewrite IH, app_assoc.
Qed.

(** The configuration after the items. *)
Definition lastv {A} (k : item -> option A) (d : A) (l : list item) : A :=
  fold_left (fun acc i => match k i with Some v => v | None => acc end) l d.
Definition debug_of (i : item) : option Z := match i with Debug => Some 1 | _ => None end.
Definition plain_of (i : item) : option bool := match i with Plain => Some false | _ => None end.
Definition portn_of (i : item) : option Z := match i with Port a _ => Some (atoi a) | _ => None end.

Definition conf_after (c : config) (l : list item) : config :=
  mkConfig (lastv portn_of (cf_port c) l) (lastv bind_of (cf_bind c) l) (lastv root_of (cf_root c) l)
    (cf_static_root c) (cf_index c) (cf_favicon c) (lastv plain_of (cf_ssl c) l) (lastv debug_of (cf_level c) l).

Lemma main_items f l rest : Forall (acceptable (fun p => is_dir f p = true)) l ->
  forall c, main_loop f c (flat_map opts_of l ++ rest) = main_loop f (conf_after c l) rest.
Proof.
  induction 1 as [|i l W F IH]; intros c; [destruct c; reflexivity|].
  destruct i as [| |a j|a j|a j|a]; cbn [flat_map opts_of app main_loop acceptable] in *.
  - rewrite IH. reflexivity.
  - rewrite IH. reflexivity.
  - rewrite fits_ok by lia. cbn [bind]. rewrite IH. reflexivity.
  - rewrite IH. reflexivity.
  - destruct W as [W1 W2]. rewrite fits_ok by (unfold ROOT_PATH_MAX; lia). cbn [bind]. rewrite W2, IH. reflexivity.
  - rewrite IH. reflexivity.
Qed.

Lemma lastv_app {A} (k : item -> option A) d a b : lastv k d (a ++ b) = lastv k (lastv k d a) b.
Proof. unfold lastv. apply fold_left_app. Qed.
Lemma lastv_none {A} (k : item -> option A) d b : (forall j, In j b -> k j = None) -> lastv k d b = d.
Proof.
  revert d. induction b as [|i b IH]; intros d H; [reflexivity|]. unfold lastv in *. cbn.
  rewrite (H i) by now left. apply IH. intros; apply H; now right.
Qed.
Lemma lastv_of {A} (k : item -> option A) d l v : last_of k d l v -> lastv k d l = v.
Proof.
  intros [l' H|a i v' b Hi H]; [now apply lastv_none|].
  rewrite lastv_app. unfold lastv at 1. cbn. rewrite Hi. change (lastv k v' b = v'). now apply lastv_none.
Qed.

Lemma last_port l p : last_of port_of (L "4443") l p -> lastv portn_of 4443 l = atoi p.
Proof.
  intros [l' H|a i v' b Hi H].
  - rewrite lastv_none; [reflexivity|]. intros j Hj. specialize (H j Hj). destruct j; easy.
  - rewrite lastv_app. unfold lastv at 1. cbn. destruct i; try discriminate Hi. inv Hi.
    change (lastv portn_of (atoi v') b = atoi v'). apply lastv_none. intros j Hj. specialize (H j Hj). destruct j; easy.
Qed.

Lemma lastv_const {A} (k : item -> option A) d v l : (forall i w, k i = Some w -> w = v) ->
  ((exists i w, In i l /\ k i = Some w) /\ lastv k d l = v) \/ ((forall i, In i l -> k i = None) /\ lastv k d l = d).
Proof.
  intros K. induction l as [|i l IH] using rev_ind; [right; split; [easy|reflexivity]|].
  rewrite lastv_app. unfold lastv at 1 3. cbn. destruct (k i) as [w|] eqn:E.
  - left. split; [|eauto]. exists i, w. split; [apply in_or_app; right; now left|exact E].
  - destruct IH as [((j & w & Hj & Ew) & ->)|(H & ->)].
    + left. split; [|reflexivity]. exists j, w. split; [apply in_or_app; now left|exact Ew].
    + right. split; [|reflexivity]. intros j Hj. apply in_app_or in Hj as [Hj|[<-|[]]]; auto.
Qed.

Lemma debug_level l : (In Debug l -> lastv debug_of 2 l = 1) /\ (~ In Debug l -> lastv debug_of 2 l = 2).
Proof.
  destruct (lastv_const debug_of 2 1 l) as [((i & w & Hi & E) & ->)|(H & ->)].
  - intros [] w E; inv E; auto.
  - split; [auto|]. intros N. destruct i; try discriminate E. now elim N.
  - split; [|auto]. intros D. specialize (H _ D). discriminate H.
Qed.
Lemma plain_ssl l : (In Plain l -> lastv plain_of true l = false) /\ (~ In Plain l -> lastv plain_of true l = true).
Proof.
  destruct (lastv_const plain_of true false l) as [((i & w & Hi & E) & ->)|(H & ->)].
  - intros [] w E; inv E; auto.
  - split; [auto|]. intros N. destruct i; try discriminate E. now elim N.
  - split; [|auto]. intros D. specialize (H _ D). discriminate H.
Qed.

Lemma main_launch_same f l : forall c c', main_loop f c l = Ok (Launch c') ->
  cf_static_root c' = cf_static_root c /\ cf_index c' = cf_index c /\ cf_favicon c' = cf_favicon c.
Proof.
  induction l as [|o l IH]; intros c c' H; [inv H; auto|].
  destruct o; cbn [main_loop] in H; try discriminate H;
    try (apply IH in H; exact H).
  - apply bind_ok_inv in H as (b & _ & H). apply IH in H. exact H.
  - apply bind_ok_inv in H as (b & _ & H). destruct (is_dir f b); [|discriminate]. apply IH in H. exact H.
Qed.

(** Router_proofs.v - lemmas about the model of /repo/router.c. *)
From Verif Require Import StringUtils Router Lemmas StringUtils_proofs JsonUtils_proofs ConfParser_proofs FileUtils_proofs HttpUtils_proofs SpecConf SpecHttp SpecRouter Spec.

(** ** Templates *)
Lemma plain_text_no_nul c s : plain_text c s -> no_nul s.
Proof. intros H. eapply Forall_impl; [|exact H]. cbn. intros x [Hx _] ->. now vm_compute in Hx. Qed.

Lemma brace_scan_eq a : plain_text "{" a -> forall pre x b fuel, (x = "{"%char \/ x = NUL \/ 128 <= code x) ->
  (length a <= fuel)%nat ->
  brace_scan fuel (map Some pre ++ map Some a ++ Some x :: b) (len pre) = Ok (len pre + len a).
Proof.
  induction 1 as [|c a [Hc Hn] _ IH]; intros pre x b fuel Hx Hf.
  - cbn [map app]. destruct fuel; cbn [brace_scan]; rewrite rd_at by llia; cbn [bind];
    replace ((0 <? schar x) && negb (ceq x "{")) with false; try (f_equal; llia).
    all: symmetry; destruct Hx as [->|[->|Hx]]; [reflexivity|reflexivity|];
      apply andb_false_iff; left; unfold schar; replace (code x <? 128) with false by lia;
      pose proof (code_range x); lia.
  - cbn [length] in Hf. destruct fuel as [|f]; [lia|]. cbn [map app brace_scan].
    rewrite rd_at by llia. cbn [bind].
    replace ((0 <? schar c) && negb (ceq c "{")) with true.
    + replace (map Some pre ++ Some c :: map Some a ++ Some x :: b)
        with (map Some (pre ++ [c]) ++ map Some a ++ Some x :: b) by now rewrite map_app, <- app_assoc.
      replace (len pre + 1) with (len (pre ++ [c])) by llia. rewrite IH by (auto; lia). f_equal. llia.
    + symmetry. apply andb_true_iff. split; [unfold schar; replace (code c <? 128) with true by lia; lia|].
      apply negb_true_iff. now apply ceq_neq.
Qed.

Lemma resolve_route_eq a x name c : plain_text "{" a -> (x = "{"%char \/ 128 <= code x) -> no_nul name ->
  router_resolve_route (a ++ x :: name ++ [c])
  = (param <- fits MAX_PARAM_LENGTH name;; prefix <- fits MAX_ROUTE_PATH a;; Ok (prefix, param)).
Proof.
  intros Ha Hx Hn. unfold router_resolve_route.
  replace (cs (a ++ x :: name ++ [c])) with ((map Some a ++ Some x :: map Some name) ++ Some c :: [Some NUL])
    by (unfold cs; repeat (appn); reflexivity).
  rewrite wr_at by llia. cbn [bind].
  replace ((map Some a ++ Some x :: map Some name) ++ [Some NUL; Some NUL])
    with (map Some a ++ Some x :: map Some name ++ [Some NUL; Some NUL]) by now rewrite <- app_assoc.
  pose proof (brace_scan_eq a Ha [] x (map Some name ++ [Some NUL; Some NUL])) as B.
  change (len (@nil ascii)) with 0 in B. cbn [map app] in B. rewrite Z.add_0_l in B.
  rewrite B; [|tauto|rewrite app_length, map_length; lia]. cbn [bind].
  replace (map Some a ++ Some x :: map Some name ++ [Some NUL; Some NUL])
    with ((map Some a ++ [Some x]) ++ map Some name ++ [Some NUL; Some NUL]) by now rewrite <- app_assoc.
  rewrite from_app by llia. rewrite cstr_map by auto. cbn [bind].
  destruct (fits MAX_PARAM_LENGTH name) as [param|u]; [|reflexivity]. cbn [bind]. rewrite <- app_assoc. cbn [app].
  rewrite wr_at by llia. cbn [bind]. rewrite cstr_map by (eapply plain_text_no_nul; eauto). reflexivity.
Qed.

(** The template ends with its brace. *)
Lemma resolve_route_last a x : plain_text "{" a ->
  router_resolve_route (a ++ [x])
  = (prefix <- fits MAX_ROUTE_PATH a;; Ok (prefix, [])).
Proof.
  intros Ha. unfold router_resolve_route.
  replace (cs (a ++ [x])) with (map Some a ++ Some x :: [Some NUL])
    by (unfold cs; repeat (appn); reflexivity).
  rewrite wr_at by llia. cbn [bind].
  pose proof (brace_scan_eq a Ha [] NUL [Some NUL]) as B.
  change (len (@nil ascii)) with 0 in B. cbn [map app] in B. rewrite Z.add_0_l in B.
  rewrite B; [|tauto|rewrite app_length, map_length; lia]. cbn [bind].
  replace (map Some a ++ [Some NUL; Some NUL]) with ((map Some a ++ [Some NUL]) ++ [Some NUL]) at 1 by now rewrite <- app_assoc.
  rewrite from_app by llia. change (cstr [Some NUL]) with (@Ok (list ascii) []). cbn [bind].
  rewrite fits_ok by (cbn; unfold MAX_PARAM_LENGTH; lia). cbn [bind].
  rewrite wr_at by llia. cbn [bind]. rewrite cstr_map by (eapply plain_text_no_nul; eauto). reflexivity.
Qed.

Lemma strchr_brace_in s c : In c s -> exists n, strchr s c = Some n.
Proof.
  intros H. destruct (strchr s c) as [n|] eqn:E; eauto. apply strchr_none in E. easy.
Qed.

Definition room_in_table (t : router) (rt : route) : outcome router :=
  if MAX_ROUTES <=? len t then UB ArrayIndex else Ok (t ++ [rt]).

Lemma add_param t a x name c h f : plain_text "{" a -> (x = "{"%char \/ 128 <= code x) -> no_nul name ->
  In "{"%char (a ++ x :: name ++ [c]) ->
  router_add_route t (a ++ x :: name ++ [c]) h f
  = (param <- fits MAX_PARAM_LENGTH name;; prefix <- fits MAX_ROUTE_PATH a;;
     room_in_table t (mkRoute MATCHER_TYPE_PARAM prefix param h f true)).
Proof.
  intros Ha Hx Hn I. unfold router_add_route. destruct (strchr_brace_in _ _ I) as [n ->].
  rewrite resolve_route_eq by auto. destruct (fits MAX_PARAM_LENGTH name); [|reflexivity]. cbn [bind].
  destruct (fits MAX_ROUTE_PATH a); reflexivity.
Qed.
Lemma add_param_last t a h f : plain_text "{" a ->
  router_add_route t (a ++ L "{") h f
  = (prefix <- fits MAX_ROUTE_PATH a;; room_in_table t (mkRoute MATCHER_TYPE_PARAM prefix [] h f true)).
Proof.
  intros Ha. unfold router_add_route. destruct (strchr_brace_in (a ++ L "{") "{") as [n ->].
  { apply in_or_app. right. now left. }
  change (L "{") with ["{"%char]. rewrite resolve_route_last by auto. destruct (fits MAX_ROUTE_PATH a); reflexivity.
Qed.
Lemma add_constant t a h f : ~ In "{"%char a ->
  router_add_route t a h f
  = (prefix <- fits MAX_ROUTE_PATH a;; room_in_table t (mkRoute MATCHER_TYPE_CONSTANT prefix [] h f true)).
Proof.
  intros Ha. unfold router_add_route. apply strchr_none in Ha. rewrite Ha. destruct (fits MAX_ROUTE_PATH a); reflexivity.
Qed.

(** ** Parameters *)
Lemma substring_len p m : substring p m -> len p <= len m.
Proof. intros (a & b & ->). llia. Qed.
Lemma no_nul_skipn n s : no_nul s -> no_nul (skipn n s).
Proof. intros H. rewrite <- (firstn_skipn n s) in H. now apply no_nul_app in H as [_ H]. Qed.

Lemma extract_param_eq m prefix param : no_nul m -> no_nul param -> len prefix <= len m ->
  router_extract_param m prefix param
  = if len param <=? 2 * len prefix + 8
    then Ok (param ++ L "=" ++ skipn (length prefix) m) else UB OobWrite.
Proof.
  intros Hm Hp Hl. unfold router_extract_param.
  assert (E : m = firstn (length prefix) m ++ skipn (length prefix) m) by now rewrite firstn_skipn.
  assert (Ll : len (firstn (length prefix) m) = len prefix).
  { unfold len in *. rewrite firstn_length. lia. }
  replace (cs m) with (map Some (firstn (length prefix) m) ++ cs (skipn (length prefix) m))
    by (unfold cs; rewrite app_assoc, <- map_app, <- E; reflexivity).
  rewrite from_app by llia. rewrite cstr_cs0 by now apply no_nul_skipn. cbn [bind].
  set (v := skipn (length prefix) m) in *.
  assert (Lv : len v = len m - len prefix) by (apply (f_equal len) in E; rewrite len_app in E; lia).
  assert (N : no_nul (param ++ L "=" ++ v)).
  { apply no_nul_app. split; auto. apply no_nul_app. split; [now apply no_nul_L|]. now apply no_nul_skipn. }
  assert (Lt : len (param ++ L "=" ++ v) = len param + 1 + len v).
  { rewrite !len_app. change (len (L "=")) with 1. lia. }
  destruct (Z.leb_spec (len param) (2 * len prefix + 8)) as [H|H].
  - rewrite strcpy_0 by (rewrite Lt, len_calloc; lens; lia). cbn [bind]. now rewrite cstr_cs.
  - rewrite strcpy_oob; [reflexivity|]. rewrite Lt, len_calloc. lens. lia.
Qed.

Lemma with_param_eq form p v : with_param form p v = match form with [] => [] | _ => form ++ L "&" end ++ p ++ L "=" ++ v.
Proof. destruct form; [reflexivity|]. cbn [with_param]. now rewrite <- app_assoc. Qed.

(** ** The loop *)
Definition step (r : api_request) (rt : route) (m : str) : outcome api_request :=
  match rt_type rt with
  | MATCHER_TYPE_CONSTANT => Ok r
  | MATCHER_TYPE_PARAM =>
    qs <- router_extract_param m (rt_prefix rt) (rt_param rt);;
    n <- strlen (r_form r);;
    form <- (if n =? 0 then Ok (cs qs) else strcat (r_form r) (L "&" ++ qs));;
    Ok (set_form r form)
  end.

Lemma str_eqb_refl s : str_eqb s s = true.
Proof. destruct (str_eqb_spec s s); easy. Qed.

Lemma route_loop_none t m r : live t -> none_selected t m -> route_loop t m r = Ok (r, None, None).
Proof.
  intros Hl Hn. induction t as [|rt t IH]; [reflexivity|]. inv Hl. inv Hn. cbn [route_loop]. rewrite H1. cbn [negb].
  unfold matches in H3. destruct (rt_type rt).
  - rewrite (proj2 (str_eqb_neq _ _)) by auto. auto.
  - destruct (str_eqb_spec (rt_prefix rt) m) as [E|N].
    + destruct (strstr m (rt_prefix rt)); auto.
    + destruct (strstr m (rt_prefix rt)) as [n|] eqn:S; auto. exfalso. apply H3. split; auto.
      apply strstr_substring. eauto.
Qed.
Lemma route_loop_skip a t m r : live a -> none_selected a m -> route_loop (a ++ t) m r = route_loop t m r.
Proof.
  intros Hl Hn. induction a as [|rt a IH]; [reflexivity|]. inv Hl. inv Hn. cbn [app route_loop]. rewrite H1. cbn [negb].
  unfold matches in H3. destruct (rt_type rt).
  - rewrite (proj2 (str_eqb_neq _ _)) by auto. auto.
  - destruct (str_eqb_spec (rt_prefix rt) m) as [E|N].
    + destruct (strstr m (rt_prefix rt)); auto.
    + destruct (strstr m (rt_prefix rt)) as [n|] eqn:S; auto. exfalso. apply H3. split; auto.
      apply strstr_substring. eauto.
Qed.
Lemma route_loop_selected t m r rt : live t -> selected t m rt ->
  route_loop t m r = (r1 <- step r rt m;; Ok (r1, rt_handler rt, rt_filter rt)).
Proof.
  intros Hl (a & b & -> & Hm & Hn). apply Forall_app in Hl as [La Lb]. rewrite route_loop_skip by auto.
  inv Lb. cbn [route_loop]. rewrite H1. cbn [negb]. unfold matches in Hm. unfold step. destruct (rt_type rt).
  - subst m. now rewrite str_eqb_refl.
  - destruct Hm as [S N]. rewrite (proj2 (str_eqb_neq _ _)) by auto. apply strstr_substring in S as [n ->].
    destruct (router_extract_param m (rt_prefix rt) (rt_param rt)); [|reflexivity]. cbn [bind].
    destruct (strlen (r_form r)); [|reflexivity]. cbn [bind].
    match goal with |- context [bind ?x _] => destruct x end; reflexivity.
Qed.

Lemma strlen_cstr b s : cstr b = Ok s -> strlen b = Ok (len s).
Proof. unfold strlen. now intros ->. Qed.

Lemma step_ok r rt m : no_nul m -> no_nul (rt_param rt) -> matches rt m -> room r rt m ->
  exists r1, step r rt m = Ok r1 /\ seen r r1 rt m.
Proof.
  intros Nm Np Hm R. unfold step, seen, room, matches in *. destruct (rt_type rt); [eauto|].
  destruct R as (P & form & F & R), Hm as [S N]. pose proof (substring_len _ _ S) as SL.
  rewrite extract_param_eq by auto. replace (len (rt_param rt) <=? 2 * len (rt_prefix rt) + 8) with true by lia. cbn [bind].
  rewrite (strlen_cstr _ _ F). cbn [bind]. set (v := skipn (length (rt_prefix rt)) m) in *.
  assert (Nv : no_nul (rt_param rt ++ L "=" ++ v)).
  { apply no_nul_app. split; auto. apply no_nul_app. split; [now apply no_nul_L|]. now apply no_nul_skipn. }
  destruct (Z.eqb_spec (len form) 0) as [Z0|Z0].
  - destruct form; [|rewrite len_cons in Z0; lens; lia]. cbn [bind]. eexists. split; [reflexivity|].
    exists [], (cs (rt_param rt ++ L "=" ++ v)). split; auto. split; auto. now apply cstr_cs0.
  - assert (Hne : form <> []) by (intros ->; now apply Z0). destruct R as [R|R]; [easy|].
    pose proof (cstr_inv _ _ F) as (Nf & rest & E). rewrite with_param_eq in R. destruct form as [|c form']; [easy|].
    set (form := c :: form') in *. rewrite E in *. rewrite !len_app in R. 
    rewrite strcat_cs; auto; [|rewrite !len_app; rewrite len_cs in R; lia].
    cbn [bind]. eexists. split; [reflexivity|]. eexists form, _. split; auto. split; [|reflexivity].
    rewrite cstr_cs.
    + rewrite with_param_eq. unfold form at 2. fold form. rewrite <- !app_assoc. reflexivity.
    + apply no_nul_app. split; auto. apply no_nul_app. split; auto. now apply no_nul_L.
Qed.

(** Without room the request is undefined. *)
Lemma step_oob r rt m : no_nul m -> no_nul (rt_param rt) -> matches rt m -> ~ room r rt m ->
  undefined (step r rt m).
Proof.
  intros Nm Np Hm R. unfold step, room, matches in *. destruct (rt_type rt); [now exfalso|].
  destruct Hm as [S N]. pose proof (substring_len _ _ S) as SL.
  rewrite extract_param_eq by auto.
  destruct (Z.leb_spec (len (rt_param rt)) (2 * len (rt_prefix rt) + 8)) as [P|P]; [|eexists; reflexivity]. cbn [bind].
  destruct (cstr (r_form r)) as [form|u] eqn:F; [|unfold strlen; rewrite F; eexists; reflexivity].
  rewrite (strlen_cstr _ _ F). cbn [bind]. set (v := skipn (length (rt_prefix rt)) m) in *.
  destruct (Z.eqb_spec (len form) 0) as [Z0|Z0].
  - exfalso. apply R. split; auto. exists form. split; auto. left. destruct form; [auto|rewrite len_cons in Z0; lens; lia].
  - pose proof (cstr_inv _ _ F) as (Nf & rest & E).
    destruct (Z_lt_dec (len (with_param form (rt_param rt) v)) (len (r_form r))) as [X|X].
    + exfalso. apply R. split; auto. eauto.
    + rewrite with_param_eq in X. destruct form as [|c form']; [easy|]. set (form := c :: form') in *.
      rewrite E in *. rewrite !len_app in X. rewrite strcat_oob; auto; [eexists; reflexivity|].
      rewrite !len_app. rewrite len_cs in X. lia.
Qed.

(** ** router_handle_request *)
Definition finish_call (a : callbacks) (r1 : api_request) (handler filter : option nat) : outcome (list call * api_request) :=
  match handler with
  | None => r2 <- reject_routing_request r1;; Ok ([], r2)
  | Some h =>
    match filter with
    | None => Ok ([CallHandler h], on_handler a h r1)
    | Some f =>
      let '(r2, pass) := on_filter a f r1 in
      if pass : bool then Ok ([CallFilter f; CallHandler h], on_handler a h r2)
      else Ok ([CallFilter f], r2)
    end
  end.
Lemma handle_request_eq a t r : router_handle_request a t r
  = (m <- fits 255 (method_path r);; '(r1, h, f) <- route_loop t m r;; finish_call a r1 h f).
Proof. reflexivity. Qed.
Lemma handle_selected a t r rt : live t -> len (method_path r) <= 254 -> selected t (method_path r) rt ->
  router_handle_request a t r = (r1 <- step r rt (method_path r);; finish_call a r1 (rt_handler rt) (rt_filter rt)).
Proof.
  intros Hl Hm Hs. rewrite handle_request_eq, fits_ok by lia. cbn [bind]. rewrite (route_loop_selected _ _ _ rt) by auto.
  destruct (step r rt (method_path r)); reflexivity.
Qed.
Lemma handle_none a t r : live t -> len (method_path r) <= 254 -> none_selected t (method_path r) ->
  router_handle_request a t r = (r2 <- bad_request r;; Ok ([], r2)).
Proof. intros Hl Hm Hs. rewrite handle_request_eq, fits_ok by lia. cbn [bind]. now rewrite route_loop_none. Qed.

Lemma matches_dec rt m : matches rt m \/ ~ matches rt m.
Proof.
  unfold matches. destruct (rt_type rt).
  - destruct (list_eq_dec ascii_dec (rt_prefix rt) m); auto.
  - rewrite <- strstr_substring. destruct (list_eq_dec ascii_dec (rt_prefix rt) m) as [E|E]; [right; tauto|].
    destruct (strstr m (rt_prefix rt)) as [n|]; [left; eauto|]. right. intros [[n H] _]. discriminate.
Qed.
Lemma selected_or_none t m : (exists rt, selected t m rt) \/ none_selected t m.
Proof.
  induction t as [|x t [(rt & a & b & -> & M & N)|IH]].
  - right. constructor.
  - destruct (matches_dec x m); left; [exists x, [], (a ++ rt :: b)|exists rt, (x :: a), b]; repeat split; auto; constructor; auto.
  - destruct (matches_dec x m); [left; exists x, [], t; repeat split; auto|right; constructor; auto].
Qed.
Lemma selected_unique t m rt rt' : selected t m rt -> selected t m rt' -> rt = rt'.
Proof.
  revert rt rt'. induction t as [|x t IH]; intros rt rt' (a & b & E & M & N) (a' & b' & E' & M' & N').
  - destruct a; discriminate.
  - destruct a as [|y a], a' as [|y' a']; inv E; inv E'; auto.
    + inv N'. easy.
    + inv N. easy.
    + apply (IH rt rt'); [exists a, b|exists a', b']; inv N; inv N'; auto.
Qed.

(** Only the routes up to the selected one matter. *)
Lemma route_loop_head rt b m r : rt_live rt = true -> matches rt m ->
  route_loop (rt :: b) m r = (r1 <- step r rt m;; Ok (r1, rt_handler rt, rt_filter rt)).
Proof.
  intros H1 Hm. cbn [route_loop]. rewrite H1. cbn [negb]. unfold matches in Hm. unfold step. destruct (rt_type rt).
  - subst m. now rewrite str_eqb_refl.
  - destruct Hm as [S N]. rewrite (proj2 (str_eqb_neq _ _)) by auto. apply strstr_substring in S as [n ->].
    destruct (router_extract_param m (rt_prefix rt) (rt_param rt)); [|reflexivity]. cbn [bind].
    destruct (strlen (r_form r)); [|reflexivity]. cbn [bind].
    match goal with |- context [bind ?x _] => destruct x end; reflexivity.
Qed.
Lemma handle_request_ub a t r : 255 <= len (method_path r) -> undefined (router_handle_request a t r).
Proof. intros H. rewrite handle_request_eq, fits_oob by lia. eexists. reflexivity. Qed.

(** ** Lifecycle *)
Lemma free_table_eq t : live t -> exists t', free_routing_table t = Ok t' /\ length t' = length t
  /\ Forall (fun rt => rt_live rt = false) t'.
Proof.
  induction 1 as [|rt t H _ (t' & E & Le & F)]; [exists []; repeat split; constructor|].
  cbn [free_routing_table]. rewrite H, E. cbn [bind]. eexists. split; [reflexivity|]. split; [cbn; lia|]. constructor; auto.
Qed.
Lemma freed_use t : Forall (fun rt => rt_live rt = false) t -> t <> [] ->
  free_routing_table t = UB UseAfterFree /\ forall m r, route_loop t m r = UB UseAfterFree.
Proof.
  intros F N. destruct t as [|rt t]; [easy|]. inv F. split; [cbn [free_routing_table]|intros m r; cbn [route_loop]]; now rewrite H1.
Qed.

(** ** Where the prefix occurs *)
Lemma app_cut (a b c d : str) x : a ++ x :: b = c ++ x :: d -> ~ In x a -> ~ In x c -> a = c /\ b = d.
Proof.
  revert c. induction a as [|y a IH]; intros [|z c] E Ha Hc; cbn [app] in E; inv E; auto.
  - exfalso. apply Hc. now left.
  - exfalso. apply Ha. now left.
  - destruct (IH c) as [-> ->]; auto; intros X; [apply Ha|apply Hc]; now right.
Qed.
(** [x] occurs in [u ++ [x] ++ w] only at its place when it is in neither side: where an
    occurrence of [a ++ x :: b] lies. *)
Lemma occurrence_cut p (M x : str) c P a b :
  a ++ (p ++ c :: x) ++ b = M ++ c :: P -> ~ In c p -> ~ In c M ->
  (a ++ p = M /\ x ++ b = P) \/ (exists a', a ++ p = M ++ c :: a' /\ P = a' ++ c :: x ++ b).
Proof.
  intros E Hp HM. rewrite <- app_assoc in E. cbn [app] in E. rewrite app_assoc in E.
  revert E. generalize (a ++ p). intros u E. revert M HM E. induction u as [|y u IH]; intros [|z M] HM E; cbn [app] in E; inv E.
  - left. auto.
  - exfalso. apply HM. now left.
  - right. exists u. split; auto.
  - destruct (IH M) as [[-> ->]|(a' & -> & ->)]; auto.
    + intros X. apply HM. now right.
    + right. exists a'. auto.
Qed.
Lemma prefix_at_start M' M X P : ~ In ":"%char M' -> ~ In ":"%char M ->
  (forall a, M = a ++ M' -> a = []) -> ~ substring (M' ++ L ":") P ->
  substring (M' ++ L ":" ++ X) (M ++ L ":" ++ P) -> M = M' /\ exists v, P = X ++ v.
Proof.
  intros H1 H3 Hs Hn (a & b & E). symmetry in E. 
  apply (occurrence_cut M' M X ":" P a b) in E as [[E1 E2]|(a' & E1 & E2)]; auto.
  - assert (a = []) as -> by (apply Hs; auto). split; [auto|]. exists b. auto.
  - exfalso.
    (* M' is a suffix of M ++ ":" ++ a', contains no ":" *)
    assert (S : exists l, a' = l ++ M').
    { clear - E1 H1. revert a E1. induction M as [|z M IH]; intros a E1.
      - cbn [app] in E1. destruct a as [|y a]; cbn [app] in E1.
        + exfalso. apply H1. rewrite E1. now left.
        + inv E1. eauto.
      - destruct a as [|y a].
        + exfalso. apply H1. cbn [app] in E1. rewrite E1. right. apply in_or_app. right. now left.
        + inv E1. eauto. }
    destruct S as [l ->]. apply Hn. exists l, (X ++ b). rewrite E2. now rewrite <- !app_assoc.
Qed.

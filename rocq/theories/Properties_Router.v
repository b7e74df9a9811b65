(** Properties_Router.v - C37 to C45: routing (/repo/router.c). *)
From Verif Require Import StringUtils HttpUtils Router Lemmas StringUtils_proofs HttpUtils_proofs Router_proofs SpecHttp SpecRouter Spec.

(** C37.  [c] is the last character of the template (normally the closing brace). *)
Theorem C37_parametric : forall t prefix name c h f, plain_text "{" prefix -> no_nul name -> len t < 128 ->
  (len prefix <= 255 -> len name <= 63 ->
   router_add_route t (prefix ++ L "{" ++ name ++ [c]) h f
   = Ok (t ++ [mkRoute MATCHER_TYPE_PARAM prefix name h f true]))
  /\ (255 < len prefix \/ 63 < len name -> undefined (router_add_route t (prefix ++ L "{" ++ name ++ [c]) h f)).
Proof.
  intros t prefix name c h f Hp Hn Ht. change (L "{" ++ name ++ [c]) with ("{"%char :: name ++ [c]).
  rewrite add_param; auto; [|apply in_or_app; right; now left].
  unfold room_in_table. replace (MAX_ROUTES <=? len t) with false by (unfold MAX_ROUTES; lia).
  split; [intros L1 L2|intros [Hl|Hl]].
  - now rewrite !fits_ok by (unfold MAX_PARAM_LENGTH, MAX_ROUTE_PATH; lia).
  - rewrite (fits_oob MAX_ROUTE_PATH) by (unfold MAX_ROUTE_PATH; lia). destruct (fits MAX_PARAM_LENGTH name); eexists; reflexivity.
  - rewrite fits_oob by (unfold MAX_PARAM_LENGTH; lia). eexists; reflexivity.
Qed.
Print Assumptions C37_parametric.
Theorem C37_constant : forall t template h f, ~ In "{"%char template -> len t < 128 ->
  (len template <= 255 ->
   router_add_route t template h f = Ok (t ++ [mkRoute MATCHER_TYPE_CONSTANT template [] h f true]))
  /\ (255 < len template -> undefined (router_add_route t template h f)).
Proof.
  intros t template h f Hp Ht. rewrite add_constant by auto. unfold room_in_table.
  replace (MAX_ROUTES <=? len t) with false by (unfold MAX_ROUTES; lia). split; intros Hl.
  - now rewrite !fits_ok by (unfold MAX_ROUTE_PATH; lia).
  - rewrite fits_oob by (unfold MAX_ROUTE_PATH; lia). eexists; reflexivity.
Qed.
Print Assumptions C37_constant.
(** The other templates containing a brace: one that ends with its only brace, and one with a byte
    above 127 before the brace - that byte then plays the role of the brace. *)
Theorem C37_irregular : forall t prefix x name c h f, plain_text "{" prefix -> len t < 128 -> len prefix <= 255 ->
  router_add_route t (prefix ++ L "{") h f = Ok (t ++ [mkRoute MATCHER_TYPE_PARAM prefix [] h f true])
  /\ (128 <= code x -> In "{"%char (name ++ [c]) -> no_nul name -> len name <= 63 ->
      router_add_route t (prefix ++ x :: name ++ [c]) h f = Ok (t ++ [mkRoute MATCHER_TYPE_PARAM prefix name h f true])).
Proof.
  intros t prefix x name c h f Hp Ht Hl. split.
  - rewrite add_param_last by auto. unfold room_in_table.
    replace (MAX_ROUTES <=? len t) with false by (unfold MAX_ROUTES; lia).
    now rewrite !fits_ok by (unfold MAX_ROUTE_PATH; lia).
  - intros Hx I Hn Hln. rewrite add_param; auto; [|apply in_or_app; right; now right].
    unfold room_in_table. replace (MAX_ROUTES <=? len t) with false by (unfold MAX_ROUTES; lia).
    now rewrite !fits_ok by (unfold MAX_PARAM_LENGTH, MAX_ROUTE_PATH; lia).
Qed.
Print Assumptions C37_irregular.
Example C37_case :
  router_add_route [] (L "GET:/users/{id}") (Some 1%nat) None
   = Ok [mkRoute MATCHER_TYPE_PARAM (L "GET:/users/") (L "id") (Some 1%nat) None true]
  /\ router_add_route [] (L "GET:/u/{id}/books") (Some 1%nat) None
   = Ok [mkRoute MATCHER_TYPE_PARAM (L "GET:/u/") (L "id}/book") (Some 1%nat) None true].
Proof. split; vm_compute; reflexivity. Qed.

(** C38, C39.  [seen] describes the request given to the application. *)
Theorem C38_selected_route_runs : forall a t r rt h, live t -> len (method_path r) <= 254 ->
  no_nul (method_path r) -> no_nul (rt_param rt) ->
  selected t (method_path r) rt -> room r rt (method_path r) -> rt_handler rt = Some h ->
  exists r1, seen r r1 rt (method_path r) /\
    match rt_filter rt with
    | None => router_handle_request a t r = Ok ([CallHandler h], on_handler a h r1)
    | Some f =>
      forall r2 pass, on_filter a f r1 = (r2, pass) ->
        router_handle_request a t r
        = if pass then Ok ([CallFilter f; CallHandler h], on_handler a h r2) else Ok ([CallFilter f], r2)
    end.
Proof.
  intros a t r rt h Hl Hm Nm Np Hs Hr Hh. rewrite (handle_selected a t r rt) by auto.
  destruct (step_ok r rt (method_path r)) as (r1 & E & S); auto.
  { destruct Hs as (? & ? & _ & X & _). exact X. }
  exists r1. split; auto. rewrite E, Hh. cbn [bind finish_call]. destruct (rt_filter rt) as [f|]; [|reflexivity].
  intros r2 pass ->. reflexivity.
Qed.
Print Assumptions C38_selected_route_runs.
Theorem C38_decides : forall t m, (exists rt, selected t m rt /\ forall rt', selected t m rt' -> rt' = rt) \/ none_selected t m.
Proof.
  intros t m. destruct (selected_or_none t m) as [[rt H]|H]; auto. left. exists rt. split; auto.
  intros rt' H'. eapply selected_unique; eauto.
Qed.
Print Assumptions C38_decides.
(** Later routes do not matter, whatever they are. *)
Theorem C38_later_routes_irrelevant : forall a r before rt after1 after2, live (before ++ [rt]) ->
  matches rt (method_path r) -> none_selected before (method_path r) ->
  router_handle_request a (before ++ rt :: after1) r = router_handle_request a (before ++ rt :: after2) r.
Proof.
  intros a r before rt b1 b2 Hl Hm Hn. apply Forall_app in Hl as [La Lr]. inv Lr. rewrite !handle_request_eq.
  unfold fits. destruct (len (method_path r) + 1 <=? 255); [|reflexivity]. cbn [bind].
  rewrite !route_loop_skip by auto. now rewrite !route_loop_head.
Qed.
Print Assumptions C38_later_routes_irrelevant.
(** A selected route registered without a handler: 400, and its filter is not run either. *)
Theorem C38_null_handler : forall a t r hl rt, live t -> len (method_path r) <= 254 -> has_headers r hl ->
  selected t (method_path r) rt -> rt_type rt = MATCHER_TYPE_CONSTANT -> rt_handler rt = None ->
  exists r', router_handle_request a t r = Ok ([], r') /\
  let bytes := message (L "HTTP/1.1 400 Bad Request") [server; L "Content-Length: 0"] [] in
  answered r r' hl 400 bytes (r_response_length r + len bytes).
Proof.
  intros a t r hl rt Hl Hm Hh Hs Ht Hn. rewrite (handle_selected a t r rt) by auto. unfold step. rewrite Ht. cbn [bind].
  rewrite Hn. unfold finish_call, reject_routing_request, bad_request.
  destruct (send_status_ok r hl 400 (L "HTTP/1.1 400 Bad Request") []) as (r' & E & A); auto.
  { vm_compute. tauto. } { vm_compute. discriminate. }
  rewrite E. exists r'. split; [reflexivity|]. exact A.
Qed.
Print Assumptions C38_null_handler.

Definition sample_routes : list route :=
  [mkRoute MATCHER_TYPE_CONSTANT (L "GET:/users") [] (Some 1%nat) (Some 10%nat) true;
   mkRoute MATCHER_TYPE_PARAM (L "GET:/users/") (L "id") (Some 2%nat) (Some 20%nat) true;
   mkRoute MATCHER_TYPE_PARAM (L "GET:/") (L "x") (Some 3%nat) None true].
Definition get (path form : str) : api_request :=
  mkReq 4 [] None (cs form) (L "GET") path path [] (L "1.2.3.4") [] (cs []) [] 0 [] [].
Definition sample_app : callbacks :=
  mkApp (fun f r => (set_query r (L "seen"), Nat.eqb f 20)) (fun _ r => set_ip r (L "u")).
Example C38_case : exists r', router_handle_request sample_app sample_routes (get (L "/users/42") []) = Ok ([CallFilter 20; CallHandler 2], r')
  /\ cstr (r_form r') = Ok (L "id=42") /\ r_query r' = L "seen" /\ r_ip r' = L "u"
  /\ selected sample_routes (L "GET:/users/42") (mkRoute MATCHER_TYPE_PARAM (L "GET:/users/") (L "id") (Some 2%nat) (Some 20%nat) true).
Proof.
  eexists. split; [vm_compute; reflexivity|]. repeat split.
  eexists [_], [_]. split; [reflexivity|]. split.
  - split; [|discriminate]. exists [], (L "42"). reflexivity.
  - constructor; [|constructor]. discriminate.
Qed.

(** C39: the handler runs exactly when there is no filter or the filter accepts; nothing else
    runs.  A consequence of C38 for any table and any request, whenever the call returns. *)
Theorem C39_filter_gate : forall a t r calls r', live t -> router_handle_request a t r = Ok (calls, r') ->
  calls = [] \/
  exists rt h r1, selected t (method_path r) rt /\ rt_handler rt = Some h /\
    ((rt_filter rt = None /\ calls = [CallHandler h] /\ r' = on_handler a h r1)
     \/ exists f, rt_filter rt = Some f
        /\ ((snd (on_filter a f r1) = true /\ calls = [CallFilter f; CallHandler h] /\ r' = on_handler a h (fst (on_filter a f r1)))
            \/ (snd (on_filter a f r1) = false /\ calls = [CallFilter f] /\ r' = fst (on_filter a f r1)))).
Proof.
  intros a t r calls r' Hl E. destruct (Z_le_dec (len (method_path r)) 254) as [Hm|Hm].
  2:{ destruct (handle_request_ub a t r) as [u U]; [lia|]. congruence. }
  destruct (selected_or_none t (method_path r)) as [[rt Hs]|Hn].
  - rewrite (handle_selected a t r rt) in E by auto. destruct (step r rt (method_path r)) as [r1|]; [|discriminate].
    cbn [bind] in E. unfold finish_call in E. destruct (rt_handler rt) as [h|] eqn:Hh.
    + right. exists rt, h, r1. split; auto. split; auto. destruct (rt_filter rt) as [f|].
      * right. exists f. split; auto. destruct (on_filter a f r1) as [r2 []]; inv E; auto.
      * left. inv E. auto.
    + left. destruct (reject_routing_request r1); inv E. auto.
  - left. rewrite handle_none in E by auto. destruct (bad_request r); inv E. auto.
Qed.
Print Assumptions C39_filter_gate.
Example C39_case : exists r', router_handle_request sample_app sample_routes (get (L "/users") []) = Ok ([CallFilter 10], r')
  /\ r_ip r' = L "1.2.3.4".
Proof. eexists. split; vm_compute; reflexivity. Qed.

(** C40 *)
Theorem C40_unrouted : forall a t r hl, live t -> len (method_path r) <= 254 -> has_headers r hl ->
  none_selected t (method_path r) ->
  exists r', router_handle_request a t r = Ok ([], r') /\
  let bytes := message (L "HTTP/1.1 400 Bad Request") [server; L "Content-Length: 0"] [] in
  answered r r' hl 400 bytes (r_response_length r + len bytes).
Proof.
  intros a t r hl Hl Hm Hh Hn. rewrite handle_none by auto. unfold bad_request.
  destruct (send_status_ok r hl 400 (L "HTTP/1.1 400 Bad Request") []) as (r' & E & A); auto.
  { vm_compute. tauto. } { vm_compute. discriminate. }
  rewrite E. exists r'. split; [reflexivity|]. exact A.
Qed.
Print Assumptions C40_unrouted.
Example C40_case : exists r', router_handle_request sample_app [hd (mkRoute MATCHER_TYPE_CONSTANT [] [] None None true) sample_routes] (get (L "/nope") []) = Ok ([], r')
  /\ r_sent r' = L "HTTP/1.1 400 Bad Request" ++ CRLF ++ L "Server: WAYUU/1.5.0" ++ CRLF ++ L "Content-Length: 0" ++ CRLF ++ CRLF.
Proof. eexists. split; vm_compute; reflexivity. Qed.

(** C41 *)
Theorem C41_parameter_in_form : forall a t r rt h v form, live t -> len (method_path r) <= 254 ->
  no_nul (method_path r) -> no_nul (rt_param rt) ->
  selected t (method_path r) rt -> rt_type rt = MATCHER_TYPE_PARAM -> rt_handler rt = Some h -> rt_filter rt = None ->
  method_path r = rt_prefix rt ++ v -> cstr (r_form r) = Ok form -> room r rt (method_path r) ->
  exists r1 b, router_handle_request a t r = Ok ([CallHandler h], on_handler a h r1) /\ r1 = set_form r b
   /\ cstr b = Ok (match form with
                   | [] => rt_param rt ++ L "=" ++ v
                   | _ => form ++ L "&" ++ rt_param rt ++ L "=" ++ v
                   end).
Proof.
  intros a t r rt h v form Hl Hm Nm Np Hs Ht Hh Hf Ev Fo Hr.
  destruct (C38_selected_route_runs a t r rt h) as (r1 & S & R); auto. rewrite Hf in R. unfold seen in S. rewrite Ht in S.
  destruct S as (form' & b & F' & B & E). exists r1, b. split; auto. split; auto. rewrite B.
  rewrite F' in Fo. inv Fo. rewrite Ev, skipn_app, skipn_all, Nat.sub_diag. reflexivity.
Qed.
Print Assumptions C41_parameter_in_form.
Example C41_case : exists r', router_handle_request sample_app sample_routes
   (set_form (get (L "/users/42") []) (cs (L "a=b") ++ repeat None 10)) = Ok ([CallFilter 20; CallHandler 2], r')
  /\ cstr (r_form r') = Ok (L "a=b&id=42").
Proof. eexists. split; vm_compute; reflexivity. Qed.

(** C42: "a parametric route is selected only when METHOD:PATH starts with its prefix" is false. *)
Theorem C42_prefix_at_start_refuted :
  ~ (forall t r rt, live t -> selected t (method_path r) rt -> rt_type rt = MATCHER_TYPE_PARAM ->
       exists v, method_path r = rt_prefix rt ++ v).
Proof.
  intros H. set (rt := mkRoute MATCHER_TYPE_PARAM (L "GET:/users/") (L "id") (Some 2%nat) None true).
  destruct (H [rt] (get (L "/x/GET:/users/7") []) rt) as [v E].
  - repeat constructor.
  - exists [], []. split; auto. split; [|constructor]. split; [|discriminate].
    exists (L "GET:/x/"), (L "7"). reflexivity.
  - reflexivity.
  - discriminate.
Qed.
Print Assumptions C42_prefix_at_start_refuted.
(** When the prefix is METHOD':X for a method that is not a proper suffix of the request's, and the
    path does not contain METHOD':, the prefix is at the start: same method, and
    the path is X and the value. *)
Theorem C42_prefix_at_start : forall r rt M' X, matches rt (method_path r) -> rt_type rt = MATCHER_TYPE_PARAM ->
  rt_prefix rt = M' ++ L ":" ++ X -> ~ In ":"%char M' -> ~ In ":"%char (r_method r) ->
  (forall a, r_method r = a ++ M' -> a = []) ->
  ~ substring (M' ++ L ":") (r_path r) ->
  r_method r = M' /\ exists v, r_path r = X ++ v /\ skipn (length (rt_prefix rt)) (method_path r) = v.
Proof.
  intros r rt M' X Hm Ht Hp H1 H3 H4 H6. unfold matches in Hm. rewrite Ht in Hm. destruct Hm as [S _].
  rewrite Hp in S. apply prefix_at_start in S as [E [v V]]; auto. split; auto. exists v. split; auto.
  unfold method_path. rewrite Hp, E, V.
  replace (M' ++ L ":" ++ X ++ v) with ((M' ++ L ":" ++ X) ++ v) by now rewrite <- !app_assoc.
  now rewrite skipn_app, skipn_all, Nat.sub_diag.
Qed.
Print Assumptions C42_prefix_at_start.
Example C42_case : exists r', router_handle_request sample_app [mkRoute MATCHER_TYPE_PARAM (L "GET:/users/") (L "id") (Some 2%nat) None true]
    (get (L "/x/GET:/users/7") []) = Ok ([CallHandler 2], r')
  /\ cstr (r_form r') = Ok (L "id=/users/7").
Proof. eexists. split; vm_compute; reflexivity. Qed.

(** C43 *)
Theorem C43_match_buffer : forall a t r hl, live t -> has_headers r hl -> no_nul (method_path r) ->
  Forall (fun rt => no_nul (rt_param rt) /\ room r rt (method_path r) /\ rt_handler rt <> None) t ->
  (len (r_method r) + len (r_path r) <= 253 -> exists calls r', router_handle_request a t r = Ok (calls, r'))
  /\ (254 <= len (r_method r) + len (r_path r) -> undefined (router_handle_request a t r)).
Proof.
  intros a t r hl Hl Hh Nm F.
  assert (E : len (method_path r) = len (r_method r) + len (r_path r) + 1).
  { unfold method_path. rewrite !len_app. change (len (L ":")) with 1. lia. }
  split; intros Hs; [|apply handle_request_ub; lia].
  destruct (selected_or_none t (method_path r)) as [[rt S]|N].
  - assert (I : In rt t). { destruct S as (x & y & -> & _). apply in_or_app. right. now left. }
    rewrite Forall_forall in F. destruct (F rt I) as (Np & R & H). destruct (rt_handler rt) as [h|] eqn:Eh; [|easy].
    destruct (C38_selected_route_runs a t r rt h) as (r1 & _ & X); auto; [lia|].
    destruct (rt_filter rt) as [f|]; [|eauto]. destruct (on_filter a f r1) as [r2 pass].
    rewrite (X r2 pass eq_refl). destruct pass; eauto.
  - destruct (C40_unrouted a t r hl) as (r' & X & _); auto; [lia|]. eauto.
Qed.
Print Assumptions C43_match_buffer.
Example C43_case : (exists c r', router_handle_request sample_app sample_routes (get (repeat "a"%char 250) []) = Ok (c, r'))
  /\ undefined (router_handle_request sample_app sample_routes (set_method (get (repeat "a"%char 250) []) (L "POST"))).
Proof. split; [eexists; eexists; vm_compute; reflexivity|]. eexists. vm_compute. reflexivity. Qed.

(** C44 *)
Theorem C44_parameter_buffer : forall m prefix param, no_nul m -> no_nul param -> len prefix <= len m ->
  (len param <= 2 * len prefix + 8 ->
     router_extract_param m prefix param = Ok (param ++ L "=" ++ skipn (length prefix) m))
  /\ (2 * len prefix + 8 < len param -> undefined (router_extract_param m prefix param)).
Proof.
  intros m prefix param Hm Hp Hl. rewrite extract_param_eq by auto. split; intros H.
  - now replace (len param <=? 2 * len prefix + 8) with true by lia.
  - replace (len param <=? 2 * len prefix + 8) with false by lia. eexists. reflexivity.
Qed.
Print Assumptions C44_parameter_buffer.
(** A body read from the network is stored in exactly its length plus one bytes. *)
Theorem C44_body_overrun : forall a t r rt body, live t -> no_nul (method_path r) -> no_nul (rt_param rt) ->
  selected t (method_path r) rt -> rt_type rt = MATCHER_TYPE_PARAM ->
  no_nul body -> body <> [] -> r_form r = cs body -> undefined (router_handle_request a t r).
Proof.
  intros a t r rt body Hl Nm Np Hs Ht Nb Bne Hf.
  destruct (Z_le_dec (len (method_path r)) 254) as [Hm|Hm]; [|apply handle_request_ub; lia].
  rewrite (handle_selected a t r rt) by auto.
  destruct (step_oob r rt (method_path r)) as [u U]; auto.
  - destruct Hs as (? & ? & _ & X & _). exact X.
  - unfold room. rewrite Ht, Hf, cstr_cs0 by auto. intros (_ & form & E & H). inv E. destruct H as [H|H]; [easy|].
    rewrite with_param_eq, len_cs in H. destruct form; [easy|]. rewrite !len_app in H. change (len (L "&")) with 1 in H.
    change (len (L "=")) with 1 in H. lens. lia.
  - rewrite U. eexists. reflexivity.
Qed.
Print Assumptions C44_body_overrun.
Example C44_case : undefined (router_handle_request sample_app sample_routes (get (L "/users/42") (L "a=b"))).
Proof. eexists. vm_compute. reflexivity. Qed.

(** C45 *)
Fixpoint add_all (t : router) (regs : list (str * option nat * option nat)) : outcome router :=
  match regs with
  | [] => Ok t
  | (template, h, f) :: rest => t' <- router_add_route t template h f;; add_all t' rest
  end.
(** A template with its route, as in C37. *)
Definition registers (reg : str * option nat * option nat) (rt : route) : Prop :=
  let '(template, h, f) := reg in
  (~ In "{"%char template /\ len template <= 255 /\ rt = mkRoute MATCHER_TYPE_CONSTANT template [] h f true)
  \/ (exists prefix name c, template = prefix ++ L "{" ++ name ++ [c] /\ plain_text "{" prefix /\ no_nul name
      /\ len prefix <= 255 /\ len name <= 63 /\ rt = mkRoute MATCHER_TYPE_PARAM prefix name h f true).
Lemma registers_add t reg rt : registers reg rt -> len t < 128 ->
  router_add_route t (fst (fst reg)) (snd (fst reg)) (snd reg) = Ok (t ++ [rt]).
Proof.
  destruct reg as [[template h] f]. cbn [fst snd]. intros [(N & Hl & ->)|(p & n & c & -> & P & Nn & L1 & L2 & ->)] Ht.
  - now apply C37_constant.
  - now apply C37_parametric.
Qed.
Theorem C45_capacity : forall t regs rts, Forall2 registers regs rts ->
  (len t + len regs <= 128 -> add_all t regs = Ok (t ++ rts))
  /\ (128 < len t + len regs -> len t <= 128 -> undefined (add_all t regs)).
Proof.
  intros t regs rts F. revert t. induction F as [|[[tp h] f] rt regs rts R F IH]; intros t.
  - split; [rewrite app_nil_r; reflexivity|]. change (len (@nil (str * option nat * option nat))) with 0. lia.
  - rewrite len_cons. cbn [add_all]. split.
    + intros Hl. pose proof (registers_add t _ _ R) as E. cbn [fst snd] in E. rewrite E by (lens; lia). cbn [bind].
      rewrite (proj1 (IH (t ++ [rt]))) by (rewrite len_app, len_cons, len_nil; lia). now rewrite <- app_assoc.
    + intros Hl H128. destruct (Z_lt_dec (len t) 128) as [Hc|Hc].
      * pose proof (registers_add t _ _ R) as E. cbn [fst snd] in E. rewrite E by lia. cbn [bind].
        apply (proj2 (IH (t ++ [rt]))); rewrite len_app, len_cons, len_nil; lia.
      * unfold router_add_route.
        destruct (match strchr tp "{" with
                  | Some _ => ' (prefix, param) <- router_resolve_route tp;; Ok (MATCHER_TYPE_PARAM, prefix, param)
                  | None => prefix <- fits MAX_ROUTE_PATH tp;; Ok (MATCHER_TYPE_CONSTANT, prefix, [])
                  end) as [[[ty p] q]|u]; cbn [bind]; [|eexists; reflexivity].
        replace (MAX_ROUTES <=? len t) with true by (unfold MAX_ROUTES; lia). eexists. reflexivity.
Qed.
Print Assumptions C45_capacity.
(** The table a registration builds is live, and every constant route whose template does not
    match an earlier one is reachable. *)
Theorem C45_reachable : forall a regs rts rt h before later r, Forall2 registers regs rts -> len regs <= 128 ->
  rts = before ++ rt :: later -> rt_type rt = MATCHER_TYPE_CONSTANT -> rt_handler rt = Some h -> rt_filter rt = None ->
  none_selected before (rt_prefix rt) -> method_path r = rt_prefix rt -> len (rt_prefix rt) <= 254 ->
  no_nul (rt_prefix rt) -> no_nul (rt_param rt) ->
  exists t, add_all router_init regs = Ok t /\ router_handle_request a t r = Ok ([CallHandler h], on_handler a h r).
Proof.
  intros a regs rts rt h before later r F Hl E Ht Hh Hf Hn Hm Hlp Np Npa. exists rts. split.
  - apply (C45_capacity [] regs rts F). change (len (@nil route)) with 0. lia.
  - assert (Lv : live rts).
    { clear - F. induction F as [|[[tp h] f] rt regs rts R _ IH]; constructor; auto.
      destruct R as [(_ & _ & ->)|(? & ? & ? & _ & _ & _ & _ & _ & ->)]; reflexivity. }
    destruct (C38_selected_route_runs a rts r rt h) as (r1 & S & R); try rewrite Hm; auto.
    + exists before, later. split; auto. split; auto. unfold matches. now rewrite Ht.
    + unfold room. now rewrite Ht.
    + rewrite Hf in R. unfold seen in S. rewrite Ht in S. subst r1. exact R.
Qed.
Print Assumptions C45_reachable.
Theorem C45_after_free : forall a t r, live t -> t <> [] ->
  exists t', free_routing_table t = Ok t'
   /\ undefined (router_handle_request a t' r)
   /\ undefined (free_routing_table t')
   /\ free_routing_table router_init = Ok router_init.
Proof.
  intros a t r Hl Hne. destruct (free_table_eq t Hl) as (t' & E & Le & F). exists t'. split; auto.
  assert (Hne' : t' <> []) by (destruct t, t'; try easy).
  destruct (freed_use t' F Hne') as [U1 U2]. split; [|split].
  - rewrite handle_request_eq. unfold fits. destruct (len (method_path r) + 1 <=? 255); [|eexists; reflexivity].
    cbn [bind]. rewrite U2. eexists. reflexivity.
  - rewrite U1. eexists. reflexivity.
  - reflexivity.
Qed.
Print Assumptions C45_after_free.
Example C45_case : add_all router_init [(L "GET:/a", Some 1%nat, None); (L "GET:/b/{n}", Some 2%nat, Some 3%nat)]
  = Ok [mkRoute MATCHER_TYPE_CONSTANT (L "GET:/a") [] (Some 1%nat) None true;
        mkRoute MATCHER_TYPE_PARAM (L "GET:/b/") (L "n") (Some 2%nat) (Some 3%nat) true]
  /\ undefined (add_all router_init (repeat (L "GET:/a", Some 1%nat, None) 129)).
Proof. split; [vm_compute; reflexivity|]. eexists. vm_compute. reflexivity. Qed.

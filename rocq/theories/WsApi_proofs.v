(** WsApi_proofs.v - lemmas for C80. *)
From Verif Require Import WsRequest Lemmas StringUtils_proofs HttpUtils_proofs WsConn_proofs WsRequest_proofs WsDispatch_proofs Router_proofs
  Properties_Request Properties_Router Properties_Dispatch SpecJson SpecHttp SpecConn SpecReq SpecRouter SpecDispatch SpecApi Spec.

Local Opaque accept_request handle_api_request router_handle_request connection_add.

Lemma request_body_eq n s body : request_body n s body ->
  (if 0 <? n then firstn (Z.to_nat n) s ++ repeat (last s NUL) (Z.to_nat n - length s) else []) = body.
Proof.
  intros H. destruct H as [n s H|n b rest H E|n s k H H0 E].
  - now replace (0 <? n) with false by lia.
  - replace (0 <? n) with true by lia. assert (K : Z.to_nat n = length b) by (unfold len in E; lia). rewrite K.
    rewrite firstn_app, firstn_all, Nat.sub_diag. cbn [firstn]. rewrite app_nil_r, app_length.
    replace (length b - (length b + length rest))%nat with O by lia. cbn. now rewrite app_nil_r.
  - replace (0 <? n) with true by lia. unfold len in *. rewrite firstn_all2 by lia. do 2 f_equal. lia.
Qed.


Lemma api_reaches v f t socket peer stream m u p q line x after t1 :
  api_asked v t socket peer stream m u p q line x after t1 ->
  exists r, api_given r socket m u p q line x [] /\ no_nul (m ++ L ":" ++ p) /\ method_path r = m ++ L ":" ++ p
   /\ accept_request v f t socket peer stream
     = ('(calls, r', f') <- handle_api_request v f after r (td_length x) (td_boundary x);;
        Ok (mkResult (TApi calls) r' (connection_del t1 (r_socket r')) [r_socket r'] f')).
Proof.
  intros (s1 & mount & A & Hp & Ha & Hc & Hs & Hf & Hu & Hl & N).
  destruct (C54_api v f t socket peer stream m u line s1 t1 x after (mount ++ p) q A Hp Ha Hc Hs Hf Hu N) as (mt & p' & r & E & Lm & R & T & X).
  assert (p' = p /\ mt = mount) as [-> ->].
  { assert (K : length mount = length mt) by (unfold len in *; lia). apply (f_equal (skipn (length mount))) in E as E1.
    rewrite K in E1 at 2. rewrite !skipn_app, !skipn_all, !Nat.sub_diag in E1. cbn in E1. subst p'. split; auto.
    apply app_inv_tail in E. auto. }
  assert (Nu : no_nul p).
  { destruct A as (_ & _ & _ & (_ & Nu & _) & _). destruct Hu as (ts & Ht & _). apply tokens_no_nul in Ht; [|now apply no_nul_firstn].
    inversion Ht as [|? ? H]. apply no_nul_app in H. tauto. }
  assert (Nm : no_nul m) by (destruct A as (_ & _ & (_ & Nm & _) & _); exact Nm).
  destruct R as (R1 & R2 & R3 & R4 & R5 & R6 & R7 & R8 & R9). destruct T as (T1 & T2 & T3 & T4 & T5 & T6 & T7).
  exists r. split; [repeat split; auto|]. split; [nonul|]. split; [unfold method_path; now rewrite R2, T1|exact X].
Qed.

Lemma api_start v f t socket peer stream m u p q line x after t1 body :
  api_asked v t socket peer stream m u p q line x after t1 -> request_body (td_length x) after body -> len (td_boundary x) < 2 ->
  exists r, api_given r socket m u p q line x body /\ no_nul (method_path r) /\ method_path r = m ++ L ":" ++ p
   /\ accept_request v f t socket peer stream
     = ('(calls, r') <- router_handle_request (v_app v) (v_routes v) r;;
        Ok (mkResult (TApi calls) r' (connection_del t1 (r_socket r')) [r_socket r'] f)).
Proof.
  intros A Hb Hd. destruct (api_reaches v f t socket peer stream m u p q line x after t1 A) as (r & G & Nm & M & X).
  rewrite X, C51_form by exact Hd. clear X. pose proof (request_body_eq _ _ _ Hb) as Eb.
  set (r1 := if 0 <? td_length x then set_form r (cs (firstn (Z.to_nat (td_length x)) after ++ repeat (last after NUL) (Z.to_nat (td_length x) - length after))) else r).
  assert (G1 : api_given r1 socket m u p q line x body).
  { destruct G as (G1 & G2 & G3 & G4 & G5 & G6 & G7 & G8). unfold r1. destruct (0 <? td_length x).
    - rewrite Eb. repeat split; auto; apply G8.
    - subst body. repeat split; auto; apply G8. }
  exists r1. split; [exact G1|].
  assert (M1 : method_path r1 = m ++ L ":" ++ p). { unfold method_path. destruct G1 as (_ & -> & _ & -> & _). reflexivity. }
  rewrite M1. split; [exact Nm|]. split; [reflexivity|].
  destruct (router_handle_request (v_app v) (v_routes v) r1) as [[calls r2]|]; reflexivity.
Qed.

Local Transparent handle_api_request.
Lemma multipart_undefined_api v f body r bnd more w : 0 < len body -> 2 <= len bnd ->
  multipart_parse (v_mp v) f (cs body) bnd (len body) = UB w ->
  handle_api_request v f (body ++ more) r (len body) bnd = UB w.
Proof.
  intros H0 H2 U. unfold handle_api_request. replace (0 <? len body) with true by lia.
  rewrite to_nat_len, read_body_enough by (rewrite app_length; lia). cbn [fst]. rewrite firstn_app, firstn_all, Nat.sub_diag, firstn_O, app_nil_r.
  replace (2 <=? len bnd) with true by lia. fold (cs body). now rewrite U.
Qed.

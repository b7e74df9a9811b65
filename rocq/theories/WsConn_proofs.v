(** WsConn_proofs.v - lemmas about the connection table and the limit rules. *)
From Coq Require Import Permutation.
From Verif Require Import StringUtils WsConn Lemmas StringUtils_proofs JsonUtils_proofs ConfParser_proofs FileUtils_proofs HttpUtils_proofs SpecConf SpecJson SpecConn Spec.

(** ** Counting *)
Lemma counts_filter {A} (P : A -> Prop) (f : A -> bool) l n :
  (forall x, In x l -> (f x = true <-> P x)) -> (counts P l n <-> n = len (filter f l)).
Proof.
  intros H. split.
  - intros C. induction C as [|x l n Hp _ IH|x l n Hp _ IH]; [reflexivity| |].
    + cbn [filter]. rewrite (proj2 (H x (or_introl eq_refl))) by auto. rewrite len_cons, <- IH; auto. intros y Hy; apply H; now right.
    + cbn [filter]. destruct (f x) eqn:E.
      * exfalso. apply Hp. apply H; auto. now left.
      * apply IH. intros y Hy; apply H; now right.
  - intros ->. induction l as [|x l IH]; [constructor|]. cbn [filter].
    assert (IH' : counts P l (len (filter f l))) by (apply IH; intros y Hy; apply H; now right).
    destruct (f x) eqn:E.
    + rewrite len_cons. constructor; auto. apply H; auto. now left.
    + constructor; auto. intros X. apply H in X; [congruence|now left].
Qed.

Definition onb (p path : str) : bool := match startswith (cs path) p with Ok b => b | UB _ => false end.
Lemma startswith_onb p path : no_nul path -> no_nul p -> startswith (cs path) p = Ok (onb p path).
Proof.
  intros Hn Hp. destruct (startswith_eq path [] p Hn Hp) as (r & E & _). rewrite app_nil_r in E.
  unfold onb. now rewrite E.
Qed.
Lemma onb_iff p path : no_nul path -> no_nul p -> (onb p path = true <-> ci_prefix p path).
Proof.
  intros Hn Hp. destruct (startswith_eq path [] p Hn Hp) as (r & E & I). rewrite app_nil_r in E.
  unfold onb. rewrite E. exact I.
Qed.

Lemma Permutation_len {A} (l l' : list A) : Permutation l l' -> len l = len l'.
Proof. intros H. unfold len. now rewrite (Permutation_length H). Qed.
Lemma filter_Permutation {A} (f : A -> bool) l l' : Permutation l l' -> Permutation (filter f l) (filter f l').
Proof.
  induction 1; cbn [filter]; auto.
  - destruct (f x); auto.
  - destruct (f y), (f x); auto. constructor.
  - eapply perm_trans; eauto.
Qed.

(** ** get_live_stats *)
Definition ok_path (c : conn) : Prop := no_nul (c_path c).
Lemma stats_eq t p ip total by_ip : Forall ok_path (occupied t) -> no_nul p ->
  get_live_stats t p ip total by_ip
  = Ok (total + len (filter (fun c => onb p (c_path c)) (occupied t)),
        by_ip + len (filter (fun c => onb p (c_path c) && str_eqb ip (c_ip c)) (occupied t))).
Proof.
  intros F Hp. revert total by_ip. induction t as [|c t IH]; intros total by_ip.
  - cbn. now rewrite !Z.add_0_r.
  - cbn [get_live_stats]. unfold occupied in *. cbn [filter] in *. destruct (negb (c_socket c =? 0)); [|now apply IH].
    inv F. rewrite startswith_onb by auto. cbn [bind filter].
    destruct (onb p (c_path c)); cbn [andb]; [|now apply IH].
    rewrite IH by auto. destruct (str_eqb ip (c_ip c)); cbn [filter]; rewrite ?len_cons; f_equal; f_equal; lia.
Qed.

(** ** connection_validate *)
Fixpoint overb (rules : list limit) (open : list conn) (ip path : str) : bool :=
  match rules with
  | [] => false
  | r :: rs =>
    match l_path r with
    | [] => false
    | _ :: _ =>
      (onb (l_path r) path
       && ((l_max r <? len (filter (fun c => onb (l_path r) (c_path c)) open))
           || (l_max_ip r <? len (filter (fun c => onb (l_path r) (c_path c) && str_eqb ip (c_ip c)) open))))
      || overb rs open ip path
    end
  end.
Lemma validate_eq rules t ip path : Forall (fun r => no_nul (l_path r)) rules -> Forall ok_path (occupied t) ->
  no_nul path -> connection_validate rules t ip path = Ok (negb (overb rules (occupied t) ip path)).
Proof.
  intros Hr Ht Hp. induction rules as [|r rs IH]; [reflexivity|]. inv Hr. cbn [connection_validate overb].
  destruct (l_path r) as [|x y] eqn:E; [reflexivity|]. rewrite <- E in *.
  rewrite startswith_onb by auto. cbn [bind]. destruct (onb (l_path r) path); cbn [andb].
  - rewrite stats_eq by auto. cbn [bind]. rewrite !Z.add_0_l.
    destruct (l_max r <? _); [reflexivity|]. destruct (l_max_ip r <? _); [reflexivity|]. cbn [orb]. now apply IH.
  - now apply IH.
Qed.
Lemma overb_iff rules open ip path : Forall (fun r => no_nul (l_path r)) rules -> Forall ok_path open ->
  no_nul path -> (overb rules open ip path = true <-> over_limit rules open ip path).
Proof.
  intros Hr Ho Hp.
  assert (C1 : forall p, no_nul p -> forall n, counts (on p) open n <-> n = len (filter (fun c => onb p (c_path c)) open)).
  { intros p Np n. apply counts_filter. intros c Hc. apply onb_iff; auto. rewrite Forall_forall in Ho. now apply Ho. }
  assert (C2 : forall p, no_nul p -> forall n, counts (on_from p ip) open n
             <-> n = len (filter (fun c => onb p (c_path c) && str_eqb ip (c_ip c)) open)).
  { intros p Np n. apply counts_filter. intros c Hc. rewrite andb_true_iff, str_eqb_eq.
    rewrite onb_iff; auto; [|rewrite Forall_forall in Ho; now apply Ho]. unfold on_from, on. split; intros [A B]; auto. }
  induction rules as [|r rs IH].
  - split; [discriminate|]. intros (x & n & m & I & _). inv I.
  - inv Hr. cbn [overb]. destruct (l_path r) as [|x y] eqn:E.
    + split; [discriminate|]. intros (z & n & m & I & _). inv I; congruence.
    + rewrite <- E in *. rewrite orb_true_iff, andb_true_iff, orb_true_iff, IH, onb_iff, !Z.ltb_lt by auto. split.
      * intros [[O H]|(z & n & m & I & H)].
        -- exists r. eexists. eexists. split; [constructor; congruence|]. split; [exact O|].
           split; [apply C1; auto|]. split; [apply C2; auto|]. exact H.
        -- exists z, n, m. split; [apply if_later; auto; congruence|exact H].
      * intros (z & n & m & I & O & K1 & K2 & H). inv I.
        -- left. split; auto. apply C1 in K1; auto. apply C2 in K2; auto. subst. exact H.
        -- right. exists z, n, m. auto.
Qed.

(** ** Slots *)
Lemma occupied_cons c t : occupied (c :: t) = if c_socket c =? 0 then occupied t else c :: occupied t.
Proof. unfold occupied. cbn [filter]. now destruct (c_socket c =? 0). Qed.
Lemma occupied_le t : len (occupied t) <= len t.
Proof. induction t as [|c t IH]; [cbn; lia|]. rewrite occupied_cons. destruct (c_socket c =? 0); rewrite ?len_cons; lia. Qed.

Lemma claim_full t s ip path : len (occupied t) = len t -> claim_slot t s ip path = Ok (false, t).
Proof.
  induction t as [|c t IH]; [reflexivity|]. rewrite occupied_cons. cbn [claim_slot].
  pose proof (occupied_le t). destruct (c_socket c =? 0).
  - rewrite len_cons. lia.
  - rewrite !len_cons. intros H1. rewrite IH by lia. reflexivity.
Qed.
(** The claimed slot is the first free one. *)
Lemma claim_free t s ip path : len (occupied t) < len t -> len path <= 511 -> len ip <= 15 ->
  exists a c b, t = a ++ c :: b /\ c_socket c = 0 /\ Forall (fun x => c_socket x <> 0) a
    /\ claim_slot t s ip path = Ok (true, a ++ mkConn s path ip :: b).
Proof.
  intros Ho H1 H2. induction t as [|c t IH]; [cbn in Ho; lia|]. cbn [claim_slot]. rewrite occupied_cons in Ho.
  destruct (Z.eqb_spec (c_socket c) 0) as [E|E].
  - exists [], c, t. split; auto. split; auto. split; [constructor|].
    rewrite !fits_ok by (unfold HTTP_MAX_PATH, HTTP_MAX_IP; lia). reflexivity.
  - rewrite !len_cons in Ho. destruct IH as (a & x & b & -> & X & F & C); [lia|]. exists (c :: a), x, b.
    split; auto. split; auto. split; [constructor; auto|]. rewrite C. reflexivity.
Qed.
Lemma claim_long t s ip path : len (occupied t) < len t -> 512 <= len path \/ 16 <= len ip ->
  undefined (claim_slot t s ip path).
Proof.
  intros Ho H. induction t as [|c t IH]; [cbn in Ho; lia|]. cbn [claim_slot]. rewrite occupied_cons in Ho.
  destruct (Z.eqb_spec (c_socket c) 0) as [E|E].
  - destruct (Z_le_dec 512 (len path)).
    + rewrite fits_oob by (unfold HTTP_MAX_PATH; lia). eexists. reflexivity.
    + unfold fits at 1. destruct (len path + 1 <=? HTTP_MAX_PATH); [|eexists; reflexivity]. cbn [bind].
      rewrite fits_oob by (unfold HTTP_MAX_IP; lia). eexists. reflexivity.
  - rewrite !len_cons in Ho. destruct IH as [u ->]; [lia|]. eexists. reflexivity.
Qed.
Lemma occupied_app a b : occupied (a ++ b) = occupied a ++ occupied b.
Proof. unfold occupied. apply filter_app. Qed.

Lemma del_absent t s : ~ In s (map c_socket t) -> connection_del t s = t.
Proof.
  induction t as [|c t IH]; intros H; [reflexivity|]. cbn [connection_del map] in *.
  replace (c_socket c =? s) with false; [|symmetry; apply Z.eqb_neq; intros E; apply H; now left].
  rewrite IH; auto. intros X. apply H. now right.
Qed.
Lemma del_present a c b s : ~ In s (map c_socket a) -> c_socket c = s ->
  connection_del (a ++ c :: b) s = a ++ free_slot :: b.
Proof.
  intros Ha Hc. induction a as [|x a IH]; cbn [app connection_del].
  - now rewrite Hc, Z.eqb_refl.
  - cbn [map] in Ha. replace (c_socket x =? s) with false; [|symmetry; apply Z.eqb_neq; intros E; apply Ha; now left].
    rewrite IH; auto. intros X. apply Ha. now right.
Qed.

(** ** Histories *)
Fixpoint run (rules : list limit) (t : table) (evs : list event) : outcome (list bool * table) :=
  match evs with
  | [] => Ok ([], t)
  | Open s ip path :: rest =>
    '(ok, t') <- connection_add rules t s ip path;;
    '(oks, t'') <- run rules t' rest;; Ok (ok :: oks, t'')
  | Close s :: rest =>
    '(oks, t'') <- run rules (connection_del t s) rest;; Ok (true :: oks, t'')
  end.

Definition clean (c : conn) : Prop := c_socket c = 0 -> c = free_slot.
(** What the table and the list of open connections have in common. *)
Definition tracks (t : table) (open : list conn) : Prop :=
  len t = 1024 /\ Permutation (occupied t) open /\ Forall clean t
  /\ NoDup (map c_socket open) /\ Forall (fun c => 0 < c_socket c) open /\ Forall ok_path open.

Lemma tracks_paths t open : tracks t open -> Forall ok_path (occupied t).
Proof. intros (_ & P & _ & _ & _ & F). eapply Permutation_Forall; [apply Permutation_sym; exact P|exact F]. Qed.

Lemma overb_perm rules o1 o2 ip path : Permutation o1 o2 -> overb rules o1 ip path = overb rules o2 ip path.
Proof.
  intros P. induction rules as [|r rs IH]; [reflexivity|]. cbn [overb]. destruct (l_path r) as [|x y] eqn:E; [reflexivity|].
  rewrite <- E. rewrite IH.
  rewrite (Permutation_len _ _ (filter_Permutation (fun c => onb (l_path r) (c_path c)) _ _ P)).
  rewrite (Permutation_len _ _ (filter_Permutation (fun c => onb (l_path r) (c_path c) && str_eqb ip (c_ip c)) _ _ P)). reflexivity.
Qed.

Lemma add_tracks rules t open s ip path : Forall (fun r => no_nul (l_path r)) rules -> tracks t open ->
  0 < s -> ~ In s (map c_socket open) -> no_nul path -> len path <= 511 -> len ip <= 15 ->
  (over_limit rules open ip path \/ len open = 1024 ->
     connection_add rules t s ip path = Ok (false, t))
  /\ (~ over_limit rules open ip path -> len open < 1024 ->
     exists a b, t = a ++ free_slot :: b /\ ~ In s (map c_socket a) 
       /\ connection_add rules t s ip path = Ok (true, a ++ mkConn s path ip :: b)
       /\ tracks (a ++ mkConn s path ip :: b) (mkConn s path ip :: open)).
Proof.
  intros Hr T Hs Hn Np Lp Li. pose proof (tracks_paths _ _ T) as Ho.
  destruct T as (Len & P & Cl & ND & Pos & Pa). unfold connection_add.
  rewrite validate_eq by auto. cbn [bind]. rewrite (overb_perm _ _ _ _ _ P).
  pose proof (overb_iff rules open ip path Hr Pa Np) as OI.
  pose proof (Permutation_len _ _ P) as Lo. split.
  - intros [O|F].
    + apply OI in O. now rewrite O.
    + destruct (overb rules open ip path); [reflexivity|]. cbn [negb]. apply claim_full. congruence.
  - intros NO F. destruct (overb rules open ip path); [exfalso; now apply NO, OI|]. cbn [negb].
    destruct (claim_free t s ip path) as (a & c & b & -> & Z0 & Fa & C); auto; [congruence|].
    assert (E : c = free_slot). { apply Forall_app in Cl as [_ Cl]. inv Cl. auto. } subst c.
    assert (Na : ~ In s (map c_socket a)).
    { intros X. apply Hn. rewrite in_map_iff in X |- *. destruct X as (x & Ex & Ix). exists x. split; auto.
      eapply Permutation_in; [exact P|]. rewrite occupied_app. apply in_or_app. left. unfold occupied. apply filter_In.
      split; auto. apply negb_true_iff. apply Z.eqb_neq. lia. }
    exists a, b. split; auto. split; auto. split; auto. split; [|split; [|split; [|split; [|split]]]].
    + rewrite len_app, len_cons in *. exact Len.
    + rewrite occupied_app, occupied_cons in *. cbn [c_socket] in *. replace (s =? 0) with false by lia.
      change (c_socket free_slot =? 0) with true in P. cbv iota in P. apply Permutation_sym. apply Permutation_cons_app. now apply Permutation_sym.
    + apply Forall_app in Cl as [Ca Cb]. inv Cb. apply Forall_app. split; auto. constructor; auto.
      unfold clean. cbn [c_socket]. lia.
    + cbn [map c_socket]. constructor; auto.
    + constructor; auto.
    + constructor; auto.
Qed.

Lemma del_tracks t open s : tracks t open -> 0 < s ->
  (~ In s (map c_socket open) -> connection_del t s = t)
  /\ (forall a c b, open = a ++ c :: b -> c_socket c = s -> tracks (connection_del t s) (a ++ b)).
Proof.
  intros (Len & P & Cl & ND & Pos & Pa) Hs. split.
  - intros H. apply del_absent. intros X. apply H. rewrite in_map_iff in X |- *. destruct X as (x & Ex & Ix). exists x.
    split; auto. eapply Permutation_in; [exact P|]. unfold occupied. apply filter_In. split; auto.
    apply negb_true_iff. apply Z.eqb_neq. lia.
  - intros a c b -> Hc.
    assert (I : In c t).
    { assert (X : In c (occupied t)).
      { eapply Permutation_in; [apply Permutation_sym; exact P|]. apply in_or_app. right. now left. }
      unfold occupied in X. now apply filter_In in X. }
    assert (U : forall x, In x t -> c_socket x = s -> x = c).
    { intros x Ix Ex. assert (X : In x (a ++ c :: b)).
      { eapply Permutation_in; [exact P|]. unfold occupied. apply filter_In. split; auto. apply negb_true_iff. apply Z.eqb_neq. lia. }
      clear - ND X Ex Hc. rewrite map_app in ND. cbn [map] in ND. apply NoDup_remove_2 in ND.
      apply in_app_or in X as [X|[X|X]]; auto; exfalso; apply ND; apply in_or_app; [left|right];
      rewrite Hc, <- Ex; now apply in_map. }
    (* the first slot with that socket *)
    assert (S : exists u v, t = u ++ c :: v /\ ~ In s (map c_socket u)).
    { clear - I U Hc. induction t as [|x t IH]; [easy|]. destruct (Z.eq_dec (c_socket x) s) as [E|E].
      - exists [], t. rewrite (U x); auto; try now left.
      - destruct I as [->|I]; [easy|]. destruct IH as (u & v & -> & N); auto.
        { intros y Iy. apply U. now right. }
        exists (x :: u), v. split; auto. cbn [map]. intros [X|X]; auto. }
    destruct S as (u & v & -> & N). rewrite (del_present u c v) by auto.
    split; [|split; [|split; [|split; [|split]]]].
    + rewrite len_app, len_cons in *. exact Len.
    + rewrite occupied_app, occupied_cons in *. change (c_socket free_slot =? 0) with true. cbv iota.
      replace (c_socket c =? 0) with false in P by (symmetry; apply Z.eqb_neq; lia).
      apply Permutation_app_inv in P. exact P.
    + apply Forall_app in Cl as [Ca Cb]. inv Cb. apply Forall_app. split; auto. constructor; auto. unfold clean. auto.
    + rewrite map_app in *. cbn [map] in ND. now apply NoDup_remove_1 in ND.
    + apply Forall_app in Pos as [A B]. inv B. apply Forall_app. auto.
    + apply Forall_app in Pa as [A B]. inv B. apply Forall_app. auto.
Qed.

Lemma run_app rules t e1 e2 : run rules t (e1 ++ e2) =
  ('(a1, t1) <- run rules t e1;; '(a2, t2) <- run rules t1 e2;; Ok (a1 ++ a2, t2)).
Proof.
  revert t. induction e1 as [|[s ip path|s] e1 IH]; intros t; cbn [app run].
  - cbn [bind]. destruct (run rules t e2) as [[a b]|]; reflexivity.
  - destruct (connection_add rules t s ip path) as [[ok t']|]; [|reflexivity]. cbn [bind]. rewrite IH.
    destruct (run rules t' e1) as [[a1 t1]|]; [|reflexivity]. cbn [bind]. destruct (run rules t1 e2) as [[a2 t2]|]; reflexivity.
  - rewrite IH. destruct (run rules (connection_del t s) e1) as [[a1 t1]|]; [|reflexivity]. cbn [bind].
    destruct (run rules t1 e2) as [[a2 t2]|]; reflexivity.
Qed.

Lemma tracks_empty : tracks empty_table [].
Proof.
  assert (O : occupied empty_table = []).
  { unfold empty_table, occupied. induction (Z.to_nat WS_MAX_CONNECTIONS); [reflexivity|]. cbn [repeat filter]. exact IHn. }
  assert (F : Forall clean empty_table).
  { unfold empty_table. apply Forall_forall. intros c Hc. apply repeat_spec in Hc. subst. unfold clean. auto. }
  split; [reflexivity|]. rewrite O. split; [constructor|]. split; [exact F|]. split; [constructor|]. split; constructor.
Qed.

Lemma history_run rules evs answers open : Forall (fun r => no_nul (l_path r)) rules ->
  history rules evs answers open ->
  exists t, run rules empty_table evs = Ok (answers, t) /\ tracks t open.
Proof.
  intros Hr H. induction H as [|evs answers open ev ok open' _ (t & R & T) W Hh].
  - exists empty_table. split; [reflexivity|apply tracks_empty].
  - rewrite run_app, R. cbn [bind]. destruct Hh as [open s ip path NO F|open s ip path NO|a s path ip b|open s NI].
    + destruct W as (W1 & W2 & W3 & W4 & W5 & W6).
      destruct (add_tracks rules t open s ip path Hr T W1 W2 W3 W5 W6) as [_ K].
      destruct (K NO F) as (a & b & _ & _ & C & T'). eexists. split; [|exact T']. cbn [run]. rewrite C. reflexivity.
    + destruct W as (W1 & W2 & W3 & W4 & W5 & W6).
      destruct (add_tracks rules t open s ip path Hr T W1 W2 W3 W5 W6) as [K _].
      exists t. split; [|exact T]. cbn [run]. rewrite (K NO). reflexivity.
    + eexists. split; [cbn [run]; reflexivity|]. destruct (del_tracks t _ s T W) as [_ K]. eapply K; reflexivity.
    + exists t. split; [|exact T]. cbn [run]. destruct (del_tracks t _ s T W) as [K _]. rewrite K by auto. reflexivity.
Qed.

(** ** The limits hold up to one *)
Lemma filter_len_app {A} (f : A -> bool) a b : len (filter f (a ++ b)) = len (filter f a) + len (filter f b).
Proof. now rewrite filter_app, len_app. Qed.
Lemma filter_len_cons {A} (f : A -> bool) x l : len (filter f (x :: l)) = (if f x then 1 else 0) + len (filter f l).
Proof. cbn [filter]. destruct (f x); rewrite ?len_cons; lia. Qed.

Lemma history_bounds rules evs answers open r : Forall (fun r => no_nul (l_path r)) rules ->
  history rules evs answers open -> in_force rules r ->
  len (filter (fun c => onb (l_path r) (c_path c)) open) <= Z.max 0 (l_max r + 1)
  /\ forall ip, len (filter (fun c => onb (l_path r) (c_path c) && str_eqb ip (c_ip c)) open) <= Z.max 0 (l_max_ip r + 1).
Proof.
  intros Hr H I. assert (Nr : no_nul (l_path r)).
  { clear - Hr I. induction I; inv Hr; auto. }
  induction H as [|evs answers open ev ok open' Hi IH W Hh].
  - cbn. split; [lia|]. intros ip. lia.
  - destruct (history_run _ _ _ _ Hr Hi) as (t & _ & T). destruct T as (_ & _ & _ & _ & _ & Pa). destruct IH as [IH1 IH2].
    destruct Hh as [open s ip path NO F|open s ip path NO|a s path ip b|open s NI]; auto.
    + destruct W as (_ & _ & W3 & _).
      assert (K : forall f p, no_nul p -> (f = (fun c => onb p (c_path c)) -> counts (on p) open (len (filter f open)))).
      { intros f p Np ->. apply (counts_filter (on p) (fun c => onb p (c_path c))); auto. intros c Hc. apply onb_iff; auto.
        rewrite Forall_forall in Pa. now apply Pa. }
      assert (K2 : counts (on_from (l_path r) ip) open (len (filter (fun c => onb (l_path r) (c_path c) && str_eqb ip (c_ip c)) open))).
      { apply (counts_filter _ (fun c => onb (l_path r) (c_path c) && str_eqb ip (c_ip c))); auto. intros c Hc.
        rewrite andb_true_iff, str_eqb_eq, onb_iff; auto; [|rewrite Forall_forall in Pa; now apply Pa].
        unfold on_from, on. split; intros [A B]; auto. }
      specialize (K _ (l_path r) Nr eq_refl).
      assert (NL : onb (l_path r) path = true ->
        len (filter (fun c => onb (l_path r) (c_path c)) open) <= l_max r
        /\ len (filter (fun c => onb (l_path r) (c_path c) && str_eqb ip (c_ip c)) open) <= l_max_ip r).
      { intros O. apply onb_iff in O; auto.
        split; apply Z.nlt_ge; intros X; apply NO; exists r; eexists; eexists; (split; [exact I|]); (split; [exact O|]);
        (split; [exact K|]); (split; [exact K2|]); auto. }
      split.
      * rewrite filter_len_cons. cbn [c_path]. destruct (onb (l_path r) path); [|lia]. destruct (NL eq_refl) as [N1 _]. lia.
      * intros ip'. rewrite filter_len_cons. cbn [c_path c_ip]. specialize (IH2 ip'). destruct (onb (l_path r) path); cbn [andb]; [|lia].
        destruct (str_eqb_spec ip' ip) as [->|N]; [|lia]. destruct (NL eq_refl) as [_ N2]. lia.
    + split.
      * rewrite filter_len_app, filter_len_cons in IH1. rewrite filter_len_app. destruct (onb (l_path r) (c_path _)); lia.
      * intros ip'. specialize (IH2 ip'). rewrite filter_len_app, filter_len_cons in IH2. rewrite filter_len_app.
        destruct (onb (l_path r) (c_path _) && _); lia.
Qed.

(** For every event there is an answer. *)
Lemma happens_exists rules open ev : Forall (fun r => no_nul (l_path r)) rules -> Forall ok_path open ->
  len open <= 1024 -> match ev with Open s ip path => no_nul path | Close s => True end ->
  exists ok open', happens rules open ev ok open'.
Proof.
  intros Hr Ho Hl W. destruct ev as [s ip path|s].
  - pose proof (overb_iff rules open ip path Hr Ho W) as OI. destruct (overb rules open ip path).
    + exists false, open. apply h_refuse. left. now apply OI.
    + destruct (Z.eq_dec (len open) 1024); [exists false, open; apply h_refuse; auto|].
      eexists true, _. apply h_admit; [|lia]. intros X. apply OI in X. discriminate.
  - destruct (in_dec Z.eq_dec s (map c_socket open)) as [I|N].
    + apply in_map_iff in I as ([s' path ip] & E & I). cbn in E. subst s'. apply in_split in I as (a & b & ->).
      eexists true, _. apply h_close.
    + exists true, open. now apply h_unknown.
Qed.

(** Opening [n] connections to the same path from the same address. *)
Fixpoint same_opens (n : nat) (ip path : str) : list event :=
  match n with O => [] | S k => same_opens k ip path ++ [Open (Z.of_nat n) ip path] end.
Fixpoint same_conns (n : nat) (ip path : str) : list conn :=
  match n with O => [] | S k => mkConn (Z.of_nat n) path ip :: same_conns k ip path end.
Lemma same_conns_len n ip path : len (same_conns n ip path) = Z.of_nat n.
Proof. induction n as [|n IH]; [reflexivity|]. cbn [same_conns]. rewrite len_cons. lia. Qed.
Lemma filter_le {A} (f : A -> bool) l : len (filter f l) <= len l.
Proof. induction l as [|x l IH]; [cbn; lia|]. rewrite filter_len_cons, len_cons. destruct (f x); lia. Qed.
Lemma same_conns_socket n ip path s : In s (map c_socket (same_conns n ip path)) -> s <= Z.of_nat n.
Proof. induction n as [|n IH]; cbn [same_conns map In]; [easy|]. cbn [c_socket]. intros [<-|H]; [lia|]. apply IH in H. lia. Qed.
Lemma same_opens_history p m k n ip : no_nul p -> len p <= 511 -> no_nul ip -> len ip <= 15 ->
  (n <= 1024)%nat -> Z.of_nat n <= m + 1 ->
  history [mkLimit p m m k] (same_opens n ip p) (repeat true n) (same_conns n ip p).
Proof.
  intros Np Lp Ni Li. induction n as [|n IH]; intros H1 H2; [constructor|]. cbn [same_opens same_conns].
  replace (repeat true (S n)) with (repeat true n ++ [true]).
  2:{ clear. induction n; [reflexivity|]. cbn [repeat app] in *. now rewrite IHn. }
  assert (IH' : history [mkLimit p m m k] (same_opens n ip p) (repeat true n) (same_conns n ip p)) by (apply IH; lia).
  econstructor; [exact IH'| |].
  - split; [lia|]. split; [|auto]. intros X. apply same_conns_socket in X. lia.
  - assert (Hr : Forall (fun r => no_nul (l_path r)) [mkLimit p m m k]) by (constructor; auto).
    assert (Pa : Forall ok_path (same_conns n ip p)).
    { clear - Np. induction n; constructor; auto. }
    apply h_admit; [|rewrite same_conns_len; lia]. intros O. apply overb_iff in O; auto. cbn [overb l_path] in O.
    destruct p as [|c p]; [discriminate|]. rewrite orb_false_r in O. apply andb_true_iff in O as [_ O]. apply orb_true_iff in O.
    cbn [l_max l_max_ip] in O. rewrite !Z.ltb_lt in O.
    pose proof (filter_le (fun c0 => onb (c :: p) (c_path c0)) (same_conns n ip (c :: p))).
    pose proof (filter_le (fun c0 => onb (c :: p) (c_path c0) && str_eqb ip (c_ip c0)) (same_conns n ip (c :: p))).
    rewrite same_conns_len in *. lia.
Qed.
Lemma counts_all {A} (P : A -> Prop) l : Forall P l -> counts P l (len l).
Proof. induction 1; [constructor|]. rewrite len_cons. now constructor. Qed.
Lemma ci_prefix_refl p : ci_prefix p p.
Proof.
  exists p, []. rewrite app_nil_r. split; auto. unfold ci_equal. induction p; constructor; auto. now left.
Qed.
Lemma same_conns_on n ip p : Forall (on p) (same_conns n ip p) /\ Forall (on_from p ip) (same_conns n ip p).
Proof.
  induction n as [|n [I1 I2]]; [split; constructor|]. split; constructor; auto; unfold on_from, on; cbn; try split; auto using ci_prefix_refl.
Qed.

(** ** The time field is never used *)
Definition same_but_seconds (a b : limit) : Prop := l_path a = l_path b /\ l_max a = l_max b /\ l_max_ip a = l_max_ip b.
Lemma validate_seconds rules rules' t ip path : Forall2 same_but_seconds rules rules' ->
  connection_validate rules t ip path = connection_validate rules' t ip path.
Proof.
  induction 1 as [|a b rules rules' (E1 & E2 & E3) _ IH]; [reflexivity|]. cbn [connection_validate].
  rewrite E1, E2, E3. destruct (l_path b); [reflexivity|]. apply bind_ext. intros p. destruct p; auto.
  apply bind_ext. intros [x y]. now rewrite IH.
Qed.
Lemma run_seconds rules rules' t evs : Forall2 same_but_seconds rules rules' -> run rules t evs = run rules' t evs.
Proof.
  intros H. revert t. induction evs as [|[s ip path|s] evs IH]; intros t; [reflexivity| |].
  - cbn [run]. unfold connection_add. rewrite (validate_seconds _ _ _ _ _ H). apply bind_ext. intros [ok t']. now rewrite IH.
  - cbn [run]. now rewrite IH.
Qed.

(** ** Reading the limits file *)
Lemma dec_value d : dec_val d = value_of_digits 0 d.
Proof.
  unfold dec_val. generalize 0. induction d as [|c d IH]; intros a; cbn [fold_left value_of_digits]; [reflexivity|].
  rewrite IH. reflexivity.
Qed.
Lemma isdigit_digit c : isdigit c = digit c.
Proof. reflexivity. Qed.
Lemma to_int_id z : - 2 ^ 31 <= z < 2 ^ 31 -> to_int z = z.
Proof. intros H. unfold to_int. rewrite Z.mod_small by lia. lia. Qed.
Lemma atoi_int s n : int_at s n -> atoi s = n.
Proof.
  intros (b & sign & d & r & -> & Hb & Hs & Hd & Hr & H0 & -> & Hn).
  assert (T : take_while isdigit (d ++ r) = d).
  { rewrite take_while_app by auto. rewrite take_while_stop; [apply app_nil_r|]. destruct r; auto. eapply Hr; eauto. }
  unfold atoi. rewrite drop_while_app.
  2:{ eapply Forall_impl; [|exact Hb]. intros c. apply isspace_blank. }
  destruct Hs as [<-|[<-|[<-|[]]]].
  - cbn [app]. rewrite drop_while_stop.
    + assert (Z : (let '(neg, s2) := match d ++ r with
                    | c :: t => if ceq c "-" then (true, t) else if ceq c "+" then (false, t) else (false, d ++ r)
                    | [] => (false, d ++ r) end in (neg, s2)) = (false, d ++ r)).
      { destruct d as [|c d].
        - cbn [app]. destruct r as [|c r]; [reflexivity|]. destruct (H0 eq_refl eq_refl c r eq_refl) as (_ & N1 & N2).
          now rewrite (ceq_neq _ _ N1), (ceq_neq _ _ N2).
        - cbn [app]. inv Hd. rewrite (ceq_neq c "-"), (ceq_neq c "+"); [reflexivity| |]; intros ->; discriminate. }
      destruct (match d ++ r with [] => _ | _ => _ end) as [neg s2]. inv Z. rewrite T, dec_value.
      destruct (list_eq_dec ascii_dec [] (L "-")) as [X|_]; [discriminate|]. rewrite to_int_id; unfold long_min, long_max; lia.
    + destruct d as [|c d]; cbn [app].
      * destruct r as [|c r]; auto. destruct (H0 eq_refl eq_refl c r eq_refl) as (N & _). apply not_true_is_false. now rewrite isspace_blank.
      * inv Hd. apply not_true_is_false. rewrite isspace_blank. intros X. unfold blank in X. cbn in X.
        repeat (destruct X as [<-|X]; [discriminate|]). easy.
  - change (L "-" ++ d ++ r) with ("-"%char :: d ++ r). rewrite drop_while_stop by reflexivity.
    change (ceq "-" "-") with true. cbv iota beta. rewrite T, dec_value. 
    destruct (list_eq_dec ascii_dec (L "-") (L "-")) as [_|X]; [|congruence]. rewrite to_int_id; unfold long_min, long_max; lia.
  - change (L "+" ++ d ++ r) with ("+"%char :: d ++ r). rewrite drop_while_stop by reflexivity.
    change (ceq "+" "-") with false. change (ceq "+" "+") with true. cbv iota beta. rewrite T, dec_value. 
    destruct (list_eq_dec ascii_dec (L "+") (L "-")) as [X|_]; [discriminate|]. rewrite to_int_id; unfold long_min, long_max; lia.
Qed.
Lemma text_lines_getline s ls : text_lines s ls ->
  match ls with
  | [] => getline s = None
  | l :: ls' => exists r, getline s = Some (l, r) /\ text_lines r ls' /\ (length r < length s)%nat
  end.
Proof.
  intros H. destruct H as [|l Hl N|l r ls N H].
  - reflexivity.
  - exists []. split; [|split; [constructor|destruct l; [easy|cbn; lia]]]. unfold getline. destruct l; [easy|]. now rewrite take_line_last.
  - exists r. split; [|split; [auto|]].
    + unfold getline. destruct (l ++ LF :: r) eqn:E; [destruct l; discriminate|]. rewrite <- E. rewrite take_line_nl; auto.
      rewrite app_length. cbn. lia.
    + rewrite app_length. cbn. lia.
Qed.
Lemma limit_rule prev line r : no_nul line -> l_seconds prev = 0 -> rule_line line r ->
  limit_fields prev line = Ok (Some r, free_limit).
Proof.
  intros N S0 [_ (p & a & b & more & T & Lp & E1 & I1 & I2 & Hm)].
  apply tokens_strtok in T as (r1 & T1 & T). apply tokens_strtok in T as (r2 & T2 & T). apply tokens_strtok in T as (r3 & T3 & T).
  unfold limit_fields. rewrite T1, T2, T3. rewrite fits_ok by (unfold HTTP_MAX_PATH; lia). cbn [bind].
  rewrite (atoi_int _ _ I1), (atoi_int _ _ I2). destruct r as [rp rm ri rsec]. cbn in *. subst rp.
  destruct more as [|s more]; apply tokens_strtok in T.
  - rewrite T. now rewrite S0, Hm.
  - destruct T as (r4 & T & _). rewrite T. now rewrite (atoi_int _ _ Hm).
Qed.
Lemma limit_other prev line : l_seconds prev = 0 -> 
  (exists p more, tokens (L ",") line (p :: more) /\ len p <= 511 /\ len more <= 1) ->
  exists prev', limit_fields prev line = Ok (None, prev') /\ l_seconds prev' = 0.
Proof.
  intros S0 (p & more & T & Lp & Lm). apply tokens_strtok in T as (r1 & T1 & T).
  unfold limit_fields. rewrite T1. rewrite fits_ok by (unfold HTTP_MAX_PATH; lia). cbn [bind].
  destruct more as [|a [|b more]]; apply tokens_strtok in T.
  - rewrite T. eauto.
  - destruct T as (r2 & T & T2). rewrite T. apply tokens_strtok in T2. rewrite T2. eauto.
  - exfalso. rewrite !len_cons in Lm. pose proof (len_nonneg _ more). lia.
Qed.
Lemma limits_loop_eq vs rs k : rules_of k vs rs -> forall fuel prev content ls, 0 < k <= 64 -> l_seconds prev = 0 ->
  text_lines content ls -> Forall2 visible ls vs -> (length content <= fuel)%nat ->
  limits_loop fuel (64 - k) prev content = Ok rs.
Proof.
  induction 1 as [n|ls0|n v vs r rs Hn Hr Ho IH|n v vs rs Hn Hr Ho IH]; intros fuel prev content ls Hk S0 T V F.
  - inv V. apply text_lines_getline in T. destruct fuel; cbn [limits_loop]; now rewrite T.
  - lia.
  - inv V. apply text_lines_getline in T as (rest & G & T & Hlt). destruct fuel as [|fuel]; [lia|].
    cbn [limits_loop]. rewrite G. assert (Hr' := Hr). destruct Hr as [(t & Et) _]. subst v.
    pose proof (visible_upto _ _ H2) as U. destruct x as [|c x]; [discriminate|]. cbn [upto_nul] in U.
    destruct (ceq_spec c NUL); [discriminate|]. inv U. rewrite ceq_refl.
    rewrite (visible_upto _ _ H2). rewrite (limit_rule prev _ r); auto.
    2:{ now apply (visible_no_nul _ _ H2). }
    cbn [bind]. unfold MAX_LIMIT_RULES. destruct (Z.leb_spec 64 (64 - n + 1)).
    + replace (n - 1) with 0 in Ho by lia. inv Ho; try lia; reflexivity.
    + replace (64 - n + 1) with (64 - (n - 1)) by lia. rewrite (IH fuel free_limit rest l); auto; lia.
  - inv V. apply text_lines_getline in T as (rest & G & T & Hlt). destruct fuel as [|fuel]; [lia|].
    cbn [limits_loop]. rewrite G. pose proof (visible_upto _ _ H2) as U. destruct x as [|c x]; [eapply IH; eauto; lia|].
    destruct (ceq_spec c "/") as [->|N]; [|eapply IH; eauto; lia].
    rewrite U. destruct Hr as [Hr|Hr].
    + exfalso. apply (Hr (upto_nul x)). now rewrite <- U.
    + destruct (limit_other prev v S0 Hr) as (prev' & E & S1). rewrite E. cbn [bind]. eapply IH; eauto; lia.
Qed.
Lemma load_limits_eq f root content ls vs rs : len root <= 276 -> f (root ++ L "/etc/limits") = Some (File content) ->
  text_lines content ls -> Forall2 visible ls vs -> rules_of 64 vs rs -> load_limits f root = Ok rs.
Proof.
  intros Hl E T V R. unfold load_limits. rewrite fits_ok.
  2:{ rewrite len_app. change (len (L "/etc/limits")) with 11. unfold ROOT_PATH_MAX. lia. }
  cbn [bind]. rewrite E. change 0 with (64 - 64). eapply limits_loop_eq; eauto. lia.
Qed.
Lemma load_limits_none f root : len root <= 276 -> (forall c, f (root ++ L "/etc/limits") <> Some (File c)) -> load_limits f root = Ok [].
Proof.
  intros Hl E. unfold load_limits. rewrite fits_ok.
  2:{ rewrite len_app. change (len (L "/etc/limits")) with 11. unfold ROOT_PATH_MAX. lia. }
  cbn [bind]. destruct (f _) as [[c|]|]; auto. now destruct (E c).
Qed.
Lemma load_limits_oob f root : 276 < len root -> undefined (load_limits f root).
Proof.
  intros Hl. eexists. unfold load_limits. rewrite fits_oob; [reflexivity|].
  rewrite len_app. change (len (L "/etc/limits")) with 11. unfold ROOT_PATH_MAX. lia.
Qed.
Lemma limits_loop_oob v t p more post pre rs k : rules_of k pre rs -> v = "/"%char :: t -> tokens (L ",") v (p :: more) -> 511 < len p ->
  forall fuel prev content ls, 0 < k <= 64 -> len rs < k -> l_seconds prev = 0 ->
  text_lines content ls -> Forall2 visible ls (pre ++ v :: post) -> (length content <= fuel)%nat ->
  undefined (limits_loop fuel (64 - k) prev content).
Proof.
  intros R Ev Tv Lp. induction R as [n|ls0|n w vs r rs Hn Hr Ho IH|n w vs rs Hn Hr Ho IH]; intros fuel prev content ls Hk Hc S0 T V F.
  - inv V. apply text_lines_getline in T as (rest & G & T & Hlt). destruct fuel as [|fuel]; [lia|].
    cbn [limits_loop]. rewrite G. pose proof (visible_upto _ _ H2) as U. destruct x as [|c x]; [discriminate|].
    assert (c = "/"%char) as ->. { cbn [upto_nul] in U. destruct (ceq c NUL); [discriminate|]. now inv U. }
    rewrite ceq_refl, U. apply tokens_strtok in Tv as (r1 & T1 & _). unfold limit_fields. rewrite T1.
    rewrite fits_oob by (unfold HTTP_MAX_PATH; lia). eexists. reflexivity.
  - lia.
  - inv V. apply text_lines_getline in T as (rest & G & T & Hlt). destruct fuel as [|fuel]; [lia|].
    cbn [limits_loop]. rewrite G. assert (Hr' := Hr). destruct Hr as [(t' & Et) _]. subst w.
    pose proof (visible_upto _ _ H2) as U. destruct x as [|c x]; [discriminate|].
    assert (c = "/"%char) as ->. { cbn [upto_nul] in U. destruct (ceq c NUL); [discriminate|]. now inv U. }
    rewrite ceq_refl, U. rewrite (limit_rule prev _ r); auto.
    2:{ now apply (visible_no_nul _ _ H2). }
    cbn [bind]. rewrite len_cons in Hc. pose proof (len_nonneg _ rs). unfold MAX_LIMIT_RULES. destruct (Z.leb_spec 64 (64 - n + 1)); [lia|].
    replace (64 - n + 1) with (64 - (n - 1)) by lia.
    destruct (IH fuel free_limit rest l) as (u & ->); auto; try lia. eexists. reflexivity.
  - inv V. apply text_lines_getline in T as (rest & G & T & Hlt). destruct fuel as [|fuel]; [lia|].
    cbn [limits_loop]. rewrite G. pose proof (visible_upto _ _ H2) as U. destruct x as [|c x]; [eapply IH; eauto; lia|].
    destruct (ceq_spec c "/") as [->|N]; [|eapply IH; eauto; lia].
    rewrite U. destruct Hr as [Hr|Hr].
    + exfalso. apply (Hr (upto_nul x)). now rewrite <- U.
    + destruct (limit_other prev w S0 Hr) as (prev' & E & S1). rewrite E. cbn [bind]. eapply IH; eauto; lia.
Qed.
Lemma load_limits_long f root content ls pre v t p more post rs : len root <= 276 ->
  f (root ++ L "/etc/limits") = Some (File content) ->
  text_lines content ls -> Forall2 visible ls (pre ++ v :: post) -> rules_of 64 pre rs -> len rs < 64 ->
  v = "/"%char :: t -> tokens (L ",") v (p :: more) -> 511 < len p -> undefined (load_limits f root).
Proof.
  intros Hl E T V R Hc Ev Tv Lp. unfold load_limits. rewrite fits_ok.
  2:{ rewrite len_app. change (len (L "/etc/limits")) with 11. unfold ROOT_PATH_MAX. lia. }
  cbn [bind]. rewrite E. change 0 with (64 - 64). eapply limits_loop_oob; eauto. lia.
Qed.

(** ** Entries stay until they are removed *)
Lemma claim_keeps t s ip path ok t' c : claim_slot t s ip path = Ok (ok, t') -> c_socket c <> 0 -> In c t -> In c t'.
Proof.
  revert ok t'. induction t as [|x t IH]; intros ok t' E Hc I; [easy|]. cbn [claim_slot] in E.
  destruct (Z.eqb_spec (c_socket x) 0) as [X|X].
  - apply bind_ok_inv in E as (p & _ & E). apply bind_ok_inv in E as (i & _ & E). inv E.
    destruct I as [->|I]; [congruence|now right].
  - apply bind_ok_inv in E as ([r t''] & E1 & E). inv E. destruct I as [->|I]; [now left|right; eauto].
Qed.
Lemma del_keeps t s c : c_socket c <> s -> In c t -> In c (connection_del t s).
Proof.
  intros Hc. induction t as [|x t IH]; [easy|]. intros [->|I]; cbn [connection_del].
  - destruct (Z.eqb_spec (c_socket c) s); [congruence|now left].
  - destruct (Z.eqb_spec (c_socket x) s); right; auto.
Qed.
Lemma run_keeps rules evs : forall t answers t' c, run rules t evs = Ok (answers, t') -> c_socket c <> 0 ->
  ~ In (Close (c_socket c)) evs -> In c t -> In c t'.
Proof.
  induction evs as [|[s ip path|s] evs IH]; intros t answers t' c R Hc N I; cbn [run] in R.
  - now inv R.
  - apply bind_ok_inv in R as ([ok t1] & E & R). apply bind_ok_inv in R as ([oks t2] & R & F). inv F.
    eapply IH; eauto; [intros X; apply N; now right|]. unfold connection_add in E. apply bind_ok_inv in E as ([] & _ & E).
    + eapply claim_keeps; eauto.
    + now inv E.
  - apply bind_ok_inv in R as ([oks t2] & R & F). inv F. eapply IH; eauto; [intros X; apply N; now right|].
    apply del_keeps; auto. intros X. apply N. left. now rewrite X.
Qed.
Lemma never_expires rules evs1 evs2 answers1 open1 answers t c : Forall (fun r => no_nul (l_path r)) rules ->
  history rules evs1 answers1 open1 -> In c open1 -> ~ In (Close (c_socket c)) evs2 ->
  run rules empty_table (evs1 ++ evs2) = Ok (answers, t) -> In c (occupied t).
Proof.
  intros Hr H I N R. destruct (history_run _ _ _ _ Hr H) as (t1 & R1 & T). rewrite run_app, R1 in R. cbn [bind] in R.
  apply bind_ok_inv in R as ([a2 t2] & R2 & F). inv F. destruct T as (_ & P & _).
  apply Permutation_in with (l' := occupied t1) in I; [|now apply Permutation_sym].
  unfold occupied in I. apply filter_In in I as [I Hs]. unfold occupied. apply filter_In. split; auto.
  eapply run_keeps; eauto. intros X. rewrite X in Hs. discriminate.
Qed.
Lemma free_room t v : In v t -> c_socket v = 0 -> len (occupied t) < len t.
Proof.
  intros I Hv. apply in_split in I as (a & b & ->). unfold occupied. rewrite filter_len_app, filter_len_cons, len_app, len_cons, Hv.
  cbn. pose proof (filter_le (fun c => negb (c_socket c =? 0)) a). pose proof (filter_le (fun c => negb (c_socket c =? 0)) b). lia.
Qed.

(** Properties_File.v - C25 to C28: files and IP lists (/repo/file_utils.c, ws.c:70-88). *)
From Verif Require Import StringUtils FileUtils FileUtils_proofs SpecConf Spec.

(** C25.  [data] are the bytes at the pointer; [rest] what follows them in the object.
    Because a log call computes strlen(ptr), the object must contain a C string there. *)
Theorem C25_write_file : forall f name data rest,
  is_dir f name = false -> (exists s r, no_nul s /\ map Some data ++ rest = cs s ++ r) ->
  exists f', write_file f name (map Some data ++ rest) 0 (len data) = Ok f'
    /\ f' name = Some (File data) /\ (forall q, q <> name -> f' q = f q).
Proof.
  intros f name data rest Hd Hs. eexists. split; [now apply write_file_eq|].
  split; [apply upd_same|]. intros. now apply upd_other.
Qed.
Print Assumptions C25_write_file.
(** Bytes without a NUL in an object of exactly that size: the log argument is undefined. *)
Theorem C25_write_file_unterminated : forall f name data, no_nul data ->
  undefined (write_file f name (map Some data) 0 (len data)).
Proof.
  intros f name data Hn. unfold write_file. rewrite from_0. exists OobRead.
  assert (E : strlen (map Some data) = UB OobRead); [|now rewrite E].
  unfold strlen. assert (E : cstr (map Some data) = UB OobRead); [|now rewrite E].
  induction Hn as [|c l Hc _ IH]; [reflexivity|]. cbn [map cstr]. rewrite ceq_neq by auto. now rewrite IH.
Qed.
Print Assumptions C25_write_file_unterminated.
Theorem C25_read_file : forall f path content out maxlen,
  f path = Some (File content) -> 0 <= maxlen ->
  let n := if 0 <? maxlen then Z.min (len content) (maxlen - 1) else len content in
  (n + 1 <= len out ->
     read_file f out path maxlen
     = Ok (map Some (firstn (Z.to_nat n) content) ++ [Some NUL] ++ skipn (Z.to_nat n + 1) out))
  /\ (len out <= n -> undefined (read_file f out path maxlen)).
Proof.
  intros f path content out maxlen Hf Hm n. split; intros H.
  - now apply read_file_eq.
  - rewrite (read_file_oob f out path maxlen content); [eexists; reflexivity|auto|]. fold n in H |- *.
    unfold stored. fold n. lia.
Qed.
Print Assumptions C25_read_file.
Theorem C25_write_then_read : forall f name data rest out,
  is_dir f name = false -> (exists s r, no_nul s /\ map Some data ++ rest = cs s ++ r) ->
  len data + 1 <= len out ->
  exists f', write_file f name (map Some data ++ rest) 0 (len data) = Ok f'
    /\ read_file f' out name 0 = Ok (map Some data ++ [Some NUL] ++ skipn (length data + 1) out).
Proof.
  intros f name data rest out Hd Hs Hl. destruct (C25_write_file f name data rest Hd Hs) as (f' & E & Hf & _).
  exists f'. split; auto. destruct (C25_read_file f' name data out 0 Hf (Z.le_refl 0)) as [R _].
  cbn [Z.ltb Z.compare] in R. rewrite R by auto. now rewrite to_nat_len, firstn_all.
Qed.
Print Assumptions C25_write_then_read.
Example C25_case :
  exists f', write_file (fun _ => None) (L "f") (map Some (L "ab" ++ [NUL]) ++ [Some "z"%char]) 0 3 = Ok f'
   /\ read_file f' (malloc 8) (L "f") 0 = Ok (map Some (L "ab" ++ [NUL; NUL]) ++ malloc 4)
   /\ read_file f' (malloc 8) (L "f") 2 = Ok (map Some (L "a" ++ [NUL]) ++ malloc 6)
   /\ undefined (read_file f' (malloc 3) (L "f") 0).
Proof.
  eexists. split; [vm_compute; reflexivity|]. split; [vm_compute; reflexivity|].
  split; [vm_compute; reflexivity|]. eexists. vm_compute. reflexivity.
Qed.

(** C26 *)
Theorem C26_find_in_file : forall f path needle content t,
  f path = Some (File content) -> visible content t ->
  (len content <= 8191 -> exists r, find_in_file f path needle = Ok r /\ (r = true <-> substring needle t))
  /\ (8192 <= len content -> undefined (find_in_file f path needle)).
Proof.
  intros f path needle content t Hf Hv. split; intros H.
  - eapply find_in_file_eq; eauto.
  - eexists. eapply find_in_file_oob; eauto.
Qed.
Print Assumptions C26_find_in_file.
Theorem C26_not_a_file : forall f path needle, (forall c, f path <> Some (File c)) ->
  find_in_file f path needle = Ok false.
Proof.
  intros f path needle H. apply find_in_file_none. unfold is_file.
  destruct (f path) as [[c|]|]; auto. now specialize (H c).
Qed.
Print Assumptions C26_not_a_file.
Example C26_case :
  find_in_file (fun _ => Some (File (L "one two" ++ [NUL] ++ L "three"))) (L "f") (L "e t") = Ok true
  /\ find_in_file (fun _ => Some (File (L "one two" ++ [NUL] ++ L "three"))) (L "f") (L "three") = Ok false
  /\ visible (L "one two" ++ [NUL] ++ L "three") (L "one two").
Proof.
  split; [vm_compute; reflexivity|]. split; [vm_compute; reflexivity|].
  exists (L "three" ++ [NUL]). split; [reflexivity|]. cbn. intuition discriminate.
Qed.

(** C27.  One decision, and every later one: [ip_calls] makes successive calls, the root
    being (re)set before each; all are decided by the root of the first. *)
Theorem C27_decision : forall f root ip d0, len root <= 277 -> small_lists root f ->
  exists b g, allowed_address f (mkIpconf root [] d0) ip = Ok (b, g)
   /\ (b = true <-> allowed f root ip)
   /\ ws_allow g = root ++ L "/etc/allow" /\ ws_deny g = root ++ L "/etc/deny".
Proof.
  intros f root ip d0 Hr [Sa Sd].
  destruct (allowed_address_eq f (mkIpconf root [] d0) ip (root ++ L "/etc/allow") (root ++ L "/etc/deny"))
    as (b & E & H); auto; [now apply ip_paths_first|].
  eexists b, _. split; [exact E|]. split; [exact H|]. split; reflexivity.
Qed.
Print Assumptions C27_decision.
Theorem C27_histories : forall root f ip later d0, len root <= 277 ->
  Forall (fun c => small_lists root (snd (fst c))) ((root, f, ip) :: later) ->
  exists bs, ip_calls (mkIpconf [] [] d0) ((root, f, ip) :: later) = Ok bs
    /\ Forall2 (fun c b => b = true <-> allowed (snd (fst c)) root (snd c)) ((root, f, ip) :: later) bs.
Proof. intros. apply ip_calls_eq; auto. Qed.
Print Assumptions C27_histories.
Theorem C27_deny_wins_and_default : forall f root ip d0, len root <= 277 -> small_lists root f ->
  (listed f (root ++ L "/etc/deny") ip -> exists g, allowed_address f (mkIpconf root [] d0) ip = Ok (false, g))
  /\ ((forall c, f (root ++ L "/etc/deny") <> Some (File c)) ->
      (forall c, f (root ++ L "/etc/allow") <> Some (File c)) ->
      exists g, allowed_address f (mkIpconf root [] d0) ip = Ok (true, g)).
Proof.
  intros f root ip d0 Hr Hs. destruct (C27_decision f root ip d0 Hr Hs) as (b & g & E & H & _).
  split.
  - intros Hd. exists g. rewrite E. destruct b; auto. destruct H as [H _]. now destruct (H eq_refl).
  - intros Hd Ha. exists g. rewrite E. destruct b; auto. destruct H as [_ H].
    rewrite H; auto. split; auto. intros (c & t & X & _). now apply (Hd c).
Qed.
Print Assumptions C27_deny_wins_and_default.
(** A longer root overruns the two path buffers. *)
Theorem C27_long_root : forall f root ip d0, 278 <= len root ->
  undefined (allowed_address f (mkIpconf root [] d0) ip).
Proof.
  intros. unfold allowed_address, ip_paths. cbn [ws_allow ws_root]. change (len [] =? 0) with true. cbv iota.
  rewrite fits_oob; [eexists; reflexivity|]. unfold ROOT_PATH_MAX. rewrite len_app. change (len (L "/etc/allow")) with 10. lia.
Qed.
Print Assumptions C27_long_root.
Example C27_case :
  let f := fun p => if str_eqb p (L "/r/etc/deny") then Some (File (L "1.2.3.4" ++ [LF])) else
                    if str_eqb p (L "/r/etc/allow") then Some (File (L "5.6.7.8" ++ [LF] ++ L "1.2.3.4" ++ [LF])) else None in
  ip_calls (mkIpconf [] [] []) [(L "/r", f, L "1.2.3.4"); (L "/other", f, L "5.6.7.8"); (L "/r", f, L "9.9.9.9");
                                (L "/r", fun _ => None, L "9.9.9.9")]
  = Ok [false; true; false; true] /\ small_lists (L "/r") f.
Proof.
  intros f. split; [vm_compute; reflexivity|].
  split; intros c E; vm_compute in E; inv E; vm_compute; discriminate.
Qed.

(** C28.  A list file of the lines [ls] matches an address iff some line contains it. *)
Theorem C28_list_is_substring_test : forall f p ls ip,
  f p = Some (File (flat_map (fun l => l ++ [LF]) ls)) -> Forall no_nul ls ->
  ip <> [] -> ~ In LF ip ->
  (listed f p ip <-> exists l, In l ls /\ substring ip l).
Proof.
  intros f p ls ip Hf Hn Hne HLF.
  assert (N : no_nul (flat_map (fun l => l ++ [LF]) ls)).
  { clear Hf. induction Hn; [constructor|]. cbn [flat_map]. apply no_nul_app. split; auto.
    apply no_nul_app. split; auto. apply no_nul_dec_b. reflexivity. }
  rewrite <- (substring_lines LF ls ip HLF Hne). split.
  - intros (c & t & E & V & S). rewrite Hf in E. inv E.
    rewrite <- (visible_upto _ _ V), upto_nul_id in S by auto. exact S.
  - intros S. eexists _, _. split; [exact Hf|]. split; [now apply visible_self|exact S].
Qed.
Print Assumptions C28_list_is_substring_test.
Theorem C28_coincides_with_membership : forall f p ls ip,
  f p = Some (File (flat_map (fun l => l ++ [LF]) ls)) -> Forall no_nul ls ->
  ip <> [] -> ~ In LF ip ->
  (forall l, In l ls -> l <> ip -> ~ substring ip l) ->
  (listed f p ip <-> In ip ls).
Proof.
  intros f p ls ip Hf Hn Hne HLF Hl. rewrite (C28_list_is_substring_test f p ls ip) by auto. split.
  - intros (l & I & S). destruct (list_eq_dec ascii_dec l ip) as [->|N]; auto. exfalso. now apply (Hl l).
  - intros I. exists ip. split; auto. exists [], []. now rewrite app_nil_r.
Qed.
Print Assumptions C28_coincides_with_membership.
(** Entry matching fails: an address that is on no line is denied. *)
Theorem C28_matches_by_entry_refuted : exists f ls ip g,
  f (L "/r/etc/deny") = Some (File (flat_map (fun l => l ++ [LF]) ls)) /\ ~ In ip ls
  /\ allowed_address f (mkIpconf (L "/r") [] []) ip = Ok (false, g).
Proof.
  exists (fun p => if str_eqb p (L "/r/etc/deny") then Some (File (L "110.0.0.10" ++ [LF])) else None).
  exists [L "110.0.0.10"], (L "10.0.0.1"). eexists. split; [reflexivity|]. split; [intros [H|[]]; discriminate|].
  vm_compute. reflexivity.
Qed.
Print Assumptions C28_matches_by_entry_refuted.
Example C28_case : let f := fun p => Some (File (flat_map (fun l => l ++ [LF]) [L "1.2.3.4"; L "8.8.8.8"])) in
  listed f (L "x") (L "8.8.8.8") /\ ~ listed f (L "x") (L "8.8.8.9").
Proof.
  intros f. split.
  - apply (C28_list_is_substring_test f _ [L "1.2.3.4"; L "8.8.8.8"]); try reflexivity; try discriminate.
    + repeat constructor; discriminate.
    + cbn. intuition discriminate.
    + exists (L "8.8.8.8"). split; [cbn; auto|]. now exists [], [].
  - intros H. destruct (find_listed f (L "x") (L "8.8.8.9")) as (r & E & R).
    { intros c E. inv E. vm_compute. discriminate. }
    vm_compute in E. inv E. apply R in H. discriminate.
Qed.

(** C73.  check_createdir succeeds exactly when a directory is there afterwards; it creates nothing
    where something exists and touches no other name. *)
Theorem C73_check_createdir : forall allowed f p,
  (fst (check_createdir allowed f p) = true <-> snd (check_createdir allowed f p) p = Some Dir)
  /\ (fst (check_createdir allowed f p) = true <-> f p = Some Dir \/ (f p = None /\ allowed = true))
  /\ (forall q, q <> p \/ f q <> None -> snd (check_createdir allowed f p) q = f q)
  /\ (fst (check_createdir allowed f p) = false -> forall q, snd (check_createdir allowed f p) q = f q).
Proof.
  intros a f p. unfold check_createdir, is_dir. destruct (f p) as [[c|]|] eqn:E; cbn [fst snd].
  - rewrite E. repeat split; try discriminate; auto. intros [H|[H _]]; discriminate.
  - rewrite E. repeat split; auto.
  - destruct a; cbn [fst snd].
    + rewrite upd_same. repeat split; auto; [|discriminate]. intros q [H|H]; [now apply upd_other|].
      apply upd_other. intros ->. now rewrite E in H.
    + rewrite E. repeat split; try discriminate; auto. intros [H|[_ H]]; discriminate.
Qed.
Print Assumptions C73_check_createdir.
Example C73_case : let f := upd (fun _ => None) (L "/t") (Some (File [])) in
  fst (check_createdir true f (L "/t")) = false /\ fst (check_createdir true f (L "/u")) = true
  /\ snd (check_createdir true f (L "/u")) (L "/u") = Some Dir.
Proof. vm_compute. repeat split; reflexivity. Qed.

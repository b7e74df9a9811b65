(** Properties_Termination.v - every loop of the code comes to an end. *)
From Verif Require Import WsRequest JsonUtils LogMain Lemmas Termination_proofs Spec.

(** C75: the handling of a connection whose input ends never loops forever, whatever the input,
    the tables, the files and the application's routes. *)
Theorem C75_requests : forall v f t socket peer stream, accept_request v f t socket peer stream <> UB OutOfFuel.
Proof. exact ends_accept. Qed.
Print Assumptions C75_requests.
Theorem C75_startup : forall f root args path flags template t h g, load_limits f root <> UB OutOfFuel /\ main_options f args <> UB OutOfFuel
  /\ parse f path flags <> UB OutOfFuel /\ router_add_route t template h g <> UB OutOfFuel.
Proof. intros. split; [apply ends_load_limits|]. split; [apply ends_main|]. split; [apply ends_parse|apply ends_add_route]. Qed.
Print Assumptions C75_startup.
Theorem C75_utilities : forall s d c b md5 out off n e f form bnd r line m item,
  StringUtils.split s d <> UB OutOfFuel /\ rtrim b c <> UB OutOfFuel /\ md5sum md5 out b off n <> UB OutOfFuel
  /\ multipart_parse e f form bnd n <> UB OutOfFuel /\ return_json_stream r n s <> UB OutOfFuel
  /\ conf_parse_line line m <> UB OutOfFuel /\ conf_parse_multi item <> UB OutOfFuel.
Proof.
  intros. split; [apply ends_split|]. split; [apply ends_rtrim|]. split; [apply ends_md5sum|]. split; [apply ends_multipart|].
  split; [apply ends_json_stream|]. split; [apply ends_parse_line|apply ends_multi].
Qed.
Print Assumptions C75_utilities.
(** How many times each loop can go round: with any larger bound the result is the same. *)
Theorem C75_steps : forall k,
  (forall n h, (0 < n -> (length (hs_stream h) < k)%nat) -> forall j, (k <= j)%nat -> header_loop j n h = header_loop k n h)
  /\ (forall e f form tp tf bnd n ptr, 0 <= ptr -> n - ptr <= Z.of_nat k -> forall j, (k <= j)%nat ->
        multipart_loop j e f form tp tf bnd n ptr = multipart_loop k e f form tp tf bnd n ptr)
  /\ (forall n d s, (length s <= k)%nat -> forall j, (k <= j)%nat -> split_loop j n d s = split_loop k n d s)
  /\ (forall p fl s, (length s <= k)%nat -> forall j, (k <= j)%nat -> parse_loop j p fl s = parse_loop k p fl s)
  /\ (forall i s, (length s <= k)%nat -> forall j, (k <= j)%nat -> multi_loop j i s = multi_loop k i s)
  /\ (forall n p s, (length s <= k)%nat -> forall j, (k <= j)%nat -> limits_loop j n p s = limits_loop k n p s)
  /\ (forall s n r, (length s <= k)%nat -> forall j, (k <= j)%nat -> stream_loop j s n r = stream_loop k s n r)
  /\ (forall i c b, 0 <= i -> len b <= Z.of_nat k + i -> forall j, (k <= j)%nat -> rtrim_loop j i c b = rtrim_loop k i c b)
  /\ (forall b i, 0 <= i -> len b <= Z.of_nat k + i -> forall j, (k <= j)%nat -> brace_scan j b i = brace_scan k b i)
  /\ (forall d o n, n <= 512 * Z.of_nat k -> forall j, (k <= j)%nat -> md5_feed j d o n = md5_feed k d o n)
  /\ (forall b i, 1024 <= Z.of_nat k + i -> forall j, (k <= j)%nat -> skip_space j b i = skip_space k b i).
Proof.
  intros k. repeat match goal with |- _ /\ _ => split end; intros;
  match goal with |- ?f ?j ?a ?b ?c ?d ?e ?g ?h ?i = _ => apply (more_any _ (fun j => f j a b c d e g h i))
  | |- ?f ?j ?a ?b ?c = _ => apply (more_any _ (fun j => f j a b c)) | |- ?f ?j ?a ?b = _ => apply (more_any _ (fun j => f j a b)) end; auto; intros.
  - now apply more_header.
  - now apply ends_header_loop.
  - now apply more_multipart.
  - now apply ends_multipart_loop.
  - now apply more_split.
  - now apply ends_split_loop.
  - now apply more_parse.
  - now apply ends_parse_loop.
  - now apply more_multi.
  - now apply ends_multi_loop.
  - now apply more_limits.
  - now apply ends_limits_loop.
  - now apply more_stream.
  - now apply ends_stream_loop.
  - now apply more_rtrim.
  - now apply ends_rtrim_loop.
  - now apply more_brace.
  - now apply ends_brace_scan.
  - now apply more_md5.
  - now apply ends_md5_feed.
  - now apply more_skip.
  - now apply ends_skip_space.
Qed.
Print Assumptions C75_steps.
(** The bounds matter: with one step less the loops below are cut short. *)
Example C75_case :
  split_loop 2 0 (L ",") (L "a,b,c") = UB OutOfFuel /\ (exists l, split_loop 3 0 (L ",") (L "a,b,c") = Ok l /\ split_loop 9 0 (L ",") (L "a,b,c") = Ok l)
  /\ limits_loop 1 0 free_limit (L "/a,1,2,3" ++ [LF] ++ L "/b,4,5,6") = UB OutOfFuel
  /\ limits_loop 2 0 free_limit (L "/a,1,2,3" ++ [LF] ++ L "/b,4,5,6") = Ok [mkLimit (L "/a") 1 2 3; mkLimit (L "/b") 4 5 6]
  /\ md5_feed 1 (calloc 600) 0 513 = UB OutOfFuel /\ md5_feed 2 (calloc 600) 0 513 = Ok (repeat NUL 513).
Proof. split; [reflexivity|]. split; [eexists; split; vm_compute; reflexivity|]. vm_compute. auto. Qed.

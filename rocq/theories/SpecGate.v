(** SpecGate.v - what the properties of the gate mean. *)
From Verif Require Import Base WsConn Server Start Gate SpecConf SpecConn SpecServer SpecStart Spec.

(** The states reached by a schedule. *)
Inductive passes (rules : list limit) (cap max_fds : Z) : gate -> list gact -> gate -> Prop :=
| p_none : forall g, passes rules cap max_fds g [] g
| p_step : forall g x g1 l g2, gstep rules cap max_fds g x = Some (Ok g1) -> passes rules cap max_fds g1 l g2 ->
    passes rules cap max_fds g (x :: l) g2.

(** In the schedule [l] the last connection accepted with descriptor [s] was that of [a], and the
    files were [f] then. *)
Definition last_accepted (l : list gact) (s : Z) (a : address) (f : fs) : Prop :=
  exists l1 l2, l = l1 ++ GAccept s a f :: l2 /\ forall a' f', ~ In (GAccept s a' f') l2.

(** The addresses are addresses, and the lists short enough to be read. *)
Definition sane (root : str) (x : gact) : Prop :=
  match x with GAccept _ a f => valid a /\ small_lists root f | _ => True end.
(** As in SpecServer: no descriptor is given out again before its entry is removed, and the paths
    fit the table. *)
Inductive neat (rules : list limit) (cap max_fds : Z) : gate -> list gact -> gate -> Prop :=
| n_none : forall g, neat rules cap max_fds g [] g
| n_step : forall g x g1 l g2, gstep rules cap max_fds g x = Some (Ok g1) ->
    match x with
    | GAccept s _ _ => ~ In s (flat_map leaving (s_jobs (g_sv g)))
    | GAdmit _ path => no_nul path /\ len path <= 511
    | _ => True
    end -> neat rules cap max_fds g1 l g2 -> neat rules cap max_fds g (x :: l) g2.
(** The client has reset the last connection accepted with descriptor [s]. *)
Definition reset_since (l : list gact) (s : Z) : Prop :=
  exists l1 l2, l = l1 ++ GReset s :: l2 /\ forall a f, ~ In (GAccept s a f) l2.
(** A connection that comes from [a], as the schedule [l] has it. *)
Definition comes_from (l : list gact) (a : address) (c : conn) : Prop := exists f, last_accepted l (c_socket c) a f.

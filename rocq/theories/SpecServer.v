(** SpecServer.v - what the descriptor properties mean. *)
From Coq Require Export Permutation.
From Verif Require Import Base WsConn Server SpecConn Spec.

(** The states reached by a schedule. *)
Inductive reaches (rules : list limit) (cap max_fds : Z) : server -> list sact -> server -> Prop :=
| r_none : forall sv, reaches rules cap max_fds sv [] sv
| r_step : forall sv a sv1 l sv2, sstep rules cap max_fds sv a = Some (Ok sv1) -> reaches rules cap max_fds sv1 l sv2 ->
    reaches rules cap max_fds sv (a :: l) sv2.

(** The descriptors workers hold open. *)
Definition held (j : job) : list Z :=
  match j with JRead s => [s] | JServe c => [c_socket c] | JClose s _ => [s] | JIdle | JDel _ _ => [] end.
(** The connections admitted and not yet removed. *)
Definition admitted (j : job) : list conn :=
  match j with JServe c => [c] | JClose _ (Some c) | JDel _ (Some c) => [c] | _ => [] end.
(** Descriptors closed but not yet removed from the table. *)
Definition leaving (j : job) : list Z := match j with JDel s _ => [s] | _ => [] end.

(** A schedule in which accept() never returns a descriptor some worker has closed but not yet
    removed from the table; requests present paths and addresses that fit the table. *)
Inductive orderly (rules : list limit) (cap max_fds : Z) : server -> list sact -> server -> Prop :=
| o_none : forall sv, orderly rules cap max_fds sv [] sv
| o_step : forall sv a sv1 l sv2, sstep rules cap max_fds sv a = Some (Ok sv1) ->
    match a with
    | Accept s _ => ~ In s (flat_map leaving (s_jobs sv))
    | Admit _ ip path => no_nul path /\ no_nul ip /\ len path <= 511 /\ len ip <= 15
    | _ => True
    end -> orderly rules cap max_fds sv1 l sv2 -> orderly rules cap max_fds sv (a :: l) sv2.
(** The connections being served. *)
Definition serving (j : job) : list conn := match j with JServe c => [c] | _ => [] end.

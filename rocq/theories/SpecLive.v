(** SpecLive.v - what the liveness properties of the work queue mean.  From the model the state
    types and the actions are used. *)
From Verif Require Import Base Queue SpecQueue.

(** What the threads do by themselves: everything but a new connection and a spurious wake-up. *)
Definition own (a : action) : Prop := match a with DoAccept _ _ | DoSpurious _ => False | _ => True end.
(** The same with handlers that do not return. *)
Definition own_but_finish (a : action) : Prop := match a with DoFinish _ => False | _ => True end.
Definition spurious (sched : list action) : Z := len (filter (fun a => match a with DoSpurious _ => true | _ => false end) sched).

(** Nothing is left to do: the accept loop is in accept(), no socket is queued, every worker waits. *)
Definition settled (s : sys) : Prop :=
  s_acc s = AAccept /\ q_size (s_queue s) = 0 /\ s_mutex s = None /\ Forall (fun w => w = WBlocked) (s_workers s).

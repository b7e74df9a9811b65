(** SpecQueue.v - what the work queue properties mean.  From the model the record and state
    types, the actions and [step] are used. *)
From Verif Require Import Base Queue.

(** [l] is an interleaving of [a] and [b]. *)
Inductive merge {A} : list A -> list A -> list A -> Prop :=
| m_nil : merge [] [] []
| m_left : forall x l a b, merge l a b -> merge (l ++ [x]) (a ++ [x]) b
| m_right : forall x l a b, merge l a b -> merge (l ++ [x]) a (b ++ [x]).

(** The sockets accepted during a schedule whose address is allowed, and those whose is not. *)
Definition arrivals (sched : list action) : list Z :=
  flat_map (fun a => match a with DoAccept v true => [v] | _ => [] end) sched.
Definition rejected (sched : list action) : list Z :=
  flat_map (fun a => match a with DoAccept v false => [v] | _ => [] end) sched.

(** The sockets whose handling begins during a schedule: a worker that was not running a handler
    is running one after the step. *)
Fixpoint entered (before after : list wpc) : list Z :=
  match before, after with
  | x :: t, y :: t' => match x, y with WRunning _, _ => [] | _, WRunning v => [v] | _, _ => [] end ++ entered t t'
  | _, _ => []
  end.
Fixpoint started (s : sys) (sched : list action) : list Z :=
  match sched with
  | [] => []
  | a :: t => match step s a with
              | Some (Ok s') => entered (s_workers s) (s_workers s') ++ started s' t
              | _ => []
              end
  end.

(** [l] is what the ring holds, oldest first. *)
Definition holds (q : queue) (l : list Z) : Prop :=
  q_size q = len l /\ len l <= q_capacity q /\
  forall i, 0 <= i < len l ->
    nth_error (q_elements q) (Z.to_nat ((q_front q + i) mod q_capacity q)) = Some (nth_error l (Z.to_nat i)).

(** The socket a worker has taken but not begun to handle, and the one in the acceptor's hands. *)
Definition in_transit (s : sys) : list Z :=
  flat_map (fun w => match w with WTaken v => [v] | _ => [] end) (s_workers s).
Definition in_hand (s : sys) : list Z :=
  match s_acc s with AWantLock v | ALocked v => [v] | _ => [] end.

(** Workers on their way to the queue, and whether the acceptor is about to signal. *)
Definition awake (s : sys) : Z :=
  len (filter (fun w => match w with WWantLock | WLocked | WWoken => true | _ => false end) (s_workers s)).
Definition about_to_signal (s : sys) : Z :=
  match s_acc s with AUnlock | ASignal => 1 | _ => 0 end.

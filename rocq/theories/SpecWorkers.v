(** SpecWorkers.v - what the properties of requests handled at the same time mean.  From the model
    the state types and accept_request are used. *)
From Verif Require Import Base WsRequest Workers SpecEffects SpecConn Spec.

(** The connection handled with nothing else going on. *)
Definition alone (f : fs) (q : incoming) : outcome result := accept_request (q_env q) f empty_table (q_socket q) (q_peer q) (q_stream q).

(** Refused with 429: nothing else was sent or logged. *)
Definition refused (k : route_taken) (r : api_request) : Prop :=
  k = TTooMany /\ r_sent r = plain_status (L "HTTP/1.1 429 Too many connections") /\ map e_status (r_log r) = [429].

(** The connections in the hands of the threads. *)
Definition in_work (p : pool) : list incoming :=
  flat_map (fun s => match s with
                     | SIdle => []
                     | SRead q | SCheck q _ | SSearch q _ | SClaim q _ _ | SRefused q _ | SServe q _ | SClosed q _ _ => [q]
                     end) (w_threads p).
Definition answered (p : pool) : list incoming := map (fun a => fst (fst a)) (w_answers p).

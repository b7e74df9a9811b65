(** Races.v - interleaving models of the two places where /repo shares state between
    worker threads without a lock: the live-connection table (ws.c:386-456) and the
    static state of strtok used by split (string_utils.c:171-191). *)
From Verif Require Export WsConn.

(** ** Concurrent admission - connection_add and connection_del, ws.c:386-456.
    Each worker validates (reading the table), then looks for a free slot, then fills
    that slot; later it frees its entry.  Simplification: the validation and the search
    each read the table at one instant; real executions interleave more finely, so every
    schedule below is a real one but not conversely. *)
Inductive cpc :=
| CStart                 (* 441: about to validate *)
| CSearch                (* 444: admitted by the rules, about to look for a free slot *)
| CClaim (i : nat)       (* 448: about to fill slot i *)
| CServe                 (* serving the request *)
| CEnd (admitted : bool).

Record worker := mkWorker { k_socket : Z; k_ip : str; k_path : str; k_pc : cpc }.
Record cstate := mkC { c_table : table; c_workers : list worker }.

Definition set_pc (w : worker) (p : cpc) : worker := mkWorker (k_socket w) (k_ip w) (k_path w) p.
Definition set_nth {A} (l : list A) (k : nat) (x : A) : list A := firstn k l ++ x :: skipn (S k) l.

(** Lines 444-446: index of the first free slot. *)
Fixpoint free_index (t : table) : option nat :=
  match t with
  | [] => None
  | c :: t' => if c_socket c =? 0 then Some O else option_map S (free_index t')
  end.

(** One step of worker [k]; None when it has nothing left to do. *)
Definition cstep (rules : list limit) (s : cstate) (k : nat) : option (outcome cstate) :=
  match nth_error (c_workers s) k with
  | None => None
  | Some w =>
    let upd_w t p := mkC t (set_nth (c_workers s) k (set_pc w p)) in
    match k_pc w with
    | CStart =>
      Some (v <- connection_validate rules (c_table s) (k_ip w) (k_path w);;
            Ok (upd_w (c_table s) (if v : bool then CSearch else CEnd false)))
    | CSearch =>
      Some (Ok (upd_w (c_table s)
              match free_index (c_table s) with Some i => CClaim i | None => CEnd false end))
    | CClaim i =>
      Some (Ok (upd_w (set_nth (c_table s) i (mkConn (k_socket w) (k_path w) (k_ip w))) CServe))
    | CServe => Some (Ok (upd_w (connection_del (c_table s) (k_socket w)) (CEnd true)))
    | CEnd _ => None
    end
  end.

Fixpoint crun (rules : list limit) (s : cstate) (sched : list nat) : option (outcome cstate) :=
  match sched with
  | [] => Some (Ok s)
  | k :: t =>
    match cstep rules s k with
    | None => None
    | Some (UB u) => Some (UB u)
    | Some (Ok s') => crun rules s' t
    end
  end.

(** ** Concurrent splitting - split, string_utils.c:171-191, called on every URL by
    get_path_and_query_string (http_utils.c:455).  strtok keeps what is left of the
    string being split in one static variable shared by all threads.
    Simplification: tokens and rests are contents; that another thread's copy may
    already have been freed is not modelled. *)
Inductive tpc := TFirst | TNext | TDone.
Record splitter := mkSplitter { t_str : str; t_pc : tpc; t_tokens : list str }.
Record tstate := mkT { t_save : str; t_threads : list splitter }.

(** One strtok call of thread [k] and the storing of its token (lines 176-185). *)
Definition tstep (delim : str) (s : tstate) (k : nat) : option tstate :=
  match nth_error (t_threads s) k with
  | None => None
  | Some w =>
    let go (input : str) :=
      match strtok delim input with
      | None => Some (mkT [] (set_nth (t_threads s) k (mkSplitter (t_str w) TDone (t_tokens w))))
      | Some (tok, rest) =>
        Some (mkT rest (set_nth (t_threads s) k (mkSplitter (t_str w) TNext (t_tokens w ++ [tok]))))
      end in
    match t_pc w with
    | TFirst => go (t_str w)
    | TNext => go (t_save s)
    | TDone => None
    end
  end.

Fixpoint trun (delim : str) (s : tstate) (sched : list nat) : option tstate :=
  match sched with
  | [] => Some s
  | k :: t => match tstep delim s k with None => None | Some s' => trun delim s' t end
  end.

Definition tinit (urls : list str) : tstate :=
  mkT [] (map (fun u => mkSplitter u TFirst []) urls).

(** SpecMain.v - what the logging and command line properties mean. *)
From Verif Require Import Base HttpUtils LogMain SpecJson SpecHttp SpecConn Spec.

(** ** Logging *)
(** What the program does with the logger: change the level, or log a message. *)
Inductive logcall := SetLevel (level : Z) | Say (level : Z) (text : str).

(** The messages written by these calls, starting with this threshold, and whether the process
    has ended (nothing happens after that). *)
Inductive written : Z -> list logcall -> list (Z * str) -> bool -> Prop :=
| w_end : forall thr, written thr [] [] false
| w_set : forall thr l c o b, written l c o b -> written thr (SetLevel l :: c) o b
| w_quiet : forall thr l t c o b, l < thr -> written thr c o b -> written thr (Say l t :: c) o b
| w_say : forall thr l t c o b, thr <= l -> l <> 5 -> written thr c o b -> written thr (Say l t :: c) ((l, t) :: o) b
| w_fatal : forall thr t c, thr <= 5 -> written thr (Say 5 t :: c) [(5, t)] true.

(** The six levels: trace, debug, info, warn, error, fatal. *)
Definition proper (c : logcall) : Prop := match c with Say l _ => 0 <= l <= 5 | SetLevel _ => True end.

(** The calls made one after another on the model, until the process ends. *)
Fixpoint log_run (s : logstate) (calls : list logcall) : outcome logstate :=
  if lg_exited s then Ok s
  else match calls with
       | [] => Ok s
       | SetLevel l :: t => log_run (log_set_level s l) t
       | Say l x :: t => s' <- logger s l x;; log_run s' t
       end.

(** ** Access log *)
Definition quoted (s : str) : str := [DQ] ++ s ++ [DQ].
(** One line: fields separated by one space. *)
Fixpoint spaced (l : list str) : str :=
  match l with [] => [] | [x] => x | x :: t => x ++ L " " ++ spaced t end.
Definition combined (ip ts line status length referer agent rt : str) : str :=
  spaced [ip; L "-"; L "-"; L "[" ++ ts ++ L "]"; quoted line; status; length; quoted referer; quoted agent; rt] ++ [LF].

(** ** Command line *)
(** The items of a command line; [joined]: written as one word with its letter. *)
Inductive item := Debug | Plain | Bind (a : str) (joined : bool) | Port (a : str) (joined : bool)
                | Root (a : str) (joined : bool) | Operand (a : str).
Definition with_value (letter : string) (a : str) (joined : bool) : list str :=
  if joined then [L letter ++ a] else [L letter; a].
Definition words (i : item) : list str :=
  match i with
  | Debug => [L "-d"] | Plain => [L "-f"]
  | Bind a j => with_value "-b" a j | Port a j => with_value "-p" a j | Root a j => with_value "-r" a j
  | Operand a => [a]
  end.
(** A joined value is not empty; an operand does not look like an option. *)
Definition well_formed (i : item) : Prop :=
  match i with
  | Bind a true | Port a true | Root a true => a <> []
  | Operand a => a = L "-" \/ forall t, a <> "-"%char :: t
  | _ => True
  end.

(** The value of the last item of a kind. *)
Inductive last_of {A} (kind : item -> option A) (dflt : A) : list item -> A -> Prop :=
| lo_none : forall l, (forall i, In i l -> kind i = None) -> last_of kind dflt l dflt
| lo_some : forall a i v b, kind i = Some v -> (forall j, In j b -> kind j = None) ->
    last_of kind dflt (a ++ i :: b) v.
Definition bind_of (i : item) : option str := match i with Bind a _ => Some a | _ => None end.
Definition port_of (i : item) : option str := match i with Port a _ => Some a | _ => None end.
Definition root_of (i : item) : option str := match i with Root a _ => Some a | _ => None end.

(** Values that main's buffers can hold, and roots that exist. *)
Definition acceptable (isdir : str -> Prop) (i : item) : Prop :=
  match i with
  | Bind a _ => len a <= 23
  | Root a _ => len a <= 255 /\ isdir a
  | _ => True
  end.

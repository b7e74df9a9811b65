(** SpecSafe.v - which configuration files, limits files, address lists and command lines have an
    undefined effect.  From the model only record types, the options [getopt] finds among the
    arguments (characterised by C69) and [is_dir] are used. *)
From Verif Require Import Base FileUtils LogMain Start SpecConf SpecConn SpecStart Spec.

(** A configuration file, line by line (what precedes a NUL): a line without '=' whose message does
    not fit; a line with '=' and nothing else; a line with more than 20 values. *)
Inductive bad_conf (flags : list (str * bool)) (path : str) : list str -> Prop :=
| bc_message : forall l ls, ~ In "="%char l -> 86 < len path -> bad_conf flags path (l :: ls)
| bc_empty : forall l T ls, In "="%char l -> trimmed l T -> tokens (L "=") T [] -> bad_conf flags path (l :: ls)
| bc_values : forall l T k ts k' v vs ls, In "="%char l -> trimmed l T -> tokens (L "=") T (k :: ts) -> trimmed k k' -> flagged flags k' true ->
    trimmed (hd [] ts) v -> tokens (L ",") v vs -> 20 < len vs -> bad_conf flags path (l :: ls)
| bc_later : forall l T k ts k' ls, In "="%char l -> trimmed l T -> tokens (L "=") T (k :: ts) -> trimmed k k' ->
    (flagged flags k' true -> forall v vs, trimmed (hd [] ts) v -> tokens (L ",") v vs -> len vs <= 20) ->
    bad_conf flags path ls -> bad_conf flags path (l :: ls).
Definition bad_parse (f : fs) (path : str) (flags : list (str * bool)) : Prop :=
  (f path = None /\ 98 < len path)
  \/ exists content ls vs, f path = Some (File content) /\ lines 511 content ls /\ Forall2 visible ls vs /\ bad_conf flags path vs.

(** A limits file of which [n] more rules are read: a path field that does not fit before they are
    complete. *)
Inductive bad_limits : Z -> list str -> Prop :=
| bl_path : forall n t p more ls, 0 < n -> tokens (L ",") ("/"%char :: t) (p :: more) -> 511 < len p -> bad_limits n (("/"%char :: t) :: ls)
| bl_rule : forall n t p a b more ls, tokens (L ",") ("/"%char :: t) (p :: a :: b :: more) -> len p <= 511 -> bad_limits (n - 1) ls ->
    bad_limits n (("/"%char :: t) :: ls)
| bl_other : forall n l ls, other_line l -> bad_limits n ls -> bad_limits n (l :: ls).
Definition bad_rules (f : fs) (root : str) : Prop :=
  276 < len root
  \/ exists content ls vs, f (root ++ L "/etc/limits") = Some (File content) /\ text_lines content ls /\ Forall2 visible ls vs /\ bad_limits 64 vs.

(** The lists of addresses, for a first peer. *)
Definition big (f : fs) (p : str) : Prop := exists content, f p = Some (File content) /\ 8192 <= len content.
Definition bad_lists (f : fs) (root ip : str) : Prop :=
  277 < len root \/ big f (root ++ L "/etc/deny") \/ (~ listed f (root ++ L "/etc/deny") ip /\ big f (root ++ L "/etc/allow")).

(** Options that do not end the program and fit. *)
Definition passes (f : fs) (o : opt) : Prop :=
  match o with
  | OptB a => len a <= 23
  | OptR a => len a <= 255 /\ is_dir f a = true
  | OptP _ | OptD | OptF | OptMissing _ => True
  | OptH | OptV | OptUnknown _ => False
  end.
Definition bad_options (f : fs) (args : list str) : Prop :=
  exists pre o post, getopt args = pre ++ o :: post /\ Forall (passes f) pre
    /\ ((exists a, o = OptB a /\ 24 <= len a) \/ (exists a, o = OptR a /\ 256 <= len a)).

(** SpecConn.v - what the connection table and limit rule properties mean.  From the model
    only the record types [conn] and [limit] are used. *)
From Verif Require Import Base WsConn SpecJson Spec.

(** [n] elements of [l] have the property. *)
Inductive counts {A} (P : A -> Prop) : list A -> Z -> Prop :=
| counts_nil : counts P [] 0
| counts_yes : forall x l n, P x -> counts P l n -> counts P (x :: l) (n + 1)
| counts_no : forall x l n, ~ P x -> counts P l n -> counts P (x :: l) n.

(** A connection is on a limit path if its path starts with it, up to case. *)
Definition on (p : str) (c : conn) : Prop := ci_prefix p (c_path c).
Definition on_from (p ip : str) (c : conn) : Prop := on p c /\ c_ip c = ip.

(** The rules in force: those before the first one with an empty path. *)
Inductive in_force : list limit -> limit -> Prop :=
| if_here : forall r rs, l_path r <> [] -> in_force (r :: rs) r
| if_later : forall r0 r rs, l_path r0 <> [] -> in_force rs r -> in_force (r0 :: rs) r.

(** With the open connections [open], a new one from [ip] to [path] is over a limit: some rule
    for that path has more than its maximum of connections (of that address) already. *)
Definition over_limit (rules : list limit) (open : list conn) (ip path : str) : Prop :=
  exists r n m, in_force rules r /\ ci_prefix (l_path r) path
    /\ counts (on (l_path r)) open n /\ counts (on_from (l_path r) ip) open m
    /\ (l_max r < n \/ l_max_ip r < m).

(** The connections in the table: the slots whose socket is not 0. *)
Definition occupied (t : list conn) : list conn := filter (fun c => negb (c_socket c =? 0)) t.

(** Histories of connections opened and closed one after another. *)
Inductive event := Open (socket : Z) (ip path : str) | Close (socket : Z).

(** What an event does to the open connections, and whether it is admitted. *)
Inductive happens (rules : list limit) : list conn -> event -> bool -> list conn -> Prop :=
| h_admit : forall open s ip path, ~ over_limit rules open ip path -> len open < 1024 ->
    happens rules open (Open s ip path) true (mkConn s path ip :: open)
| h_refuse : forall open s ip path, over_limit rules open ip path \/ len open = 1024 ->
    happens rules open (Open s ip path) false open
| h_close : forall a s path ip b,
    happens rules (a ++ mkConn s path ip :: b) (Close s) true (a ++ b)
| h_unknown : forall open s, ~ In s (map c_socket open) -> happens rules open (Close s) true open.

(** A history: the answers to its events and the connections open at its end.  Sockets are
    positive, and a socket is not opened again while it is open. *)
Inductive history (rules : list limit) : list event -> list bool -> list conn -> Prop :=
| hi_start : history rules [] [] []
| hi_next : forall evs answers open ev ok open', history rules evs answers open ->
    match ev with
    | Open s ip path => 0 < s /\ ~ In s (map c_socket open) /\ no_nul path /\ no_nul ip
                        /\ len path <= 511 /\ len ip <= 15
    | Close s => 0 < s
    end ->
    happens rules open ev ok open' -> history rules (evs ++ [ev]) (answers ++ [ok]) open'.

(** ** The limits file *)

(** Lines of any length: newline only at their end. *)
Inductive text_lines : str -> list str -> Prop :=
| tl_nil : text_lines [] []
| tl_last : forall l, l <> [] -> ~ In LF l -> text_lines l [l]
| tl_nl : forall l r ls, ~ In LF l -> text_lines r ls -> text_lines (l ++ LF :: r) ((l ++ [LF]) :: ls).

(** The integer at the start of a text: blanks, a sign, digits; 0 if there are none.  Only
    values that fit an int. *)
Definition int_at (s : str) (n : Z) : Prop :=
  exists b sign d r, s = b ++ sign ++ d ++ r /\ Forall blank b /\ In sign [[]; L "-"; L "+"]
    /\ Forall (fun c => digit c = true) d
    /\ (forall c t, r = c :: t -> digit c = false)
    /\ (sign = [] -> d = [] -> forall c t, r = c :: t -> ~ blank c /\ c <> "-"%char /\ c <> "+"%char)
    /\ n = (if list_eq_dec ascii_dec sign (L "-") then - value_of_digits 0 d else value_of_digits 0 d)
    /\ - 2 ^ 31 <= n < 2 ^ 31.

(** The rule on a line (its text before a NUL): '/', comma-separated fields. *)
Definition rule_line (line : str) (r : limit) : Prop :=
  (exists t, line = "/"%char :: t) /\
  exists p a b more, tokens (L ",") line (p :: a :: b :: more) /\ len p <= 511
    /\ l_path r = p /\ int_at a (l_max r) /\ int_at b (l_max_ip r)
    /\ match more with [] => l_seconds r = 0 | s :: _ => int_at s (l_seconds r) end.
(** A line that gives no rule. *)
Definition other_line (line : str) : Prop :=
  (forall t, line <> "/"%char :: t)
  \/ exists p more, tokens (L ",") line (p :: more) /\ len p <= 511 /\ len more <= 1.

(** The first [n] rules of the lines. *)
Inductive rules_of : Z -> list str -> list limit -> Prop :=
| ro_end : forall n, rules_of n [] []
| ro_full : forall ls, rules_of 0 ls []
| ro_rule : forall n l ls r rs, 0 < n -> rule_line l r -> rules_of (n - 1) ls rs -> rules_of n (l :: ls) (r :: rs)
| ro_other : forall n l ls rs, 0 < n -> other_line l -> rules_of n ls rs -> rules_of n (l :: ls) rs.

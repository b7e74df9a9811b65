(** SpecHeap.v - what the heap properties of the configuration code mean. *)
From Coq Require Export Permutation.
From Verif Require Import Base ConfHeap SpecConf Spec.

(** The live blocks of the heap are exactly [l]; further blocks will be new. *)
Definition blocks_are (h : heap) (l : list (nat * str)) : Prop :=
  Permutation (h_live h) l /\ NoDup (map fst l) /\ Forall (fun b => (fst b < h_next h)%nat) l.

(** [own] are the blocks of the item: its struct, its key, its value unless that is the literal
    "", and its multi-values; through them it reads as [c]. *)
Definition owns (it : hitem) (c : conf_item) (own : list (nat * str)) : Prop :=
  exists a b vown mown, i_self it = PBlock a /\ i_key it = PBlock b
    /\ ((i_value it = PLit [] /\ value c = [] /\ vown = []) \/ exists n, i_value it = PBlock n /\ vown = [(n, value c)])
    /\ i_multi it = map (fun x => PBlock (fst x)) mown /\ multivalue c = map snd mown
    /\ own = (a, []) :: (b, key c) :: vown ++ mown.
(** How many strings of an item free_conf_item cannot tell from literals. *)
Definition empties (it : hitem) (c : conf_item) (n : nat) : Prop :=
  exists x y, (key c = [] /\ x = 1 \/ key c <> [] /\ x = 0)%nat
    /\ ((value c = [] /\ exists m, i_value it = PBlock m) /\ y = 1 \/ (value c <> [] \/ i_value it = PLit []) /\ y = 0)%nat
    /\ n = (x + y)%nat.
Inductive all_own : list hitem -> list conf_item -> list (nat * str) -> Prop :=
| ao_nil : all_own [] [] []
| ao_cons : forall it c own its cs owns', owns it c own -> all_own its cs owns' -> all_own (it :: its) (c :: cs) (own ++ owns').
Inductive emptied : list hitem -> list conf_item -> nat -> Prop :=
| em_nil : emptied [] [] 0
| em_cons : forall it c its cs n m, empties it c n -> emptied its cs m -> emptied (it :: its) (c :: cs) (n + m).
(** How many of the items have an empty key. *)
Inductive keyless : list conf_item -> nat -> Prop :=
| kl_nil : keyless [] 0
| kl_empty : forall c cs n, key c = [] -> keyless cs n -> keyless (c :: cs) (S n)
| kl_other : forall c cs n, key c <> [] -> keyless cs n -> keyless (c :: cs) n.
(** Items as new_conf_item_with_values and new_serializable make them: no heap block for an
    empty value. *)
Definition plain (it : hitem) (c : conf_item) : Prop := value c = [] -> i_value it = PLit [].

(** How many blocks reading a list of lines leaves behind: for each line up to the first
    without '=', one if its key is blank and one if it has a value and that is blank. *)
Definition lost_by (s : str) (n : nat) : Prop := (Forall blank s /\ n = 1 \/ ~ Forall blank s /\ n = 0)%nat.
Inductive left_behind : list str -> nat -> Prop :=
| lb_end : left_behind [] 0
| lb_bad : forall t ls, ~ In "="%char t -> left_behind (t :: ls) 0
| lb_key : forall t T k ls n m, In "="%char t -> trimmed t T -> tokens (L "=") T [k] -> lost_by k n ->
    left_behind ls m -> left_behind (t :: ls) (n + m)
| lb_value : forall t T k v r ls n p m, In "="%char t -> trimmed t T -> tokens (L "=") T (k :: v :: r) -> lost_by k n -> lost_by v p ->
    left_behind ls m -> left_behind (t :: ls) (n + p + m).

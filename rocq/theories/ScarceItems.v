(** ScarceItems.v - configuration items made by a program, and the text of a serializable, when memory is
    short: new_conf_item_with_values, copy_conf_item, new_serializable and serializable_to_string of
    /repo/conf_parser.c once more, with an answer for each block they ask for.

    Simplifications: those of ScarceConf.v; the arguments of new_conf_item_with_values are strings. *)
From Verif Require Export ScarceConf.

(** The blocks; the items made are numbered. *)
Inductive iblock :=
| IOf (b : cblock)                  (* those of ScarceConf.v *)
| IMade (i : nat)                   (* conf_parser.c:173 called from 182 *)
| IKey (i : nat)                    (* conf_parser.c:183 *)
| IValue (i : nat)                  (* conf_parser.c:185 *)
| IElem (i j : nat)                 (* conf_parser.c:192 *)
| IShown.                           (* conf_parser.c:288 *)
(** Which blocks are given. *)
Definition ilender := iblock -> bool.
Definition for_conf (ok : ilender) : lender := fun b => ok (IOf b).
(** The first access to a block. *)
Definition lent (ok : ilender) (b : iblock) : outcome unit := if ok b then Ok tt else UB NullDeref.

(** ** Making *)
(** A copy that is stored unlooked at. *)
Definition stored (ok : ilender) (b : iblock) (s : str) : cptr := if ok b then Some s else None.
Fixpoint stored_all (ok : ilender) (i j : nat) (l : list str) : list cptr :=
  match l with [] => [] | s :: t => stored ok (IElem i j) s :: stored_all ok i (S j) t end.
(** new_conf_item_with_values - /repo/conf_parser.c:180-196; an empty value stays the literal of
    new_conf_item (171-178). *)
Definition new_conf_item_with_values_s (ok : ilender) (i : nat) (k v : str) (mv : list str) : outcome nitem :=
  _ <- lent ok (IMade i);;                                           (* 174 *)
  if CONF_MAX_MULTI_ELEMENTS <? len mv then UB ArrayIndex else
  Ok (mkN (stored ok (IKey i) k)
          (match v with [] => Some [] | _ => stored ok (IValue i) v end)
          (stored_all ok i 0 mv)).
(** The items of a list, one after the other. *)
Fixpoint make_items (ok : ilender) (i : nat) (l : list conf_item) : outcome (list nitem) :=
  match l with
  | [] => Ok []
  | it :: t =>
    n <- new_conf_item_with_values_s ok i (key it) (value it) (multivalue it);;
    r <- make_items ok (S i) t;; Ok (n :: r)
  end.

(** ** Copying *)
(** strdup, and before it strcmp (241), of NULL is undefined. *)
Definition strdup_n (ok : lender) (b : cblock) (p : cptr) : outcome cptr :=
  match p with None => UB NullDeref | Some s => Ok (copied ok b s) end.
Fixpoint copies_n (ok : lender) (i j : nat) (l : list cptr) : outcome (list cptr) :=
  match l with
  | [] => Ok []
  | p :: t => c <- strdup_n ok (CElem i j) p;; r <- copies_n ok i (S j) t;; Ok (c :: r)
  end.
(** copy_conf_item - /repo/conf_parser.c:238-248. *)
Definition copy_conf_item_n (ok : lender) (i : nat) (it : nitem) : outcome nitem :=
  k <- strdup_n ok (CKeyOf i) (n_key it);;
  v <- (match n_value it with Some [] => Ok (Some []) | p => strdup_n ok (CValueOf i) p end);;
  m <- copies_n ok i 0 (n_multi it);;
  Ok (mkN k v m).
(** new_serializable - /repo/conf_parser.c:272-284. *)
Fixpoint copy_items_n (ok : lender) (i : nat) (items : list nitem) : outcome (list nitem) :=
  match items with
  | [] => Ok []
  | it :: t =>
    _ <- had ok (CNew i);;                                           (* 174 *)
    c <- copy_conf_item_n ok i it;;
    r <- copy_items_n ok (S i) t;; Ok (c :: r)
  end.
Definition new_serializable_n (ok : lender) (path : str) (items : list nitem) : outcome (str * list nitem) :=
  _ <- had ok CAll;;                                                 (* 275 *)
  if CONF_MAX_ITEMS <? len items then UB ArrayIndex else
  l <- copy_items_n ok 0 items;; Ok (path, l).
(** Items made, made serializable and written. *)
Definition save_made (ok : ilender) (f : fs) (path : str) (l : list conf_item) : outcome (Z * fs) :=
  items <- make_items ok 0 l;;
  s <- new_serializable_n (for_conf ok) path items;;
  write_conf_s (for_conf ok) f s.

(** ** serializable_to_string - /repo/conf_parser.c:286-297 *)
Fixpoint ser_loop_s (ok : lender) (i : nat) (items : list nitem) (acc : str) : outcome str :=
  match items with
  | [] => Ok acc
  | it :: t =>
    a1 <- fits 1024 (acc ++ L ",");;
    s <- conf_item_to_string_s (fun k => ok (CStr i k)) it;;
    a2 <- fits 1024 (a1 ++ s);;
    ser_loop_s ok (S i) t a2
  end.
Definition serializable_to_string_s (ok : ilender) (s : str * list nitem) : outcome str :=
  _ <- lent ok IShown;;                                              (* 289 *)
  a0 <- fits 1024 (L "[path=" ++ fst s ++ L ",n_items=" ++ dec (len (snd s)));;
  a1 <- ser_loop_s (for_conf ok) 0 (snd s) a0;;
  fits 1024 (a1 ++ L "]").
(** A list of items made serializable and shown. *)
Definition show_s (ok : ilender) (path : str) (items : list conf_item) : outcome str :=
  s <- new_serializable_s (for_conf ok) path items;; serializable_to_string_s ok s.

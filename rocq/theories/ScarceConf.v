(** ScarceConf.v - configuration files when memory is short: conf_parse_first_pass, conf_parse_multi,
    parse, new_serializable, conf_item_to_string and write_conf of /repo/conf_parser.c once more, with an
    answer for each block they ask for.

    Simplifications: those of ConfParser.v; the items handed to new_serializable are given, so are the
    blocks of stdio. *)
From Verif Require Export ConfParser ScarceText.

(** The blocks: of line [n] of the file read, or of item [i] of the list written. *)
Inductive cblock :=
| CItem (n : nat)                   (* conf_parser.c:173 called from 76 *)
| CLine (n : nat)                   (* conf_parser.c:78 *)
| CName (n : nat)                   (* conf_parser.c:82 *)
| CValue (n : nat)                  (* conf_parser.c:94 *)
| CList (n : nat)                   (* conf_parser.c:40 *)
| CMember (n : nat) (j : Z)         (* conf_parser.c:45, 53 *)
| CAll                              (* conf_parser.c:274 *)
| CNew (i : nat)                    (* conf_parser.c:173 called from 279 *)
| CKeyOf (i : nat)                  (* conf_parser.c:240 *)
| CValueOf (i : nat)                (* conf_parser.c:242 *)
| CElem (i j : nat)                 (* conf_parser.c:246 *)
| CStr (i : nat) (k : chunk).       (* KText: conf_parser.c:223, 231; else in join *)
(** Which blocks are given. *)
Definition lender := cblock -> bool.
(** The first access to a block. *)
Definition had (ok : lender) (b : cblock) : outcome unit := if ok b then Ok tt else UB NullDeref.

(** ** Reading *)
(** conf_parse_multi - /repo/conf_parser.c:36-61.  The copies are used at once (46, 54: trim); without
    the copy of the value strtok goes on with the string of its last call, which is freed (42). *)
Fixpoint multi_loop_s (ok : lender) (n : nat) (fuel : nat) (i : Z) (rest : str) : outcome (list str * Z) :=
  if i <? CONF_MAX_MULTI_ELEMENTS then
    let i' := i + 1 in
    match strtok MULTI_DELIM rest with
    | None => Ok ([], i')
    | Some (tok, rest') =>
      if CONF_MAX_MULTI_ELEMENTS <=? i' then UB ArrayIndex else
      _ <- had ok (CMember n i');;
      v <- trim_str tok;;
      match fuel with
      | O => UB OutOfFuel
      | S f => '(l, m) <- multi_loop_s ok n f i' rest';; Ok (v :: l, m)
      end
    end
  else UB BadFree.
Definition conf_parse_multi_s (ok : lender) (n : nat) (item : conf_item) : outcome conf_item :=
  _ <- had ok (CList n);;
  match strtok MULTI_DELIM (value item) with
  | None => Ok (mkItem (key item) (value item) [])
  | Some (tok, rest) =>
    _ <- had ok (CMember n 0);;
    v0 <- trim_str tok;;
    '(l, m) <- multi_loop_s ok n (length (value item)) 0 rest;;
    Ok (mkItem (key item) (value item) (firstn (Z.to_nat m) (v0 :: l)))
  end.
(** conf_parse_first_pass - /repo/conf_parser.c:69-107, new_conf_item - 171-178. *)
Definition conf_parse_first_pass_s (ok : lender) (n : nat) (line : str) : outcome (option conf_item) :=
  match strstr line DELIM with
  | None => Ok None
  | Some _ =>
    _ <- had ok (CItem n);;                                          (* 174 *)
    _ <- had ok (CLine n);;                                          (* 79 *)
    l <- trim_str line;;
    match strtok DELIM l with
    | None => UB NullDeref
    | Some (k, rest) =>
      _ <- had ok (CName n);;                                        (* 83 *)
      k' <- trim_str k;;
      match strtok DELIM rest with
      | None => Ok (Some (mkItem k' [] []))
      | Some (v, _) =>
        v1 <- trim_str v;;
        _ <- had ok (CValue n);;                                     (* 95 *)
        v2 <- trim_str v1;;
        Ok (Some (mkItem k' v2 []))
      end
    end
  end.
(** parse - /repo/conf_parser.c:119-155; [n] counts the lines. *)
Fixpoint parse_loop_s (ok : lender) (n : nat) (fuel : nat) (path : str) (flags : list (str * bool)) (content : str)
  : outcome (Z * list conf_item) :=
  match fgets MAX_LINE_LEN content with
  | None => Ok (0, [])
  | Some (line, rest) =>
    match fuel with
    | O => UB OutOfFuel
    | S f =>
      r <- conf_parse_first_pass_s ok n (upto_nul line);;
      match r with
      | None =>
        _ <- fits 120 (L "Entity in invalid format, path: " ++ path ++ [LF]);;
        Ok (-1, [])
      | Some item =>
        match get_key_flag (key item) flags with
        | None => parse_loop_s ok (S n) f path flags rest
        | Some m =>
          item' <- (if m : bool then conf_parse_multi_s ok n item else Ok item);;
          '(st, l) <- parse_loop_s ok (S n) f path flags rest;;
          Ok (st, item' :: l)
        end
      end
    end
  end.
Definition parse_s (ok : lender) (f : fs) (path : str) (flags : list (str * bool)) : outcome (Z * list conf_item) :=
  match f path with
  | Some (File content) => parse_loop_s ok 0 (length content) path flags content
  | Some Dir => Ok (0, [])
  | None => _ <- fits 120 (L "Unable to open path: " ++ path);; Ok (-1, [])
  end.

(** ** Writing *)
(** An item whose strings may be NULL. *)
Record nitem := mkN { n_key : cptr; n_value : cptr; n_multi : list cptr }.
(** A copy that is stored unlooked at. *)
Definition copied (ok : lender) (b : cblock) (s : str) : cptr := if ok b then Some s else None.
Fixpoint copies (ok : lender) (i j : nat) (l : list str) : list cptr :=
  match l with [] => [] | s :: t => copied ok (CElem i j) s :: copies ok i (S j) t end.
(** copy_conf_item - /repo/conf_parser.c:238-248; an empty value stays the literal of new_conf_item. *)
Definition copy_conf_item_s (ok : lender) (i : nat) (it : conf_item) : nitem :=
  mkN (copied ok (CKeyOf i) (key it))
      (match value it with [] => Some [] | v => copied ok (CValueOf i) v end)
      (copies ok i 0 (multivalue it)).
(** new_serializable - /repo/conf_parser.c:272-284. *)
Fixpoint copy_items_s (ok : lender) (i : nat) (items : list conf_item) : outcome (list nitem) :=
  match items with
  | [] => Ok []
  | it :: t =>
    _ <- had ok (CNew i);;                                           (* 174 *)
    r <- copy_items_s ok (S i) t;;
    Ok (copy_conf_item_s ok i it :: r)
  end.
Definition new_serializable_s (ok : lender) (path : str) (items : list conf_item) : outcome (str * list nitem) :=
  _ <- had ok CAll;;                                                 (* 275 *)
  if CONF_MAX_ITEMS <? len items then UB ArrayIndex else
  l <- copy_items_s ok 0 items;; Ok (path, l).
(** conf_item_to_string - /repo/conf_parser.c:218-236; strlen of NULL is undefined. *)
Definition conf_item_to_string_s (ok : giver) (item : nitem) : outcome str :=
  if len (n_multi item) =? 0 then
    match n_key item, n_value item with
    | Some k, Some v =>
      _ <- used ok KText;;                                           (* 224 *)
      b <- strcpy (malloc (len k + len v + 2)) 0 (k ++ L "=" ++ v);;
      cstr b
    | _, _ => UB NullDeref                                           (* 223 *)
    end
  else
    j' <- join_s ok (Some (n_multi item)) (len (n_multi item)) (L ",");;
    j <- joined j';;                                                 (* 231 *)
    match n_key item with
    | Some k =>
      _ <- used ok KText;;                                           (* 232 *)
      b <- strcpy (malloc (len (jcontent j) + len k + 20)) 0 (k ++ L "=" ++ jcontent j);;
      match j with JLit => UB BadFree | JHeap _ => cstr b end        (* 233 *)
    | None => UB NullDeref
    end.
(** write_conf - /repo/conf_parser.c:250-270. *)
Fixpoint conf_lines_s (ok : lender) (i : nat) (items : list nitem) : outcome str :=
  match items with
  | [] => Ok []
  | it :: t =>
    s <- conf_item_to_string_s (fun k => ok (CStr i k)) it;;
    r <- conf_lines_s ok (S i) t;; Ok (s ++ [LF] ++ r)
  end.
Definition write_conf_s (ok : lender) (f : fs) (s : str * list nitem) : outcome (Z * fs) :=
  if is_dir f (fst s) then
    _ <- fits 120 (L "Unable to open file " ++ fst s ++ L " for writing");; Ok (-1, f)
  else
    t <- conf_lines_s ok 0 (snd s);;
    let old := match f (fst s) with Some (File c) => c | _ => [] end in
    Ok (0, upd f (fst s) (Some (File (fold_left apply_wevent (WTrunc :: map WByte t) old)))).
(** A list of items made serializable and written. *)
Definition save_s (ok : lender) (f : fs) (path : str) (items : list conf_item) : outcome (Z * fs) :=
  s <- new_serializable_s ok path items;; write_conf_s ok f s.

(** ConfHeap.v - which heap blocks /repo/conf_parser.c allocates and frees.

    Here strings have an address: a string literal or a heap block.  What fits where is the
    subject of ConfParser.v; here a block is its identity and the C string in it, and only
    reads, writes and frees of blocks that are not live, and of literals, are undefined. *)
From Verif Require Export ConfParser.

(** ** The heap *)
Record heap := mkHeap { h_next : nat; h_live : list (nat * str) }.
Inductive ptr := PNull | PLit (s : str) | PBlock (n : nat).

(** malloc followed by a copy of [s]; strdup. *)
Definition halloc (h : heap) (s : str) : heap * ptr :=
  (mkHeap (S (h_next h)) ((h_next h, s) :: h_live h), PBlock (h_next h)).

Fixpoint find_block (l : list (nat * str)) (n : nat) : option str :=
  match l with
  | [] => None
  | (m, s) :: t => if Nat.eqb m n then Some s else find_block t n
  end.
Fixpoint set_block (l : list (nat * str)) (n : nat) (s : str) : list (nat * str) :=
  match l with
  | [] => []
  | (m, x) :: t => if Nat.eqb m n then (m, s) :: t else (m, x) :: set_block t n s
  end.
Fixpoint drop_block (l : list (nat * str)) (n : nat) : list (nat * str) :=
  match l with
  | [] => []
  | (m, x) :: t => if Nat.eqb m n then t else (m, x) :: drop_block t n
  end.

Definition hread (h : heap) (p : ptr) : outcome str :=
  match p with
  | PNull => UB NullDeref
  | PLit s => Ok s
  | PBlock n => match find_block (h_live h) n with Some s => Ok s | None => UB UseAfterFree end
  end.
Definition hwrite (h : heap) (p : ptr) (s : str) : outcome heap :=
  match p with
  | PNull => UB NullDeref
  | PLit _ => UB OobWrite
  | PBlock n => match find_block (h_live h) n with
                | Some _ => Ok (mkHeap (h_next h) (set_block (h_live h) n s))
                | None => UB UseAfterFree
                end
  end.
(** free(p); free(NULL) does nothing. *)
Definition hfree (h : heap) (p : ptr) : outcome heap :=
  match p with
  | PNull => Ok h
  | PLit _ => UB BadFree
  | PBlock n => match find_block (h_live h) n with
                | Some _ => Ok (mkHeap (h_next h) (drop_block (h_live h) n))
                | None => UB BadFree
                end
  end.
(** trim() on a string in place. *)
Definition htrim (h : heap) (p : ptr) : outcome heap := s <- hread h p;; t <- trim_str s;; hwrite h p t.
Fixpoint hfree_all (h : heap) (l : list ptr) : outcome heap :=
  match l with [] => Ok h | p :: t => h' <- hfree h p;; hfree_all h' t end.

(** ** conf_item: the struct's own block and its pointers; n_multivalues is the length of
    [i_multi]. *)
Record hitem := mkHI { i_self : ptr; i_key : ptr; i_value : ptr; i_multi : list ptr }.

Fixpoint hread_all (h : heap) (l : list ptr) : outcome (list str) :=
  match l with [] => Ok [] | p :: t => s <- hread h p;; r <- hread_all h t;; Ok (s :: r) end.
(** The item as its user sees it. *)
Definition item_of (h : heap) (it : hitem) : outcome conf_item :=
  k <- hread h (i_key it);; v <- hread h (i_value it);; m <- hread_all h (i_multi it);; Ok (mkItem k v m).

(** new_conf_item - /repo/conf_parser.c:171-178 *)
Definition new_conf_item (h : heap) : heap * hitem :=
  let '(h1, self) := halloc h [] in (h1, mkHI self (PLit []) (PLit []) []).

(** strdup of each string of a list. *)
Fixpoint hdup_all (h : heap) (l : list str) : heap * list ptr :=
  match l with
  | [] => (h, [])
  | s :: t => let '(h1, p) := halloc h s in let '(h2, ps) := hdup_all h1 t in (h2, p :: ps)
  end.

(** The common part of new_conf_item_with_values (/repo/conf_parser.c:182-196) and
    copy_conf_item (238-248): fill a new item with copies. *)
Definition fill_item (h : heap) (it : hitem) (c : conf_item) : heap * hitem :=
  let '(h1, k) := halloc h (key c) in
  let '(h2, v) := match value c with [] => (h1, i_value it) | s => halloc h1 s end in
  let '(h3, m) := hdup_all h2 (multivalue c) in
  (h3, mkHI (i_self it) k v m).
Definition new_item_with_values (h : heap) (k v : str) (mv : list str) : outcome (heap * hitem) :=
  if CONF_MAX_MULTI_ELEMENTS <? len mv then UB ArrayIndex
  else let '(h1, it) := new_conf_item h in Ok (fill_item h1 it (mkItem k v mv)).
Definition copy_conf_item (h : heap) (dest src : hitem) : outcome (heap * hitem) :=
  c <- item_of h src;; Ok (fill_item h dest c).

(** free_conf_item - /repo/conf_parser.c:201-216: empty strings are taken for literals. *)
Definition free_unless_empty (h : heap) (p : ptr) : outcome heap :=
  match p with
  | PNull => Ok h
  | _ => s <- hread h p;; match s with [] => Ok h | _ => hfree h p end
  end.
Definition free_conf_item (h : heap) (it : hitem) : outcome heap :=
  _ <- hread h (i_self it);;
  h1 <- free_unless_empty h (i_key it);;
  h2 <- free_unless_empty h1 (i_value it);;
  h3 <- hfree_all h2 (i_multi it);;
  hfree h3 (i_self it).

(** ** Parsing *)

(** conf_parse_first_pass - /repo/conf_parser.c:69-107 *)
Definition first_pass_h (h : heap) (line : str) : outcome (heap * option hitem) :=
  match strstr line DELIM with
  | None => Ok (h, None)
  | Some _ =>
    let '(h1, it) := new_conf_item h in
    let '(h2, copy) := halloc h1 line in                                (* 78 *)
    h3 <- htrim h2 copy;;
    l <- hread h3 copy;;
    match strtok DELIM l with
    | None => UB NullDeref
    | Some (k, rest) =>
      let '(h4, kp) := halloc h3 k in                                   (* 82 *)
      h5 <- htrim h4 kp;;
      '(h6, vp) <-
        match strtok DELIM rest with
        | None => Ok (h5, PLit [])                                      (* 86-89, 99 *)
        | Some (v, _) =>
          v1 <- trim_str v;;                                            (* 93: inside the copy *)
          let '(h', p) := halloc h5 v1 in                               (* 94 *)
          h'' <- htrim h' p;;
          Ok (h'', p)
        end;;
      h7 <- hfree h6 copy;;                                             (* 104 *)
      Ok (h7, Some (mkHI (i_self it) kp vp []))
    end
  end.

(** conf_parse_multi - /repo/conf_parser.c:36-61 *)
Fixpoint multi_loop_h (fuel : nat) (h : heap) (i : Z) (rest : str) : outcome (heap * (list ptr * Z)) :=
  if i <? CONF_MAX_MULTI_ELEMENTS then
    let i' := i + 1 in
    match strtok MULTI_DELIM rest with
    | None => Ok (h, ([], i'))
    | Some (tok, rest') =>
      if CONF_MAX_MULTI_ELEMENTS <=? i' then UB ArrayIndex else
      let '(h1, p) := halloc h tok in
      h2 <- htrim h1 p;;
      match fuel with
      | O => UB OutOfFuel
      | S f => '(h3, (l, n)) <- multi_loop_h f h2 i' rest';; Ok (h3, (p :: l, n))
      end
    end
  else UB BadFree.
Definition parse_multi_h (h : heap) (it : hitem) : outcome (heap * hitem) :=
  v <- hread h (i_value it);;
  let '(h1, copy) := halloc h v in                                      (* 40 *)
  match strtok MULTI_DELIM v with
  | None => h2 <- hfree h1 copy;; Ok (h2, mkHI (i_self it) (i_key it) (i_value it) [])
  | Some (tok, rest) =>
    let '(h2, p) := halloc h1 tok in
    h3 <- htrim h2 p;;
    '(h4, (l, n)) <- multi_loop_h (length v) h3 0 rest;;
    h5 <- hfree h4 copy;;                                               (* 60; 59 frees NULL *)
    Ok (h5, mkHI (i_self it) (i_key it) (i_value it) (firstn (Z.to_nat n) (p :: l)))
  end.

(** parse - /repo/conf_parser.c:119-155; the handler reads the item. *)
Fixpoint parse_loop_h (fuel : nat) (h : heap) (path : str) (flags : list (str * bool)) (content : str)
  : outcome (heap * (Z * list conf_item)) :=
  match fgets MAX_LINE_LEN content with
  | None => Ok (h, (0, []))
  | Some (line, rest) =>
    match fuel with
    | O => UB OutOfFuel
    | S f =>
      '(h1, r) <- first_pass_h h (upto_nul line);;
      match r with
      | None => _ <- fits 120 (L "Entity in invalid format, path: " ++ path ++ [LF]);; Ok (h1, (-1, []))
      | Some item =>
        k <- hread h1 (i_key item);;
        match get_key_flag k flags with
        | None => h2 <- free_conf_item h1 item;; parse_loop_h f h2 path flags rest
        | Some m =>
          '(h2, item') <- (if m : bool then parse_multi_h h1 item else Ok (h1, item));;
          c <- item_of h2 item';;
          h3 <- free_conf_item h2 item';;
          '(h4, (st, l)) <- parse_loop_h f h3 path flags rest;;
          Ok (h4, (st, c :: l))
        end
      end
    end
  end.
Definition parse_h (h : heap) (f : fs) (path : str) (flags : list (str * bool))
  : outcome (heap * (Z * list conf_item)) :=
  match f path with
  | Some (File content) => parse_loop_h (length content) h path flags content
  | Some Dir => Ok (h, (0, []))
  | None => _ <- fits 120 (L "Unable to open path: " ++ path);; Ok (h, (-1, []))
  end.

(** ** Writing *)
Record hser := mkHS { hs_self : ptr; hs_path : ptr; hs_items : list hitem }.

(** new_serializable - /repo/conf_parser.c:272-284: copies the items and frees the given ones. *)
Fixpoint copy_items (h : heap) (l : list hitem) : outcome (heap * list hitem) :=
  match l with
  | [] => Ok (h, [])
  | src :: t =>
    let '(h1, it) := new_conf_item h in
    '(h2, it') <- copy_conf_item h1 it src;;
    h3 <- free_conf_item h2 src;;
    '(h4, r) <- copy_items h3 t;;
    Ok (h4, it' :: r)
  end.
Definition new_serializable_h (h : heap) (path : ptr) (items : list hitem) : outcome (heap * hser) :=
  if CONF_MAX_ITEMS <? len items then UB ArrayIndex else
  let '(h1, self) := halloc h [] in
  '(h2, l) <- copy_items h1 items;;
  Ok (h2, mkHS self path l).

(** conf_item_to_string - /repo/conf_parser.c:218-236 *)
Definition item_string_h (h : heap) (it : hitem) : outcome (heap * ptr) :=
  c <- item_of h it;;
  s <- conf_item_to_string c;;
  match i_multi it with
  | [] => Ok (halloc h s)
  | _ =>
    let '(h1, j) := halloc h [] in                                      (* 229: join's block *)
    let '(h2, r) := halloc h1 s in
    h3 <- hfree h2 j;;
    Ok (h3, r)
  end.
(** free_serializable - /repo/conf_parser.c:299-307 *)
Fixpoint free_items (h : heap) (l : list hitem) : outcome heap :=
  match l with [] => Ok h | it :: t => h' <- free_conf_item h it;; free_items h' t end.
Definition free_serializable (h : heap) (s : hser) : outcome heap :=
  h1 <- hfree h (hs_path s);;
  h2 <- free_items h1 (hs_items s);;
  hfree h2 (hs_self s).
(** write_conf - /repo/conf_parser.c:250-270; [opens]: whether fopen succeeds.  Returns the
    status and the lines written. *)
Fixpoint write_items (h : heap) (l : list hitem) : outcome (heap * list str) :=
  match l with
  | [] => Ok (h, [])
  | it :: t =>
    '(h1, p) <- item_string_h h it;;
    s <- hread h1 p;;
    h2 <- hfree h1 p;;
    '(h3, r) <- write_items h2 t;;
    Ok (h3, s :: r)
  end.
Definition write_conf_h (h : heap) (s : hser) (opens : bool) : outcome (heap * (Z * list str)) :=
  path <- hread h (hs_path s);;
  if negb opens then
    _ <- fits 120 (L "Unable to open file " ++ path ++ L " for writing");; Ok (h, (-1, []))
  else
    '(h1, out) <- write_items h (hs_items s);;
    h2 <- free_serializable h1 s;;
    Ok (h2, (0, out)).

(** serializable_to_string - /repo/conf_parser.c:286-297: the items' strings are not freed. *)
Fixpoint ser_loop_h (h : heap) (l : list hitem) (acc : str) : outcome (heap * str) :=
  match l with
  | [] => Ok (h, acc)
  | it :: t =>
    a1 <- fits 1024 (acc ++ L ",");;
    '(h1, p) <- item_string_h h it;;
    s <- hread h1 p;;
    a2 <- fits 1024 (a1 ++ s);;
    ser_loop_h h1 t a2
  end.
Definition ser_string_h (h : heap) (s : hser) : outcome (heap * ptr) :=
  let '(h1, r) := halloc h [] in
  path <- hread h1 (hs_path s);;
  a0 <- fits 1024 (L "[path=" ++ path ++ L ",n_items=" ++ dec (len (hs_items s)));;
  '(h2, a1) <- ser_loop_h h1 (hs_items s) a0;;
  a2 <- fits 1024 (a1 ++ L "]");;
  h3 <- hwrite h2 r a2;;
  Ok (h3, r).

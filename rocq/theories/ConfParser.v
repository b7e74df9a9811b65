(** ConfParser.v - model of /repo/conf_parser.c and conf_parser.h. *)
From Verif Require Export StringUtils FileUtils.

(** /repo/conf_parser.h:22-29, conf_parser.c:30-31 *)
Definition CONF_MAX_MULTI_ELEMENTS : Z := 20.
Definition CONF_MAX_ITEMS : Z := 20.
Definition MAX_LINE_LEN : Z := 512.
Definition DELIM : str := L "=".
Definition MULTI_DELIM : str := L ",".

(** conf_item (conf_parser.h:34-40); n_multivalues is the length of [multivalue].
    Simplification: strings are contents; which blocks are allocated and freed is modelled
    in ConfHeap.v. *)
Record conf_item := mkItem { key : str; value : str; multivalue : list str }.

(** trim() applied to a heap copy. *)
Definition trim_str (s : str) : outcome str := b <- trim (cs s);; cstr b.

(** ** conf_parse_multi - /repo/conf_parser.c:36-61 *)

(** Lines 47-56, entered with a non-NULL tmp_value and [i] = index of the last value
    stored.  Returns the further values and the final i.
    multivalue[20] is past the declared array (inside the allocation). *)
Fixpoint multi_loop (fuel : nat) (i : Z) (rest : str) : outcome (list str * Z) :=
  if i <? CONF_MAX_MULTI_ELEMENTS then
    let i' := i + 1 in
    match strtok MULTI_DELIM rest with
    | None => Ok ([], i')
    | Some (tok, rest') =>
      if CONF_MAX_MULTI_ELEMENTS <=? i' then UB ArrayIndex else
      v <- trim_str tok;;
      match fuel with
      | O => UB OutOfFuel
      | S f => '(l, n) <- multi_loop f i' rest';; Ok (v :: l, n)
      end
    end
  else UB BadFree.      (* 59: free(tmp_value) with an interior pointer *)

Definition conf_parse_multi (item : conf_item) : outcome conf_item :=
  match strtok MULTI_DELIM (value item) with
  | None => Ok (mkItem (key item) (value item) [])                  (* i = 0 *)
  | Some (tok, rest) =>
    v0 <- trim_str tok;;
    '(l, n) <- multi_loop (length (value item)) 0 rest;;
    (* 58: n_multivalues = i: the first n entries *)
    Ok (mkItem (key item) (value item) (firstn (Z.to_nat n) (v0 :: l)))
  end.

(** ** conf_parse_first_pass - /repo/conf_parser.c:69-107; None is the NULL result. *)
Definition conf_parse_first_pass (line : str) : outcome (option conf_item) :=
  match strstr line DELIM with
  | None => Ok None
  | Some _ =>
    l <- trim_str line;;
    match strtok DELIM l with
    | None => UB NullDeref                                          (* 82: strdup(NULL) *)
    | Some (k, rest) =>
      k' <- trim_str k;;
      match strtok DELIM rest with
      | None => Ok (Some (mkItem k' [] []))                         (* 86-89, 99 *)
      | Some (v, _) =>
        v1 <- trim_str v;;                                          (* 93 *)
        v2 <- trim_str v1;;                                         (* 94-95 *)
        Ok (Some (mkItem k' v2 []))
      end
    end
  end.

(** ** conf_parse_line - /repo/conf_parser.c:109-117 *)
Definition conf_parse_line (line : str) (is_multi : bool) : outcome (option conf_item) :=
  r <- conf_parse_first_pass line;;
  if is_multi then
    match r with
    | None => UB NullDeref
    | Some item => i <- conf_parse_multi item;; Ok (Some i)
    end
  else Ok r.

(** ** get_key_flag - /repo/conf_parser.c:157-169; None is the {NULL,false} result.
    Flags beyond flags.size are not looked at: the list is flags[0..size). *)
Fixpoint get_key_flag (k : str) (flags : list (str * bool)) : option bool :=
  match flags with
  | [] => None
  | (k', m) :: t => if str_eqb k' k then Some m else get_key_flag k t
  end.

(** ** parse - /repo/conf_parser.c:119-155.
    Returns the status and the items passed to the handler, in order (the handler's
    result is ignored by the code). *)
Fixpoint parse_loop (fuel : nat) (path : str) (flags : list (str * bool)) (content : str)
  : outcome (Z * list conf_item) :=
  match fgets MAX_LINE_LEN content with
  | None => Ok (0, [])
  | Some (line, rest) =>
    match fuel with
    | O => UB OutOfFuel
    | S f =>
      r <- conf_parse_first_pass (upto_nul line);;
      match r with
      | None =>
        _ <- fits 120 (L "Entity in invalid format, path: " ++ path ++ [LF]);;   (* 135-136 *)
        Ok (-1, [])
      | Some item =>
        match get_key_flag (key item) flags with
        | None => parse_loop f path flags rest
        | Some m =>
          item' <- (if m : bool then conf_parse_multi item else Ok item);;
          '(st, l) <- parse_loop f path flags rest;;
          Ok (st, item' :: l)
        end
      end
    end
  end.

(** fopen(path,"r") succeeds on a directory (glibc); fgets then reads nothing. *)
Definition parse (f : fs) (path : str) (flags : list (str * bool)) : outcome (Z * list conf_item) :=
  match f path with
  | Some (File content) => parse_loop (length content) path flags content
  | Some Dir => Ok (0, [])
  | None => _ <- fits 120 (L "Unable to open path: " ++ path);; Ok (-1, [])         (* 122-128 *)
  end.

(** ** conf_item_to_string - /repo/conf_parser.c:218-236 *)
Definition conf_item_to_string (item : conf_item) : outcome str :=
  if len (multivalue item) =? 0 then
    b <- strcpy (malloc (len (key item) + len (value item) + 2)) 0
           (key item ++ L "=" ++ value item);;
    cstr b
  else
    j <- join (Some (map Some (multivalue item))) (len (multivalue item)) (L ",");;
    b <- strcpy (malloc (len (jcontent j) + len (key item) + 20)) 0
           (key item ++ L "=" ++ jcontent j);;
    match j with JLit => UB BadFree | JHeap _ => cstr b end.

(** ** new_serializable, copy_conf_item, new_conf_item - /repo/conf_parser.c:171-178,
    238-248, 272-284: deep copies; the 21st item is past the declared array. *)
Record serializable := mkSer { ser_path : str; ser_items : list conf_item }.
Definition new_serializable (path : str) (items : list conf_item) : outcome serializable :=
  if CONF_MAX_ITEMS <? len items then UB ArrayIndex else Ok (mkSer path items).

(** ** new_conf_item_with_values - /repo/conf_parser.c:180-196 (copies of the arguments) *)
Definition new_conf_item_with_values (k v : str) (mv : list str) : outcome conf_item :=
  if CONF_MAX_MULTI_ELEMENTS <? len mv then UB ArrayIndex else Ok (mkItem k v mv).

(** ** serializable_to_string - /repo/conf_parser.c:286-297 *)
Fixpoint ser_loop (items : list conf_item) (acc : str) : outcome str :=
  match items with
  | [] => Ok acc
  | it :: t =>
    a1 <- fits 1024 (acc ++ L ",");;
    s <- conf_item_to_string it;;
    a2 <- fits 1024 (a1 ++ s);;
    ser_loop t a2
  end.
Definition serializable_to_string (s : serializable) : outcome str :=
  a0 <- fits 1024 (L "[path=" ++ ser_path s ++ L ",n_items=" ++ dec (len (ser_items s)));;
  a1 <- ser_loop (ser_items s) a0;;
  fits 1024 (a1 ++ L "]").

(** ** write_conf - /repo/conf_parser.c:250-270 *)

(** What the program does to the file, in order.  stdio may hand the bytes to the
    system in pieces of any size, so each byte is its own event. *)
Inductive wevent := WTrunc | WByte (c : ascii).
Definition apply_wevent (old : str) (e : wevent) : str :=
  match e with WTrunc => [] | WByte c => old ++ [c] end.

(** Lines 261-266: fprintf(file, "%s\n", itemString) for each item. *)
Fixpoint conf_lines (items : list conf_item) : outcome str :=
  match items with
  | [] => Ok []
  | it :: t => s <- conf_item_to_string it;; r <- conf_lines t;; Ok (s ++ [LF] ++ r)
  end.

(** Line 253 truncates (or creates) the file, then the bytes follow. *)
Definition write_conf_events (s : serializable) : outcome (list wevent) :=
  t <- conf_lines (ser_items s);; Ok (WTrunc :: map WByte t).

(** The uninterrupted run: status and resulting file system.  fopen(path,"w") fails on
    a directory (lines 254-260). *)
Definition write_conf (f : fs) (s : serializable) : outcome (Z * fs) :=
  if is_dir f (ser_path s) then
    _ <- fits 120 (L "Unable to open file " ++ ser_path s ++ L " for writing");; Ok (-1, f)
  else
    ev <- write_conf_events s;;
    let old := match f (ser_path s) with Some (File c) => c | _ => [] end in
    Ok (0, upd f (ser_path s) (Some (File (fold_left apply_wevent ev old)))).

(** The file after a crash following the first [k] events. *)
Definition crash_content (old : str) (ev : list wevent) (k : nat) : str :=
  fold_left apply_wevent (firstn k ev) old.

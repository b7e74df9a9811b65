(** ScarceText.v - the functions that build texts and register routes when memory is short: join of
    /repo/string_utils.c, /repo/json_utils.c and router_add_route of /repo/router.c once more, with an
    answer for each block they ask for.

    Simplifications: those of StringUtils.v, JsonUtils.v and Router.v; the blocks of the log lines
    (log_debug) are given. *)
From Verif Require Export JsonUtils Router.

(** The blocks. *)
Inductive chunk :=
| KEmpty                            (* json_utils.c:37, 121: the text "[]" *)
| KText                             (* json_utils.c:47, 60, 72, 90, 97, 104, 111, 123: the text returned *)
| KPointers                         (* json_utils.c:64: the texts of the elements *)
| KInt (i : nat)                    (* json_utils.c:128: the digits of element i *)
| KOnly                             (* string_utils.c:144: the only element *)
| KJoined                           (* string_utils.c:153: the joined text *)
| KCopy (i : nat)                   (* string_utils.c:159, 165: element i *)
| KMatcher                          (* router.c:96 *)
| KTemplate.                        (* router.c:65 *)
(** Which blocks are given. *)
Definition giver := chunk -> bool.
(** The first access to a block. *)
Definition used (ok : giver) (k : chunk) : outcome unit := if ok k then Ok tt else UB NullDeref.
(** A block that is returned without being looked at. *)
Definition returned {A} (ok : giver) (k : chunk) (a : A) : outcome (option A) := Ok (if ok k then Some a else None).

(** ** join - /repo/string_utils.c:136-169.  The result is None for NULL. *)
(** Lines 155-164; [i] is the index of the head of [a]. *)
Fixpoint join_loop_s (ok : giver) (i : nat) (a : list cptr) (delim : str) (b : buf) : outcome buf :=
  match a with
  | [] => Ok b
  | None :: t => join_loop_s ok (S i) t delim b
  | Some s :: t =>
    _ <- used ok (KCopy i);;                                 (* 160: strcat(joined_str, NULL) *)
    _ <- used ok KJoined;;                                   (* 160: strcat(NULL, tmp) *)
    b1 <- strcat b s;; b2 <- strcat b1 delim;; join_loop_s ok (S i) t delim b2
  end.
Definition join_s (ok : giver) (array : option (list cptr)) (size : Z) (delim : str) : outcome (option jstr) :=
  match array with
  | None => Ok (Some JLit)
  | Some a =>
    if size <=? 0 then Ok (Some JLit) else
    match a with
    | [] => UB OobRead
    | None :: _ => Ok (Some JLit)
    | Some s0 :: _ =>
      if size =? 1 then returned ok KOnly (JHeap s0) else                             (* 144 *)
      if len a <? size then UB OobRead else
      let a' := firstn (Z.to_nat size) a in
      let str_len := total_len a' + size * len delim + 1 in
      b <- join_loop_s ok 0 (firstn (Z.to_nat (size - 1)) a') delim (calloc str_len);;
      match nth_error a' (Z.to_nat (size - 1)) with
      | Some (Some last) =>
        _ <- used ok (KCopy (Z.to_nat (size - 1)));;                                  (* 166 *)
        b2 <- strcat b last;; s <- cstr b2;; Ok (Some (JHeap s))
      | Some None => UB NullDeref                            (* 165: strdup(NULL) *)
      | None => UB OobRead
      end
    end
  end.
(** The joined text where it is read: strcat or strlen of NULL is undefined. *)
Definition joined (j : option jstr) : outcome jstr := match j with Some j => Ok j | None => UB NullDeref end.

(** ** json_array_of_strings - /repo/json_utils.c:33-54 *)
Definition json_array_of_strings_s (ok : giver) (array : option (list cptr)) (size : Z) : outcome (option str) :=
  match array with
  | None => returned ok KEmpty (L "[]")                                               (* 37 *)
  | Some a =>
    if size <? 1 then returned ok KEmpty (L "[]") else
    if len a <? size then UB OobRead else
    let string_size := len JSON_ARRAY_STR_BEGIN + len JSON_ARRAY_STR_END
                       + size * len JSON_ARRAY_STR_SEP + 2
                       + total_len (firstn (Z.to_nat size) a) in
    _ <- used ok KText;;                                                              (* 48 *)
    b0 <- strcpy (calloc string_size) 0 JSON_ARRAY_STR_BEGIN;;
    j' <- join_s ok (Some a) size JSON_ARRAY_STR_SEP;;
    j <- joined j';;                                                                  (* 50 *)
    b1 <- strcat b0 (jcontent j);;
    b2 <- strcat b1 JSON_ARRAY_STR_END;;
    _ <- free_jstr j;;                                                                (* 52 *)
    s <- cstr b2;; Ok (Some s)
  end.

(** ** json_array_of_entities - /repo/json_utils.c:56-86 *)
Definition json_array_of_entities_s (ok : giver) (ents : list cptr) : outcome str :=
  if len ents =? 0 then
    _ <- used ok KText;;                                                              (* 61 *)
    b <- strcpy (malloc (len JSON_ARRAY_BEGIN + len JSON_ARRAY_END + 2)) 0
           (JSON_ARRAY_BEGIN ++ JSON_ARRAY_END);;
    cstr b
  else
    _ <- used ok KPointers;;                                                          (* 67 *)
    j' <- join_s ok (Some ents) (len ents) (L ",");;
    j <- joined j';;                                                                  (* 72: strlen *)
    let json := malloc (len (jcontent j) + len ents + len JSON_ARRAY_BEGIN
                        + len JSON_ARRAY_END + 2) in
    _ <- used ok KText;;                                                              (* 73 *)
    b0 <- strcpy json 0 JSON_ARRAY_BEGIN;;
    b1 <- strcat b0 (jcontent j);;
    b2 <- strcat b1 JSON_ARRAY_END;;
    _ <- (if len (jcontent j) =? 0 then Ok tt else free_jstr j);;                     (* 77 *)
    cstr b2.

(** ** json_key_value, json_key_value_int, json_key_value_bool and json_key_value_uint32_t -
    /repo/json_utils.c:88-114 *)
Definition json_key_value_s (ok : giver) (key : str) (value : cptr) : outcome str :=
  match value with
  | None => UB NullDeref
  | Some v =>
    _ <- used ok KText;;                                                              (* 91 *)
    b <- strcpy (calloc (len key + len v + 15)) 0 ([DQ] ++ key ++ [DQ; ":"%char; DQ] ++ v ++ [DQ]);;
    cstr b
  end.
Definition json_key_raw_s (ok : giver) (key : str) (v : str) : outcome str :=
  _ <- used ok KText;;                                                                (* 98, 105, 112 *)
  b <- strcpy (calloc (len key + MAX_INT_STR + 15)) 0 ([DQ] ++ key ++ [DQ; ":"%char] ++ v);;
  cstr b.
Definition json_key_value_int_s (ok : giver) (key : str) (v : Z) : outcome str := json_key_raw_s ok key (dec v).
Definition json_key_value_bool_s (ok : giver) (key : str) (v : bool) : outcome str :=
  json_key_raw_s ok key (if v then L "true" else L "false").
Definition json_key_value_uint32_t_s (ok : giver) (key : str) (v : Z) : outcome str := json_key_raw_s ok key (dec_nat v).

(** ** json_array_of_ints - /repo/json_utils.c:116-140 *)
(** Lines 125-136; [i] is the index of the head of [l]. *)
Fixpoint ints_loop_s (ok : giver) (l : list Z) (i size : Z) (b : buf) : outcome buf :=
  match l with
  | [] => Ok b
  | v :: t =>
    _ <- used ok (KInt (Z.to_nat i));;                                                (* 129 *)
    s <- fits (MAX_INT_STRING_LEN + 1) (dec v);;
    b1 <- strcat b s;;
    b2 <- (if i <? size - 1 then strcat b1 (L ",") else Ok b1);;
    ints_loop_s ok t (i + 1) size b2
  end.
Definition json_array_of_ints_s (ok : giver) (array : option (list Z)) (size : Z) : outcome (option str) :=
  match array with
  | None => returned ok KEmpty (L "[]")                                               (* 121 *)
  | Some a =>
    if size <? 1 then returned ok KEmpty (L "[]") else
    if len a <? size then UB OobRead else
    _ <- used ok KText;;                                                              (* 124 *)
    b0 <- strcat (calloc (size * (MAX_INT_STRING_LEN + 2))) JSON_ARRAY_BEGIN;;
    b1 <- ints_loop_s ok (firstn (Z.to_nat size) a) 0 size b0;;
    b2 <- strcat b1 JSON_ARRAY_END;;
    s <- cstr b2;; Ok (Some s)
  end.

(** ** router_add_route - /repo/router.c:92-111 and router_resolve_route - 62-79 *)
Definition router_add_route_s (ok : giver) (t : router) (template : str) (handler filter : option nat) : outcome router :=
  _ <- used ok KMatcher;;                                                             (* 99, 104 *)
  '(ty, prefix, param) <-
    (match strchr template "{" with
     | Some _ => _ <- used ok KTemplate;;                                             (* 66 *)
                 '(prefix, param) <- router_resolve_route template;;
                 Ok (MATCHER_TYPE_PARAM, prefix, param)
     | None => prefix <- fits MAX_ROUTE_PATH template;;
               Ok (MATCHER_TYPE_CONSTANT, prefix, [])
     end);;
  if MAX_ROUTES <=? len t then UB ArrayIndex
  else Ok (t ++ [mkRoute ty prefix param handler filter true]).

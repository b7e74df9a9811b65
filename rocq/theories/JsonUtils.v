(** JsonUtils.v - model of /repo/json_utils.c. *)
From Verif Require Export StringUtils.

(** /repo/json_utils.c:25-31, string_utils.h:26 *)
Definition JSON_ARRAY_BEGIN : str := L "[".
Definition JSON_ARRAY_STR_BEGIN : str := ["["%char; DQ].
Definition JSON_ARRAY_END : str := L "]".
Definition JSON_ARRAY_STR_END : str := [DQ; "]"%char].
Definition JSON_ARRAY_STR_SEP : str := [DQ; ","%char; DQ].
Definition MAX_INT_STRING_LEN : Z := 32.
Definition MAX_INT_STR : Z := 32.

(** free() of join's result: freeing the literal is undefined. *)
Definition free_jstr (j : jstr) : outcome unit :=
  match j with JLit => UB BadFree | JHeap _ => Ok tt end.

(** ** json_array_of_strings - /repo/json_utils.c:33-54 *)
Definition json_array_of_strings (array : option (list cptr)) (size : Z) : outcome str :=
  match array with
  | None => Ok (L "[]")
  | Some a =>
    if size <? 1 then Ok (L "[]") else
    if len a <? size then UB OobRead else
    let string_size := len JSON_ARRAY_STR_BEGIN + len JSON_ARRAY_STR_END
                       + size * len JSON_ARRAY_STR_SEP + 2
                       + total_len (firstn (Z.to_nat size) a) in
    b0 <- strcpy (calloc string_size) 0 JSON_ARRAY_STR_BEGIN;;
    j <- join (Some a) size JSON_ARRAY_STR_SEP;;
    b1 <- strcat b0 (jcontent j);;
    b2 <- strcat b1 JSON_ARRAY_STR_END;;
    _ <- free_jstr j;;                                  (* 52 *)
    cstr b2
  end.

(** ** json_array_of_entities - /repo/json_utils.c:56-86.
    The list is given by the results of the user's serializer on its elements
    (a NULL result is possible); list.size is their number.  The pointer array's
    allocation, size * 512 bytes, always holds size pointers. *)
Definition json_array_of_entities (ents : list cptr) : outcome str :=
  if len ents =? 0 then
    b <- strcpy (malloc (len JSON_ARRAY_BEGIN + len JSON_ARRAY_END + 2)) 0
           (JSON_ARRAY_BEGIN ++ JSON_ARRAY_END);;
    cstr b
  else
    j <- join (Some ents) (len ents) (L ",");;
    let json := malloc (len (jcontent j) + len ents + len JSON_ARRAY_BEGIN
                        + len JSON_ARRAY_END + 2) in
    b0 <- strcpy json 0 JSON_ARRAY_BEGIN;;
    b1 <- strcat b0 (jcontent j);;
    b2 <- strcat b1 JSON_ARRAY_END;;
    (* 77: only a non-empty joined string is freed *)
    _ <- (if len (jcontent j) =? 0 then Ok tt else free_jstr j);;
    cstr b2.

(** ** json_key_value - /repo/json_utils.c:88-93.
    strlen(value) is evaluated before the NULL test of line 91. *)
Definition json_key_value (key : str) (value : cptr) : outcome str :=
  match value with
  | None => UB NullDeref
  | Some v =>
    b <- strcpy (calloc (len key + len v + 15)) 0 ([DQ] ++ key ++ [DQ; ":"%char; DQ] ++ v ++ [DQ]);;
    cstr b
  end.

(** Lines 95-114: the value is printed unquoted. *)
Definition json_key_raw (key : str) (v : str) : outcome str :=
  b <- strcpy (calloc (len key + MAX_INT_STR + 15)) 0 ([DQ] ++ key ++ [DQ; ":"%char] ++ v);;
  cstr b.

(** ** json_key_value_int - /repo/json_utils.c:95-100 *)
Definition json_key_value_int (key : str) (v : Z) : outcome str := json_key_raw key (dec v).

(** ** json_key_value_bool - /repo/json_utils.c:102-107 *)
Definition json_key_value_bool (key : str) (v : bool) : outcome str :=
  json_key_raw key (if v then L "true" else L "false").

(** ** json_key_value_uint32_t - /repo/json_utils.c:109-114 *)
Definition json_key_value_uint32_t (key : str) (v : Z) : outcome str := json_key_raw key (dec_nat v).

(** ** json_array_of_ints - /repo/json_utils.c:116-140 *)

(** Lines 125-136; [i] is the index of the head of [l]. *)
Fixpoint ints_loop (l : list Z) (i size : Z) (b : buf) : outcome buf :=
  match l with
  | [] => Ok b
  | v :: t =>
    s <- fits (MAX_INT_STRING_LEN + 1) (dec v);;        (* 128-129 *)
    b1 <- strcat b s;;
    b2 <- (if i <? size - 1 then strcat b1 (L ",") else Ok b1);;
    ints_loop t (i + 1) size b2
  end.

Definition json_array_of_ints (array : option (list Z)) (size : Z) : outcome str :=
  match array with
  | None => Ok (L "[]")
  | Some a =>
    if size <? 1 then Ok (L "[]") else
    if len a <? size then UB OobRead else
    b0 <- strcat (calloc (size * (MAX_INT_STRING_LEN + 2))) JSON_ARRAY_BEGIN;;
    b1 <- ints_loop (firstn (Z.to_nat size) a) 0 size b0;;
    b2 <- strcat b1 JSON_ARRAY_END;;
    cstr b2
  end.

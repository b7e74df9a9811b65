(** StringUtils.v - model of /repo/string_utils.c and string_utils.h.
    C int loop counters are modelled as unbounded integers (strings are shorter
    than 2^31). *)
From Verif Require Export CLib.

(** /repo/string_utils.h:30-31 *)
Definition MAX_SPLIT_STR : Z := 50.
Definition MAX_SPLIT_STR_LEN : Z := 1024.

(** ** chop_string - /repo/string_utils.c:28-39 *)

(** Loop of lines 31-38, [k] iterations left, at index [i]. *)
Fixpoint chop_loop (k : nat) (i : Z) (b : buf) : outcome buf :=
  match k with
  | O => Ok b
  | S k' =>
    c <- rd b i;;
    if schar c <=? 34 then wr b i NUL else chop_loop k' (i + 1) b
  end.

Definition chop_string (b : buf) : outcome buf :=
  n <- strlen b;; chop_loop (Z.to_nat n) 0 b.

(** ** trim - /repo/string_utils.c:41-60 *)

(** Lines 46-49: index of the first non-blank, or the length. *)
Fixpoint lscan (k : nat) (i : Z) (b : buf) : outcome Z :=
  match k with
  | O => Ok i
  | S k' => c <- rd b i;; if isspace c then lscan k' (i + 1) b else Ok i
  end.

(** Lines 55-58: index of the last non-blank among the first [k] bytes, or -1. *)
Fixpoint rscan (k : nat) (b : buf) : outcome Z :=
  match k with
  | O => Ok (-1)
  | S k' => c <- rd b (Z.of_nat k');; if isspace c then rscan k' b else Ok (Z.of_nat k')
  end.

Definition trim (b : buf) : outcome buf :=
  n <- strlen b;;
  i <- lscan (Z.to_nat n) 0 b;;
  b1 <- (if i =? 0 then Ok b
         else
           (* 51: memmove(str, str + i, strlen(str + i)) *)
           r <- strlen (from b i);;
           b' <- memcpy b 0 b i r;;
           (* 52: str[strlen(str + i)] = 0 *)
           r' <- strlen (from b' i);;
           wr b' r' NUL);;
  n2 <- strlen b1;;
  e <- rscan (Z.to_nat n2) b1;;
  wr b1 (e + 1) NUL.

(** ** rtrim - /repo/string_utils.c:65-76 *)

(** Lines 68-74: strlen is re-evaluated every time round and there is no break. *)
Fixpoint rtrim_loop (fuel : nat) (i : Z) (sep : ascii) (b : buf) : outcome buf :=
  n <- strlen b;;
  if i <? n then
    match fuel with
    | O => UB OutOfFuel
    | S f =>
      c <- rd b i;;
      b' <- (if ceq c sep then wr b i NUL else Ok b);;
      rtrim_loop f (i + 1) sep b'
    end
  else Ok b.

(** The result is the content of the returned heap string. *)
Definition rtrim (src : buf) (sep : ascii) : outcome str :=
  b <- strdup src;;
  r <- rtrim_loop (length b) 0 sep b;;
  cstr r.

(** ** ltrim - /repo/string_utils.c:81-92 *)
Fixpoint ltrim_loop (k : nat) (i : Z) (sep : ascii) (b : buf) : outcome str :=
  match k with
  | O => cstr b                                        (* 91: strdup(str) *)
  | S k' =>
    c <- rd b i;;
    if ceq c sep then cstr (from b (i + 1))            (* 88: strdup(str + i + 1) *)
    else ltrim_loop k' (i + 1) sep b
  end.

Definition ltrim (src : buf) (sep : ascii) : outcome str :=
  n <- strlen src;; ltrim_loop (Z.to_nat n) 0 sep src.

(** ** md5sum - /repo/string_utils.c:94-131 *)

(** OpenSSL: EVP_MAX_MD_SIZE is 64, the MD5 digest has 16 bytes. *)
Definition EVP_MAX_MD_SIZE : Z := 64.

(** Lines 108-120: the successive EVP_DigestUpdate arguments, concatenated.
    [data + off] is the advancing pointer. *)
Fixpoint md5_feed (fuel : nat) (data : buf) (off n : Z) : outcome str :=
  if 0 <? n then
    match fuel with
    | O => UB OutOfFuel
    | S f =>
      chunk <- (l <- slice data off (if 512 <? n then 512 else n);; defined_bytes l);;
      rest <- md5_feed f data (off + 512) (n - 512);;
      Ok (chunk ++ rest)
    end
  else Ok [].

(** Lines 125-126: snprintf("%02x") of each digest byte at position 2*i, each with its NUL. *)
Fixpoint md5_hex (i : Z) (digest : str) (b : buf) : outcome buf :=
  match digest with
  | [] => Ok b
  | c :: t => b' <- strcpy b (2 * i) (hex2 c);; md5_hex (i + 1) t b'
  end.

(** [md5] is the digest function (OpenSSL), a parameter.  [data + doff] is the argument. *)
Definition md5sum (md5 : str -> str) (out : buf) (data : buf) (doff n : Z) : outcome buf :=
  m0 <- wr (malloc (EVP_MAX_MD_SIZE * 2 + 1)) 0 NUL;;            (* 101-102 *)
  msg <- md5_feed (Z.to_nat (n / 512 + 1)) data doff n;;          (* 104-122 *)
  m <- md5_hex 0 (md5 msg) m0;;                                  (* 125-126 *)
  o <- memcpy out 0 m 0 (EVP_MAX_MD_SIZE * 2);;                  (* 128 *)
  wr o (EVP_MAX_MD_SIZE * 2) NUL.                                (* 129 *)

(** ** join - /repo/string_utils.c:136-169 *)

(** A possibly NULL [char *] to a C string with the given content. *)
Notation cptr := (option str) (only parsing).

(** The result of join is either the literal "" (which must not be freed) or a heap
    string. *)
Inductive jstr := JLit | JHeap (s : str).
Definition jcontent (j : jstr) : str := match j with JLit => [] | JHeap s => s end.

(** Lines 146-151: total length of the non-NULL elements. *)
Fixpoint total_len (a : list cptr) : Z :=
  match a with
  | [] => 0
  | Some s :: t => len s + total_len t
  | None :: t => total_len t
  end.

(** Lines 155-164: the elements but the last. *)
Fixpoint join_loop (a : list cptr) (delim : str) (b : buf) : outcome buf :=
  match a with
  | [] => Ok b
  | None :: t => join_loop t delim b
  | Some s :: t => b1 <- strcat b s;; b2 <- strcat b1 delim;; join_loop t delim b2
  end.

(** [array] = None is a NULL array; otherwise the elements available at [array].
    [size] is the count argument; the elements beyond the list are out of bounds. *)
Definition join (array : option (list cptr)) (size : Z) (delim : str) : outcome jstr :=
  match array with
  | None => Ok JLit
  | Some a =>
    if size <=? 0 then Ok JLit else
    match a with
    | [] => UB OobRead
    | None :: _ => Ok JLit
    | Some s0 :: _ =>
      if size =? 1 then Ok (JHeap s0) else
      if len a <? size then UB OobRead else
      let a' := firstn (Z.to_nat size) a in
      let str_len := total_len a' + size * len delim + 1 in
      b <- join_loop (firstn (Z.to_nat (size - 1)) a') delim (calloc str_len);;
      match nth_error a' (Z.to_nat (size - 1)) with
      | Some (Some last) => b2 <- strcat b last;; s <- cstr b2;; Ok (JHeap s)
      | Some None => UB NullDeref                       (* 165: strdup(NULL) *)
      | None => UB OobRead
      end
    end
  end.

(** ** split - /repo/string_utils.c:171-191 *)

(** Each entry: malloc(1024), strncpy of at most 1023 bytes (lines 180-181). *)
Definition split_entry (token : str) : outcome buf :=
  strncpy (malloc MAX_SPLIT_STR_LEN) (cs token) (MAX_SPLIT_STR_LEN - 1).

(** Lines 178-185; [n] tokens stored so far.  Index 50 is past the declared array
    char *strings[50] (string_utils.h:36), although inside the allocation. *)
Fixpoint split_loop (fuel : nat) (n : Z) (delim : str) (rest : str) : outcome (list buf) :=
  match strtok delim rest with
  | None => Ok []
  | Some (tok, rest') =>
    match fuel with
    | O => UB OutOfFuel
    | S f =>
      if MAX_SPLIT_STR <=? n then UB ArrayIndex else
      e <- split_entry tok;;
      l <- split_loop f (n + 1) delim rest';;
      Ok (e :: l)
    end
  end.

(** n_str is the length of the returned list. *)
Definition split (s : str) (delim : str) : outcome (list buf) :=
  split_loop (length s) 0 delim s.

(** ** split_once - /repo/string_utils.c:193-217.  [delim] is not used by the code. *)
Definition split_once (src : buf) (delim : str) : outcome (list buf) :=
  first <- rtrim src ":";;
  first' <- (b <- trim (cs first);; cstr b);;
  e0 <- split_entry first';;
  second <- ltrim src ":";;
  whole <- cstr src;;
  if len second <? len whole then
    second' <- (b <- trim (cs second);; cstr b);;
    e1 <- split_entry second';;
    Ok [e0; e1]
  else Ok [e0].

(** ** startswith - /repo/string_utils.c:231-234.  The prefix is a C string. *)
Definition startswith (s : buf) (prefix : str) : outcome bool :=
  strncasecmp_eq (length prefix) s (cs prefix).

(** ** startswithany - /repo/string_utils.c:243-257.
    The list is an array of possibly NULL strings; running off its end is an
    out-of-bounds read. *)
Fixpoint startswithany (s : buf) (l : list cptr) : outcome bool :=
  match l with
  | [] => UB OobRead
  | None :: _ => Ok false
  | Some [] :: _ => Ok false
  | Some p :: t => r <- startswith s p;; if r : bool then Ok true else startswithany s t
  end.

(** ** text_find_after - /repo/string_utils.c:262-282 *)

(** Lines 269-276: compare the needle at index [i], stopping at the first mismatch. *)
Fixpoint match_at (h : buf) (i : Z) (needle : str) : outcome bool :=
  match needle with
  | [] => Ok true
  | x :: t => c <- rd h i;; if ceq c x then match_at h (i + 1) t else Ok false
  end.

(** Lines 266-279, [k] positions left. *)
Fixpoint find_loop (k : nat) (h : buf) (needle : str) (i : Z) : outcome Z :=
  match k with
  | O => Ok (-1)
  | S k' =>
    f <- match_at h i needle;;
    if f : bool then Ok (i + len needle) else find_loop k' h needle (i + 1)
  end.

Definition text_find_after (h : buf) (needle : str) (start bytes : Z) : outcome Z :=
  find_loop (Z.to_nat (bytes - start)) h needle start.

(** ** string_isalnum - /repo/string_utils.c:284-295 *)
Fixpoint isalnum_loop (k : nat) (i : Z) (b : buf) : outcome bool :=
  match k with
  | O => Ok true
  | S k' => c <- rd b i;; if isalnum c then isalnum_loop k' (i + 1) b else Ok false
  end.

Definition string_isalnum (b : buf) : outcome bool :=
  c0 <- rd b 0;;
  if ceq c0 NUL then Ok false else
  n <- strlen b;; isalnum_loop (Z.to_nat n) 0 b.

(** JsonHeap.v - which heap blocks the JSON functions allocate, free and hand over
    (/repo/json_utils.c, the JSON responses of http_utils.c, join of string_utils.c).

    The values are those of StringUtils.v, JsonUtils.v and HttpUtils.v; the heap is that of
    ConfHeap.v. *)
From Verif Require Export ReqHeap.

(** A char * that may be NULL. *)
Definition hread_opt (h : heap) (p : ptr) : outcome cptr :=
  match p with PNull => Ok None | _ => s <- hread h p;; Ok (Some s) end.
Fixpoint hread_opts (h : heap) (l : list ptr) : outcome (list cptr) :=
  match l with [] => Ok [] | p :: t => s <- hread_opt h p;; r <- hread_opts h t;; Ok (s :: r) end.
Definition hread_array (h : heap) (a : option (list ptr)) : outcome (option (list cptr)) :=
  match a with None => Ok None | Some l => r <- hread_opts h l;; Ok (Some r) end.

(** ** join - /repo/string_utils.c:136-169 *)
(** The copies of lines 159-161: each is freed at once. *)
Fixpoint join_copies (h : heap) (l : list cptr) : outcome heap :=
  match l with
  | [] => Ok h
  | None :: t => join_copies h t
  | Some s :: t => let '(h1, tmp) := halloc h s in h2 <- hfree h1 tmp;; join_copies h2 t
  end.
Definition join_h (h : heap) (array : option (list ptr)) (size : Z) (delim : str) : outcome (heap * ptr) :=
  a <- hread_array h array;;
  j <- join a size delim;;
  match j, a with
  | JHeap s, Some l =>
    let '(h1, p) := halloc h s in                                           (* 144, 153 *)
    if size =? 1 then Ok (h1, p)
    else h2 <- join_copies h1 (firstn (Z.to_nat size) l);; Ok (h2, p)       (* 155-167 *)
  | _, _ => Ok (h, PLit [])                                                 (* 140 *)
  end.

(** ** json_utils.c *)
(** json_array_of_strings - lines 33-54 *)
Definition array_of_strings_h (h : heap) (array : option (list ptr)) (size : Z) : outcome (heap * ptr) :=
  a <- hread_array h array;;
  match a with
  | None => Ok (halloc h (L "[]"))                                          (* 37 *)
  | Some _ =>
    if size <? 1 then Ok (halloc h (L "[]"))
    else
      let '(h1, json) := halloc h [] in                                     (* 47 *)
      '(h2, joined) <- join_h h1 array size JSON_ARRAY_STR_SEP;;
      s <- json_array_of_strings a size;;
      h3 <- hwrite h2 json s;;
      h4 <- hfree h3 joined;;                                               (* 52 *)
      Ok (h4, json)
  end.
(** json_array_of_entities - lines 56-86.  [ser] is the serializer of the list. *)
Fixpoint serialize_all (ser : heap -> ptr -> outcome (heap * ptr)) (h : heap) (l : list ptr) : outcome (heap * list ptr) :=
  match l with
  | [] => Ok (h, [])
  | p :: t => '(h1, q) <- ser h p;; '(h2, qs) <- serialize_all ser h1 t;; Ok (h2, q :: qs)
  end.
Definition array_of_entities_h (ser : heap -> ptr -> outcome (heap * ptr)) (h : heap) (elements : list ptr) : outcome (heap * ptr) :=
  if len elements =? 0 then Ok (halloc h (L "[]"))                          (* 60-62 *)
  else
    let '(h1, ents) := halloc h [] in                                       (* 64 *)
    '(h2, qs) <- serialize_all ser h1 elements;;
    '(h3, joined) <- join_h h2 (Some qs) (len qs) (L ",");;
    a <- hread_opts h3 qs;;
    s <- json_array_of_entities a;;
    let '(h4, json) := halloc h3 s in                                       (* 72 *)
    h5 <- free_unless_empty h4 joined;;                                     (* 77-78 *)
    h6 <- hfree_all h5 qs;;                                                 (* 80-83 *)
    h7 <- hfree h6 ents;;
    Ok (h7, json).
(** json_key_value - lines 88-93 *)
Definition key_value_h (h : heap) (k : str) (v : ptr) : outcome (heap * ptr) :=
  x <- hread_opt h v;; s <- json_key_value k x;; Ok (halloc h s).
(** json_array_of_ints - lines 116-140: a block for each number, freed at once. *)
Definition array_of_ints_h (h : heap) (array : option (list Z)) (size : Z) : outcome (heap * ptr) :=
  s <- json_array_of_ints array size;;
  let '(h1, json) := halloc h s in
  match array with
  | None => Ok (h1, json)
  | Some a => if size <? 1 then Ok (h1, json)
              else h2 <- join_copies h1 (map (fun z => Some (dec z)) (firstn (Z.to_nat size) a));; Ok (h2, json)
  end.

(** ** http_utils.c *)
(** wayuu_error_t: one block, whose two arrays are given beside it. *)
Definition error_json_h (h : heap) (self : ptr) (e : wayuu_error) : outcome (heap * ptr * wayuu_error) :=
  _ <- hread h self;;                                                       (* 484 *)
  '(s, e') <- wayuu_error_json e;;
  c <- json_key_value (L "code") (Some (err_code e'));;
  m <- json_key_value (L "message") (Some (err_message e'));;
  let '(h1, code) := halloc h c in                                          (* 489 *)
  let '(h2, message) := halloc h1 m in                                      (* 490 *)
  let '(h3, json) := halloc h2 s in                                         (* 493 *)
  h4 <- hfree h3 code;;
  h5 <- hfree h4 message;;
  Ok (h5, json, e').
(** new_error_with_values - lines 500-506 *)
Definition new_error_h (h : heap) (code message : str) : outcome (heap * ptr * wayuu_error) :=
  e <- new_error_with_values code message;; let '(h1, self) := halloc h [] in Ok (h1, self, e).
(** return_json_with_status - lines 332-347; [data] is read, not freed. *)
Definition json_status_h (h : heap) (r : api_request) (status : Z) (data : ptr) : outcome (heap * api_request) :=
  d <- hread h data;;
  r' <- return_json_with_status r status d;;
  '(h1, _) <- log_access_h h r status;; Ok (h1, r').
(** return_json_stream - lines 321-330 *)
Definition json_stream_h (h : heap) (r : api_request) (status : Z) (content : str) : outcome (heap * api_request) :=
  r' <- return_json_stream r status content;;
  '(h1, _) <- log_access_h h r status;; Ok (h1, r').
(** *_with_error - lines 369-374, 381-386, 408-412: the error is not freed. *)
Definition with_error_h (h : heap) (r : api_request) (status : Z) (self : ptr) (e : wayuu_error) : outcome (heap * api_request * wayuu_error) :=
  '(h1, json, e') <- error_json_h h self e;;
  '(h2, r') <- json_status_h h1 r status json;;
  h3 <- hfree h2 json;;
  Ok (h3, r', e').
(** return_json_list - lines 276-287; [arr] is list.elements, the block that holds the pointers
    [elements]. *)
Definition json_list_h (ser : heap -> ptr -> outcome (heap * ptr)) (h : heap) (r : api_request) (arr : ptr) (elements : list ptr) : outcome (heap * api_request) :=
  '(h1, json) <- array_of_entities_h ser h elements;;
  '(h2, r') <- json_status_h h1 r 200 json;;
  h3 <- hfree_all h2 elements;;                                             (* 281-284 *)
  h4 <- hfree h3 arr;;
  h5 <- hfree h4 json;;
  Ok (h5, r').
(** return_response - lines 532-573: four blocks and the result; the values of the pointers
    that are not assigned are those of HttpUtils.v. *)
Definition response_h (h : heap) (rsp : call_response) : outcome (heap * ptr) :=
  s <- return_response rsp;;
  let '(h1, aux_err) := halloc h [] in
  let '(h2, aux_txt) := halloc h1 [] in
  let '(h3, aux_description) := halloc h2 [] in
  let '(h4, aux_info) := halloc h3 [] in
  let '(h5, aux) := halloc h4 s in
  h6 <- hfree h5 aux_err;;
  h7 <- hfree h6 aux_info;;
  h8 <- hfree h7 aux_description;;
  h9 <- hfree h8 aux_txt;;
  Ok (h9, aux).

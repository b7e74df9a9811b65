(** FailUpload.v - model of the multipart/form-data decoder of /repo/ws.c when the files of uploads
    cannot be stored, or only in part. *)
From Verif Require Import Base WsMultipart FailFiles.

(** ** save_tmp_file - /repo/ws.c:216-242, with the answers [w] to writing the file; the messages are left out. *)
Definition save_tmp_file_e (w : writing) (e : mpenv) (f : fs) (tmpfields : buf) (field : str)
  (start_file : Z) (tmpdata : buf) (data_start actuallength : Z) : outcome (buf * fs) :=
  o1 <- strncpy (malloc MAX_ORIG_FILENAME) (from tmpdata start_file) MAX_ORIG_FILENAME;;   (* 220 *)
  o2 <- wr o1 (MAX_ORIG_FILENAME - 1) NUL;;                                               (* 222 *)
  o3 <- chop_string o2;;                                                                  (* 223 *)
  orig <- cstr o3;;
  let f1 := if is_dir f FILE_DOWNLOAD_TMP_DIR then f
            else snd (check_createdir (mp_mkdir e) f FILE_DOWNLOAD_TMP_DIR) in            (* 229-233 *)
  m <- md5sum (mp_md5 e) (malloc (mp_md5_size e)) tmpdata data_start
         (actuallength - data_start - 2);;                                                (* 235-236 *)
  ms <- cstr m;;
  tmpfile <- fits 256 (dec_nat (mp_tid e) ++ L "-" ++ ms);;                               (* 237 *)
  tmpfilepath <- fits (len FILE_DOWNLOAD_TMP_DIR + 264)
                      (FILE_DOWNLOAD_TMP_DIR ++ L "/" ++ tmpfile);;                       (* 238 *)
  '(f2, _) <- write_file_e w f1 tmpfilepath tmpdata data_start (actuallength - data_start - 2);;  (* 240 *)
  t <- strcat tmpfields (field ++ L "=" ++ orig ++ L "&tmpfile=" ++ tmpfile);;            (* 241 *)
  Ok (t, f2).

(** ** part_parse - /repo/ws.c:165-210 *)
Definition part_parse_e (w : writing) (e : mpenv) (f : fs) (tmpfields tmpdata : buf) (length : Z)
  : outcome (buf * fs) :=
  n <- strlen tmpdata;;
  start <- text_find_after tmpdata FORM_DATA_NAME 0 n;;                     (* 169 *)
  if start <? 1 then Ok (tmpfields, f) else
  m <- strlen (from tmpdata start);;                                        (* 176 *)
  if m <=? 0 then Ok (tmpfields, f) else
  let bytes := length - start in
  f0 <- memcpy (calloc (length + 1)) 0 tmpdata start bytes;;                (* 178-181 *)
  f1 <- wr f0 bytes NUL;;                                                   (* 182 *)
  f2 <- chop_string f1;;                                                    (* 183 *)
  field <- cstr f2;;
  data_start <- text_find_after tmpdata (CRLF ++ CRLF) 0 length;;           (* 184 *)
  tl <- strlen tmpfields;;
  tf <- (if 0 <? tl then strcat tmpfields (L "&") else Ok tmpfields);;      (* 186-187 *)
  start_file <- text_find_after tmpdata FILENAME 0 n;;                      (* 189 *)
  if 0 <? data_start then
    if 0 <? start_file then save_tmp_file_e w e f tf field start_file tmpdata data_start length
    else
      v <- memcpy (calloc (length + 1)) 0 tmpdata data_start (length - data_start - 2);; (* 201-202 *)
      value <- cstr v;;
      t <- strcat tf (field ++ L "=" ++ value);;                            (* 203 *)
      Ok (t, f)
  else Ok (tf, f).

(** ** multipart_parse - /repo/ws.c:244-277; [w] gives the answers for the part that begins at a position
    of the form, which no two parts share. *)
Fixpoint multipart_loop_e (fuel : nat) (w : Z -> writing) (e : mpenv) (f : fs) (form tmppart tmpfields : buf)
  (boundary : str) (content_length ptr : Z) : outcome (buf * fs) :=
  if ptr <? content_length then
    part_start <- text_find_after form boundary ptr content_length;;
    if part_start <? 0 then Ok (tmpfields, f) else
    part_end <- text_find_after form boundary part_start content_length;;
    if part_end <? 0 then Ok (tmpfields, f) else
    let tmppart_len := to_int (part_end - part_start - len boundary) in     (* 264: an int *)
    tp <- memcpy tmppart 0 form part_start tmppart_len;;                    (* 265 *)
    '(tf, f') <- part_parse_e (w part_start) e f tmpfields tp tmppart_len;; (* 267 *)
    tp' <- trim tp;;                                                        (* 269 *)
    match fuel with
    | O => UB OutOfFuel
    | S k => multipart_loop_e k w e f' form tp' tf boundary content_length (part_start + 1)
    end
  else Ok (tmpfields, f).
Definition multipart_parse_e (w : Z -> writing) (e : mpenv) (f : fs) (form : buf) (boundary : str) (content_length : Z)
  : outcome (buf * fs) :=
  '(tmpfields, f') <- multipart_loop_e (Z.to_nat content_length) w e f form
      (calloc (content_length + 1)) (calloc (content_length + 1)) boundary content_length 0;;
  s <- cstr tmpfields;;
  form' <- strcpy form 0 s;;                                                (* 273 *)
  Ok (form', f').

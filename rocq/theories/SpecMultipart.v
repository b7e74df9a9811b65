(** SpecMultipart.v - what the multipart properties mean. *)
From Verif Require Import Base CLib Spec.

Definition holds (n h : str) : Prop := exists a b, h = a ++ n ++ b.

(** A form field as a client submits it: name, further header lines of its part, value. *)
Record field := mkField { fd_name : str; fd_lines : list str; fd_value : str }.

Definition disposition (name : str) : str := L "Content-Disposition: form-data; name=" ++ [DQ] ++ name ++ [DQ].
(** The text between two boundaries. *)
Definition part_of (x : field) : str :=
  CRLF ++ disposition (fd_name x) ++ CRLF ++ flat_map (fun l => l ++ CRLF) (fd_lines x) ++ CRLF ++ fd_value x ++ CRLF.
Definition body_of (pre bnd : str) (xs : list field) (tail : str) : str :=
  pre ++ flat_map (fun x => bnd ++ part_of x) xs ++ bnd ++ tail.

(** The longest start of a name made of the characters 35 to 127. *)
Fixpoint visible (n : str) : str :=
  match n with
  | c :: t => if (34 <? code c) && (code c <? 128) then c :: visible t else []
  | [] => []
  end.
Definition pair_of (x : field) : str := visible (fd_name x) ++ L "=" ++ fd_value x.
(** name1=value1&name2=value2&... *)
Definition form_of (xs : list field) : str :=
  match xs with [] => [] | x :: t => pair_of x ++ flat_map (fun y => L "&" ++ pair_of y) t end.

(** What a well-behaved client respects. *)
Definition filename_mark : str := L "; filename=" ++ [DQ].
Definition clean_line (bnd l : str) : Prop :=
  l <> [] /\ no_nul l /\ ~ In CR l /\ ~ In LF l /\ ~ holds bnd l /\ ~ holds filename_mark l.
Definition clean_field (bnd : str) (x : field) : Prop :=
  clean_line bnd (disposition (fd_name x)) /\ Forall (clean_line bnd) (fd_lines x)
  /\ no_nul (fd_value x) /\ ~ holds bnd (fd_value x) /\ ~ holds filename_mark (fd_value x).
Definition clean_boundary (bnd : str) : Prop := bnd <> [] /\ no_nul bnd /\ ~ In CR bnd /\ ~ In LF bnd.
(** Text before the first and after the last boundary. *)
Definition clean_preamble (bnd pre : str) : Prop := pre = [] \/ (exists p, pre = p ++ [LF]) /\ ~ holds bnd pre.

(** The boundary that follows [p] in [p ++ bnd ++ q] is the first one. *)
Definition first_boundary (bnd p q : str) : Prop := forall a b, p ++ bnd ++ q = a ++ bnd ++ b -> (length p <= length a)%nat.
Definition blank_line : str := CRLF ++ CRLF.
Definition name_mark : str := L "form-data; name=" ++ [DQ].

(** A file as a client submits it:
    Content-Disposition: form-data; name="F"; filename="N", further header lines, any bytes. *)
Record upload := mkUpload { up_field : str; up_name : str; up_lines : list str; up_data : str }.
Definition upload_part (u : upload) : str :=
  part_of (mkField (up_field u ++ [DQ] ++ filename_mark ++ up_name u) (up_lines u) (up_data u)).
Definition plain (bnd l : str) : Prop := l <> [] /\ no_nul l /\ ~ In CR l /\ ~ In LF l /\ ~ holds bnd l.
Definition clean_upload (bnd : str) (u : upload) : Prop :=
  plain bnd (disposition (up_field u ++ [DQ] ++ filename_mark ++ up_name u)) /\ ~ holds filename_mark (disposition (up_field u))
  /\ Forall (plain bnd) (up_lines u) /\ ~ holds bnd (up_data u).
(** The name the file is kept under: thread identifier and digest of the bytes. *)
Definition kept_name (tid : Z) (digest : str) : str := dec_nat tid ++ L "-" ++ hex_text digest.
Definition upload_pair (u : upload) (tid : Z) (digest : str) : str :=
  visible (up_field u) ++ L "=" ++ firstn 255 (visible (up_name u)) ++ L "&tmpfile=" ++ kept_name tid digest.
Definition and_then (s t : str) : str := match s with [] => t | _ => s ++ L "&" ++ t end.

(** A part without a field name. *)
Definition nameless (bnd p : str) : Prop :=
  (exists w, p = w ++ [LF]) /\ ~ holds bnd p /\ ~ holds name_mark p /\ ~ holds filename_mark p.
Definition nameless_then (pre bnd : str) (ps : list str) (xs : list field) (tail : str) : str :=
  pre ++ flat_map (fun p => bnd ++ p) ps ++ flat_map (fun x => bnd ++ part_of x) xs ++ bnd ++ tail.

(** SpecMemory.v - what the properties of refused memory mean. *)
From Verif Require Import Base CLib Memory SpecHttp Spec.
(** From the model only the type [site] is used here. *)

(** A process with [room] bytes left, serving a request with a body of [n] bytes: what the request
    holds when it asks, and the new block, must fit.  The form is held from the start, then the two
    buffers of multipart_parse, then the name and the value of a part. *)
Definition within (room n : Z) (s : site) (size : Z) : bool :=
  match s with
  | Form => size
  | Part => (n + 1) + size
  | Fields => 2 * (n + 1) + size
  | Field _ => 3 * (n + 1) + size
  | Value _ => 3 * (n + 1) + 2 * size
  end <=? room.

(** Two boundaries, one after the other. *)
Definition delimits (bd body : str) : Prop := exists a b c, body = a ++ bd ++ b ++ bd ++ c.

(** A request that announces a body of so many bytes and sends none of it. *)
Definition announcement (digits : str) : str :=
  L "POST /api HTTP/1.1" ++ CRLF ++ L "Content-Length: " ++ digits ++ CRLF ++ CRLF.

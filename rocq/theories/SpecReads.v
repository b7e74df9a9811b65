(** SpecReads.v - what the properties of failing reads mean. *)
From Verif Require Import Base CLib WsRequest Reads SpecReq Spec.
(** From the model only the types [got] and [told] (through SpecReq) are used here. *)

(** [l] is what one call with room for [size] bytes takes from the reads [g], [rest] what it
    leaves: up to and including the first LF, or [size - 1] bytes, or up to a read that fails,
    which it uses up. *)
Definition line_got (size : Z) (g : list got) (l : str) (rest : list got) : Prop :=
  exists r, g = map Got l ++ r /\ len l <= size - 1
  /\ ((exists l', l = l' ++ [LF] /\ ~ In LF l' /\ rest = r)
      \/ (~ In LF l /\ len l = size - 1 /\ rest = r)
      \/ (~ In LF l /\ len l < size - 1 /\ ((r = [] /\ rest = []) \/ r = Failed :: rest))).

(** A header section of such lines: it ends with a blank line or where a line is empty. *)
Inductive section_got : list got -> told -> told -> list got -> Prop :=
| sg_cut : forall g rest x, line_got 1024 g [] rest -> section_got g x x rest
| sg_blank : forall g l rest x, line_got 1024 g l rest -> blank_line l -> section_got g x x rest
| sg_line : forall g l rest x x1 x' after, line_got 1024 g l rest -> l <> [] -> ~ blank_line l -> no_nul l ->
    tells l x x1 -> section_got rest x1 x' after -> section_got g x x' after.

(** A line as a client should send it. *)
Definition whole_line (l : str) : Prop := exists l', l = l' ++ [LF] /\ ~ In LF l' /\ len l <= 1023.

(** The byte of the last read that succeeded. *)
Definition last_got (g : list got) (c : ascii) : Prop :=
  (exists a n, g = a ++ Got c :: repeat Failed n) \/ (c = NUL /\ exists n, g = repeat Failed n).
(** [s] is what the client must send for its reads to look like [g] to the body loop. *)
Definition as_if (g : list got) (s : str) : Prop :=
  length s = length g /\ forall i c, nth_error s i = Some c -> last_got (firstn (S i) g) c.

(** SpecSends.v - what the properties of sending mean. *)
From Verif Require Import Base HttpUtils Sends SpecHttp Spec.

Definition prefix (p s : str) : Prop := exists t, s = p ++ t.
(** The call sends all of its data. *)
Definition complete (w : wrote) (d : str) : Prop := exists m, w = Wrote m /\ (length d <= m)%nat.
(** The call sends nothing. *)
Definition nothing (w : wrote) : Prop := w = Wrote 0 \/ w = Broken.
(** Once a call has not sent all of its data, later calls send nothing. *)
Definition final (n : list str -> str -> wrote) : Prop :=
  forall before d later e, ~ complete (n before d) d -> nothing (n (before ++ d :: later) e).

(** The beginning of a JSON response: status line and headers up to Content-Type. *)
Definition json_start (line : str) : str :=
  line ++ CRLF ++ flat_map (fun h => h ++ CRLF) (server :: cors ++ [L "Content-Type: application/json"]).
(** The calls that send the head of a static response. *)
Definition file_start (ct sess : str) : list str :=
  let start := L "HTTP/1.1 200 OK" ++ CRLF ++ server ++ CRLF in
  [start; start ++ ct]
  ++ match sess with [] => [] | _ => [L "X-Session: " ++ sess ++ CRLF ++ L "Set-Cookie:WSSESSION=" ++ sess ++ CRLF] end
  ++ [CRLF].

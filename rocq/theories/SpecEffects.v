(** SpecEffects.v - what the properties of a request's effects mean. *)
From Verif Require Import Base WsRequest SpecHttp SpecDispatch SpecLog Spec.

(** A name under the directory for uploads: the worker's number and hexadecimal digits. *)
Definition upload_name (tid : Z) (name : str) : Prop :=
  exists d h, decimal d tid /\ Forall (fun c => In c hex_digits) h /\ name = L "/tmp/wayuu/" ++ d ++ L "-" ++ h.

(** A value with a line feed at most at its end. *)
Definition no_inner_line (s : str) : Prop := exists a, one_line a /\ (s = a \/ s = a ++ [LF]).

(** The answers to a request outside the API: the bytes, and the statuses in the access log. *)
Definition plain_status (line : str) : str := line ++ CRLF ++ L "Server: WAYUU/1.5.0" ++ CRLF ++ L "Content-Length: 0" ++ CRLF ++ CRLF.
Inductive reply (root : str) (f : fs) : route_taken -> str -> list Z -> Prop :=
| rp_method : reply root f TBadMethod (plain_status (L "HTTP/1.1 400 Bad Request")) [400]
| rp_not_get : reply root f TNotGet (plain_status (L "HTTP/1.1 400 Bad Request")) [400]
| rp_many : reply root f TTooMany (plain_status (L "HTTP/1.1 429 Too many connections")) [429]
| rp_nothing : reply root f TStatic [] []
| rp_file : forall p sess content, f (root ++ L "/" ++ p) = Some (File content) -> len content <= 2 ^ 31 - 1 -> no_inner_line sess -> len sess <= 63 ->
    reply root f TStatic (file_message (root ++ L "/" ++ p) sess content) [200].

(** Requests one after another, each with what the one before has left; and each on its own. *)
Record visit := mkVisit { vs_socket : Z; vs_peer : str; vs_stream : str }.
Definition handle (v : wsenv) (f : fs) (t : table) (q : visit) : outcome result := accept_request v f t (vs_socket q) (vs_peer q) (vs_stream q).
Section Sequence.
Variable one : fs -> table -> visit -> outcome result.
Fixpoint sequence (f : fs) (t : table) (qs : list visit) : outcome (list result) :=
  match qs with
  | [] => Ok []
  | q :: qs' => r <- one f t q;; rs <- sequence (o_fs r) (o_table r) qs';; Ok (r :: rs)
  end.
Fixpoint separate (f : fs) (t : table) (qs : list visit) : outcome (list result) :=
  match qs with
  | [] => Ok []
  | q :: qs' => r <- one f t q;; rs <- separate f t qs';; Ok (r :: rs)
  end.
End Sequence.
Definition in_sequence (v : wsenv) := sequence (handle v).
Definition each_alone (v : wsenv) := separate (handle v).

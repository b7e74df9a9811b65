(** SpecReq.v - what the request reading properties mean. *)
From Verif Require Import Base CLib WsRequest SpecJson SpecHttp SpecConn Spec.
(** From the model only the record types, [cstr] and the functions the statements are about are used here. *)

(** ** Lines *)
(** [l] is what one call with room for [size] bytes takes from the stream [s], [rest] what it
    leaves: up to and including the first LF, or [size - 1] bytes, or all. *)
Definition line_of (size : Z) (s l rest : str) : Prop :=
  s = l ++ rest /\ len l <= size - 1 /\
  ((exists l', l = l' ++ [LF] /\ ~ In LF l') \/ (~ In LF l /\ (len l = size - 1 \/ rest = []))).

(** The stream cut into lines. *)
Inductive pieces (size : Z) : str -> list str -> Prop :=
| pc_end : pieces size [] []
| pc_line : forall s l rest ls, l <> [] -> line_of size s l rest -> pieces size rest ls -> pieces size s (l :: ls).

(** Calling get_line on the same buffer until it returns 0: the counts and buffers after each call. *)
Fixpoint read_lines (k : nat) (s : str) (b : buf) (size : Z) : outcome (list (Z * buf)) :=
  match k with
  | O => Ok []
  | S k' => '(n, b', s') <- get_line s b size;;
            if n =? 0 then Ok [(n, b')]
            else l <- read_lines k' s' b' size;; Ok ((n, b') :: l)
  end.

(** The buffer holds this line: its bytes and a NUL, and nothing indeterminate. *)
Definition shows (b : buf) (l : str) : Prop :=
  exists stale, b = cs l ++ map Some stale.

(** ** Request line *)
Definition word (w : str) : Prop := w <> [] /\ no_nul w /\ Forall (fun c => ~ blank c) w.

(** The stream starts with a request line: a method, blanks, a URL and a blank. *)
Definition asks (stream m u line s1 : str) : Prop :=
  line_of 1024 stream line s1 /\ no_nul line /\ word m /\ word u /\ len m <= 254
  /\ exists sp c rest, line = m ++ sp ++ u ++ c :: rest /\ sp <> [] /\ Forall blank sp /\ blank c.

(** What a C program sees of a text: up to its first NUL. *)
Definition seen_as (s t : str) : Prop := no_nul t /\ (s = t \/ exists r, s = t ++ NUL :: r).

(** ** Header lines *)
(** The name and value of a header line: trimmed texts before and after its first colon. *)
Definition field_of (line : str) (nv : str * str) : Prop :=
  exists a b, first_cut ":" line a b /\ trimmed a (fst nv) /\ trimmed b (snd nv).

(** What the header lines so far have told the server. *)
Record told := mkTold {
  td_fields : list (str * str); td_type : option str; td_boundary : str; td_length : Z;
  td_ip : str; td_session : str }.
Definition nothing_told (ip : str) : told := mkTold [] None [] (-1) ip [].

(** Text from a fixed offset. *)
Definition tail_at (n : nat) (line t : str) : Prop := exists h, line = h ++ t /\ length h = n.

Definition tells_fields (line : str) (x x' : list (str * str)) : Prop :=
  (~ In ":"%char line /\ x' = x) \/ exists nv, field_of line nv /\ x' = x ++ [nv].
Definition up_to (c : ascii) (s a : str) : Prop := (exists b, first_cut c s a b) \/ (~ In c s /\ a = s).
Definition tells_type (line : str) (x x' : option str) : Prop :=
  (~ ci_prefix (L "Content-Type:") line /\ x' = x)
  \/ (ci_prefix (L "Content-Type:") line /\ exists t a, tail_at 14 line t /\ up_to ";" t a /\ x' = Some a).
(** The first place where a text occurs up to case, cut around it. *)
Definition ci_cut (p s a b : str) : Prop :=
  exists q, s = a ++ q ++ b /\ ci_equal p q
    /\ forall a' q' b', s = a' ++ q' ++ b' -> ci_equal p q' -> len a <= len a'.
Definition form_data : str := L "Content-Type: multipart/form-data".
Definition tells_boundary (line x x' : str) : Prop :=
  ((~ ci_prefix form_data line \/ (forall a q b, line = a ++ q ++ b -> ~ ci_equal (L "boundary=") q)) /\ x' = x)
  \/ (ci_prefix form_data line /\ exists a b, ci_cut (L "boundary=") line a b /\ len b <= 97 /\ trimmed (L "--" ++ b) x').
Definition tells_length (line : str) (x x' : Z) : Prop :=
  (~ ci_prefix (L "Content-Length:") line /\ x' = x)
  \/ (ci_prefix (L "Content-Length:") line /\ exists t, tail_at 16 line t /\ int_at t x').
Definition tells_ip (line x x' : str) : Prop :=
  (~ ci_prefix (L "X-Real-IP:") line /\ x' = x)
  \/ (ci_prefix (L "X-Real-IP:") line /\ exists u t, trimmed line u /\ tail_at 11 u t /\ x' = firstn 24 t).
Definition session_line (line : str) : Prop :=
  ci_prefix (L "X-Session:") line \/ ci_prefix (L "Authorization:") line.
Definition tells_session (line x x' : str) : Prop :=
  (session_line line /\ exists t, tail_at 10 line t /\ len t <= 63 /\ trimmed t x')
  \/ (ci_prefix (L "Cookie:") line /\ x = [] /\ exists t, tail_at 18 line t /\ ((len t <= 63 /\ x' = t) \/ (64 <= len t /\ x' = [])))
  \/ (ci_prefix (L "Cookie:") line /\ x <> [] /\ x' = x)
  \/ (~ session_line line /\ ~ ci_prefix (L "Cookie:") line /\ x' = x).

Definition tells (line : str) (x x' : told) : Prop :=
  tells_fields line (td_fields x) (td_fields x') /\ tells_type line (td_type x) (td_type x')
  /\ tells_boundary line (td_boundary x) (td_boundary x') /\ tells_length line (td_length x) (td_length x')
  /\ tells_ip line (td_ip x) (td_ip x') /\ tells_session line (td_session x) (td_session x').

(** A header section: lines, then a blank line or the end of the stream. *)
Definition blank_line (l : str) : Prop := l = [LF] \/ l = CRLF.
Inductive section : str -> told -> told -> str -> Prop :=
| sc_end : forall x, section [] x x []
| sc_blank : forall s l rest x, line_of 1024 s l rest -> blank_line l -> section s x x rest
| sc_line : forall s l rest x x1 x' after, line_of 1024 s l rest -> l <> [] -> ~ blank_line l -> no_nul l ->
    tells l x x1 -> section rest x1 x' after -> section s x x' after.

(** The stored headers and the session hold what was told. *)
Definition stores (h : hstate) (x : told) : Prop :=
  (Forall (fun nv => len (fst nv) <= 63 /\ len (snd nv) <= 255) (firstn 20 (td_fields x)) ->
     Forall2 holds (hs_headers h) (firstn 20 (td_fields x)))
  /\ len (hs_headers h) = Z.min 20 (len (td_fields x))
  /\ hs_content_type h = td_type x /\ hs_boundary h = td_boundary x /\ hs_length h = td_length x
  /\ hs_ip h = td_ip x /\ cstr (hs_session h) = Ok (td_session x) /\ len (hs_session h) = 64.

(** Reading a header section into a fresh buffer. *)
Definition read_headers (s : str) : outcome hstate :=
  '(n, b, s') <- get_line s (calloc 1024) 1024;; header_loop (length s) n (mkH b s' [] None [] (-1) (L "1.2.3.4") (calloc 64)).

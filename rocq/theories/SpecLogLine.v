(** SpecLogLine.v - what the properties of the application log's bytes mean. *)
From Verif Require Import Base LogLine Trace SpecTime SpecLog Spec.

(** A line feed in the text is never followed by a digit, with which every entry begins. *)
Definition tame (s : str) : Prop := forall p c q, s = p ++ LF :: c :: q -> ~ (48 <= code c <= 57).

(** The time until which gmtime works; the numbers and names __logger can be given. *)
Definition regular (e : said) : Prop :=
  0 <= sd_time e <= 67768036191676799 /\ 0 <= sd_thread e /\ 0 <= sd_level e <= 5
  /\ ~ In ":"%char (sd_file e) /\ ~ In ":"%char (sd_func e) /\ tame (sd_text e).

(** Two calls that tell the same, the century apart. *)
Definition shown_time (t : Z) (txt : str) : Prop := exists x h m s, clock t x h m s /\ stamp_text x h m s txt.
Definition tells_same (e e' : said) : Prop :=
  (exists txt, shown_time (sd_time e) txt /\ shown_time (sd_time e') txt)
  /\ sd_thread e = sd_thread e' /\ sd_level e = sd_level e' /\ sd_file e = sd_file e' /\ sd_func e = sd_func e'
  /\ sd_line e = sd_line e' /\ sd_text e = sd_text e'.

(** Everything but the text as [regular] wants it. *)
Definition placed (e : said) : Prop :=
  0 <= sd_time e <= 67768036191676799 /\ 0 <= sd_thread e /\ ~ In ":"%char (sd_file e) /\ ~ In ":"%char (sd_func e).
(** One of the messages of a request. *)
Definition of_request (v : wsenv) (e : said) : Prop :=
  exists f t socket peer stream res ms, one_line peer /\ accept_request_t v f t socket peer stream = Ok (res, ms) /\ In (sd_level e, sd_text e) ms.
(** Nothing that is not in one line. *)
Definition in_line (e : said) : Prop :=
  one_line (sd_text e) /\ one_line (sd_file e) /\ one_line (sd_func e) /\ 0 <= sd_thread e /\ 0 <= sd_time e <= 67768036191676799.

(** What the operator has written into the configuration and the program's tables. *)
Definition plain_setup (v : wsenv) : Prop :=
  one_line (v_static_root v) /\ one_line (v_index v) /\ one_line (v_favicon v) /\ 0 <= mp_tid (v_mp v)
  /\ Forall (fun rt => one_line (rt_prefix rt) /\ one_line (rt_param rt)) (v_routes v)
  /\ Forall (fun l => one_line (l_path l)) (v_limits v).

(** The order of the messages of threads: each element says which thread logs its next one. *)
Inductive in_turn : list (list said) -> list nat -> list said -> Prop :=
| it_done : forall ths, Forall (fun t => t = []) ths -> in_turn ths [] []
| it_next : forall a e t b k order es, length a = k -> in_turn (a ++ t :: b) order es -> in_turn (a ++ (e :: t) :: b) (k :: order) (e :: es).

(** SpecConf.v - what the configuration, file and IP list properties mean. *)
From Verif Require Import Base ConfParser Spec.
(** From ConfParser.v only the record [conf_item] and, for [deliveries], the API function
    conf_parse_line (characterised by C18-C20) are used here. *)

(** The part of a byte sequence before its first NUL (all of it if there is none). *)
Definition visible (s t : str) : Prop := exists r, s ++ [NUL] = t ++ NUL :: r /\ ~ In NUL t.

(** [ls] are the lines of [c] as read through a buffer that holds [n] characters and a
    terminator: non-empty pieces, newline only at their end, each ended by a newline, by
    the size of the buffer or by the end of the file. *)
Inductive lines (n : Z) : str -> list str -> Prop :=
| lines_nil : lines n [] []
| lines_last : forall l, l <> [] -> ~ In LF l -> len l <= n -> lines n l [l]
| lines_nl : forall l r ls, ~ In LF l -> len l + 1 <= n -> lines n r ls ->
    lines n (l ++ LF :: r) ((l ++ [LF]) :: ls)
| lines_full : forall l r ls, l <> [] -> ~ In LF l -> len l = n -> lines n r ls ->
    lines n (l ++ r) (l :: ls).

(** The entry of a flag table for a key: the first one with that key. *)
Definition flagged (flags : list (str * bool)) (k : str) (m : bool) : Prop :=
  exists a b, flags = a ++ (k, m) :: b /\ ~ In k (map fst a).
Definition unflagged (flags : list (str * bool)) (k : str) : Prop := ~ In k (map fst flags).

(** A key, a value and values that survive being written as a line: no blanks at the
    edges, no characters the format gives a meaning to. *)
Definition good_key (k : str) : Prop :=
  k <> [] /\ no_blank_edges k /\ no_nul k /\ ~ In "="%char k.
Definition good_value (v : str) : Prop := no_blank_edges v /\ no_nul v /\ ~ In "="%char v.
Definition good_element (v : str) : Prop := v <> [] /\ good_value v /\ ~ In ","%char v.

(** The text after the '=': the value, or the multi-values separated by commas. *)
Definition value_text (it : conf_item) : str :=
  match multivalue it with [] => value it | l => separated (L ",") l end.

(** The line written for an item, without its newline. *)
Definition line_text (it : conf_item) : str := key it ++ "="%char :: value_text it.

(** An item that survives being written and read back. *)
Definition good_item (it : conf_item) : Prop :=
  good_key (key it) /\ no_nul (value it) /\ (multivalue it = [] -> good_value (value it))
  /\ Forall good_element (multivalue it).


(** What reading the written items back hands over: nothing for an unflagged key; key and
    text for a single-valued key; for a multi-valued key also the values, which are the
    item's own if it has some and the trimmed pieces between commas otherwise. *)
Inductive handed_over (flags : list (str * bool)) : list conf_item -> list conf_item -> Prop :=
| ho_nil : handed_over flags [] []
| ho_skip : forall it items out, unflagged flags (key it) -> handed_over flags items out ->
    handed_over flags (it :: items) out
| ho_single : forall it items out, flagged flags (key it) false -> handed_over flags items out ->
    handed_over flags (it :: items) (mkItem (key it) (value_text it) [] :: out)
| ho_multi : forall it items out, flagged flags (key it) true -> multivalue it <> [] ->
    handed_over flags items out ->
    handed_over flags (it :: items) (mkItem (key it) (value_text it) (multivalue it) :: out)
| ho_pieces : forall it items out ts mv, flagged flags (key it) true -> multivalue it = [] ->
    tokens (L ",") (value it) ts -> Forall2 trimmed ts mv -> handed_over flags items out ->
    handed_over flags (it :: items) (mkItem (key it) (value it) mv :: out).

(** What the handler receives from a list of lines. *)
Inductive deliveries (flags : list (str * bool)) : list str -> list conf_item -> Prop :=
| dl_nil : deliveries flags [] []
| dl_skip : forall t it ls out, conf_parse_line t false = Ok (Some it) ->
    unflagged flags (key it) -> deliveries flags ls out -> deliveries flags (t :: ls) out
| dl_take : forall t it m ls out, conf_parse_line t m = Ok (Some it) ->
    flagged flags (key it) m -> deliveries flags ls out -> deliveries flags (t :: ls) (it :: out).


(** ** Files and IP lists *)

(** How many bytes of a file read_file stores for a given maxlen. *)
Definition stored (content : str) (maxlen : Z) : Z :=
  if 0 <? maxlen then Z.min (len content) (maxlen - 1) else len content.

(** [ip] occurs in the text of the file [p]. *)
Definition listed (f : fs) (p ip : str) : Prop :=
  exists content t, f p = Some (File content) /\ visible content t /\ substring ip t.
Definition small (f : fs) (p : str) : Prop := forall content, f p = Some (File content) -> len content <= 8191.
Definition allowed (f : fs) (root ip : str) : Prop :=
  ~ listed f (root ++ L "/etc/deny") ip /\
  ((forall c, f (root ++ L "/etc/allow") <> Some (File c)) \/ listed f (root ++ L "/etc/allow") ip).

(** Successive calls, the root being set before each. *)
Fixpoint ip_calls (g : ipconf) (l : list (str * fs * str)) : outcome (list bool) :=
  match l with
  | [] => Ok []
  | (root, f, ip) :: t =>
    '(b, g') <- allowed_address f (mkIpconf root (ws_allow g) (ws_deny g)) ip;;
    r <- ip_calls g' t;; Ok (b :: r)
  end.

Definition small_lists (root : str) (f : fs) : Prop :=
  small f (root ++ L "/etc/allow") /\ small f (root ++ L "/etc/deny").


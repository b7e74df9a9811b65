(** SpecFailFiles.v - what the properties of files that fail mean. *)
From Verif Require Import Base FileUtils SpecConf SpecSafe Spec.

(** The part of a file that was read: its first [n] bytes, or nothing if it did not open. *)
Definition part (o : option nat) (content : str) : str := match o with Some n => firstn n content | None => [] end.
(** [ip] occurs in the text of that part. *)
Definition seen (o : option nat) (f : fs) (p ip : str) : Prop :=
  exists content t, f p = Some (File content) /\ visible (part o content) t /\ substring ip t.
(** All of the file was read. *)
Definition read_whole (o : option nat) (f : fs) (p : str) : Prop :=
  exists n, o = Some n /\ forall content, f p = Some (File content) -> len content <= Z.of_nat n.
(** The file opened and is too big for the buffer it is copied to. *)
Definition overflows (o : option nat) (f : fs) (p : str) : Prop := o <> None /\ big f p.

Definition deny (root : str) : str := root ++ L "/etc/deny".
Definition allow (root : str) : str := root ++ L "/etc/allow".
Definition no_file (f : fs) (p : str) : Prop := forall c, f p <> Some (File c).

(** When the check of an address is undefined, and whom it lets in. *)
Definition check_undefined (od oa : option nat) (f : fs) (root ip : str) : Prop :=
  277 < len root \/ overflows od f (deny root) \/ (~ seen od f (deny root) ip /\ overflows oa f (allow root)).
Definition let_in (od oa : option nat) (f : fs) (root ip : str) : Prop :=
  ~ seen od f (deny root) ip /\ (no_file f (allow root) \/ seen oa f (allow root) ip).

(** The body sent for a file of which [n] bytes could be read: as long as the file. *)
Definition body_of (n : nat) (content body : str) : Prop :=
  len body = len content /\ forall i c, nth_error body i = Some c ->
    if (i <? n)%nat then nth_error content i = Some c else c = NUL.

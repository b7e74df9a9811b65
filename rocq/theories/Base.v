(** Base.v - bytes, C strings, buffers, and outcomes with undefined behaviour.

    Everything below models the C abstract machine as /repo uses it
    (gcc, -std=gnu99, x86-64 Linux: /repo/Makefile:5), not a particular file. *)
From Coq Require Export String Ascii.
From Coq Require Export ZArith Lia Bool List.
Export ListNotations.
Open Scope list_scope.
Open Scope Z_scope.

(** ** Bytes and strings *)

(** A [char] is one of 256 bytes; a C string's content is a list of bytes without NUL. *)
Notation str := (list ascii) (only parsing).

(** String literals of the C code. *)
Definition L (s : string) : str := list_ascii_of_string s.
Arguments L _%string.

Definition NUL : ascii := "000"%char.
Definition HT  : ascii := "009"%char.
Definition LF  : ascii := "010"%char.
Definition VT  : ascii := "011"%char.
Definition FF  : ascii := "012"%char.
Definition CR  : ascii := "013"%char.
Definition SP  : ascii := "032"%char.
Definition DQ  : ascii := "034"%char.

(** /repo/http_utils.h:33 *)
Definition CRLF : str := [CR; LF].

Definition ceq (a b : ascii) : bool := Ascii.eqb a b.

(** Unsigned value of a byte. *)
Definition code (c : ascii) : Z := Z.of_N (N_of_ascii c).

(** Value of a [char] in an expression: [char] is signed on x86-64 Linux. *)
Definition schar (c : ascii) : Z := if code c <? 128 then code c else code c - 256.

(** A byte string that can be the content of a C string. *)
Definition no_nul (s : str) : Prop := Forall (fun c => c <> NUL) s.

(** Length as an integer. *)
Definition len {A} (l : list A) : Z := Z.of_nat (length l).

(** ** Outcomes *)

(** Kinds of undefined behaviour (and resource exhaustion of the model itself). *)
Inductive ub : Type :=
| OobRead       (* read outside the object *)
| OobWrite      (* write outside the object *)
| UninitRead    (* read of an indeterminate value *)
| NullDeref     (* use of a NULL pointer where an object is needed *)
| BadFree       (* free of something not obtained from malloc *)
| ArrayIndex    (* index past a declared array, inside a larger allocation *)
| UseAfterFree  (* access to, or free of, freed memory *)
| BadSize       (* negative value converted to a huge size_t / int *)
| IntOverflow   (* the result of an addition of ints is not an int *)
| OutOfFuel.    (* never produced: the model's loop bound was too small *)

Inductive outcome (A : Type) : Type :=
| Ok (a : A)
| UB (u : ub).
Arguments Ok {A} _.
Arguments UB {A} _.

Definition bind {A B} (x : outcome A) (f : A -> outcome B) : outcome B :=
  match x with Ok a => f a | UB u => UB u end.

Notation "x <- e ;; k" := (bind e (fun x => k))
  (at level 61, e at next level, right associativity).
Notation "' p <- e ;; k" := (bind e (fun p => k))
  (at level 61, p pattern, e at next level, right associativity).

(** A computation has undefined behaviour. *)
Definition undefined {A} (x : outcome A) : Prop := exists u, x = UB u.

(** ** Memory objects *)

(** One byte of an object: [None] is indeterminate (fresh malloc or stack memory). *)
Notation cell := (option ascii) (only parsing).

(** An object: its length is its size in bytes. *)
Notation buf := (list (option ascii)) (only parsing).

(** The object holding exactly a C string: content and terminator (what strdup returns). *)
Definition cs (s : str) : buf := map Some s ++ [Some NUL].

Definition malloc (n : Z) : buf := repeat None (Z.to_nat n).
Definition calloc (n : Z) : buf := repeat (Some NUL) (Z.to_nat n).

(** Read one byte at index [i]. *)
Definition rd (b : buf) (i : Z) : outcome ascii :=
  if (0 <=? i) && (i <? len b) then
    match nth_error b (Z.to_nat i) with
    | Some (Some c) => Ok c
    | Some None => UB UninitRead
    | None => UB OobRead
    end
  else UB OobRead.

(** Write the cells [l] at index [off]. *)
Definition write_at (b : buf) (off : Z) (l : list cell) : outcome buf :=
  if (0 <=? off) && (off + len l <=? len b) then
    Ok (firstn (Z.to_nat off) b ++ l ++ skipn (Z.to_nat off + length l) b)
  else UB OobWrite.

(** Write one byte at index [i]. *)
Definition wr (b : buf) (i : Z) (c : ascii) : outcome buf := write_at b i [Some c].

(** The [n] cells from index [off] (source side of memcpy/memmove/fwrite/send).
    A negative [n] is converted to a huge size_t by the callee. *)
Definition slice (b : buf) (off n : Z) : outcome (list cell) :=
  if n <? 0 then UB BadSize
  else if (0 <=? off) && (off + n <=? len b) then
    Ok (firstn (Z.to_nat n) (skipn (Z.to_nat off) b))
  else UB OobRead.

(** The object seen from a pointer to its [off]-th byte. *)
Definition from (b : buf) (off : Z) : buf :=
  if (0 <=? off) && (off <=? len b) then skipn (Z.to_nat off) b else [].

(** All cells defined: the bytes (needed to hash, send or store them). *)
Fixpoint defined_bytes (l : list cell) : outcome str :=
  match l with
  | [] => Ok []
  | None :: _ => UB UninitRead
  | Some c :: t => r <- defined_bytes t;; Ok (c :: r)
  end.

(** Simplified view of an array only ever used as the C string last written to it:
    its content plus the check that content and terminator fit in [cap] bytes. *)
Definition fits (cap : Z) (s : str) : outcome str :=
  if len s + 1 <=? cap then Ok s else UB OobWrite.

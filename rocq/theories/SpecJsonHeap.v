(** SpecJsonHeap.v - what the heap properties of the JSON functions mean. *)
From Verif Require Import Base CLib HttpUtils ConfHeap ReqHeap JsonHeap SpecHeap SpecReqHeap Spec.

(** What a pointer to a string shows when the live blocks are [l]. *)
Inductive shows (l : list (nat * str)) : ptr -> cptr -> Prop :=
| sh_null : shows l PNull None
| sh_lit : forall s, shows l (PLit s) (Some s)
| sh_block : forall n s, In (n, s) l -> shows l (PBlock n) (Some s).

(** A serializer that gives, for an element whose block holds [x], a new block with the text
    [txt x], or NULL, and does nothing else. *)
Definition serializes (ser : heap -> ptr -> outcome (heap * ptr)) (txt : str -> cptr) : Prop :=
  forall h l n x, blocks_are h l -> In (n, x) l ->
    exists h' q, ser h (PBlock n) = Ok (h', q)
      /\ match txt x with
         | None => q = PNull /\ blocks_are h' l
         | Some t => exists m, q = PBlock m /\ blocks_are h' ((m, t) :: l)
         end.

(** A list of one element whose text is empty. *)
Definition sole_empty (txt : str -> cptr) (els : list (nat * str)) : Prop := exists e, els = [e] /\ txt (snd e) = Some [].

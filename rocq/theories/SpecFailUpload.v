(** SpecFailUpload.v - what the properties of uploads that cannot be stored mean. *)
From Verif Require Import Base FileUtils SpecEffects Spec.

(** The same files, but for those of uploads of the thread [tid], which may be missing, shorter or older:
    directories are the same everywhere. *)
Definition same_but_uploads (tid : Z) (f g : fs) : Prop :=
  (forall name, ~ upload_name tid name -> f name = g name) /\ forall name, f name = Some Dir <-> g name = Some Dir.

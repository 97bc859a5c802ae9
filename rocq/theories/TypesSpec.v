(** Vocabulary for C14 and C15. *)
From Verif Require Import Str.

(** Every value is read back from its printed form. *)
Definition survives {A : Type} (show : A -> string) (read : string -> option A) : Prop :=
  forall v, read (show v) = Some v.

(** A string that is neither the printed form of a value nor one of [aliases]
    is read as [d] ([None]: refused). *)
Definition unknown_reads_as {A : Type} (show : A -> string) (aliases : list string)
    (read : string -> option A) (d : option A) : Prop :=
  forall s, (forall v, s <> show v) -> ~ In s aliases -> read s = d.

(** Vocabulary for C42. *)
From Verif Require Import Str ZipNameModel.

(** A canonical entry name: forward slashes only, and none in front. *)
Definition canonical (n : string) : Prop :=
  has_char "\" n = false /\ (forall r, n <> String "/" r).

(** [spells m n]: [m] is a way to write the name [n], with any separators in
    front and either separator for each separator inside. *)
Inductive same_but_separators : string -> string -> Prop :=
| sbs_nil : same_but_separators "" ""
| sbs_char c a b : same_but_separators a b -> same_but_separators (String c a) (String c b)
| sbs_back a b : same_but_separators a b -> same_but_separators (String "\" a) (String "/" b).
Inductive spells : string -> string -> Prop :=
| sp_same a b : same_but_separators a b -> spells a b
| sp_slash a b : spells a b -> spells (String "/" a) b
| sp_back a b : spells a b -> spells (String "\" a) b.

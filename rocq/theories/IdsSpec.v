(** Vocabulary for C16 and C17. *)
From Verif Require Import Str IdsModel.

(** [n] requests starting from counter [c] are all answered, with [n] pairwise
    different identifiers. *)
Definition all_fresh (g : generator) (n : nat) (c : N) : Prop :=
  exists l c', requests g n c = Some (l, c') /\ length l = n /\ NoDup l.

(** A schedule in which no two requests overlap: every load is followed at once
    by the store of the same thread. *)
Fixpoint no_overlap (sched : list nat) : bool :=
  match sched with
  | [] => true
  | [_] => true
  | t :: u :: r => Nat.eqb t u && no_overlap r
  end.

(** The identifiers handed to thread [t]. *)
Definition handed_to {A : Type} (t : nat) (l : list (nat * A)) : list A :=
  map snd (filter (fun p => Nat.eqb (fst p) t) l).

(** Passes over lists that thread a state and may panic. *)
From Coq Require Import List.
Import ListNotations.

(** A [for] loop over mutable elements; [None] is a panic. *)
Section Pass.
  Context {A S : Type} (f : A -> S -> option (A * S)).
  Fixpoint pass (l : list A) (s : S) : option (list A * S) :=
    match l with
    | [] => Some ([], s)
    | x :: t =>
        match f x s with
        | None => None
        | Some (x', s1) => match pass t s1 with None => None | Some (t', s2) => Some (x' :: t', s2) end
        end
    end.
End Pass.
Definition then_ {A B S : Type} (r : option (A * S)) (k : A -> B) : option (B * S) :=
  match r with None => None | Some (a, s) => Some (k a, s) end.

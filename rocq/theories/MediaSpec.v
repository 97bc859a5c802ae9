(** Vocabulary for C22 - C24. *)
From Verif Require Import Str.

(** Looking a key up in a list of pairs. *)
Fixpoint lookup {A} (k : string) (l : list (string * A)) : option A :=
  match l with
  | [] => None
  | (x, v) :: r => if String.eqb x k then Some v else lookup k r
  end.

(** The file names of the media of a package, relative to [word/]. *)
Definition media_files (m : list (string * string)) : list (string * string) :=
  map (fun x => ("media/" +++ fst x +++ ".png", snd x)) m.

(** Following the relationship id [rid] of a part through the relationships of
    the part and the files of the package. *)
Definition follow (relationships m : list (string * string)) (rid : string) : option string :=
  match lookup rid relationships with
  | Some target => lookup target (media_files m)
  | None => None
  end.

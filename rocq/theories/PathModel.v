(** The parts of [std::path] (Unix) that the reader of an archive uses, on whole paths.

    A path is cut at its slashes; empty segments and the segment [.] are passed over,
    but for a [.] at the very beginning. *)
From Verif Require Import Str ZipNameModel.

(** The segments between slashes. *)
Fixpoint segments (s : string) : list string :=
  match s with
  | EmptyString => [EmptyString]
  | String c r =>
      if c =c ch_slash then EmptyString :: segments r
      else match segments r with [] => [str1 c] | x :: l => String c x :: l end
  end.
Fixpoint join_segments (l : list string) : string :=
  match l with [] => EmptyString | [x] => x | x :: r => x +++ String ch_slash (join_segments r) end.
(** [has_physical_root] *)
Definition has_root (p : string) : bool := match p with String c _ => c =c ch_slash | EmptyString => false end.
(** [include_cur_dir] *)
Definition has_dot (p : string) : bool :=
  match p with
  | String c EmptyString => c =c "."%char
  | String c (String d _) => (c =c "."%char) && (d =c ch_slash)
  | EmptyString => false
  end.
Definition path_start (p : string) : string := if has_root p then "/" else if has_dot p then "." else "".
Definition path_body (p : string) : string :=
  if has_root p || has_dot p then match p with String _ r => r | EmptyString => "" end else p.
Definition passed_over (seg : string) : bool := (seg =s "") || (seg =s ".").
(** The segments of the body from the last to the first, without those passed over at
    the end. *)
Fixpoint drop_passed (l : list string) : list string :=
  match l with x :: r => if passed_over x then drop_passed r else l | [] => [] end.
Definition from_the_end (p : string) : list string := drop_passed (rev (segments (path_body p))).

(** [Path::parent] *)
Definition parent (p : string) : option string :=
  match from_the_end p with
  | _ :: r => Some (path_start p +++ join_segments (rev (drop_passed r)))
  | [] => if has_root p then None else if has_dot p then Some "" else None
  end.
(** [Path::file_name]: the last component if it is a name *)
Definition file_name (p : string) : option string :=
  match from_the_end p with
  | x :: _ => if x =s ".." then None else Some x
  | [] => None
  end.
(** [rsplit_file_at_dot]: what is before the last dot, unless that is all of the name or
    nothing *)
Fixpoint before_last_dot (s : string) : option string :=
  match s with
  | EmptyString => None
  | String c r => match before_last_dot r with
                  | Some b => Some (String c b)
                  | None => if c =c "."%char then Some EmptyString else None
                  end
  end.
Definition stem_of (name : string) : string :=
  match before_last_dot name with Some EmptyString | None => name | Some b => b end.
(** [Path::file_stem] *)
Definition file_stem (p : string) : option string := option_map stem_of (file_name p).
(** [Path::join] *)
Fixpoint ends_in_slash (s : string) : bool :=
  match s with EmptyString => false | String c EmptyString => c =c ch_slash | String _ r => ends_in_slash r end.
Definition join (dir p : string) : string :=
  if has_root p then p
  else match dir with
       | EmptyString => p
       | _ => if ends_in_slash dir then dir +++ p else dir +++ "/" +++ p
       end.
(** [Path::with_extension] with an extension that is not empty: what follows the stem
    of the last component is replaced. *)
Definition with_extension (p ext : string) : string :=
  match file_name p with
  | None => p
  | Some name =>
      match from_the_end p with
      | _ :: r => path_start p +++ join_segments (rev (stem_of name :: r)) +++ "." +++ ext
      | [] => p
      end
  end.

(** Paths are compared component by component: [RootDir], [CurDir], [ParentDir], then
    names, in this order. *)
Inductive component := CRoot | CCur | CParent | CName (s : string).
Definition components (p : string) : list component :=
  (if has_root p then [CRoot] else []) ++ (if has_dot p then [CCur] else []) ++
  map (fun x => if x =s ".." then CParent else CName x) (filter (fun x => negb (passed_over x)) (segments (path_body p))).
Definition compare_component (a b : component) : comparison :=
  match a, b with
  | CRoot, CRoot | CCur, CCur | CParent, CParent => Eq
  | CName x, CName y => String.compare x y
  | CRoot, _ => Lt | _, CRoot => Gt
  | CCur, _ => Lt | _, CCur => Gt
  | CParent, _ => Lt | _, CParent => Gt
  end.
Fixpoint compare_list {A} (f : A -> A -> comparison) (l m : list A) : comparison :=
  match l, m with
  | [], [] => Eq
  | [], _ => Lt
  | _, [] => Gt
  | a :: l', b :: m' => match f a b with Eq => compare_list f l' m' | c => c end
  end.
Definition compare_path (a b : string) : comparison := compare_list compare_component (components a) (components b).

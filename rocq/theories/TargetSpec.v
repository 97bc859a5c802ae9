(** Which file of an archive a relationship leads to. *)
From Coq Require Import NArith ZArith List Bool String.
From Verif Require Import Str XmlParser XmlProofs.
Import ListNotations.
Open Scope list_scope.

(** ** What a file of relationships says *)
(** The value of an attribute, whatever its prefix: of several the last. *)
Fixpoint last_value (name : string) (atts : list attribute) : option string :=
  match atts with
  | [] => None
  | (q, v) :: l => match last_value name l with
                   | Some w => Some w
                   | None => if q_local q =s name then Some v else None
                   end
  end.
Definition value (name : string) (atts : list attribute) : string :=
  match last_value name atts with Some v => v | None => ""%string end.
(** The file of a part has this relationship: an element before any end of an element
    [Relationships]. *)
Definition says_rel (t ty id target : string) (mode : option string) : Prop :=
  exists before q atts after, events_of t = before ++ EStart q atts :: after /\ q_local q = "Relationship"%string /\
    (forall p, In (EEnd p) before -> q_local p <> "Relationships"%string) /\
    value "Type" atts = ty /\ value "Id" atts = id /\ value "Target" atts = target /\ last_value "TargetMode" atts = mode.

(** The file of the package: the children of the root. *)
Definition step (d : Z) (e : event) : Z := match e with EStart _ _ => d + 1 | EEnd _ => d - 1 | _ => d end%Z.
Definition depth (l : list event) : Z := fold_left step l 0%Z.
Definition child (l : list event) (before : list event) (atts : list attribute) : Prop :=
  exists q after, l = before ++ EStart q atts :: after /\ depth before = 1%Z.
Definition none_of_type (l : list event) (ty : string) : Prop :=
  forall before atts, child l before atts -> value "Type" atts <> ty.
(** The first child of the type [ty] has this target. *)
Definition first_of_type (t ty target : string) : Prop :=
  exists before atts, child (events_of t) before atts /\ none_of_type before ty /\
    value "Type" atts = ty /\ value "Target" atts = target.

(** ** Names of files *)
Definition plain_name (s : string) : Prop :=
  s <> ""%string /\ s <> "."%string /\ s <> ".."%string /\ has_char "/" s = false /\ has_char "\" s = false.
(** The file named by the last of the list, in the directories before it. *)
Definition at_ (names : list string) : string := String.concat "/" names.
(** The target that leads from a file in the directory [dir] to the file [f]. *)
Inductive leads_to (dir : list string) : string -> list string -> Prop :=
| from_here f : f <> [] -> leads_to dir (at_ f) (dir ++ f)
| from_root f : f <> [] -> leads_to dir ("/" +++ at_ f) f.
(** A path with a step up, [..], or a step to where one is, [.]. *)
Definition has_step (s : string) : Prop :=
  exists a b step, (step = "." \/ step = "..")%string /\ s = a +++ step +++ b /\
    (a = ""%string \/ exists a', a = a' +++ "/") /\ (b = ""%string \/ exists b', b = "/" +++ b').
(** How a target is taken in a file of relationships of a part in [dir]: that of a
    hyperlink as it is, another one from the directory unless it begins with a slash. *)
Definition is_link (ty : string) : Prop := exists a, ty = a +++ "hyperlink".
Definition rooted (s : string) : Prop := exists r, s = "/" +++ r.
Definition closed_dir (dir : string) : Prop := dir = ""%string \/ exists d, dir = d +++ "/".
Inductive taken (dir ty target : string) : string -> Prop :=
| as_it_is : is_link ty \/ rooted target -> taken dir ty target target
| right_after : ~ is_link ty -> ~ rooted target -> closed_dir dir -> taken dir ty target (dir +++ target)
| after_slash : ~ is_link ty -> ~ rooted target -> ~ closed_dir dir -> taken dir ty target (dir +++ "/" +++ target).
(** The same path but for empty steps and steps to where one is. *)
Fixpoint cut_at_slash (s : string) : list string :=
  match s with
  | EmptyString => [""%string]
  | String c r => if c =c "/" then ""%string :: cut_at_slash r
                  else match cut_at_slash r with [] => [] | x :: l => String c x :: l end
  end.
Definition moves (s : string) : list string :=
  filter (fun x => negb (x =s "") && negb (x =s "."))%string (cut_at_slash s).
Definition same_path (p q : string) : Prop := (rooted p <-> rooted q) /\ moves p = moves q.
(** A name before whose ending [.xml] there is no dot but perhaps one in front. *)
Definition xml_name (f : string) : Prop :=
  exists b, f = b +++ ".xml" /\ b <> ""%string /\ b <> "."%string /\ forall c r, b = String c r -> has_char "." r = false.

(** Opening an archive that was not written by this library: which of its files are
    asked for. *)
From Coq Require Import NArith ZArith List Bool.
From Verif Require Import Str XmlParser XmlProofs ZipNameModel PathModel PackModel ReadBase ReadModel OpenModel ReadSpec StyleSpec RenderModel.
Import ListNotations.
Open Scope list_scope.

(** What the relationships of the package say. *)
Definition read_as {A} (m : R A) (t : string) (default : A) : A :=
  match m {| rs_events := events_of t; rs_para := 0 |} with Val x _ => x | _ => default end.
Definition package_of (a : archive) : list rel :=
  match read_zip a "_rels/.rels" with Some t => read_as read_package_rels t [] | None => [] end.
Definition main_of (a : archive) : string :=
  match find_target (office_rel "officeDocument") (package_of a) with Some r => rel_target r | None => "word/document.xml" end.
(** The file with the relationships of a part, and what it says. *)
Definition rels_file (part : string) : list string :=
  match parent part, rels_name part with Some _, Some n => [n] | _, _ => [] end.
Definition rels_of (a : archive) (part : string) : read_rels :=
  match parent part, rels_name part with
  | Some dir, Some n => match read_zip a n with Some t => read_as (read_rels_xml dir) t [] | None => [] end
  | _, _ => []
  end.
(** The files it relates a part to by the type [ty], and the first of them. *)
Definition paths (l : read_rels) (ty : string) : list string := map (fun t => snd (fst t)) (targets l ty).
Definition first_of (l : read_rels) (ty : string) : list string := match paths l ty with p :: _ => [p] | [] => [] end.

(** The headers and footers. *)
Definition sides_of (a : archive) : list string :=
  let rels := rels_of a (main_of a) in paths rels (office_rel "header") ++ paths rels (office_rel "footer").
Definition rels_files (a : archive) : list string := rels_file (main_of a) ++ flat_map rels_file (sides_of a).
Definition styles_files (a : archive) : list string := first_of (rels_of a (main_of a)) (office_rel "styles").
Definition comment_files (a : archive) : list string := first_of (rels_of a (main_of a)) (office_rel "comments").
Definition ext_files (a : archive) : list string := first_of (rels_of a (main_of a)) type_comments_ext.
Definition numbering_files (a : archive) : list string := first_of (rels_of a (main_of a)) (office_rel "numbering").
(** The files that are read as XML, ... *)
Definition custom_files (a : archive) : list string :=
  match find_target (office_rel "custom-properties") (package_of a) with Some r => [rel_target r] | None => [] end.
Definition xml_files (a : archive) : list string :=
  let rels := rels_of a (main_of a) in
  ["[Content_Types].xml"; "_rels/.rels"; main_of a]%string ++ rels_files a ++ custom_files a ++ sides_of a ++
  paths rels (office_rel "theme") ++ ext_files a ++ comment_files a ++ styles_files a ++ numbering_files a ++ first_of rels (office_rel "settings") ++ first_of rels (office_rel "webSettings").
(** ... and the images. *)
Definition image_files (a : archive) : list string :=
  flat_map (fun part => paths (rels_of a part) (office_rel "image")) (main_of a :: sides_of a).
(** The files without which there is nothing to open. *)
Definition needed_files (a : archive) : list string :=
  let rels := rels_of a (main_of a) in
  ["[Content_Types].xml"; "_rels/.rels"; main_of a]%string ++ rels_file (main_of a) ++
  styles_files a ++ numbering_files a ++ first_of rels (office_rel "settings") ++ first_of rels (office_rel "webSettings").
Definition present (a : archive) (name : string) : Prop := read_zip a name <> None.

(** Every file of the list that is there satisfies [P]. *)
Definition each_file (a : archive) (l : list string) (P : string -> Prop) : Prop :=
  forall n t, In n l -> read_zip a n = Some t -> P t.
(** Somewhere in the text an element of that name is closed. *)
Definition closes_one (name t : string) : Prop := exists q, In (EEnd q) (events_of t) /\ q_local q = name.

(** ** What makes opening panic *)
(** How deep the last event is nested. *)
Definition step_depth (d : Z) (e : event) : Z := match e with EStart _ _ => d + 1 | EEnd _ => d - 1 | _ => d end%Z.
Definition depth_after (l : list event) : Z := fold_left step_depth l 0%Z.
(** Each child of the root has at least two attributes: content_types.rs:191-192. *)
Definition types_sound (t : string) : Prop := forall pre q atts post,
  events_of t = pre ++ EStart q atts :: post -> depth_after pre = 1%Z -> (2 <= length atts)%nat.
(** Each extended comment names its paragraph: comment_extended.rs:14. *)
Definition ext_sound (t : string) : Prop := forall q atts,
  In (EStart q atts) (events_of t) -> q_local q = "commentEx"%string -> exists a v, In (a, v) atts /\ q_local a = "paraId"%string.
Definition sound_text (needs : list string) (t : string) : Prop := Forall (sound_for needs) (events_of t).
(** How many events there are in the files with paragraphs. *)
Definition events_in (a : archive) (n : string) : N := match read_zip a n with Some t => N.of_nat (length (events_of t)) | None => 0 end.
Definition events_all (a : archive) (l : list string) : N := fold_right (fun n s => events_in a n + s)%N 0%N l.
Definition paragraph_files (a : archive) : list string :=
  main_of a :: sides_of a ++ comment_files a ++ styles_files a ++ numbering_files a.

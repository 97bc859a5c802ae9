(** Opening what was saved: which packages, and what they come back as. *)
From Coq Require Import NArith ZArith List Bool.
From Verif Require TreeSpec.
From Verif Require Import Str TypesModel Props Ast TreeModel DepsModel XmlParser XmlSpec ReadBase PackModel PackSpec PrepareModel ZipNameModel StyleModel StyleSpec RenderModel OpenModel ReadModel WellSpec RestSpec RoundSpec.
Import ListNotations.
Open Scope list_scope.

(** The content of a header or footer. *)
Definition part_content (n : node) : list node := match n with NPart _ _ _ ch => ch | _ => [] end.
Definition parts_of (d : docx) : list node := headers d ++ footers d.
(** The strings that stand in the parts which opening looks at. *)
Definition stored (k : pkg) (o : rest) (c : collected) : list piece :=
  in_document (d_body (k_doc k)) (d_sect (k_doc k)) ++ flat_map (fun n => in_body (part_content n)) (parts_of (k_doc k)) ++
  in_comments (d_comments (k_doc k)) ++ in_ext (o_ext o) ++ in_custom (o_custom o) ++
  in_styles (o_styles o) ++ in_numberings (o_numberings o) ++ in_settings (with_even (k_even k) (o_settings o)) ++
  in_doc_rels (k_doc_rels k) ++ flat_map in_part_rels (c_header_rels c ++ c_footer_rels c).
(** The packages for which the claims are made: their strings can be read, their elements
    are among those that reading keeps in their place ([kept]: no sections and no tables of
    contents, for instance), and their numbers are in the ranges of the format. *)
Record reopenable (k : pkg) (o : rest) (c : collected) : Prop := {
  re_strings : Forall readable (stored k o c);
  re_body : forallb (kept InDocument) (d_body (k_doc k)) = true /\ Forall fits (d_body (k_doc k));
  re_sect : fits_sectpr (d_sect (k_doc k));
  re_parts : Forall (fun n => forallb (kept InPart) (part_content n) = true /\ Forall fits (part_content n)) (parts_of (k_doc k));
  re_comments : forallb kept_comment (d_comments (k_doc k)) = true /\ Forall fits_comment (d_comments (k_doc k));
  re_styles : fits_styles (o_styles o);
  re_numberings : fits_numberings (o_numberings o);
  re_settings : fits_settings (with_even (k_even k) (o_settings o)) }.
(** The ids taken from the counter of paragraph ids while opening. *)
Definition ids_taken (k : pkg) : N :=
  (sumN paras (d_body (k_doc k)) + sumN (fun n => sumN paras (part_content n)) (parts_of (k_doc k)) + paras_in (d_comments (k_doc k)))%N.

(** ** Saving *)
(** The document made by the calls [l], with the other parts [o], is prepared and written:
    [k] and [c] are the package and the media, relationships and so on collected from it,
    [es] the entries of the archive. *)
Definition saved (l : list api) (o : rest) (k : pkg) (c : collected) (es : list entry) : Prop :=
  typed_calls l /\
  (exists crc styles ext n, prepare_package crc styles ext n (calls l) = Some (k, c, o_ext o)) /\
  exists s s', pack_docx k o c s = Some (es, s').
(** Opening it: [preview]: previews of images are made; [png]: how; [m]: the counter of
    paragraph ids in the process that opens, with room for those of the document. *)
Definition opened_from (k : pkg) (es : list entry) (png : string -> option string) (preview : bool) (m : N) (op : opened) : Prop :=
  (m + ids_taken k < 4294967296)%N /\ exists st, read_docx png preview (as_archive es) m = Val op st.

(** ** Comments *)
(** A comment as it is read, with the comment it answers. *)
Definition reread_thread (c : comment) : comment := set_parent (cd_parent (fst c)) (reread_comment c).
(** ** Custom properties *)
(** A property whose value is not blank comes back as it is read. *)
Definition reread_custom (e : string * string) : list (string * string) :=
  if all_char is_ws (text_seen (snd e)) then [] else [(seen (fst e), text_seen (snd e))].

(** ** Pictures *)
(** The ids for which the claims are made: letters, digits, underscores and hyphens (those
    given by the library are). *)
Definition name_char (c : ascii) : bool :=
  let n := N_of_ascii c in
  ((48 <=? n) && (n <=? 57) || (65 <=? n) && (n <=? 90) || (97 <=? n) && (n <=? 122) || (n =? 95) || (n =? 45))%N.
Definition named_plainly (p : pic) : Prop := all_char name_char (pic_id p) = true.
(** All the ids of pictures in the body, headers and footers are. *)
Definition names_plain (l : list api) : Prop :=
  Forall named_plainly (TreeSpec.pics_in (d_body (k_doc (calls l)))) /\
  Forall (fun n => Forall named_plainly (TreeSpec.pics_in [n])) (parts_of (k_doc (calls l))).
(** The image is not dropped for want of a preview. *)
Definition image_lasts (png : string -> option string) (preview : bool) (p : pic) : Prop :=
  let d := without_bom (pic_image p) in preview = false \/ has_emf_mark d = true \/ starts_with png_mark d = true \/ png d <> None.
(** Nothing is moved away inside a hyperlink. *)
Definition links_hold (l : list node) : Prop :=
  Forall (fun n => match n with
                   | NLink _ _ ch => Forall (fun m => match m with NMoveFrom _ _ => False | _ => True end) (flat_map all_nodes ch)
                   | _ => True
                   end) (flat_map all_nodes l).
(** The picture [p] comes back as [q]: size, position and so on as they are read, and its
    id that of an image with the bytes of [p], apart from a byte order mark at their start. *)
Definition comes_as (images : list image) (p q : pic) : Prop :=
  TreeSpec.wipe_pic q = TreeSpec.wipe_pic (reread_pic p) /\
  exists im, In im images /\ im_id im = pic_id q /\ im_data im = without_bom (pic_image p).
(** No other image has that id. *)
Definition clearly_as (images : list image) (p q : pic) : Prop :=
  comes_as images p q /\ forall im, In im images -> im_id im = pic_id q -> im_data im = without_bom (pic_image p).

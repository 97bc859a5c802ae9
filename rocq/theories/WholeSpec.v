(** A saved archive as a whole: which strings stand in its files, and when a file is XML. *)
From Coq Require Import NArith List Bool.
From Verif Require Import Str Props Ast TreeModel DepsModel WriterModel PackModel StyleModel StyleSpec RenderModel WellSpec RestSpec OpenSpec.
From Verif Require BuildModel.
Import ListNotations.
Open Scope list_scope.

(** The text of a well-formed element, after an XML declaration or none. *)
Definition is_xml (t : string) : Prop := exists decl x,
  (decl = [] \/ exists standalone, decl = [CDecl "1.0" (Some "UTF-8"%string) standalone]) /\
  t = text_of (decl ++ BuildModel.xcalls x) /\ well_formed_xml x.

(** The strings a caller gave that stand in the archive: those of the parts that opening
    looks at, the core properties, the footnotes, the web extensions and the ids of
    custom items. *)
Definition given (k : pkg) (o : rest) (c : collected) : list piece :=
  stored k o c ++ in_core (o_core o) ++ in_footnotes (d_footnotes (k_doc k)) ++ flat_map (fun e => in_web (o_web o e)) (k_web k) ++
  map (fun i => Value (fst i)) (k_custom k).
(** The bytes of a picture, and a custom item, which is stored as it is kept. *)
Definition media_file (c : collected) (n t : string) : Prop := exists m, In m (c_media c) /\ n = media_name (fst m) /\ t = snd m.
Definition item_file (k : pkg) (n t : string) : Prop := exists i id, nth_error (k_custom k) i = Some (id, t) /\ n = nth_name "customXml/item" i ".xml".

(** The strings in each part. *)
Definition part_strings (k : pkg) (o : rest) (p : part) : list piece :=
  match p with
  | PFixed XTypes => in_types (k_types k)
  | PFixed XRels => in_package_rels (k_rels k)
  | PFixed XPaneRels => in_package_rels (k_pane_rels k)
  | PFixed XCore => in_core (o_core o)
  | PFixed XCustomProps => in_custom (o_custom o)
  | PFixed XDocRels => in_doc_rels (k_doc_rels k)
  | PFixed XDocument => in_document (d_body (k_doc k)) (d_sect (k_doc k))
  | PFixed XStyles => in_styles (o_styles o)
  | PFixed XSettings => in_settings (with_even (k_even k) (o_settings o))
  | PFixed XComments => in_comments (d_comments (k_doc k))
  | PFixed XNumbering => in_numberings (o_numberings o)
  | PFixed XCommentsExt => in_ext (o_ext o)
  | PFixed XFootnotes => in_footnotes (d_footnotes (k_doc k))
  | PFixed XApp | PFixed XFonts | PFixed XTaskpanes | PItemRels _ => []
  | PPart n => in_body (part_content n)
  | PPartRels l => in_part_rels l
  | PWeb e => in_web (o_web o e)
  | PItem s => [Content s]   (* not meant: a custom item is not built *)
  | PItemProps id => [Value id]
  end.

(** Rendering all parts of a package: the parts that BuildModel and StyleModel do not
    build, and [BuildXML::build] / [write_xml] (zipper/mod.rs:13-34), which turn a part
    into text. *)
From Coq Require Import NArith ZArith List Bool.
From Verif Require Import Str TypesModel Props Ast EscapeModel WriterModel BuildModel TreeModel DepsModel PackModel StyleModel.
Import ListNotations.

(** ** Content types and relationships *)
(** content_types.rs:155-177 with xml_builder/mod.rs:176-199 *)
Definition x_types (t : types) : xml :=
  E "Types" [("xmlns", "http://schemas.openxmlformats.org/package/2006/content-types")]
    (map (fun e => leaf "Default" [("ContentType", snd e); ("Extension", fst e)]) default_extensions ++
     map (fun e => leaf "Override" [("PartName", fst e); ("ContentType", snd e)]) (t_map t)).
(** xml_builder/relationship.rs *)
Definition x_rels (l : list xml) : xml :=
  E "Relationships" [("xmlns", "http://schemas.openxmlformats.org/package/2006/relationships")] l.
Definition x_rel (id ty target : string) : xml := leaf "Relationship" [("Id", id); ("Type", ty); ("Target", target)].
Definition office_rel (kind : string) : string := "http://schemas.openxmlformats.org/officeDocument/2006/relationships/" +++ kind.
(** rels.rs:65-77 and taskpanes_rels.rs:32-44: [rel_kind] holds the whole type *)
Definition x_package_rels (l : list rel) : xml := x_rels (map (fun r => x_rel (rel_id r) (rel_kind r) (rel_target r)) l).
(** document_rels.rs:48-135.  The types are those of [office_rel], but for the extended
    comments; hyperlinks, which [written_rels] has at its end, have a mode. *)
Definition doc_rel_type (kind : string) : string :=
  if kind =s "commentsExtended" then "http://schemas.microsoft.com/office/2011/relationships/commentsExtended" else office_rel kind.
Definition unlinked (r : doc_rels) : doc_rels :=
  {| r_comments := r_comments r; r_numberings := r_numberings r; r_footnotes := r_footnotes r; r_images := r_images r; r_links := [];
     r_custom := r_custom r; r_headers := r_headers r; r_footers := r_footers r |}.
Definition x_doc_rels (r : doc_rels) : xml :=
  x_rels (map (fun l => x_rel (rel_id l) (doc_rel_type (rel_kind l)) (rel_target l)) (written_rels (unlinked r)) ++
          map (fun l => leaf "Relationship" [("Id", fst (fst l)); ("Type", office_rel "hyperlink"); ("Target", snd (fst l)); ("TargetMode", snd l)]) (r_links r)).
(** header_rels.rs:27-44, footer_rels.rs:27-44 *)
Definition x_part_rels (l : list (string * string)) : xml := x_rels (map (fun im => x_rel (fst im) (office_rel "image") (snd im)) l).
(** custom_item_rels.rs:24-41 on the record of mod.rs:687 *)
Definition x_item_rels_ : xml := x_rels (map (fun r => x_rel (rel_id r) (office_rel (rel_kind r)) (rel_target r)) custom_item_rels).

(** ** Document properties *)
(** doc_props/app.rs:17-31 *)
Definition vt := ("xmlns:vt", "http://schemas.openxmlformats.org/officeDocument/2006/docPropsVTypes").
Definition x_app : xml := E "Properties" [("xmlns", "http://schemas.openxmlformats.org/officeDocument/2006/extended-properties"); vt] [].
(** doc_props/core.rs:15-25 *)
Record core_props := {
  co_created : option string; co_creator : option string; co_description : option string; co_language : option string;
  co_modified_by : option string; co_modified : option string; co_revision : option N; co_subject : option string; co_title : option string }.
Definition core_new : core_props := {|
  co_created := None; co_creator := None; co_description := None; co_language := None; co_modified_by := None; co_modified := None;
  co_revision := None; co_subject := None; co_title := None |}.
Definition or_else {A} (d : A) (o : option A) : A := match o with Some a => a | None => d end.
Definition x_text (n : string) (s : string) : xml := L n [] [s].
(** doc_props/core.rs:59-96 with xml_builder/core_properties.rs *)
Definition x_core (c : core_props) : xml :=
  E "cp:coreProperties" [("xmlns:cp", "http://schemas.openxmlformats.org/package/2006/metadata/core-properties");
      ("xmlns:dc", "http://purl.org/dc/elements/1.1/"); ("xmlns:dcterms", "http://purl.org/dc/terms/");
      ("xmlns:dcmitype", "http://purl.org/dc/dcmitype/"); ("xmlns:xsi", "http://www.w3.org/2001/XMLSchema-instance")]
    ([L "dcterms:created" [("xsi:type", "dcterms:W3CDTF")] [or_else "1970-01-01T00:00:00Z" (co_created c)];
      x_text "dc:creator" (or_else "unknown" (co_creator c)); x_text "cp:lastModifiedBy" (or_else "unknown" (co_modified_by c));
      L "dcterms:modified" [("xsi:type", "dcterms:W3CDTF")] [or_else "1970-01-01T00:00:00Z" (co_modified c)];
      x_text "cp:revision" (show_N (or_else 1%N (co_revision c)))] ++
     opt (x_text "dc:description") (co_description c) ++ opt (x_text "dc:language") (co_language c) ++
     opt (x_text "dc:subject") (co_subject c) ++ opt (x_text "dc:title") (co_title c)).
(** doc_props/custom.rs:24-48.  [l]: the entries of the hash map in the order in which
    it is iterated, which Rust does not specify. *)
Fixpoint x_custom_from (i : N) (l : list (string * string)) : list xml :=
  match l with
  | [] => []
  | e :: r => E "property" [("fmtid", "{D5CDD505-2E9C-101B-9397-08002B2CF9AE}"); ("pid", show_N i); ("name", fst e)] [x_text "vt:lpwstr" (snd e)]
              :: x_custom_from (i + 1) r
  end.
Definition x_custom (l : list (string * string)) : xml :=
  E "Properties" [("xmlns", "http://schemas.openxmlformats.org/officeDocument/2006/custom-properties"); vt] (x_custom_from 2 l).

(** ** Fonts and extended comments *)
(** font.rs:25-38, xml_builder/fonts.rs, font_table.rs:19-36; [FontPitchType::Variable]
    is shown as [variable] (types/font_pitch_type.rs) *)
Definition x_font (name charset family : string) : xml :=
  E "w:font" [("w:name", name)] [valued "w:charset" charset; valued "w:family" family; valued "w:pitch" "variable"].
Definition x_fonts : xml :=
  E "w:fonts" [ns_w; ns_r] [x_font "Times New Roman" "00" "roman"; x_font "Symbol" "02" "roman"; x_font "Arial" "00" "swiss"].
(** xml_builder/elements.rs:582-599 *)
Definition x_comment_ext (c : comment_ext) : xml :=
  leaf "w15:commentEx" ([("w15:paraId", ce_para c)] ++ opt (fun p => ("w15:paraIdParent", p)) (ce_parent c) ++ [("w15:done", show_01 (ce_done c))]).
(** xml_builder/comments_extended.rs *)
Definition comments_ext_attrs := [
  ("xmlns:wpc", "http://schemas.microsoft.com/office/word/2010/wordprocessingCanvas");
  ("xmlns:cx", "http://schemas.microsoft.com/office/drawing/2014/chartex");
  ("xmlns:cx1", "http://schemas.microsoft.com/office/drawing/2015/9/8/chartex");
  ("xmlns:cx2", "http://schemas.microsoft.com/office/drawing/2015/10/21/chartex");
  ("xmlns:cx3", "http://schemas.microsoft.com/office/drawing/2016/5/9/chartex");
  ("xmlns:cx4", "http://schemas.microsoft.com/office/drawing/2016/5/10/chartex");
  ("xmlns:cx5", "http://schemas.microsoft.com/office/drawing/2016/5/11/chartex");
  ("xmlns:cx6", "http://schemas.microsoft.com/office/drawing/2016/5/12/chartex");
  ("xmlns:cx7", "http://schemas.microsoft.com/office/drawing/2016/5/13/chartex");
  ("xmlns:cx8", "http://schemas.microsoft.com/office/drawing/2016/5/14/chartex");
  ns_mc;
  ("xmlns:aink", "http://schemas.microsoft.com/office/drawing/2016/ink");
  ("xmlns:am3d", "http://schemas.microsoft.com/office/drawing/2017/model3d");
  ns_o; ns_r;
  ("xmlns:m", "http://schemas.openxmlformats.org/officeDocument/2006/math");
  ns_v; ns_wp14; ns_wp; ns_w10; ns_w; ns_w14; ns_w15;
  ("xmlns:w16cex", "http://schemas.microsoft.com/office/word/2018/wordml/cex");
  ("xmlns:w16cid", "http://schemas.microsoft.com/office/word/2016/wordml/cid");
  ("xmlns:w16", "http://schemas.microsoft.com/office/word/2018/wordml");
  ("xmlns:w16se", "http://schemas.microsoft.com/office/word/2015/wordml/symex");
  ns_wpg;
  ("xmlns:wpi", "http://schemas.microsoft.com/office/word/2010/wordprocessingInk");
  ("xmlns:wne", "http://schemas.microsoft.com/office/word/2006/wordml");
  ("xmlns:wps", "http://schemas.microsoft.com/office/word/2010")].
(** comments_extended.rs:25-36 *)
Definition x_comments_ext (l : list comment_ext) : xml := E "w15:commentsEx" comments_ext_attrs (map x_comment_ext l).

(** ** Task panes and web extensions *)
(** taskpanes.rs:16-33 with xml_builder/elements.rs:560-569 *)
Definition x_taskpanes_ : xml :=
  E "wetp:taskpanes" [("xmlns:wetp", "http://schemas.microsoft.com/office/webextensions/taskpanes/2010/11")]
    [E "wetp:taskpane" [("dockstate", ""); ("visibility", "1"); ("width", "350"); ("row", "1")]
       [leaf "wetp:webextensionref" [ns_r; ("r:id", "rId1")]]].
(** webextension.rs:24-31 *)
Record web_ext := { we_id : string; we_version : string; we_store : string; we_store_type : string; we_reference : string;
  we_properties : list (string * string) }.
(** webextension.rs:34-49 *)
Definition web_new (id reference version store store_type : string) : web_ext :=
  {| we_id := id; we_version := version; we_store := store; we_store_type := store_type; we_reference := reference; we_properties := [] |}.
(** [str::replace] of the quotes of an escaped string by quotes with a backslash,
    webextension.rs:53 *)
Definition q_ent : string := "&quot;".
Fixpoint backslash_from (skip : nat) (s : string) : string :=
  match s with
  | EmptyString => EmptyString
  | String a r =>
      match skip with
      | S k => backslash_from k r
      | O => if String.prefix q_ent s then String "092" q_ent +++ backslash_from 5 r else String a (backslash_from 0 r)
      end
  end.
Definition backslash_quotes (s : string) : string := backslash_from 0 s.
(** webextension.rs:51-56 *)
Definition web_property (name value : string) (w : web_ext) : web_ext :=
  {| we_id := we_id w; we_version := we_version w; we_store := we_store w; we_store_type := we_store_type w; we_reference := we_reference w;
     we_properties := we_properties w ++ [(name, q_ent +++ backslash_quotes (escape value) +++ q_ent)] |}.
(** webextension.rs:59-88 with xml_builder/elements.rs:544-557 *)
Definition x_web (w : web_ext) : xml :=
  E "we:webextension" [("xmlns:we", "http://schemas.microsoft.com/office/webextensions/webextension/2010/11"); ("id", "{" +++ we_id w +++ "}")]
    [leaf "we:reference" [("id", we_reference w); ("version", we_version w); ("store", we_store w); ("storeType", we_store_type w)];
     leaf "we:alternateReferences" [];
     E "we:properties" [] (map (fun p => leaf "we:property" [("name", fst p); ("value", snd p)]) (we_properties w));
     leaf "we:bindings" []; leaf "we:snapshot" [ns_r]].
(** custom_item_property.rs:18-33 with xml_builder/elements.rs:572-578 *)
Definition x_item_prop (id : string) : xml :=
  E "ds:datastoreItem" [("xmlns:ds", "http://schemas.openxmlformats.org/officeDocument/2006/customXml"); ("ds:itemID", "{" +++ id +++ "}")]
    [E "ds:schemaRefs" [] []].

(** ** The text of a part *)
(** xml_builder/declaration.rs: [declaration(None)], [declaration(Some(false))] *)
Definition decl_none : WriterModel.call := CDecl "1.0" (Some "UTF-8") None.
Definition decl_no : WriterModel.call := CDecl "1.0" (Some "UTF-8") (Some false).
(** The text after the calls; they cannot fail (RenderProofs). *)
Definition text_of (l : list WriterModel.call) : string :=
  match w_run w_init l with WOk w | WFail w _ => out w end.
(** The fields of [Docx] that [pkg] does not keep.  [o_web]: the web extension that
    stands for the handle kept in [k_web]; the flag for even headers, [k_even], is a
    setting (mod.rs:543, 586: [even_and_odd_headers]). *)
Record rest := {
  o_core : core_props; o_custom : list (string * string); o_styles : styles; o_settings : settings; o_numberings : numberings;
  o_ext : list comment_ext; o_web : string -> web_ext }.
Definition with_even (b : bool) (c : settings) : settings :=
  {| cfg_tab := cfg_tab c; cfg_doc_id := cfg_doc_id c; cfg_vars := cfg_vars c; cfg_even_odd := cfg_even_odd c || b;
     cfg_adjust := cfg_adjust c; cfg_spacing := cfg_spacing c |}.
(** The calls for the parts from which ids may be taken ... *)
Definition b_noisy (k : pkg) (o : rest) (p : part) : option (M (list WriterModel.call)) :=
  match p with
  | PFixed XDocument => Some (x <- b_document (d_body (k_doc k)) (d_sect (k_doc k));; ret (part_calls x))
  | PFixed XStyles => Some (x <- b_styles (o_styles o);; ret (xcalls x))
  | PFixed XComments => Some (x <- b_comments (d_comments (k_doc k));; ret (part_calls x))
  | PFixed XNumbering => Some (x <- b_numberings (o_numberings o);; ret (part_calls x))
  | PFixed XFootnotes => Some (x <- b_footnotes (d_footnotes (k_doc k));; ret (part_calls x))
  | PPart n => Some (x <- b_part n;; ret (part_calls x))
  | _ => None
  end.
(** ... and the text of the others.  A custom item is written as it is kept. *)
Definition plain_text (k : pkg) (o : rest) (p : part) : string :=
  match p with
  | PFixed XTypes => text_of (decl_none :: xcalls (x_types (k_types k)))
  | PFixed XRels => text_of (decl_none :: xcalls (x_package_rels (k_rels k)))
  | PFixed XApp => text_of (part_calls x_app)
  | PFixed XCore => text_of (part_calls (x_core (o_core o)))
  | PFixed XCustomProps => text_of (part_calls (x_custom (o_custom o)))
  | PFixed XDocRels => text_of (decl_none :: xcalls (x_doc_rels (k_doc_rels k)))
  | PFixed XSettings => text_of (part_calls (x_settings (with_even (k_even k) (o_settings o))))
  | PFixed XFonts => text_of (part_calls x_fonts)
  | PFixed XCommentsExt => text_of (xcalls (x_comments_ext (o_ext o)))
  | PFixed XTaskpanes => text_of (part_calls x_taskpanes_)
  | PFixed XPaneRels => text_of (part_calls (x_package_rels (k_pane_rels k)))
  | PPartRels l => text_of (decl_none :: xcalls (x_part_rels l))
  | PWeb e => text_of (part_calls (x_web (o_web o e)))
  | PItemRels _ => text_of (part_calls x_item_rels_)
  | PItem xml => xml
  | PItemProps id => text_of (decl_no :: xcalls (x_item_prop id))
  | _ => ""
  end.
(** Rendering a part.  The state is that of the counters, or [None] after a panic;
    nothing is claimed about what is rendered after that. *)
Definition render (k : pkg) (o : rest) (p : part) (s : option ids) : string * option ids :=
  match b_noisy k o p with
  | None => (plain_text k o p, s)
  | Some m =>
      match s with
      | None => ("", None)
      | Some s => match m s with Some (l, s') => (text_of l, Some s') | None => ("", None) end
      end
  end.
(** [Docx::pack] and [Docx::build] then [XMLDocx::pack], after [prepare_package]: the
    entries written, with the counters afterwards; [None]: a panic. *)
Definition pack_docx (k : pkg) (o : rest) (c : collected) (s : ids) : option (list entry * ids) :=
  match pack (render k o) k c (Some s) with (es, Some s') => Some (es, s') | (_, None) => None end.
Definition build_docx (k : pkg) (o : rest) (c : collected) (s : ids) : option (list entry * ids) :=
  match build (render k o) k c (Some s) with (x, Some s') => Some (zip x, s') | (_, None) => None end.

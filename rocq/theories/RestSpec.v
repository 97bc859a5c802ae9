(** The stored strings that stand in the parts besides the document, its headers,
    footers, comments and footnotes, the styles, numberings and settings. *)
From Coq Require Import NArith List Bool.
From Verif Require Import Str Props Ast DepsModel PackModel RenderModel WellSpec.
Import ListNotations.

Definition in_types (t : types) : list piece := flat_map (fun e => [Value (fst e); Value (snd e)]) (t_map t).
Definition in_package_rels (l : list rel) : list piece := flat_map (fun r => [Value (rel_id r); Value (rel_kind r); Value (rel_target r)]) l.
(** The relationships of the document: only those of pictures and hyperlinks have strings
    that were given. *)
Definition in_part_rels (l : list (string * string)) : list piece := flat_map (fun im => [Value (fst im); Value (snd im)]) l.
Definition in_doc_rels (r : doc_rels) : list piece :=
  in_part_rels (r_images r) ++ flat_map (fun l => [Value (fst (fst l)); Value (snd (fst l)); Value (snd l)]) (r_links r).
Definition content_of (o : option string) : list piece := if_set (fun s => [Content s]) o.
Definition in_core (c : core_props) : list piece :=
  content_of (co_created c) ++ content_of (co_creator c) ++ content_of (co_modified_by c) ++ content_of (co_modified c) ++
  content_of (co_description c) ++ content_of (co_language c) ++ content_of (co_subject c) ++ content_of (co_title c).
Definition in_custom (l : list (string * string)) : list piece := flat_map (fun e => [Value (fst e); Content (snd e)]) l.
Definition in_ext (l : list comment_ext) : list piece := flat_map (fun x => Value (ce_para x) :: value_of (ce_parent x)) l.
Definition in_web (w : web_ext) : list piece :=
  [Value (we_id w); Value (we_reference w); Value (we_version w); Value (we_store w); Value (we_store_type w)] ++
  flat_map (fun p => [Value (fst p); Value (snd p)]) (we_properties w).

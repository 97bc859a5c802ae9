(** The JSON of relationships, properties of the document and relationships of its body. *)
From Coq Require Import NArith ZArith List Bool.
From Verif Require Import Str JsonModel PackModel RenderModel.
Import ListNotations.

(** rels.rs:7-10: triples in a member of their own *)
Definition j_rels (l : list (string * string * string)) : json :=
  obj [has "rels" (JArr (map (fun r => JArr [JStr (fst (fst r)); JStr (snd (fst r)); JStr (snd r)]) l))].
(** document_rels.rs:8-19 *)
Definition j_document_rels (r : doc_rels) : json :=
  obj [has "hasComments" (JBool (r_comments r)); has "hasNumberings" (JBool (r_numberings r)); has "hasFootnotes" (JBool (r_footnotes r));
       has "images" (JArr (map (fun i => JArr [JStr (fst i); JStr (snd i)]) (r_images r)));
       has "hyperlinks" (JArr (map (fun l => JArr [JStr (fst (fst l)); JStr (snd (fst l)); JStr (snd l)]) (r_links r)));
       has "customXmlCount" (jn (r_custom r)); has "headerCount" (jn (r_headers r)); has "footerCount" (jn (r_footers r))].
(** doc_props/core.rs:7-25 *)
Definition j_core (c : core_props) : json :=
  obj [has "config" (obj [has "created" (j_opt JStr (co_created c)); has "creator" (j_opt JStr (co_creator c));
    has "description" (j_opt JStr (co_description c)); has "language" (j_opt JStr (co_language c)); has "lastModifiedBy" (j_opt JStr (co_modified_by c));
    has "modified" (j_opt JStr (co_modified c)); has "revision" (j_opt jn (co_revision c)); has "subject" (j_opt JStr (co_subject c));
    has "title" (j_opt JStr (co_title c))])].
(** content_types.rs:10-17: no [rename_all]; a map is an object with its entries in order *)
Definition j_types (t : types) : json :=
  obj [has "types" (JObj (map (fun e => (fst e, JStr (snd e))) (t_map t))); has "web_extension_count" (jn (t_web t)); has "custom_xml_count" (jn (t_custom t));
       has "header_count" (jn (t_header t)); has "footer_count" (jn (t_footer t))].

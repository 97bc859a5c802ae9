(** Types of members of the JSON that are declared in place (docx-wasm/js/json/index.ts), and when styles,
    numberings and settings have only values that are declared. *)
From Coq Require Import NArith ZArith List Bool.
From Verif Require Import Str TypesModel Props JsonModel StyleModel PackModel RenderModel TsSpec CallSpec.
Import ListNotations.

(** index.ts:16, 61, 62 *)
Definition rels_type : ts := TArr (TTuple [TStr; TStr; TStr]).
Definition images_type : ts := TArr (TTuple [TStr; TStr; TStr; TStr]).
Definition hyperlinks_type : ts := TArr (TTuple [TStr; TStr; TStr]).
(** index.ts:17-20 *)
Definition document_rels_type : ts := TObj [req "hasComments" TBool; req "hasNumberings" TBool].
(** index.ts:23-34 *)
Definition core_type : ts :=
  let text := TUnion [TStr; TNull] in
  TObj [req "config" (TObj [req "creator" text; req "description" text; req "language" text; req "lastModifiedBy" text; req "modified" text;
    req "revision" text; req "subject" text; req "title" text])].

Definition style_ok (strict : bool) (s : style) : bool :=
  rpr_ok (sty_rpr s) && ppr_ok strict (sty_ppr s) && tblpr_ok strict (sty_tblpr s) && tcpr_ok (sty_tcpr s) &&
  match sty_type s with StyleType_Unsupported => false | _ => true end.
Definition styles_ok (strict : bool) (t : styles) : bool := rpr_ok (ss_rpr t) && ppr_ok strict (ss_ppr t) && forallb (style_ok strict) (ss_list t).
Definition level_ok (strict : bool) (l : level) : bool := rpr_ok (lv_rpr l) && ppr_ok strict (lv_ppr l).
Definition numberings_ok (strict : bool) (t : numberings) : bool :=
  forallb (fun a => forallb (level_ok strict) (an_levels a)) (ns_abstracts t) &&
  forallb (fun n => forallb (fun o => opt_ok (level_ok strict) (ov_replace o)) (nm_overrides n)) (ns_nums t).
Definition settings_ok (c : settings) : bool := match cfg_spacing c with Some CharacterSpacingValues_Unsupported => false | _ => true end.

(** ** What the JSON says of relationships, properties and content types, by the names of members *)
Definition said (o : option string) : json := match o with Some s => JStr s | None => JNull end.
Definition counted (n : N) : json := JNum (Z.of_N n).
Definition core_told (v : json) (c : core_props) : Prop :=
  let said_at k w := at_ ["config"%string; k] v = Some w in
  said_at "created"%string (said (co_created c)) /\ said_at "creator"%string (said (co_creator c)) /\ said_at "description"%string (said (co_description c)) /\
  said_at "language"%string (said (co_language c)) /\ said_at "lastModifiedBy"%string (said (co_modified_by c)) /\ said_at "modified"%string (said (co_modified c)) /\
  said_at "revision"%string (match co_revision c with Some n => counted n | None => JNull end) /\
  said_at "subject"%string (said (co_subject c)) /\ said_at "title"%string (said (co_title c)).
(** Relationships as in the file: id, type (or, of hyperlinks, target), target (or mode). *)
Definition triple_told (v : json) (r : string * string * string) : Prop := let '(a, b, c) := r in v = JArr [JStr a; JStr b; JStr c].
Definition pair_told (v : json) (r : string * string) : Prop := let '(a, b) := r in v = JArr [JStr a; JStr b].
Definition all_told {A} (P : json -> A -> Prop) (k : string) (v : json) (l : list A) : Prop := exists ws, at_ [k] v = Some (JArr ws) /\ Forall2 P ws l.
Definition rels_told (v : json) (l : list (string * string * string)) : Prop := all_told triple_told "rels" v l.
Definition document_rels_told (v : json) (r : doc_rels) : Prop :=
  at_ ["hasComments"%string] v = Some (JBool (r_comments r)) /\ at_ ["hasNumberings"%string] v = Some (JBool (r_numberings r)) /\
  at_ ["hasFootnotes"%string] v = Some (JBool (r_footnotes r)) /\ all_told pair_told "images" v (r_images r) /\ all_told triple_told "hyperlinks" v (r_links r) /\
  at_ ["customXmlCount"%string] v = Some (counted (r_custom r)) /\ at_ ["headerCount"%string] v = Some (counted (r_headers r)) /\
  at_ ["footerCount"%string] v = Some (counted (r_footers r)).
Definition types_told (v : json) (t : types) : Prop :=
  (exists l, at_ ["types"%string] v = Some (JObj l) /\ forall path type, In (path, type) (t_map t) <-> In (path, JStr type) l) /\
  at_ ["web_extension_count"%string] v = Some (counted (t_web t)) /\ at_ ["custom_xml_count"%string] v = Some (counted (t_custom t)) /\
  at_ ["header_count"%string] v = Some (counted (t_header t)) /\ at_ ["footer_count"%string] v = Some (counted (t_footer t)).

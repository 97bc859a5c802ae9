(** The package: the record kept by [Docx] (documents/mod.rs:143-177), the calls
    that change it, the relationship and content type parts and the archive. *)
From Verif Require Import Str Props Ast TreeModel.

(** ** Content types, documents/content_types.rs *)
(** [BTreeMap::insert]; keys in byte order. *)
Fixpoint bt_insert (k v : string) (m : list (string * string)) : list (string * string) :=
  match m with
  | [] => [(k, v)]
  | (k', v') :: r =>
      match String.compare k k' with
      | Lt => (k, v) :: m
      | Eq => (k, v) :: r
      | Gt => (k', v') :: bt_insert k v r
      end
  end.
Record types := { t_map : list (string * string); t_web : N; t_custom : N; t_header : N; t_footer : N }.
Definition t_put (t : types) (k v : string) : types :=
  {| t_map := bt_insert k v (t_map t); t_web := t_web t; t_custom := t_custom t; t_header := t_header t; t_footer := t_footer t |}.
Definition ct_rels := "application/vnd.openxmlformats-package.relationships+xml".
Definition ct_wml (s : string) : string := "application/vnd.openxmlformats-officedocument.wordprocessingml." +++ s +++ "+xml".
(** [ContentTypes::default], 143-153 *)
Definition types_default : types := {| t_map := []; t_web := 1; t_custom := 1; t_header := 0; t_footer := 0 |}.
(** [set_default], 29-85: the path and type of each [insert] *)
Definition default_types : list (string * string) :=
  [("/_rels/.rels", ct_rels);
   ("/docProps/app.xml", "application/vnd.openxmlformats-officedocument.extended-properties+xml");
   ("/docProps/core.xml", "application/vnd.openxmlformats-package.core-properties+xml");
   ("/word/_rels/document.xml.rels", ct_rels);
   ("/word/settings.xml", ct_wml "settings");
   ("/word/fontTable.xml", ct_wml "fontTable");
   ("/word/document.xml", ct_wml "document.main");
   ("/word/styles.xml", ct_wml "styles");
   ("/word/comments.xml", ct_wml "comments");
   ("/word/numbering.xml", ct_wml "numbering");
   ("/word/commentsExtended.xml", ct_wml "commentsExtended");
   ("/docProps/custom.xml", "application/vnd.openxmlformats-officedocument.custom-properties+xml")].
Definition set_default (t : types) : types := fold_left (fun t kv => t_put t (fst kv) (snd kv)) default_types t.
(** 87-93 *)
Definition add_taskpanes (t : types) : types :=
  t_put t "/word/webextensions/taskpanes.xml" "application/vnd.ms-office.webextensiontaskpanes+xml".
(** 95-105.  The counters are [usize]; that they do not overflow is not modelled here. *)
Definition add_web_extensions (t : types) : types :=
  let t := t_put t ("/word/webextensions/webextension" +++ show_N (t_web t) +++ ".xml") "application/vnd.ms-office.webextension+xml" in
  {| t_map := t_map t; t_web := t_web t + 1; t_custom := t_custom t; t_header := t_header t; t_footer := t_footer t |}.
(** 107-114: the name is made with the counter of the web extensions *)
Definition add_custom_xml (t : types) : types :=
  let t := t_put t ("/customXml/itemProps" +++ show_N (t_web t) +++ ".xml") "application/vnd.openxmlformats-officedocument.customXmlProperties+xml" in
  {| t_map := t_map t; t_web := t_web t; t_custom := t_custom t + 1; t_header := t_header t; t_footer := t_footer t |}.
(** 116-132 *)
Definition add_header (t : types) : types :=
  let n := (t_header t + 1)%N in
  {| t_map := bt_insert ("/word/header" +++ show_N n +++ ".xml") (ct_wml "header") (t_map t);
     t_web := t_web t; t_custom := t_custom t; t_header := n; t_footer := t_footer t |}.
Definition add_footer (t : types) : types :=
  let n := (t_footer t + 1)%N in
  {| t_map := bt_insert ("/word/footer" +++ show_N n +++ ".xml") (ct_wml "footer") (t_map t);
     t_web := t_web t; t_custom := t_custom t; t_header := t_header t; t_footer := n |}.
(** 133-140 *)
Definition add_footnotes (t : types) : types := t_put t "/word/footnotes.xml" (ct_wml "footnotes").
(** The [Default] entries of [build_to], 163-172: type by extension *)
Definition default_extensions : list (string * string) :=
  [("png", "image/png"); ("jpeg", "image/jpeg"); ("jpg", "image/jpg"); ("bmp", "image/bmp"); ("gif", "image/gif");
   ("rels", ct_rels); ("xml", "application/xml")].

(** ** Relationships of the main part, documents/document_rels.rs *)
Record doc_rels := {
  r_comments : bool; r_numberings : bool; r_footnotes : bool;
  r_images : list (string * string); r_links : list (string * string * string);
  r_custom : N; r_headers : N; r_footers : N }.
Definition doc_rels_default : doc_rels :=
  {| r_comments := false; r_numberings := false; r_footnotes := false; r_images := []; r_links := [];
     r_custom := 0; r_headers := 0; r_footers := 0 |}.
(** A written relationship: id, last segment of the type, target; the mode of
    hyperlinks is left out. *)
Record rel := { rel_id : string; rel_kind : string; rel_target : string }.
Definition mk_rel i k t := {| rel_id := i; rel_kind := k; rel_target := t |}.
Definition if_rel (b : bool) (r : rel) : list rel := if b then [r] else [].
(** 0, ..., n-1 *)
Definition upto (n : N) : list N := map N.of_nat (seq 0 (N.to_nat n)).
(** header_id.rs:20-22, footer_id.rs:22-24 *)
Definition header_rid (n : N) : string := "rIdHeader" +++ show_N n.
Definition footer_rid (n : N) : string := "rIdFooter" +++ show_N n.
(** [DocumentRels::build_to], 49-135 *)
Definition written_rels (r : doc_rels) : list rel :=
  [mk_rel "rId1" "styles" "styles.xml"; mk_rel "rId2" "fontTable" "fontTable.xml"; mk_rel "rId3" "settings" "settings.xml";
   mk_rel "rId5" "commentsExtended" "commentsExtended.xml"] ++
  if_rel (r_comments r) (mk_rel "rId6" "comments" "comments.xml") ++
  if_rel (r_numberings r) (mk_rel "rId7" "numbering" "numbering.xml") ++
  if_rel (r_footnotes r) (mk_rel "rId8" "footnotes" "footnotes.xml") ++
  map (fun i => mk_rel (header_rid (i + 1)) "header" ("header" +++ show_N (i + 1) +++ ".xml")) (upto (r_headers r)) ++
  map (fun i => mk_rel (footer_rid (i + 1)) "footer" ("footer" +++ show_N (i + 1) +++ ".xml")) (upto (r_footers r)) ++
  map (fun i => mk_rel ("rId" +++ show_N (i + 8)) "customXml" ("../customXml/item" +++ show_N (i + 1) +++ ".xml")) (upto (r_custom r)) ++
  map (fun im => mk_rel (fst im) "image" (snd im)) (r_images r) ++
  map (fun l => mk_rel (fst (fst l)) "hyperlink" (snd (fst l))) (r_links r).
(** [CustomItemRels::build_to] after [new().add_item()], custom_item_rels.rs:14-41,
    mod.rs:687: every item gets the same record. *)
Definition custom_item_rels : list rel := [mk_rel "rId1" "customXmlProps" "itemProps1.xml"].

(** ** The record.  [k_rels]: the relationships of the package (rels.rs), with
    [rel_kind] the whole type; [k_web], [k_custom]: the web extensions and the custom
    items with their ids, as text.  Simplification: styles, settings, numberings,
    fonts, document properties and the reader's fields are not kept here. *)
Record pkg := {
  k_types : types; k_rels : list rel; k_doc_rels : doc_rels; k_doc : docx; k_even : bool;
  k_taskpanes : bool; k_pane_rels : list rel; k_web : list string; k_custom : list (string * string) }.
(** rels.rs:17-41 *)
Definition rels_default : list rel :=
  [mk_rel "rId1" "http://schemas.openxmlformats.org/package/2006/relationships/metadata/core-properties" "docProps/core.xml";
   mk_rel "rId2" "http://schemas.openxmlformats.org/officeDocument/2006/relationships/extended-properties" "docProps/app.xml";
   mk_rel "rId3" "http://schemas.openxmlformats.org/officeDocument/2006/relationships/officeDocument" "word/document.xml";
   mk_rel "rId4" "http://schemas.openxmlformats.org/officeDocument/2006/relationships/custom-properties" "docProps/custom.xml"].
Definition docx_empty : docx := {| d_body := []; d_sect := sectpr_default; d_parts := []; d_comments := []; d_footnotes := [] |}.
(** [Docx::default], mod.rs:205-248 *)
Definition pkg_new : pkg :=
  {| k_types := set_default types_default; k_rels := rels_default; k_doc_rels := doc_rels_default; k_doc := docx_empty;
     k_even := false; k_taskpanes := false; k_pane_rels := []; k_web := []; k_custom := [] |}.

(** [has_numbering] of an element. *)
Definition flag (n : node) : bool :=
  match n with
  | NPara _ _ nb _ | NTable _ _ nb _ | NRow _ nb _ | NCell _ nb _ | NSdt _ nb _ | NSection _ _ nb _ | NPart _ _ nb _ => nb
  | _ => false
  end.
Definition number_if (b : bool) (r : doc_rels) : doc_rels :=
  {| r_comments := r_comments r; r_numberings := r_numberings r || b; r_footnotes := r_footnotes r; r_images := r_images r;
     r_links := r_links r; r_custom := r_custom r; r_headers := r_headers r; r_footers := r_footers r |}.
Definition count_part (k : slot) (r : doc_rels) : doc_rels :=
  {| r_comments := r_comments r; r_numberings := r_numberings r; r_footnotes := r_footnotes r; r_images := r_images r;
     r_links := r_links r; r_custom := r_custom r;
     r_headers := if is_header_slot k then r_headers r + 1 else r_headers r;
     r_footers := if is_header_slot k then r_footers r else r_footers r + 1 |}.
Definition next_rid (k : slot) (r : doc_rels) : string :=
  if is_header_slot k then header_rid (r_headers r + 1) else footer_rid (r_footers r + 1).

(** Type attribute of a reference and the flag it sets, section_property.rs:86-134. *)
Definition ref_type (k : slot) : string :=
  match k with HDefault | FDefault => "default" | HFirst | FFirst => "first" | HEven | FEven => "even" end.
Definition set_ref (k : slot) (rid : string) (p : sectpr) : sectpr :=
  let r := Some {| pr_type := ref_type k; pr_id := rid |} in
  {| sp_size := sp_size p; sp_margin := sp_margin p; sp_columns := sp_columns p; sp_space := sp_space p;
     sp_title_pg := match k with HFirst | FFirst => true | _ => sp_title_pg p end;
     sp_text_direction := sp_text_direction p; sp_doc_grid := sp_doc_grid p;
     sp_header := match k with HDefault => r | _ => sp_header p end;
     sp_first_header := match k with HFirst => r | _ => sp_first_header p end;
     sp_even_header := match k with HEven => r | _ => sp_even_header p end;
     sp_footer := match k with FDefault => r | _ => sp_footer p end;
     sp_first_footer := match k with FFirst => r | _ => sp_first_footer p end;
     sp_even_footer := match k with FEven => r | _ => sp_even_footer p end;
     sp_type := sp_type p; sp_page_num := sp_page_num p |}.
(** The parts of a section property, kept as a list in the order in which [headers]
    and [footers] (section_property.rs:148-182) go through its fields. *)
Definition rank (k : slot) : N :=
  match k with HDefault => 0 | HFirst => 1 | HEven => 2 | FDefault => 3 | FFirst => 4 | FEven => 5 end.
Definition part_rank (n : node) : N := match n with NPart k _ _ _ => rank k | _ => 6 end.
Fixpoint put_part (n : node) (l : list node) : list node :=
  match l with
  | [] => [n]
  | x :: r => match N.compare (part_rank n) (part_rank x) with
              | Lt => n :: l
              | Eq => n :: r
              | Gt => x :: put_part n r
              end
  end.

Definition set_doc (k : pkg) (r : doc_rels) (d : docx) : pkg :=
  {| k_types := k_types k; k_rels := k_rels k; k_doc_rels := r; k_doc := d; k_even := k_even k;
     k_taskpanes := k_taskpanes k; k_pane_rels := k_pane_rels k; k_web := k_web k; k_custom := k_custom k |}.
Definition set_types (k : pkg) (t : types) : pkg :=
  {| k_types := t; k_rels := k_rels k; k_doc_rels := k_doc_rels k; k_doc := k_doc k; k_even := k_even k;
     k_taskpanes := k_taskpanes k; k_pane_rels := k_pane_rels k; k_web := k_web k; k_custom := k_custom k |}.
Definition push_body (d : docx) (n : node) : docx :=
  {| d_body := d_body d ++ [n]; d_sect := d_sect d; d_parts := d_parts d; d_comments := d_comments d; d_footnotes := d_footnotes d |}.
Definition typed (k : slot) (t : types) : types := if is_header_slot k then add_header t else add_footer t.

(** A header or footer: flag and children. *)
Notation content := (bool * list node)%type.
(** [attach_section_header] / [attach_section_footer], mod.rs:386-425; the state is
    the relationships, the types and the section. *)
Definition attach (k : slot) (c : content) (s : doc_rels * types * (sectpr * list node)) : doc_rels * types * (sectpr * list node) :=
  let '(r, t, (p, parts)) := s in
  let r := number_if (fst c) r in
  let rid := next_rid k r in
  (count_part k r, typed k t, (set_ref k rid p, put_part (NPart k rid (fst c) (snd c)) parts)).
Definition attach_if (k : slot) (c : option content) (s : doc_rels * types * (sectpr * list node)) :=
  match c with Some c => attach k c s | None => s end.
(** A section to be added, with its pending headers and footers (section.rs:102-112).
    Its property holds no parts: no public call puts one there. *)
Record section_arg := { sa_prop : sectpr; sa_numbering : bool; sa_children : list node; sa_pending : slot -> option content }.
(** [add_section], mod.rs:432-467 *)
Definition add_section (s : section_arg) (k : pkg) : pkg :=
  let go x st := attach_if x (sa_pending s x) st in
  let '(r, t, (p, parts)) :=
    go FEven (go FFirst (go FDefault (go HEven (go HFirst (go HDefault
      (number_if (sa_numbering s) (k_doc_rels k), k_types k, (sa_prop s, [])))))))  in
  set_types (set_doc k r (push_body (k_doc k) (NSection p parts (sa_numbering s) (sa_children s)))) t.
(** [header], [first_header], ..., mod.rs:504-588 *)
Definition set_part (x : slot) (c : content) (k : pkg) : pkg :=
  let d := k_doc k in
  let '(r, t, (p, parts)) := attach x c (k_doc_rels k, k_types k, (d_sect d, d_parts d)) in
  let k := set_types (set_doc k r {| d_body := d_body d; d_sect := p; d_parts := parts; d_comments := d_comments d; d_footnotes := d_footnotes d |}) t in
  {| k_types := k_types k; k_rels := k_rels k; k_doc_rels := k_doc_rels k; k_doc := k_doc k;
     k_even := match x with HEven | FEven => true | _ => k_even k end;
     k_taskpanes := k_taskpanes k; k_pane_rels := k_pane_rels k; k_web := k_web k; k_custom := k_custom k |}.
(** [add_paragraph] 372-380, [add_table] 494-502, [add_structured_data_tag] 469-477,
    [add_table_of_contents], [add_bookmark_start], [add_bookmark_end] 479-492.
    Paragraphs, tables and content controls hand on their flag. *)
Definition add_block (n : node) (k : pkg) : pkg := set_doc k (number_if (flag n) (k_doc_rels k)) (push_body (k_doc k) n).
(** [document], mod.rs:255-271: the flags looked at are those of the old document *)
Definition replace_document (d : docx) (k : pkg) : pkg :=
  let old := existsb (fun n => match n with NPara _ _ nb _ => nb | NTable _ _ nb _ => nb | _ => false end) (d_body (k_doc k)) in
  set_doc k (number_if old (k_doc_rels k))
    {| d_body := d_body d; d_sect := d_sect d; d_parts := d_parts d;
       d_comments := d_comments (k_doc k); d_footnotes := d_footnotes (k_doc k) |}.
(** [taskpanes] 670-675, [Rels::add_rel] rels.rs:51-58 *)
Definition with_taskpanes (k : pkg) : pkg :=
  {| k_types := add_taskpanes (k_types k);
     k_rels := k_rels k ++ [mk_rel ("rId" +++ show_N (N.of_nat (length (k_rels k)) + 1))
                              "http://schemas.microsoft.com/office/2011/relationships/webextensiontaskpanes" "word/webextensions/taskpanes.xml"];
     k_doc_rels := k_doc_rels k; k_doc := k_doc k; k_even := k_even k; k_taskpanes := true;
     k_pane_rels := k_pane_rels k; k_web := k_web k; k_custom := k_custom k |}.
(** [web_extension] 677-682, [TaskpanesRels::add_rel] taskpanes_rels.rs:17-25 *)
Definition add_web (e : string) (k : pkg) : pkg :=
  let i := (N.of_nat (length (k_pane_rels k)) + 1)%N in
  {| k_types := add_web_extensions (k_types k); k_rels := k_rels k; k_doc_rels := k_doc_rels k; k_doc := k_doc k; k_even := k_even k;
     k_taskpanes := k_taskpanes k;
     k_pane_rels := k_pane_rels k ++ [mk_rel ("rId" +++ show_N i) "http://schemas.microsoft.com/office/2011/relationships/webextension"
                                        ("webextension" +++ show_N i +++ ".xml")];
     k_web := k_web k ++ [e]; k_custom := k_custom k |}.
(** [add_custom_item] 684-693.  The XML text is taken as already parsed; the call
    panics if it does not parse. *)
Definition add_custom (id xml : string) (k : pkg) : pkg :=
  let r := k_doc_rels k in
  {| k_types := add_custom_xml (k_types k); k_rels := k_rels k;
     k_doc_rels := {| r_comments := r_comments r; r_numberings := r_numberings r; r_footnotes := r_footnotes r; r_images := r_images r;
                      r_links := r_links r; r_custom := r_custom r + 1; r_headers := r_headers r; r_footers := r_footers r |};
     k_doc := k_doc k; k_even := k_even k; k_taskpanes := k_taskpanes k; k_pane_rels := k_pane_rels k; k_web := k_web k;
     k_custom := k_custom k ++ [(id, xml)] |}.

(** A call on a [Docx]. *)
Inductive api :=
| ABlock (n : node)
| ASection (s : section_arg)
| APart (x : slot) (c : content)
| ATaskpanes
| AWeb (e : string)
| ACustom (id xml : string)
| ADocument (d : docx).
Definition call (k : pkg) (a : api) : pkg :=
  match a with
  | ABlock n => add_block n k
  | ASection s => add_section s k
  | APart x c => set_part x c k
  | ATaskpanes => with_taskpanes k
  | AWeb e => add_web e k
  | ACustom id xml => add_custom id xml k
  | ADocument d => replace_document d k
  end.
Definition calls (l : list api) : pkg := fold_left call l pkg_new.

(** ** Building *)
(** What [prepare_package] (mod.rs:845-897) adds to the record, from the prepared
    document, the comments and hyperlinks found (DepsModel) and the pictures and
    footnotes collected (TreeModel). *)
Definition prepared (k : pkg) (d : docx) (comments : bool) (links : list (string * string * string)) (c : collected) : pkg :=
  let r := k_doc_rels k in
  let k' := set_doc k {| r_comments := r_comments r || comments; r_numberings := r_numberings r;
               r_footnotes := r_footnotes r || c_has_footnotes c; r_images := c_rels c; r_links := r_links r ++ links;
               r_custom := r_custom r; r_headers := r_headers r; r_footers := r_footers r |} d in
  set_types k' (if c_has_footnotes c then add_footnotes (k_types k') else k_types k').

(** [Document::headers] / [footers], document.rs:260-270, 286-296 *)
Definition parts_where (which : node -> bool) (d : docx) : list node :=
  filter which (d_parts d) ++ flat_map (fun n => match n with NSection _ ps _ _ => filter which ps | _ => [] end) (d_body d).
Definition headers (d : docx) : list node := parts_where is_header d.
Definition footers (d : docx) : list node := parts_where is_footer d.
(** [collect_header_images], mod.rs:1222-1234: only the parts with relationships *)
Definition sparse (l : rels_list) : list (nat * list (string * string)) :=
  filter (fun p => match snd p with [] => false | _ => true end) (combine (seq 0 (length l)) l).

(** What is rendered as one part. *)
Inductive fixed := XTypes | XRels | XApp | XCore | XCustomProps | XDocRels | XDocument | XStyles | XSettings | XFonts
  | XComments | XNumbering | XCommentsExt | XFootnotes | XTaskpanes | XPaneRels.
Inductive part :=
| PFixed (f : fixed)
| PPart (n : node)                              (* a header or footer *)
| PPartRels (l : list (string * string))        (* its relationships *)
| PWeb (e : string)
| PItemRels (i : nat) | PItem (xml : string) | PItemProps (id : string).
(** [BuildXML::build_to] of a part: its text, and the new state of what rendering
    depends on and changes besides the part (the counters ids are taken from,
    RenderModel). *)
Notation renderer S := (part -> S -> string * S).

(** An entry of the archive.  [ZipWriter::add_directory] adds the final slash. *)
Inductive entry := Dir (name : string) | File (name data : string).
(** One step of [zip_docx]: a directory, a part rendered with [write_xml]
    (zipper/mod.rs:13-34), or bytes. *)
Inductive step := SDir (name : string) | SXml (name : string) (p : part) | SRaw (name data : string).
Fixpoint run_steps {S} (render : renderer S) (l : list step) (c : S) : list entry * S :=
  match l with
  | [] => ([], c)
  | SDir n :: r => let (es, c') := run_steps render r c in (Dir n :: es, c')
  | SRaw n d :: r => let (es, c') := run_steps render r c in (File n d :: es, c')
  | SXml n p :: r => let (d, c1) := render p c in let (es, c') := run_steps render r c1 in (File n d :: es, c')
  end.

Definition nth_name (before : string) (i : nat) (after : string) : string := before +++ show_N (N.of_nat i + 1) +++ after.
(** zipper/mod.rs:166-169, 49-52 *)
Definition first_dirs : list string := ["word/"; "word/_rels/"; "_rels/"; "docProps/"].
(** zipper/mod.rs:176-273, 58-85 *)
Definition fixed_files : list (string * fixed) :=
  [("[Content_Types].xml", XTypes); ("_rels/.rels", XRels); ("docProps/app.xml", XApp); ("docProps/core.xml", XCore);
   ("docProps/custom.xml", XCustomProps); ("word/_rels/document.xml.rels", XDocRels); ("word/document.xml", XDocument);
   ("word/styles.xml", XStyles); ("word/settings.xml", XSettings); ("word/fontTable.xml", XFonts); ("word/comments.xml", XComments);
   ("word/numbering.xml", XNumbering); ("word/commentsExtended.xml", XCommentsExt); ("word/footnotes.xml", XFootnotes)].
(** 275-327: the iterator over the relationships is advanced when its index is met. *)
Fixpoint part_steps (kind : string) (i : nat) (parts : list node) (rels : list (nat * list (string * string))) : list step :=
  match parts with
  | [] => []
  | n :: r =>
      SXml (nth_name ("word/" +++ kind) i ".xml") (PPart n) ::
      match rels with
      | (j, l) :: rels' =>
          if Nat.eqb j i then SXml (nth_name ("word/_rels/" +++ kind) i ".xml.rels") (PPartRels l) :: part_steps kind (S i) r rels'
          else part_steps kind (S i) r rels
      | [] => part_steps kind (S i) r rels
      end
  end.
Fixpoint web_steps (i : nat) (l : list string) : list step :=
  match l with [] => [] | e :: r => SXml (nth_name "word/webextensions/webextension" i ".xml") (PWeb e) :: web_steps (S i) r end.
Fixpoint item_steps (i : nat) (l : list (string * string)) : list step :=
  match l with
  | [] => []
  | (id, xml) :: r =>
      SXml (nth_name "customXml/_rels/item" i ".xml.rels") (PItemRels i) :: SXml (nth_name "customXml/item" i ".xml") (PItem xml) ::
      SXml (nth_name "customXml/itemProps" i ".xml") (PItemProps id) :: item_steps (S i) r
  end.
Definition media_name (id : string) : string := "word/media/" +++ id +++ ".png".
Definition unless_nil {A B} (l : list A) (x : list B) : list B := match l with [] => [] | _ => x end.
(** [zip_docx], zipper/mod.rs:155-397, on a writer that does not fail *)
Definition stream_steps (k : pkg) (c : collected) : list step :=
  map SDir first_dirs ++ map (fun f => SXml (fst f) (PFixed (snd f))) fixed_files ++
  part_steps "header" 0 (headers (k_doc k)) (sparse (c_header_rels c)) ++
  part_steps "footer" 0 (footers (k_doc k)) (sparse (c_footer_rels c)) ++
  unless_nil (c_media c) (SDir "word/media/" :: map (fun m => SRaw (media_name (fst m)) (snd m)) (c_media c)) ++
  (if k_taskpanes k then
     SDir "word/webextensions/" :: SXml "word/webextensions/taskpanes.xml" (PFixed XTaskpanes) ::
     SDir "word/webextensions/_rels/" :: SXml "word/webextensions/_rels/taskpanes.xml.rels" (PFixed XPaneRels) :: web_steps 0 (k_web k)
   else []) ++
  unless_nil (k_custom k) [SDir "customXml/_rels/"] ++ item_steps 0 (k_custom k).
Definition pack {S} (render : renderer S) (k : pkg) (c : collected) (n : S) : list entry * S := run_steps render (stream_steps k c) n.

(** ** Buffered: [Docx::build] then [XMLDocx::pack] *)
(** Rendering a list in order. *)
Fixpoint render_all {S} (render : renderer S) (l : list part) (c : S) : list string * S :=
  match l with
  | [] => ([], c)
  | p :: r => let (d, c1) := render p c in let (ds, c2) := render_all render r c1 in (d :: ds, c2)
  end.
(** [build_sparse_relationships], mod.rs:192-203: pads with empty buffers *)
Fixpoint pad_to (n : nat) (l : list string) : list string :=
  match n, l with
  | O, _ => l
  | S m, [] => "" :: pad_to m []
  | S m, x :: r => x :: pad_to m r
  end.
Fixpoint build_sparse {S} (render : renderer S) (rels : list (nat * list (string * string))) (acc : list string) (c : S) : list string * S :=
  match rels with
  | [] => (acc, c)
  | (i, l) :: r => let (d, c1) := render (PPartRels l) c in build_sparse render r (firstn i (pad_to i acc) ++ [d]) c1
  end.
Record xmldocx := {
  x_fixed : fixed -> string; x_headers : list string; x_footers : list string; x_header_rels : list string; x_footer_rels : list string;
  x_media : list (string * string); x_taskpanes : bool; x_web : list string;
  x_items : list string; x_item_rels : list string; x_item_props : list string }.
(** The order in which [Docx::build] renders the remaining parts, mod.rs:732-756
    with doc_props/mod.rs:44-50. *)
Definition build_order (k : pkg) : list fixed :=
  [XTypes; XRels; XApp; XCore; XCustomProps; XStyles; XDocument; XComments; XDocRels; XSettings; XFonts; XNumbering; XCommentsExt] ++
  (if k_taskpanes k then [XTaskpanes] else []) ++ [XPaneRels; XFootnotes].
Definition fixed_eqb (a b : fixed) : bool :=
  match a, b with
  | XTypes, XTypes | XRels, XRels | XApp, XApp | XCore, XCore | XCustomProps, XCustomProps | XDocRels, XDocRels
  | XDocument, XDocument | XStyles, XStyles | XSettings, XSettings | XFonts, XFonts | XComments, XComments | XNumbering, XNumbering
  | XCommentsExt, XCommentsExt | XFootnotes, XFootnotes | XTaskpanes, XTaskpanes | XPaneRels, XPaneRels => true
  | _, _ => false
  end.
Fixpoint pick (f : fixed) (l : list (fixed * string)) : string :=
  match l with [] => "" | (g, s) :: r => if fixed_eqb g f then s else pick f r end.
(** [Docx::build], mod.rs:705-757 *)
Definition build {S} (render : renderer S) (k : pkg) (c : collected) (n : S) : xmldocx * S :=
  let (web, n) := render_all render (map PWeb (k_web k)) n in
  let (items, n) := render_all render (map (fun i => PItem (snd i)) (k_custom k)) n in
  let (props, n) := render_all render (map (fun i => PItemProps (fst i)) (k_custom k)) n in
  let (irels, n) := render_all render (map PItemRels (seq 0 (length (k_custom k)))) n in
  let (hs, n) := render_all render (map PPart (headers (k_doc k))) n in
  let (fs, n) := render_all render (map PPart (footers (k_doc k))) n in
  let (hrels, n) := build_sparse render (sparse (c_header_rels c)) [] n in
  let (frels, n) := build_sparse render (sparse (c_footer_rels c)) [] n in
  let (rest, n) := render_all render (map PFixed (build_order k)) n in
  ({| x_fixed := fun f => pick f (combine (build_order k) rest); x_headers := hs; x_footers := fs; x_header_rels := hrels; x_footer_rels := frels;
     x_media := c_media c; x_taskpanes := k_taskpanes k; x_web := web; x_items := items; x_item_rels := irels; x_item_props := props |}, n).
(** [zip], zipper/mod.rs:41-151.  87-105: relationships by index, unless empty *)
Fixpoint zip_parts (kind : string) (i : nat) (parts rels : list string) : list entry :=
  match parts with
  | [] => []
  | d :: r =>
      File (nth_name ("word/" +++ kind) i ".xml") d ::
      match nth_error rels i with
      | Some (String _ _ as rel) => [File (nth_name ("word/_rels/" +++ kind) i ".xml.rels") rel]
      | _ => []
      end ++ zip_parts kind (S i) r rels
  end.
Fixpoint zip_web (i : nat) (l : list string) : list entry :=
  match l with [] => [] | d :: r => File (nth_name "word/webextensions/webextension" i ".xml") d :: zip_web (S i) r end.
(** 139-147; indexing past the end would panic and cannot happen: [build] makes the
    three lists equally long. *)
Fixpoint zip_items (i : nat) (items rels props : list string) : list entry :=
  match items with
  | [] => []
  | d :: r =>
      File (nth_name "customXml/_rels/item" i ".xml.rels") (nth i rels "") :: File (nth_name "customXml/item" i ".xml") d ::
      File (nth_name "customXml/itemProps" i ".xml") (nth i props "") :: zip_items (S i) r rels props
  end.
Definition zip (x : xmldocx) : list entry :=
  map Dir first_dirs ++ map (fun f => File (fst f) (x_fixed x (snd f))) fixed_files ++
  zip_parts "header" 0 (x_headers x) (x_header_rels x) ++ zip_parts "footer" 0 (x_footers x) (x_footer_rels x) ++
  unless_nil (x_media x) (Dir "word/media/" :: map (fun m => File (media_name (fst m)) (snd m)) (x_media x)) ++
  (if x_taskpanes x then
     Dir "word/webextensions/" :: File "word/webextensions/taskpanes.xml" (x_fixed x XTaskpanes) ::
     Dir "word/webextensions/_rels/" :: File "word/webextensions/_rels/taskpanes.xml.rels" (x_fixed x XPaneRels) :: zip_web 0 (x_web x)
   else []) ++
  unless_nil (x_items x) [Dir "customXml/_rels/"] ++ zip_items 0 (x_items x) (x_item_rels x) (x_item_props x).

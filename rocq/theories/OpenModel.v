(** Opening an archive: the readers of the parts that ReadModel and StyleRead do not
    read, and [read_docx] (reader/read_docx.rs) itself. *)
From Coq Require Import NArith ZArith List Bool.
From Verif Require Import Str StrFind TypesModel Props PropsSet Ast FloatModel IdsModel XmlParser XmlProofs ZipNameModel PathModel TreeModel DepsModel PackModel
  ReadBase ReadProps ReadModel StyleModel StyleRead RenderModel.
Import ListNotations.
Open Scope list_scope.

(** ** A part as a text *)
(** [X::from_xml(&data[..])]: a reader of its own over the bytes.  The counter of
    paragraph ids is shared by all readers.  [events_of]: all events of the text. *)
Definition on_text {A} (m : R A) (t : string) : R A := fun s =>
  match m {| rs_events := events_of t; rs_para := rs_para s |} with
  | Val a s' => Val a {| rs_events := rs_events s; rs_para := rs_para s' |}
  | Err s' => Err {| rs_events := rs_events s; rs_para := rs_para s' |}
  | Panic => Panic | Hang => Hang | NoFuel => NoFuel
  end.
(** [parser.next_event()] once, whatever it gives *)
Definition next_event : R event := fun s =>
  match rs_events s with [] => Val EDocEnd s | e :: l => Val e {| rs_events := l; rs_para := rs_para s |} end.

(** ** Content types and package relationships *)
(** [for e in parser] (xml_parser.rs:212-231): up to the end of the document or the first
    error.  At depth 1 [f] is called on the attributes; it may panic.  [None]: a panic;
    the flag: whether an error was met. *)
Fixpoint children_of_root {A} (f : A -> list attribute -> option A) (l : list event) (depth : Z) (a : A) : option (A * bool) :=
  match l with
  | [] | EDocEnd :: _ => Some (a, false)
  | EErr :: _ => Some (a, true)
  | EStart _ atts :: r =>
      if (depth =? 1)%Z then match f a atts with Some a' => children_of_root f r (depth + 1) a' | None => None end
      else children_of_root f r (depth + 1) a
  | EEnd _ :: r => children_of_root f r (depth - 1) a
  | _ :: r => children_of_root f r depth a
  end.
(** [ContentTypes::from_xml], content_types.rs:179-203: the first attribute is taken as
    the type and the second as the path, whatever their names; an error is passed over *)
Definition read_types : R types := fun s =>
  match children_of_root (fun t atts => match atts with
                                        | (_, ns) :: (_, path) :: _ => Some (t_put t path ns)
                                        | _ => None
                                        end) (rs_events s) 0 types_default with
  | Some (t, _) => Val t s
  | None => Panic
  end.
(** [Rels::from_xml], reader/rels.rs:11-47: type, id and target; the last attribute of
    each name counts *)
Record any_rel := { ar_type : string; ar_id : string; ar_target : string; ar_mode : option string }.
Definition no_rel : any_rel := {| ar_type := ""; ar_id := ""; ar_target := ""; ar_mode := None |}.
Definition rel_attr (r : any_rel) (name v : string) : any_rel :=
  if name =s "Type" then {| ar_type := v; ar_id := ar_id r; ar_target := ar_target r; ar_mode := ar_mode r |}
  else if name =s "Target" then {| ar_type := ar_type r; ar_id := ar_id r; ar_target := v; ar_mode := ar_mode r |}
  else if name =s "Id" then {| ar_type := ar_type r; ar_id := v; ar_target := ar_target r; ar_mode := ar_mode r |}
  else if name =s "TargetMode" then {| ar_type := ar_type r; ar_id := ar_id r; ar_target := ar_target r; ar_mode := Some v |}
  else r.
Definition read_rel (atts : list attribute) : any_rel := each_attr rel_attr no_rel atts.
Definition read_package_rels : R (list rel) := fun s =>
  match children_of_root (fun l atts => let r := read_rel atts in Some (l ++ [mk_rel (ar_id r) (ar_type r) (ar_target r)]))
          (rs_events s) 0 [] with
  | Some (l, false) => Val l s
  | Some (_, true) => Err s
  | None => Panic
  end.
(** [Rels::find_target], documents/rels.rs:60-62 *)
Definition find_target (ty : string) (l : list rel) : option rel := List.find (fun r => rel_kind r =s ty) l.

(** ** Relationships of a part, reader/rels.rs:49-116 *)
(** A [BTreeSet] of id, path and mode: in order, without repetition. *)
Definition target := (string * string * option string)%type.
Definition compare_mode (a b : option string) : comparison :=
  match a, b with None, None => Eq | None, _ => Lt | _, None => Gt | Some x, Some y => String.compare x y end.
Definition compare_target (a b : target) : comparison :=
  match String.compare (fst (fst a)) (fst (fst b)) with
  | Eq => match compare_path (snd (fst a)) (snd (fst b)) with Eq => compare_mode (snd a) (snd b) | c => c end
  | c => c
  end.
Fixpoint set_insert (x : target) (l : list target) : list target :=
  match l with
  | [] => [x]
  | y :: r => match compare_target x y with Lt => x :: l | Eq => l | Gt => y :: set_insert x r end
  end.
(** [ReadRels]: sets by type; in which order they are kept does not matter *)
Definition read_rels := list (string * list target).
Fixpoint rels_insert (ty : string) (x : target) (l : read_rels) : read_rels :=
  match l with
  | [] => [(ty, [x])]
  | (t, s) :: r => if t =s ty then (t, set_insert x s) :: r else (t, s) :: rels_insert ty x r
  end.
(** [target_paths], document_rels.rs:26-31; no relationship of that type gives [None], an
    empty list here *)
Fixpoint targets (l : read_rels) (ty : string) : list target :=
  match l with [] => [] | (t, s) :: r => if t =s ty then s else targets r ty end.
(** [find_rels_filename], rels.rs:49-61 *)
Definition rels_name (path : string) : option string :=
  match parent path, file_stem path with
  | Some dir, Some base => Some (with_extension (join (join dir "_rels") base) "xml.rels")
  | _, _ => None
  end.
(** [read_rels_xml], rels.rs:63-116: up to the end of an element [Relationships]; at the
    end of the document it goes round for ever *)
Definition add_rel_read (dir : string) (l : read_rels) (atts : list attribute) : read_rels :=
  let r := read_rel atts in
  rels_insert (ar_type r)
    (ar_id r, if ends_with "hyperlink" (ar_type r) then join "" (ar_target r) else join dir (ar_target r), ar_mode r) l.
Definition read_rels_xml (dir : string) : R read_rels :=
  element "Relationships" (fun l q atts => ret (if q_local q =s "Relationship" then add_rel_read dir l atts else l)) (fun l => l) [].

(** ** Custom properties, reader/custom_properties.rs:6-54 *)
(** [HashMap::insert]; in which order the entries are kept does not matter *)
Definition put_custom : string -> string -> list (string * string) -> list (string * string) := put_link.
(** the loop inside a property, 19-42: it is left only at an end tag [property] *)
Definition read_property (key : string) : list (string * string) -> R (list (string * string)) :=
  loop (fun m e =>
    match e with
    | EStart q _ =>
        if q_local q =s "lpwstr" then
          x <- next_event ;; ret (Again (match x with EChars c => put_custom key c m | _ => m end))
        else ret (Again m)
    | EEnd q => ret (if q_local q =s "property" then Done m else Again m)
    | _ => ret (Again m)
    end).
Definition read_custom : R (list (string * string)) :=
  part_loop (fun m e =>
    match e with
    | EStart q atts =>
        if q_local q =s "property" then
          match attr_get "name" atts with
          | Some key => m' <- read_property key m ;; ret (Again m')
          | None => ret (Again m)
          end
        else ret (Again m)
    | EErr => fail
    | _ => ret (Again m)
    end) (fun m => m) [].

(** ** Extended comments, reader/comments_extended.rs:6-49, comment_extended.rs:5-22 *)
Definition read_comment_ext (atts : list attribute) : R comment_ext :=
  id <- or_crash (attr_get "paraId" atts) ;;
  ret {| ce_para := id; ce_done := match attr_get "done" atts with Some v => negb (is_false v) | None => false end;
         ce_parent := attr_get "paraIdParent" atts |}.
(** the first with the same paragraph is replaced *)
Fixpoint put_ext (x : comment_ext) (l : list comment_ext) : list comment_ext :=
  match l with
  | [] => [x]
  | y :: r => if ce_para y =s ce_para x then x :: r else y :: put_ext x r
  end.
Definition read_comments_ext : R (list comment_ext) :=
  part_loop (fun l e =>
    match e with
    | EStart q atts => if q_local q =s "commentEx" then x <- read_comment_ext atts ;; ret (Again (put_ext x l)) else ret (Again l)
    | EEnd q => ret (if q_local q =s "commentsEx" then Done l else Again l)
    | EErr => fail
    | _ => ret (Again l)
    end) (fun l => l) [].

(** ** Themes, reader/theme.rs, font_scheme.rs, font_group.rs *)
Record font_group := { fg_latin : string; fg_ea : string; fg_cs : string; fg_fonts : list (string * string) }.
Definition font_group_default : font_group := {| fg_latin := ""; fg_ea := ""; fg_cs := ""; fg_fonts := [] |}.
Definition theme := (font_group * font_group)%type.    (* major and minor fonts *)
(** font_group.rs:18-34: the last of each name *)
Definition last_attr (name : string) (atts : list attribute) : option string :=
  each_attr (fun a n v => if n =s name then Some v else a) None atts.
(** font_group.rs:36-88: ends at either end tag *)
Definition read_font_group : R font_group :=
  loop (fun f e =>
    match e with
    | EStart q atts => ret (Again (
        if q_local q =s "latin" then
          upd (attr_get "typeface" atts) (fun t f => {| fg_latin := t; fg_ea := fg_ea f; fg_cs := fg_cs f; fg_fonts := fg_fonts f |}) f
        else if q_local q =s "ea" then
          upd (attr_get "typeface" atts) (fun t f => {| fg_latin := fg_latin f; fg_ea := t; fg_cs := fg_cs f; fg_fonts := fg_fonts f |}) f
        else if q_local q =s "cs" then
          upd (attr_get "typeface" atts) (fun t f => {| fg_latin := fg_latin f; fg_ea := fg_ea f; fg_cs := t; fg_fonts := fg_fonts f |}) f
        else if q_local q =s "font" then
          match last_attr "script" atts, last_attr "typeface" atts with
          | Some s, Some t => {| fg_latin := fg_latin f; fg_ea := fg_ea f; fg_cs := fg_cs f; fg_fonts := fg_fonts f ++ [(s, t)] |}
          | _, _ => f
          end
        else f))
    | EEnd q => ret (if (q_local q =s "majorFont") || (q_local q =s "minorFont") then Done f else Again f)
    | EErr => fail
    | _ => ret (Again f)
    end) font_group_default.
(** font_scheme.rs:8-54: start tags with the prefix [a] only *)
Definition prefixed_a (q : qname) : bool := match q_prefix q with Some p => p =s "a" | None => false end.
Definition read_font_scheme : R theme :=
  element "fontScheme" (fun t q _ =>
    if prefixed_a q && (q_local q =s "majorFont") then f <- attempt read_font_group ;; ret (upd f (fun f t => (f, snd t)) t)
    else if prefixed_a q && (q_local q =s "minorFont") then f <- attempt read_font_group ;; ret (upd f (fun f t => (fst t, f)) t)
    else ret t) (fun t => t) (font_group_default, font_group_default).
Definition read_theme : R theme :=
  part_loop (fun (t : theme) e =>
    match e with
    | EStart q _ => if q_local q =s "fontScheme" then f <- attempt read_font_scheme ;; ret (Again (upd f (fun f _ => f) t)) else ret (Again t)
    | EErr => fail
    | _ => ret (Again t)
    end) (fun t => t) (font_group_default, font_group_default).

(** ** Web settings, reader/web_settings.rs, div.rs *)
Inductive div := Div (id : string) (left right top bottom : N) (ch : list div).
Definition div_margin (name : string) (v : N) (d : div) : div :=
  match d with
  | Div i l r t b ch =>
      if name =s "marLeft" then Div i v r t b ch else if name =s "marRight" then Div i l v t b ch
      else if name =s "marTop" then Div i l r v b ch else if name =s "marBottom" then Div i l r t v ch else d
  end.
Definition div_child (c d : div) : div := match d with Div i l r t b ch => Div i l r t b (ch ++ [c]) end.
Definition div_margins : list string := ["marLeft"; "marRight"; "marTop"; "marBottom"].
(** div.rs:49-71 *)
Definition read_divs_child (sub : list attribute -> R div) (d : div) : R div :=
  element "divsChild" (fun d q a => if q_local q =s "div" then c <- attempt (sub a) ;; ret (upd c div_child d) else ret d) (fun d => d) d.
(** div.rs:6-86 *)
Fixpoint read_div (depth : nat) (atts : list attribute) : R div :=
  match depth with
  | O => no_fuel
  | S n =>
      element "div" (fun d q a =>
        if existsb (fun x => q_local q =s x) div_margins then
          ret (match attr_val a with Some v => upd (parse_f32 v) (fun f => div_margin (q_local q) (as_usizef f)) d | None => d end)
        else if q_local q =s "divsChild" then read_divs_child (read_div n) d
        else ret d)
      (fun d => d) (Div (match attr_get "id" atts with Some i => i | None => "" end) 0 0 0 0 [])
  end.
Definition read_web_settings : R (list div) := fun s =>
  part_loop (fun l e =>
    match e with
    | EStart q a => if q_local q =s "div" then d <- attempt (read_div (S (length (rs_events s))) a) ;; ret (Again (upd d (fun d l => l ++ [d]) l))
                    else ret (Again l)
    | EEnd q => ret (if q_local q =s "webSettings" then Done l else Again l)
    | EErr => fail
    | _ => ret (Again l)
    end) (fun l => l) [] s.

(** ** The archive *)
(** [read_zip(archive, name)?] *)
Definition get (a : archive) (name : string) : R string := or_fail (read_zip a name).
(** [read_document_rels], document_rels.rs:34-47; [read_header_or_footer_rels],
    header_or_footer_rels.rs:36-51 *)
Definition read_rels_of (a : archive) (path : string) : R read_rels :=
  dir <- or_fail (parent path) ;; name <- or_fail (rels_name path) ;; d <- get a name ;; on_text (read_rels_xml dir) d.
(** reader/namespace.rs: [office_rel "styles"] and so on *)
Definition type_comments_ext := "http://schemas.microsoft.com/office/2011/relationships/commentsExtended".
(** [read_headers] and [read_footers], read_docx.rs:7-49: one after the other, in the
    order of the set; what cannot be read is left out *)
Definition part_read := (list node * read_rels)%type.
Fixpoint read_parts (a : archive) (l : list target) : R (list (string * part_read)) :=
  match l with
  | [] => ret []
  | (rid, path, _) :: r =>
      h <- attempt (d <- get a path ;; on_text read_header d) ;;
      match h with
      | Some ch => rels <- attempt (read_rels_of a path) ;;
                   more <- read_parts a r ;; ret ((rid, (ch, match rels with Some x => x | None => [] end)) :: more)
      | None => read_parts a r
      end
  end.
(** a [HashMap] filled in that order: the last with an id counts *)
Definition part_by_id (rid : string) (l : list (string * part_read)) : option part_read :=
  last_such (fun p => if fst p =s rid then Some (snd p) else None) l.
(** [read_themes], 51-66 *)
Fixpoint read_themes (a : archive) (l : list target) : R (list theme) :=
  match l with
  | [] => ret []
  | (_, path, _) :: r =>
      t <- attempt (d <- get a path ;; on_text read_theme d) ;;
      more <- read_themes a r ;; ret (match t with Some t => t :: more | None => more end)
  end.

(** What [read_docx] gives: the record with which documents are built, and the fields
    that only the reader fills. *)
Record image := { im_id : string; im_path : string; im_data : string; im_png : string }.
Record opened := {
  op_pkg : pkg; op_rest : rest; op_themes : list theme; op_web : list div; op_images : list image; op_links : list (string * string * string) }.
(** [Docx::new], mod.rs:205-253 *)
Definition styles_new : styles := {| ss_rpr := rpr_empty; ss_ppr := ppr_empty; ss_list := [] |}.
Definition rest_new : rest := {|
  o_core := core_new; o_custom := []; o_styles := styles_new; o_settings := settings_default;
  o_numberings := {| ns_abstracts := []; ns_nums := [] |}; o_ext := []; o_web := fun _ => web_new "" "" "" "" "" |}.
Definition opened_new : opened :=
  {| op_pkg := pkg_new; op_rest := rest_new; op_themes := []; op_web := []; op_images := []; op_links := [] |}.

(** [is_emf], mod.rs:111-121 *)
Definition has_emf_mark (d : string) : bool :=
  Nat.leb 44 (String.length d) && (substring 0 4 d =s String "001" (String "000" (String "000" (String "000" ""))))
  && (substring 40 4 d =s " EMF").
Definition is_emf (path d : string) : bool := ends_with ".emf" (lower_str path) || has_emf_mark d.
(** mod.rs:109 *)
Definition png_mark : string :=
  String "137" ("PNG" +++ String "013" (String "010" (String "026" (String "010" "")))).
(** [add_image_with_options], mod.rs:310-348.  [png]: decoding the bytes of an image and
    encoding them as PNG (external crate image); [None] if they cannot be decoded or
    the feature is off: then the image is dropped. *)
Definition add_image (png : string -> option string) (preview : bool) (id path d : string) (l : list image) : list image :=
  let push p := l ++ [{| im_id := id; im_path := path; im_data := d; im_png := p |}] in
  if is_emf path d then push ""
  else if negb preview then push ""
  else if starts_with png_mark d then push d
  else match png d with Some p => push p | None => l end.
(** [add_images], read_docx.rs:403-423 *)
Fixpoint add_images (png : string -> option string) (preview : bool) (a : archive) (ts : list target) (l : list image) : list image :=
  match ts with
  | [] => l
  | (id, path, _) :: r =>
      add_images png preview a r (match read_zip a path with Some d => add_image png preview id path d l | None => l end)
  end.

(** Assigning a header or footer, 232-319: [header], [first_header_without_title_pg], ...
    (section_property.rs:86-134); the reference is made anew. *)
Definition slot_ref (k : slot) (p : sectpr) : option part_ref :=
  match k with
  | HDefault => sp_header p | HFirst => sp_first_header p | HEven => sp_even_header p
  | FDefault => sp_footer p | FFirst => sp_first_footer p | FEven => sp_even_footer p
  end.
Definition with_title_pg (b : bool) (p : sectpr) : sectpr :=
  {| sp_size := sp_size p; sp_margin := sp_margin p; sp_columns := sp_columns p; sp_space := sp_space p; sp_title_pg := b;
     sp_text_direction := sp_text_direction p; sp_doc_grid := sp_doc_grid p;
     sp_header := sp_header p; sp_first_header := sp_first_header p; sp_even_header := sp_even_header p;
     sp_footer := sp_footer p; sp_first_footer := sp_first_footer p; sp_even_footer := sp_even_footer p;
     sp_type := sp_type p; sp_page_num := sp_page_num p |}.
(** [Header::add_paragraph] and so on, header.rs:21-45: the flag of a part *)
Definition part_flag (ch : list node) : bool := existsb flag ch.
Definition assign (k : slot) (parts : list (string * part_read)) (s : pkg * list target) : pkg * list target :=
  let (p, media) := s in
  let d := k_doc p in
  match slot_ref k (d_sect d) with
  | None => s
  | Some r =>
      match part_by_id (pr_id r) parts with
      | None => s
      | Some (ch, rels) =>
          (set_types (set_doc p (count_part k (k_doc_rels p))
             {| d_body := d_body d; d_sect := with_title_pg (sp_title_pg (d_sect d)) (set_ref k (pr_id r) (d_sect d));
                d_parts := put_part (NPart k (pr_id r) (part_flag ch) ch) (d_parts d);
                d_comments := d_comments d; d_footnotes := d_footnotes d |}) (typed k (k_types p)),
           media ++ targets rels (office_rel "image"))
      end
  end.
(** [if let Some(paths) = rels.target_paths(T) { if let Some(..) = paths.first() { ... } }] *)
Definition first_path (rels : read_rels) (ty : string) : option string :=
  match targets rels ty with [] => None | (_, path, _) :: _ => Some path end.
(** 328-381: a part that is named must be there and be readable *)
Definition named_part {A} (a : archive) (rels : read_rels) (ty : string) (m : R A) (default : A) : R A :=
  match first_path rels ty with None => ret default | Some path => d <- get a path ;; on_text m d end.
(** 145-165, 168-224: a part that is named may be missing, but must be readable *)
Definition named_part_if_there {A} (a : archive) (rels : read_rels) (ty : string) (m : R A) (default : A) : R A :=
  match first_path rels ty with
  | None => ret default
  | Some path => match read_zip a path with None => ret default | Some d => on_text m d end
  end.
(** 177-215 *)
Definition threaded (ext : list comment_ext) (l : list comment) : list comment :=
  match l with [] => [] | _ => thread_comments ext l end.

(** [read_docx_with_options], read_docx.rs:99-401.  The opening of the archive itself is
    left out: [a] are its entries. *)
Definition open_docx (png : string -> option string) (preview : bool) (a : archive) : R opened :=
  t <- get a "[Content_Types].xml" ;; on_text read_types t ;;
  t <- get a "_rels/.rels" ;; package <- on_text read_package_rels t ;;
  let path := match find_target (office_rel "officeDocument") package with Some r => rel_target r | None => "word/document.xml" end in
  custom <- (match find_target (office_rel "custom-properties") package with
             | None => ret []
             | Some r => c <- attempt (d <- get a (rel_target r) ;; on_text read_custom d) ;; ret (match c with Some c => c | None => [] end)
             end) ;;
  rels <- read_rels_of a path ;;
  headers <- read_parts a (targets rels (office_rel "header")) ;;
  footers <- read_parts a (targets rels (office_rel "footer")) ;;
  themes <- read_themes a (targets rels (office_rel "theme")) ;;
  ext <- named_part_if_there a rels type_comments_ext read_comments_ext [] ;;
  comments <- (c <- named_part_if_there a rels (office_rel "comments") read_comments [] ;; ret (threaded ext c)) ;;
  t <- get a path ;; document <- on_text read_document t ;;
  let k := set_doc pkg_new (k_doc_rels pkg_new)
             {| d_body := fst document; d_sect := snd document; d_parts := []; d_comments := []; d_footnotes := [] |} in
  let (k, media) := assign FEven footers (assign FFirst footers (assign FDefault footers
                      (assign HEven headers (assign HFirst headers (assign HDefault headers (k, [])))))) in
  let k := match comments with
           | [] => k
           | _ => let d := k_doc k in
                  set_doc k (k_doc_rels k) {| d_body := store_comments comments (d_body d); d_sect := d_sect d; d_parts := d_parts d;
                                              d_comments := comments; d_footnotes := d_footnotes d |}
           end in
  styles <- named_part a rels (office_rel "styles") read_styles styles_new ;;
  numberings <- named_part a rels (office_rel "numbering") read_numberings {| ns_abstracts := []; ns_nums := [] |} ;;
  settings <- named_part a rels (office_rel "settings") read_settings settings_default ;;
  web <- named_part a rels (office_rel "webSettings") read_web_settings [] ;;
  ret {| op_pkg := k;
         op_rest := {| o_core := core_new; o_custom := custom; o_styles := styles; o_settings := settings; o_numberings := numberings;
                       o_ext := match comments with [] => [] | _ => ext end; o_web := o_web rest_new |};
         op_themes := themes; op_web := web;
         op_images := add_images png preview a (media ++ targets rels (office_rel "image")) [];
         op_links := flat_map (fun t => match snd t with Some mode => [(fst (fst t), snd (fst t), mode)] | None => [] end)
                       (targets rels (office_rel "hyperlink")) |}.
(** An archive that was written: its entries; a directory has no content. *)
Definition entry_of (e : entry) : string * string := match e with Dir n => (n, "") | File n d => (n, d) end.
Definition as_archive (l : list entry) : archive := map entry_of l.
(** [read_docx] in a process whose counter of paragraph ids stands at [c] *)
Definition read_docx (png : string -> option string) (preview : bool) (a : archive) (c : N) : out opened :=
  open_docx png preview a {| rs_events := []; rs_para := c |}.

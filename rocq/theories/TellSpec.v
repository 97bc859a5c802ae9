(** What the JSON of a document and the XML written for it tell: the things someone finds
    who walks through either of them (C77). *)
From Coq Require Import NArith ZArith List Bool.
From Verif Require Import Str TypesModel Props Ast BuildModel BuildSpec JsonModel JsonSpec.
Import ListNotations.
Open Scope list_scope.

(** ** Things found *)
(** A thing with other things in it is opened and closed; a thing has a kind and details,
    each of them a string or missing. *)
Inductive thing :=
| Opened (kind : string) (details : list (option string))
| Closed (kind : string)
| Found (kind : string) (details : list (option string)).

(** One row for each kind: its name in the JSON and of the element, whether there are other
    things in it, and the names of the details in the JSON and of the attributes.  The ids
    of tracked changes are not details: they are new in each file. *)
Record row := { in_json : string; in_xml : string; holds : bool; details : list (string * string) }.
Definition table_of_things : list row := [
  {| in_json := "paragraph"; in_xml := "w:p"; holds := true; details := [("id", "w14:paraId")] |};
  {| in_json := "insert"; in_xml := "w:ins"; holds := true; details := [("author", "w:author"); ("date", "w:date")] |};
  {| in_json := "delete"; in_xml := "w:del"; holds := true; details := [("author", "w:author"); ("date", "w:date")] |};
  {| in_json := "moveFrom"; in_xml := "w:moveFrom"; holds := true; details := [("author", "w:author"); ("date", "w:date")] |};
  {| in_json := "moveTo"; in_xml := "w:moveTo"; holds := true; details := [("author", "w:author"); ("date", "w:date")] |};
  {| in_json := "hyperlink"; in_xml := "w:hyperlink"; holds := true; details := [("rid", "r:id"); ("anchor", "w:anchor")] |};
  {| in_json := "structuredDataTag"; in_xml := "w:sdt"; holds := true; details := [] |};
  {| in_json := "table"; in_xml := "w:tbl"; holds := true; details := [] |};
  {| in_json := "tableRow"; in_xml := "w:tr"; holds := true; details := [] |};
  {| in_json := "tableCell"; in_xml := "w:tc"; holds := true; details := [] |};
  {| in_json := "sym"; in_xml := "w:sym"; holds := false; details := [("font", "w:font"); ("char", "w:char")] |};
  {| in_json := "tab"; in_xml := "w:tab"; holds := false; details := [] |};
  {| in_json := "ptab"; in_xml := "w:ptab"; holds := false;
     details := [("alignment", "w:alignment"); ("relativeTo", "w:relativeTo"); ("leader", "w:leader")] |};
  {| in_json := "break"; in_xml := "w:br"; holds := false; details := [("breakType", "w:type")] |};
  {| in_json := "carriageReturn"; in_xml := "w:cr"; holds := false; details := [] |};
  {| in_json := "pic"; in_xml := "a:blip"; holds := false; details := [("id", "r:embed")] |};
  {| in_json := "fieldChar"; in_xml := "w:fldChar"; holds := false; details := [("fieldCharType", "w:fldCharType"); ("dirty", "w:dirty")] |};
  {| in_json := "footnoteReference"; in_xml := "w:footnoteReference"; holds := false; details := [("id", "w:id")] |};
  {| in_json := "shading"; in_xml := "w:shd"; holds := false; details := [("shdType", "w:val"); ("color", "w:color"); ("fill", "w:fill")] |};
  {| in_json := "commentRangeStart"; in_xml := "w:commentRangeStart"; holds := false; details := [("id", "w:id")] |};
  {| in_json := "commentRangeEnd"; in_xml := "w:commentRangeEnd"; holds := false; details := [("id", "w:id")] |};
  {| in_json := "bookmarkStart"; in_xml := "w:bookmarkStart"; holds := false; details := [("id", "w:id"); ("name", "w:name")] |};
  {| in_json := "bookmarkEnd"; in_xml := "w:bookmarkEnd"; holds := false; details := [("id", "w:id")] |}]%string.

(** Texts stand between the tags in XML, so they have rows of their own: of field codes
    only that there is one is compared. *)
Record text_row := { text_json : string; text_xml : string; content : option string }.
Definition table_of_texts : list text_row := [
  {| text_json := "text"; text_xml := "w:t"; content := Some "text" |};
  {| text_json := "deleteText"; text_xml := "w:delText"; content := Some "text" |};
  {| text_json := "instrTextString"; text_xml := "w:instrText"; content := None |};
  {| text_json := "instrText"; text_xml := "w:instrText"; content := None |};
  {| text_json := "deleteInstrText"; text_xml := "w:delInstrText"; content := None |}]%string.

(** ** In XML *)
Fixpoint attribute (a : string) (l : list (string * string)) : option string :=
  match l with [] => None | (b, v) :: l => if b =s a then Some v else attribute a l end.
(** Elements with properties are passed over. *)
Definition property_elements : list string :=
  ["w:rPr"; "w:pPr"; "w:tblPr"; "w:tblGrid"; "w:trPr"; "w:tcPr"; "w:sdtPr"; "w:sectPr"]%string.
Definition one_of (l : list string) (k : string) : bool := existsb (String.eqb k) l.
Fixpoint things_in_xml (x : xml) : list thing :=
  match x with
  | E n a ch =>
      if one_of property_elements n then [] else
      let inner := flat_map things_in_xml ch in
      match find (fun r => in_xml r =s n) table_of_things with
      | Some r =>
          let d := map (fun p => attribute (snd p) a) (details r) in
          if holds r then Opened n d :: inner ++ [Closed n] else [Found n d]
      | None => inner
      end
  | L n a ts =>
      match find (fun r => text_xml r =s n) table_of_texts with
      | Some r => [Found n [option_map (fun _ => String.concat EmptyString ts) (content r)]]
      | None => []
      end
  end.

(** ** In JSON *)
(** Strings stand for themselves, numbers and switches for what is written for them. *)
Definition as_text (v : json) : option string :=
  match v with
  | JStr s => Some s
  | JNum z => Some (show_Z z)
  | JBool true => Some "true"%string
  | JBool false => Some "false"%string
  | _ => None
  end.
Definition detail (k : string) (data : option json) : option string :=
  match data with
  | Some (JObj l) => match member k l with Some v => as_text v | None => None end
  | _ => None
  end.
Definition property_members : list string := ["property"; "runProperty"; "sectionProperty"; "grid"]%string.
Fixpoint things_in_json (v : json) : list thing :=
  match v with
  | JObj l =>
      let inner := flat_map (fun p => match p with (k, x) => if one_of property_members k then [] else things_in_json x end) l in
      match member "type" l with
      | Some (JStr t) =>
          match find (fun r => in_json r =s t) table_of_things, find (fun r => text_json r =s t) table_of_texts with
          | Some r, _ =>
              let d := map (fun p => detail (fst p) (member "data" l)) (details r) in
              if holds r then Opened (in_xml r) d :: inner ++ [Closed (in_xml r)] else [Found (in_xml r) d]
          | None, Some r => [Found (text_xml r) [match content r with Some k => detail k (member "data" l) | None => None end]]
          | None, None => inner
          end
      | _ => inner
      end
  | JArr l => flat_map things_in_json l
  | _ => []
  end.

(** ** Trees both show alike *)
(** What is in XML but not in the JSON or the other way round: the fields page numbers are
    written as, tables of contents, the paragraphs that end sections, and the paragraph
    added to a cell that has none or only a table. *)
Definition alike (n : node) : bool :=
  match n with
  | NPageNum | NNumPages | NToc _ _ _ | NSection _ _ _ _ => false
  | NCell _ _ [] | NCell _ _ [NTable _ _ _ _] => false
  | _ => true
  end.
(** Every node that is written *)
Definition all_alike (n : node) : bool := forallb alike (written n).

(** ** Properties *)
(** The value at a path of names in the JSON. *)
Fixpoint at_json (p : list string) (v : json) : option string :=
  match p with
  | [] => as_text v
  | k :: p => match v with JObj l => match member k l with Some w => at_json p w | None => None end | _ => None end
  end.
(** The first child of a name, and the attributes of the element at a path of names. *)
Fixpoint child (n : string) (l : list xml) : option (list (string * string) * list xml) :=
  match l with
  | [] => None
  | E m a ch :: l => if m =s n then Some (a, ch) else child n l
  | L m a _ :: l => if m =s n then Some (a, []) else child n l
  end.
Fixpoint attributes_at (p : list string) (a : list (string * string)) (l : list xml) : option (list (string * string)) :=
  match p with
  | [] => Some a
  | n :: p => match child n l with Some (b, ch) => attributes_at p b ch | None => None end
  end.
(** A switch is on if its element has no value. *)
Definition switched (v : option string) : option string :=
  match v with
  | None => Some "true"
  | Some s => if (s =s "true") || (s =s "1") then Some "true" else if (s =s "false") || (s =s "0") then Some "false" else None
  end%string.
Record place := { jpath : list string; xpath : list string; value : string; is_switch : bool }.
Definition at_xml (p : place) (l : list xml) : option string :=
  match attributes_at (xpath p) [] l with
  | Some a => if is_switch p then switched (attribute (value p) a) else attribute (value p) a
  | None => None
  end.
Definition tell_alike (l : list xml) (v : json) (p : place) : Prop := at_xml p l = at_json (jpath p) v.

Definition at_ (j x : list string) (v : string) : place := {| jpath := j; xpath := x; value := v; is_switch := false |}.
Definition val (j x : string) : place := at_ [j] [x] "w:val".
Definition switch (j x : string) : place := {| jpath := [j]; xpath := [x]; value := "w:val"; is_switch := true |}.
Definition under (j x : list string) (l : list place) : list place :=
  map (fun p => {| jpath := j ++ jpath p; xpath := x ++ xpath p; value := value p; is_switch := is_switch p |}) l.
(** Several details of one element *)
Definition these (j x : string) (l : list (string * string)) : list place := map (fun d => at_ [j; fst d] [x] (snd d)) l.

Definition mark_places : list place :=
  (these "ins" "w:ins" [("author", "w:author"); ("date", "w:date")] ++ these "del" "w:del" [("author", "w:author"); ("date", "w:date")]).
Definition shading_places : list place := these "shading" "w:shd" [("shdType", "w:val"); ("color", "w:color"); ("fill", "w:fill")].
Definition run_places : list place :=
  ([val "style" "w:rStyle"; val "sz" "w:sz"; val "szCs" "w:szCs"; val "color" "w:color"; val "highlight" "w:highlight"; val "vertAlign" "w:vertAlign";
    val "underline" "w:u"; val "characterSpacing" "w:spacing"; val "stretch" "w:w"; switch "bold" "w:b"; switch "italic" "w:i"; switch "caps" "w:caps";
    switch "strike" "w:strike"; switch "dstrike" "w:dstrike"; switch "vanish" "w:vanish"; switch "specVanish" "w:specVanish"] ++
   these "fitText" "w:fitText" [("val", "w:val"); ("id", "w:id")] ++
   these "fonts" "w:rFonts" [("ascii", "w:ascii"); ("hiAnsi", "w:hAnsi"); ("eastAsia", "w:eastAsia"); ("cs", "w:cs"); ("asciiTheme", "w:asciiTheme");
     ("hiAnsiTheme", "w:hAnsiTheme"); ("eastAsiaTheme", "w:eastAsiaTheme"); ("csTheme", "w:cstheme"); ("hint", "w:hint")] ++
   these "textBorder" "w:bdr" [("borderType", "w:val"); ("size", "w:sz"); ("space", "w:space"); ("color", "w:color")] ++
   these "positionalTab" "w:ptab" [("alignment", "w:alignment"); ("relativeTo", "w:relativeTo"); ("leader", "w:leader")] ++
   mark_places ++ shading_places).
Definition section_places : list place :=
  (these "pageSize" "w:pgSz" [("w", "w:w"); ("h", "w:h"); ("orient", "w:orient")] ++
   these "pageMargin" "w:pgMar" [("top", "w:top"); ("left", "w:left"); ("bottom", "w:bottom"); ("right", "w:right"); ("header", "w:header");
     ("footer", "w:footer"); ("gutter", "w:gutter")] ++
   [at_ ["columns"] ["w:cols"] "w:num"; at_ ["space"] ["w:cols"] "w:space"; val "sectionType" "w:type"] ++
   these "docGrid" "w:docGrid" [("gridType", "w:type"); ("linePitch", "w:linePitch"); ("charSpace", "w:charSpace")] ++
   these "pageNumType" "w:pgNumType" [("start", "w:start"); ("chapStyle", "w:chapStyle")]).
Definition paragraph_border_places (side : string) : list place :=
  these side ("w:" +++ side) [("val", "w:val"); ("size", "w:sz"); ("space", "w:space"); ("color", "w:color")].
Definition own_paragraph_places : list place :=
  ([val "style" "w:pStyle"; val "alignment" "w:jc"; val "outlineLvl" "w:outlineLvl"; val "textAlignment" "w:textAlignment";
    val "adjustRightInd" "w:adjustRightInd"; switch "snapToGrid" "w:snapToGrid"; switch "widowControl" "w:widowControl";
    at_ ["indent"; "startChars"] ["w:ind"] "w:leftChars"] ++
   these "lineSpacing" "w:spacing" [("lineRule", "w:lineRule"); ("before", "w:before"); ("after", "w:after"); ("beforeLines", "w:beforeLines");
     ("afterLines", "w:afterLines"); ("line", "w:line")] ++
   these "frameProperty" "w:framePr" [("h", "w:h"); ("hRule", "w:hRule"); ("hAnchor", "w:hAnchor"); ("vAnchor", "w:vAnchor"); ("w", "w:w");
     ("wrap", "w:wrap"); ("x", "w:x"); ("xAlign", "w:xAlign"); ("y", "w:y"); ("yAlign", "w:yAlign")] ++
   shading_places ++ these "paragraphPropertyChange" "w:pPrChange" [("author", "w:author"); ("date", "w:date")]).
Definition nested_paragraph_places : list place :=
  under ["numberingProperty"] ["w:numPr"] [val "id" "w:numId"; val "level" "w:ilvl"] ++
  under ["borders"] ["w:pBdr"] (flat_map paragraph_border_places ["left"; "right"; "top"; "bottom"; "between"; "bar"]).
(** A paragraph has the properties of its mark, those of a section that ends with it, and
    its recorded earlier properties, which may record earlier ones in turn. *)
Fixpoint paragraph_places (depth : nat) : list place :=
  own_paragraph_places ++ nested_paragraph_places ++ under ["runProperty"] ["w:rPr"] run_places ++ under ["sectionProperty"] ["w:sectPr"] section_places ++
  match depth with
  | O => []
  | S d => under ["paragraphPropertyChange"; "property"] ["w:pPrChange"; "w:pPr"] (paragraph_places d)
  end.
Definition border_places (side : string) : list place :=
  these side ("w:" +++ side) [("borderType", "w:val"); ("size", "w:sz"); ("space", "w:space"); ("color", "w:color")].
Definition margin_places (side : string) : list place := these side ("w:" +++ side) [("val", "w:w"); ("widthType", "w:type")].
Definition sides : list string := ["top"; "left"; "bottom"; "right"].
Definition own_table_places : list place :=
  (these "width" "w:tblW" [("width", "w:w"); ("widthType", "w:type")] ++ [val "justification" "w:jc"; val "style" "w:tblStyle";
     at_ ["layout"] ["w:tblLayout"] "w:type"] ++
   these "indent" "w:tblInd" [("width", "w:w"); ("widthType", "w:type")] ++
   these "position" "w:tblpPr" [("leftFromText", "w:leftFromText"); ("rightFromText", "w:rightFromText"); ("verticalAnchor", "w:vertAnchor");
     ("horizontalAnchor", "w:horzAnchor"); ("positionXAlignment", "w:tblpXSpec"); ("positionYAlignment", "w:tblpYSpec"); ("positionX", "w:tblpX");
     ("positionY", "w:tblpY")]).
Definition table_places : list place :=
  own_table_places ++ under ["borders"] ["w:tblBorders"] (flat_map border_places (sides ++ ["insideH"; "insideV"])) ++
  under ["margins"] ["w:tblCellMar"] (flat_map margin_places sides).
Definition row_places : list place := mark_places.
Definition own_cell_places : list place :=
  these "width" "w:tcW" [("width", "w:w"); ("widthType", "w:type")] ++
  [val "gridSpan" "w:gridSpan"; val "verticalMerge" "w:vMerge"; val "verticalAlign" "w:vAlign"; val "textDirection" "w:textDirection"] ++ shading_places.
Definition cell_places : list place :=
  own_cell_places ++ under ["borders"] ["w:tcBorders"] (flat_map border_places (sides ++ ["insideH"; "insideV"; "tl2br"; "tr2bl"])) ++
  under ["margins"] ["w:tcMar"] (flat_map margin_places sides).
Definition own_tag_places : list place :=
  val "alias" "w:alias" :: these "dataBinding" "w:dataBinding" [("xpath", "w:xpath"); ("prefix_mappings", "w:prefixMappings"); ("store_item_id", "w:storeItemID")].
Definition tag_places : list place := own_tag_places ++ under ["runProperty"] ["w:rPr"] run_places.

(** Where the properties of a node are; earlier properties of paragraphs up to any depth. *)
Definition places (depth : nat) (n : node) : list place :=
  match n with
  | NRun _ _ => under ["data"; "runProperty"] ["w:r"; "w:rPr"] run_places
  | NPara _ _ _ _ => under ["data"; "property"] ["w:p"; "w:pPr"] (paragraph_places depth)
  | NTable _ _ _ _ => under ["data"; "property"] ["w:tbl"; "w:tblPr"] table_places
  | NRow _ _ _ => under ["data"; "property"] ["w:tr"; "w:trPr"] row_places
  | NCell _ _ _ => under ["data"; "property"] ["w:tc"; "w:tcPr"] cell_places
  | NSdt _ _ _ => under ["data"; "property"] ["w:sdt"; "w:sdtPr"] tag_places
  | _ => []
  end.

(** Numbers that are not cut off: sizes, levels and spans below 2^32, widths below 2^31. *)
Definition at_most (n : N) (o : option N) : Prop := match o with Some m => (m < n)%N | None => True end.
Definition u32 : N := 4294967296.
Definition i32 : N := 2147483648.
Definition uncut_run (p : rpr) : Prop := at_most u32 (r_sz p) /\ at_most u32 (r_sz_cs p).
Fixpoint uncut_paragraph (p : ppr) : Prop :=
  match p with
  | PPr b c => uncut_run (p_rpr b) /\ at_most u32 (p_outline b) /\ match c with Some (PChange _ _ q) => uncut_paragraph q | None => True end
  end.
Definition uncut_width (o : option width) : Prop := at_most i32 (option_map fst o).
Definition uncut_tmargins (m : tmargins) : Prop :=
  uncut_width (Some (tm_top m)) /\ uncut_width (Some (tm_left m)) /\ uncut_width (Some (tm_bottom m)) /\ uncut_width (Some (tm_right m)).
Definition uncut_cmargins (m : cmargins) : Prop :=
  uncut_width (cm_top m) /\ uncut_width (cm_left m) /\ uncut_width (cm_bottom m) /\ uncut_width (cm_right m).
Definition uncut (n : node) : Prop :=
  match n with
  | NRun p _ => uncut_run p
  | NPara _ p _ _ => uncut_paragraph p
  | NTable p _ _ _ => uncut_width (Some (tpr_width p)) /\ match tpr_margins p with Some m => uncut_tmargins m | None => True end
  | NCell p _ _ => uncut_width (tc_width p) /\ at_most u32 (tc_grid_span p) /\ match tc_margins p with Some m => uncut_cmargins m | None => True end
  | NSdt p _ _ => uncut_run (sd_rpr p)
  | _ => True
  end.

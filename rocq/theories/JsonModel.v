(** The JSON of a document ([Docx::json], documents/mod.rs:772-776): what serde writes for
    the structs of the tree, and the text serde_json makes of it. *)
From Coq Require Import NArith ZArith List Bool.
From Verif Require Import Str TypesModel Props Ast.
Import ListNotations.

(** ** Values and their text *)
(** serde_json's data model as used here.  [JWhole] is an f32 with an integral value (see
    [trpr] in Props.v). *)
Inductive json :=
| JNull
| JBool (b : bool)
| JNum (z : Z)
| JWhole (n : N)
| JStr (s : string)
| JArr (l : list json)
| JObj (l : list (string * json)).

(** Strings: quotes, backslashes and control characters are escaped, the rest is copied
    (serde_json's [format_escaped_str]; a dependency, modelled by its documentation). *)
Definition hex_digit (n : N) : ascii := ascii_of_N (if (n <? 10)%N then 48 + n else 87 + n).
Definition json_char (c : ascii) : string :=
  let n := N_of_ascii c in
  if (n =? 34)%N then "\""" else if (n =? 92)%N then "\\"
  else if (n =? 8)%N then "\b" else if (n =? 9)%N then "\t" else if (n =? 10)%N then "\n"
  else if (n =? 12)%N then "\f" else if (n =? 13)%N then "\r"
  else if (n <? 32)%N then "\u00" +++ String (hex_digit (n / 16)) (str1 (hex_digit (n mod 16)))
  else str1 c.
Fixpoint json_chars (s : string) : string :=
  match s with EmptyString => EmptyString | String c r => json_char c +++ json_chars r end.
Definition quoted (s : string) : string := """" +++ json_chars s +++ """".
(** Indentation by two spaces; empty arrays and objects stay on the line (serde_json's
    [PrettyFormatter]). *)
Fixpoint indentation (d : nat) : string := match d with O => EmptyString | S d => "  " +++ indentation d end.
Definition new_line (d : nat) : string := s_nl +++ indentation d.
Definition lines (d : nat) (l : list string) : string := new_line (S d) +++ String.concat ("," +++ new_line (S d)) l +++ new_line d.
Fixpoint pretty (d : nat) (v : json) : string :=
  match v with
  | JNull => "null"
  | JBool true => "true"
  | JBool false => "false"
  | JNum z => show_Z z
  | JWhole n => show_N n +++ ".0"
  | JStr s => quoted s
  | JArr [] => "[]"
  | JArr l => "[" +++ lines d (map (pretty (S d)) l) +++ "]"
  | JObj [] => "{}"
  | JObj l => "{" +++ lines d (map (fun p => match p with (k, x) => quoted k +++ ": " +++ pretty (S d) x end) l) +++ "}"
  end.

(** ** Structs *)
(** A derived struct: fields in order; those that are skipped are [None]. *)
Definition fields : Type := list (string * option json).
Definition present (fs : fields) : list (string * json) :=
  flat_map (fun p => match p with (k, Some v) => [(k, v)] | (k, None) => [] end) fs.
Definition obj (fs : fields) : json := JObj (present fs).
Definition has (k : string) (v : json) : string * option json := (k, Some v).
(** [skip_serializing_if = "Option::is_none"] *)
Definition may {A} (k : string) (f : A -> json) (o : option A) : string * option json := (k, option_map f o).
(** An [Option] without it. *)
Definition j_opt {A} (f : A -> json) (o : option A) : json := match o with Some a => f a | None => JNull end.
Definition jn (n : N) : json := JNum (Z.of_N n).
(** [usize as u32] *)
Definition as_u32 (n : N) : N := (n mod 4294967296)%N.
Definition jn32 (n : N) : json := jn (as_u32 n).
(** Structs without fields that stand behind an [Option]: here a flag. *)
Definition flag (k : string) (v : json) (b : bool) : string * option json := (k, if b then Some v else None).
(** The child enums: a kind and what it holds. *)
Definition kind (t : string) (v : json) : json := obj [has "type" (JStr t); has "data" v].

(** ** Enumerations *)
(** Derived: the name of the variant with its first letter small. *)
(** types/border_type.rs:15-47 *)
Definition ser_BorderType (v : BorderType) : string :=
  match v with
  | BorderType_Nil => "nil" | BorderType_None => "none" | BorderType_Single => "single" | BorderType_Thick => "thick"
  | BorderType_Double => "double" | BorderType_Dotted => "dotted" | BorderType_Dashed => "dashed" | BorderType_DotDash => "dotDash"
  | BorderType_DotDotDash => "dotDotDash" | BorderType_Triple => "triple" | BorderType_ThinThickSmallGap => "thinThickSmallGap"
  | BorderType_ThickThinSmallGap => "thickThinSmallGap" | BorderType_ThinThickThinSmallGap => "thinThickThinSmallGap"
  | BorderType_ThinThickMediumGap => "thinThickMediumGap" | BorderType_ThickThinMediumGap => "thickThinMediumGap"
  | BorderType_ThinThickThinMediumGap => "thinThickThinMediumGap" | BorderType_ThinThickLargeGap => "thinThickLargeGap"
  | BorderType_ThickThinLargeGap => "thickThinLargeGap" | BorderType_ThinThickThinLargeGap => "thinThickThinLargeGap"
  | BorderType_Wave => "wave" | BorderType_DoubleWave => "doubleWave" | BorderType_DashSmallGap => "dashSmallGap"
  | BorderType_DashDotStroked => "dashDotStroked" | BorderType_ThreeDEmboss => "threeDEmboss" | BorderType_ThreeDEngrave => "threeDEngrave"
  | BorderType_Outset => "outset" | BorderType_Inset => "inset" | BorderType_Apples => "apples"
  | BorderType_ArchedScallops => "archedScallops" | BorderType_BabyPacifier => "babyPacifier" | BorderType_BabyRattle => "babyRattle"
  end.
(** types/doc_grid_type.rs:13-18 *)
Definition ser_DocGridType (v : DocGridType) : string :=
  match v with
  | DocGridType_Default => "default" | DocGridType_Lines => "lines" | DocGridType_LinesAndChars => "linesAndChars"
  | DocGridType_SnapToChars => "snapToChars"
  end.
(** types/drawing_position.rs:22-28 *)
Definition ser_PicAlign (v : PicAlign) : string :=
  match v with
  | PicAlign_Left => "left" | PicAlign_Right => "right" | PicAlign_Center => "center" | PicAlign_Bottom => "bottom" | PicAlign_Top => "top"
  end.
(** types/field_char_type.rs:18-23 *)
Definition ser_FieldCharType (v : FieldCharType) : string :=
  match v with
  | FieldCharType_Begin => "begin" | FieldCharType_Separate => "separate" | FieldCharType_End => "end"
  | FieldCharType_Unsupported => "unsupported"
  end.
(** types/height_rule.rs:13-18 *)
Definition ser_HeightRule (v : HeightRule) : string :=
  match v with
  | HeightRule_Auto => "auto" | HeightRule_AtLeast => "atLeast" | HeightRule_Exact => "exact"
  end.
(** types/line_spacing_type.rs:11-15 *)
Definition ser_LineSpacingType (v : LineSpacingType) : string :=
  match v with
  | LineSpacingType_Auto => "auto" | LineSpacingType_AtLeast => "atLeast" | LineSpacingType_Exact => "exact"
  end.
(** types/page_orientation_type.rs:13-16 *)
Definition ser_PageOrientationType (v : PageOrientationType) : string :=
  match v with
  | PageOrientationType_Landscape => "landscape" | PageOrientationType_Portrait => "portrait"
  end.
(** types/positional_tab_alignment_type.rs:15-19 *)
Definition ser_PositionalTabAlignmentType (v : PositionalTabAlignmentType) : string :=
  match v with
  | PositionalTabAlignmentType_Center => "center" | PositionalTabAlignmentType_Left => "left" | PositionalTabAlignmentType_Right => "right"
  end.
(** types/positional_tab_relative_to.rs:15-18 *)
Definition ser_PositionalTabRelativeTo (v : PositionalTabRelativeTo) : string :=
  match v with
  | PositionalTabRelativeTo_Indent => "indent" | PositionalTabRelativeTo_Margin => "margin"
  end.
(** types/relative_from_type.rs:16-46 *)
Definition ser_RelativeFromHType (v : RelativeFromHType) : string :=
  match v with
  | RelativeFromHType_Character => "character" | RelativeFromHType_Column => "column" | RelativeFromHType_InsideMargin => "insideMargin"
  | RelativeFromHType_LeftMargin => "leftMargin" | RelativeFromHType_Margin => "margin" | RelativeFromHType_OutsizeMargin => "outsizeMargin"
  | RelativeFromHType_Page => "page" | RelativeFromHType_RightMargin => "rightMargin"
  end.
(** types/relative_from_type.rs:85-95 *)
Definition ser_RelativeFromVType (v : RelativeFromVType) : string :=
  match v with
  | RelativeFromVType_BottomMargin => "bottomMargin" | RelativeFromVType_InsideMargin => "insideMargin" | RelativeFromVType_Line => "line"
  | RelativeFromVType_Margin => "margin" | RelativeFromVType_OutsizeMargin => "outsizeMargin" | RelativeFromVType_Page => "page"
  | RelativeFromVType_Paragraph => "paragraph" | RelativeFromVType_TopMargin => "topMargin"
  end.
(** types/section_type.rs:22-28 *)
Definition ser_SectionType (v : SectionType) : string :=
  match v with
  | SectionType_NextPage => "nextPage" | SectionType_NextColumn => "nextColumn" | SectionType_Continuous => "continuous"
  | SectionType_EvenPage => "evenPage" | SectionType_OddPage => "oddPage"
  end.
(** types/shd_type.rs:53-92 *)
Definition ser_ShdType (v : ShdType) : string :=
  match v with
  | ShdType_Nil => "nil" | ShdType_Clear => "clear" | ShdType_Solid => "solid" | ShdType_HorzStripe => "horzStripe"
  | ShdType_VertStripe => "vertStripe" | ShdType_ReverseDiagStripe => "reverseDiagStripe" | ShdType_DiagStripe => "diagStripe"
  | ShdType_HorzCross => "horzCross" | ShdType_DiagCross => "diagCross" | ShdType_ThinHorzStripe => "thinHorzStripe"
  | ShdType_ThinVertStripe => "thinVertStripe" | ShdType_ThinReverseDiagStripe => "thinReverseDiagStripe"
  | ShdType_ThinDiagStripe => "thinDiagStripe" | ShdType_ThinHorzCross => "thinHorzCross" | ShdType_ThinDiagCross => "thinDiagCross"
  | ShdType_Pct5 => "pct5" | ShdType_Pct10 => "pct10" | ShdType_Pct12 => "pct12" | ShdType_Pct15 => "pct15" | ShdType_Pct20 => "pct20"
  | ShdType_Pct25 => "pct25" | ShdType_Pct30 => "pct30" | ShdType_Pct35 => "pct35" | ShdType_Pct37 => "pct37" | ShdType_Pct40 => "pct40"
  | ShdType_Pct45 => "pct45" | ShdType_Pct50 => "pct50" | ShdType_Pct55 => "pct55" | ShdType_Pct60 => "pct60" | ShdType_Pct62 => "pct62"
  | ShdType_Pct65 => "pct65" | ShdType_Pct70 => "pct70" | ShdType_Pct75 => "pct75" | ShdType_Pct80 => "pct80" | ShdType_Pct85 => "pct85"
  | ShdType_Pct87 => "pct87" | ShdType_Pct90 => "pct90" | ShdType_Pct95 => "pct95"
  end.
(** types/tab_leader_type.rs:15-22 *)
Definition ser_TabLeaderType (v : TabLeaderType) : string :=
  match v with
  | TabLeaderType_Dot => "dot" | TabLeaderType_Heavy => "heavy" | TabLeaderType_Hyphen => "hyphen" | TabLeaderType_MiddleDot => "middleDot"
  | TabLeaderType_None => "none" | TabLeaderType_Underscore => "underscore"
  end.
(** types/tab_value_type.rs:15-25 *)
Definition ser_TabValueType (v : TabValueType) : string :=
  match v with
  | TabValueType_Bar => "bar" | TabValueType_Center => "center" | TabValueType_Clear => "clear" | TabValueType_Decimal => "decimal"
  | TabValueType_End => "end" | TabValueType_Right => "right" | TabValueType_Num => "num" | TabValueType_Start => "start"
  | TabValueType_Left => "left"
  end.
(** types/width_type.rs:12-18 *)
Definition ser_WidthType (v : WidthType) : string :=
  match v with
  | WidthType_Dxa => "dxa" | WidthType_Auto => "auto" | WidthType_Pct => "pct" | WidthType_Nil => "nil"
  | WidthType_Unsupported => "unsupported"
  end.

(** ** Properties of runs *)
(** elements/insert.rs:66-71, delete.rs:8-13 as marks *)
Definition j_ins (m : mark) : json := obj [has "children" (JArr []); has "author" (JStr (m_author m)); has "date" (JStr (m_date m))].
Definition j_del (m : mark) : json := obj [has "author" (JStr (m_author m)); has "date" (JStr (m_date m)); has "children" (JArr [])].
(** elements/color.rs:87-98 *)
Definition j_color (c : color) : json := JStr (c_val c).
(** elements/fit_text.rs:6-12 *)
Definition j_fit (f : fit_text) : json := obj [has "val" (jn (ft_val f)); may "id" jn (ft_id f)].
(** elements/run_fonts.rs:16-37 *)
Definition j_fonts (f : fonts) : json :=
  obj [may "ascii" JStr (f_ascii f); may "hiAnsi" JStr (f_hi_ansi f); may "eastAsia" JStr (f_east_asia f); may "cs" JStr (f_cs f);
       may "asciiTheme" JStr (f_ascii_theme f); may "hiAnsiTheme" JStr (f_hi_ansi_theme f); may "eastAsiaTheme" JStr (f_east_asia_theme f);
       may "csTheme" JStr (f_cs_theme f); may "hint" JStr (f_hint f)].
(** elements/text_border.rs:8-15 *)
Definition j_text_border (b : text_border) : json :=
  obj [has "borderType" (JStr (ser_BorderType (tb_type b))); has "size" (jn (tb_size b)); has "color" (JStr (tb_color b)); has "space" (jn (tb_space b))].
(** elements/positional_tab.rs:8-16 *)
Definition j_ptab (t : ptab) : json :=
  obj [has "alignment" (JStr (ser_PositionalTabAlignmentType (pt_alignment t)));
       has "relativeTo" (JStr (ser_PositionalTabRelativeTo (pt_relative t))); has "leader" (JStr (ser_TabLeaderType (pt_leader t)))].
(** elements/shading.rs:9-15 *)
Definition j_shading (s : shading) : json :=
  obj [has "shdType" (JStr (ser_ShdType (sh_type s))); has "color" (JStr (sh_color s)); has "fill" (JStr (sh_fill s))].
(** elements/run_property.rs:9-62; run_style.rs:38-45, sz.rs:27-34, sz_cs.rs:26-33,
    highlight.rs:27-34, vert_align.rs:19-26, underline.rs:27-34, bold.rs:29-36 and the like,
    vanish.rs:25-32, character_spacing.rs:28-35, stretch.rs:27-34 *)
Definition rpr_fields (p : rpr) : fields :=
  [may "style" JStr (r_style p); may "sz" jn32 (r_sz p); may "szCs" jn32 (r_sz_cs p); may "color" j_color (r_color p);
   may "highlight" JStr (r_highlight p); may "vertAlign" (fun v => JStr (show_VertAlignType v)) (r_vert p);
   may "underline" JStr (r_underline p); may "bold" JBool (r_bold p); may "boldCs" JBool (r_bold_cs p); may "caps" JBool (r_caps p);
   may "italic" JBool (r_italic p); may "italicCs" JBool (r_italic_cs p); flag "vanish" (JBool true) (r_vanish p);
   flag "specVanish" (JBool true) (r_spec_vanish p); may "characterSpacing" JNum (r_spacing p); may "fitText" j_fit (r_fit p);
   may "stretch" JNum (r_stretch p); may "fonts" j_fonts (r_fonts p); may "textBorder" j_text_border (r_border p);
   may "del" j_del (r_del p); may "ins" j_ins (r_ins p); may "strike" JBool (r_strike p); may "dstrike" JBool (r_dstrike p);
   may "positionalTab" j_ptab (r_ptab p); may "shading" j_shading (r_shading p)].
Definition j_rpr (p : rpr) : json := obj (rpr_fields p).

(** ** Properties of paragraphs *)
(** types/special_indent_type.rs:22-42 *)
Definition j_special (s : special_indent) : json :=
  match s with
  | FirstLine v => obj [has "type" (JStr "firstLine"); has "val" (JNum v)]
  | Hanging v => obj [has "type" (JStr "hanging"); has "val" (JNum v)]
  end.
(** elements/indent.rs:70-84 *)
Definition j_indent (i : indent) : json :=
  obj [has "start" (j_opt JNum (i_start i)); has "startChars" (j_opt JNum (i_start_chars i)); has "end" (j_opt JNum (i_end i));
       has "specialIndent" (j_opt j_special (i_special i)); has "hangingChars" (j_opt JNum (i_hanging_chars i));
       has "firstLineChars" (j_opt JNum (i_first_line_chars i))].
(** elements/line_spacing.rs:8-23 *)
Definition j_spacing (l : line_spacing) : json :=
  obj [may "lineRule" (fun v => JStr (ser_LineSpacingType v)) (ls_rule l); may "before" jn (ls_before l); may "after" jn (ls_after l);
       may "beforeLines" jn (ls_before_lines l); may "afterLines" jn (ls_after_lines l); may "line" JNum (ls_line l)].
(** elements/numbering_property.rs:51-70 *)
Definition j_numpr (n : numpr) : json := obj [has "id" (j_opt jn (n_id n)); has "level" (j_opt jn (n_level n))].
(** elements/tab.rs:8-15 *)
Definition j_tab (t : tab) : json :=
  obj [has "val" (j_opt (fun v => JStr (ser_TabValueType v)) (t_val t)); has "leader" (j_opt (fun v => JStr (ser_TabLeaderType v)) (t_leader t));
       has "pos" (j_opt jn (t_pos t))].
(** elements/paragraph_borders.rs:8-21, 106-115; types/border_position.rs:32-41 *)
Definition j_pborder (at_ : string) (b : pborder) : json :=
  obj [has "position" (JStr at_); has "val" (JStr (ser_BorderType (pb_val b))); has "size" (jn (pb_size b)); has "space" (jn (pb_space b));
       has "color" (JStr (pb_color b))].
Definition j_pborders (b : pborders) : json :=
  obj [has "left" (j_opt (j_pborder "left") (pb_left b)); has "right" (j_opt (j_pborder "right") (pb_right b));
       has "top" (j_opt (j_pborder "top") (pb_top b)); has "bottom" (j_opt (j_pborder "bottom") (pb_bottom b));
       has "between" (j_opt (j_pborder "between") (pb_between b)); has "bar" (j_opt (j_pborder "bar") (pb_bar b))].
(** elements/frame_property.rs:8-55 *)
Definition j_frame (f : framepr) : json :=
  obj [may "h" jn (fr_h f); may "hRule" JStr (fr_h_rule f); may "hAnchor" JStr (fr_h_anchor f); may "hSpace" JNum (fr_h_space f);
       may "vAnchor" JStr (fr_v_anchor f); may "vSpace" JNum (fr_v_space f); may "w" jn (fr_w f); may "wrap" JStr (fr_wrap f);
       may "x" JNum (fr_x f); may "xAlign" JStr (fr_x_align f); may "y" JNum (fr_y f); may "yAlign" JStr (fr_y_align f)].
(** elements/page_size.rs:8-14, types/page_margin.rs:3-13, doc_grid.rs:8-14,
    page_num_type.rs:6-15, header_reference.rs:7-12, footer_reference.rs:7-12 *)
Definition j_size (p : page_size) : json :=
  obj [has "w" (jn (pg_w p)); has "h" (jn (pg_h p)); has "orient" (j_opt (fun v => JStr (ser_PageOrientationType v)) (pg_orient p))].
Definition j_margin (m : page_margin) : json :=
  obj [has "top" (JNum (mg_top m)); has "left" (JNum (mg_left m)); has "bottom" (JNum (mg_bottom m)); has "right" (JNum (mg_right m));
       has "header" (JNum (mg_header m)); has "footer" (JNum (mg_footer m)); has "gutter" (JNum (mg_gutter m))].
Definition j_grid (g : doc_grid) : json :=
  obj [has "gridType" (JStr (ser_DocGridType (dg_type g))); has "linePitch" (j_opt jn (dg_line_pitch g)); has "charSpace" (j_opt JNum (dg_char_space g))].
Definition j_page_num (p : page_num_type) : json := obj [may "start" jn (pn_start p); may "chapStyle" JStr (pn_chap_style p)].
Definition j_header_ref (r : part_ref) : json := obj [has "headerType" (JStr (pr_type r)); has "id" (JStr (pr_id r))].
Definition j_footer_ref (r : part_ref) : json := obj [has "footerType" (JStr (pr_type r)); has "id" (JStr (pr_id r))].
(** elements/section_property.rs:10-49; [parts] are the headers and footers it carries. *)
Definition sectpr_fields (parts : slot -> option json) (s : sectpr) : fields :=
  [has "pageSize" (j_size (sp_size s)); has "pageMargin" (j_margin (sp_margin s)); has "columns" (jn (sp_columns s)); has "space" (jn (sp_space s));
   has "titlePg" (JBool (sp_title_pg s)); has "textDirection" (JStr (sp_text_direction s)); may "docGrid" j_grid (sp_doc_grid s);
   may "headerReference" j_header_ref (sp_header s); ("header", parts HDefault);
   may "firstHeaderReference" j_header_ref (sp_first_header s); ("firstHeader", parts HFirst);
   may "evenHeaderReference" j_header_ref (sp_even_header s); ("evenHeader", parts HEven);
   may "footerReference" j_footer_ref (sp_footer s); ("footer", parts FDefault);
   may "firstFooterReference" j_footer_ref (sp_first_footer s); ("firstFooter", parts FFirst);
   may "evenFooterReference" j_footer_ref (sp_even_footer s); ("evenFooter", parts FEven);
   may "sectionType" (fun v => JStr (ser_SectionType v)) (sp_type s); may "pageNumType" j_page_num (sp_page_num s)].
Definition j_sectpr (parts : slot -> option json) (s : sectpr) : json := obj (sectpr_fields parts s).
Definition no_parts (s : slot) : option json := None.
(** elements/paragraph_property.rs:10-56; paragraph_style.rs:50-57, justification.rs:37-44,
    outline_lvl.rs:31-38, text_alignment.rs:27-35, adjust_right_ind.rs:27-34.  [change] is the
    recorded earlier property. *)
Definition ppr_fields (b : ppr_base) (change : option json) : fields :=
  [has "runProperty" (j_rpr (p_rpr b)); may "style" JStr (p_style b); may "numberingProperty" j_numpr (p_numbering b); may "alignment" JStr (p_alignment b);
   may "indent" j_indent (p_indent b); may "lineSpacing" j_spacing (p_spacing b); may "keepNext" JBool (p_keep_next b);
   may "keepLines" JBool (p_keep_lines b); may "bidi" JBool (p_bidi b); may "pageBreakBefore" JBool (p_page_break_before b);
   may "widowControl" JBool (p_widow_control b); may "outlineLvl" jn32 (p_outline b); may "sectionProperty" (j_sectpr no_parts) (p_section b);
   has "tabs" (JArr (map j_tab (p_tabs b))); ("paragraphPropertyChange", change); may "borders" j_pborders (p_borders b);
   may "frameProperty" j_frame (p_frame b); may "textAlignment" (fun v => JStr (show_TextAlignmentType v)) (p_text_alignment b);
   may "adjustRightInd" JNum (p_adjust_right_ind b); may "snapToGrid" JBool (p_snap_to_grid b); may "shading" j_shading (p_shading b);
   may "divId" JStr (p_div_id b)].
(** elements/paragraph_property_change.rs:8-14 *)
Fixpoint j_ppr (p : ppr) : json :=
  match p with
  | PPr b None => obj (ppr_fields b None)
  | PPr b (Some c) => obj (ppr_fields b (Some (j_change c)))
  end
with j_change (c : ppr_change) : json :=
  match c with
  | PChange author date q => obj [has "author" (JStr author); has "date" (JStr date); has "property" (j_ppr q)]
  end.

(** ** Properties of tables *)
(** elements/table_borders.rs:20-28, 77-86, table_cell_borders.rs:20-30, 92-105 *)
Definition j_border (at_ : string) (b : border) : json :=
  obj [has "borderType" (JStr (ser_BorderType (b_type b))); has "size" (jn (b_size b)); has "color" (JStr (b_color b));
       has "position" (JStr at_); has "space" (jn (b_space b))].
Definition j_tborders (b : tborders) : json :=
  obj [has "top" (j_opt (j_border "top") (tbs_top b)); has "left" (j_opt (j_border "left") (tbs_left b));
       has "bottom" (j_opt (j_border "bottom") (tbs_bottom b)); has "right" (j_opt (j_border "right") (tbs_right b));
       has "insideH" (j_opt (j_border "insideH") (tbs_inside_h b)); has "insideV" (j_opt (j_border "insideV") (tbs_inside_v b))].
Definition j_cborders (b : cborders) : json :=
  obj [has "top" (j_opt (j_border "top") (cb_top b)); has "left" (j_opt (j_border "left") (cb_left b));
       has "bottom" (j_opt (j_border "bottom") (cb_bottom b)); has "right" (j_opt (j_border "right") (cb_right b));
       has "insideH" (j_opt (j_border "insideH") (cb_inside_h b)); has "insideV" (j_opt (j_border "insideV") (cb_inside_v b));
       has "tr2bl" (j_opt (j_border "tr2bl") (cb_tr2bl b)); has "tl2br" (j_opt (j_border "tl2br") (cb_tl2br b))].
(** elements/table_width.rs:8-13, table_cell_width.rs:8-13; cell_margins.rs:8-13 *)
Definition j_width (w : width) : json := obj [has "width" (jn (fst w)); has "widthType" (JStr (ser_WidthType (snd w)))].
Definition j_cmargin (w : width) : json := obj [has "val" (jn (fst w)); has "widthType" (JStr (ser_WidthType (snd w)))].
(** elements/cell_margins.rs:30-41, table_cell_margins.rs:9-16, table_indent.rs:8-13 *)
Definition j_cmargins (m : cmargins) : json :=
  obj [may "top" j_cmargin (cm_top m); may "left" j_cmargin (cm_left m); may "bottom" j_cmargin (cm_bottom m); may "right" j_cmargin (cm_right m)].
Definition j_tmargins (m : tmargins) : json :=
  obj [has "top" (j_cmargin (tm_top m)); has "left" (j_cmargin (tm_left m)); has "bottom" (j_cmargin (tm_bottom m)); has "right" (j_cmargin (tm_right m))].
Definition j_tindent (w : Z * WidthType) : json := obj [has "width" (JNum (fst w)); has "widthType" (JStr (ser_WidthType (snd w)))].
(** elements/table_position_property.rs:8-28 *)
Definition j_tposition (p : tposition) : json :=
  obj [may "leftFromText" JNum (tp_left p); may "rightFromText" JNum (tp_right p); may "verticalAnchor" JStr (tp_vert_anchor p);
       may "horizontalAnchor" JStr (tp_horz_anchor p); may "positionXAlignment" JStr (tp_x_spec p); may "positionYAlignment" JStr (tp_y_spec p);
       may "positionX" JNum (tp_x p); may "positionY" JNum (tp_y p)].
(** elements/table_property.rs:12-28; table_style.rs:29-36, table_layout.rs:30-37 *)
Definition j_tblpr (p : tblpr) : json :=
  obj [has "width" (j_width (tpr_width p)); has "justification" (JStr (tpr_jc p)); has "borders" (j_tborders (tpr_borders p));
       may "margins" j_tmargins (tpr_margins p); may "indent" j_tindent (tpr_indent p); may "style" JStr (tpr_style p);
       may "layout" (fun v => JStr (show_TableLayoutType v)) (tpr_layout p); may "position" j_tposition (tpr_position p)].
(** elements/table_row_property.rs:8-25; cant_split.rs:17-24 *)
Definition j_trpr (p : trpr) : json :=
  obj [has "gridAfter" (j_opt jn (tr_grid_after p)); has "widthAfter" (j_opt JWhole (tr_width_after p));
       has "gridBefore" (j_opt jn (tr_grid_before p)); has "widthBefore" (j_opt JWhole (tr_width_before p));
       may "rowHeight" JWhole (tr_height p); may "heightRule" (fun v => JStr (ser_HeightRule v)) (tr_rule p);
       may "del" j_del (tr_del p); may "ins" j_ins (tr_ins p); flag "cantSplit" (JStr "cantSplit") (tr_cant_split p)].
(** elements/table_cell_property.rs:12-24; grid_span.rs:27-34, vertical_merge.rs:30-37,
    v_align.rs:30-37, text_direction.rs:30-37 *)
Definition j_tcpr (p : tcpr) : json :=
  obj [has "width" (j_opt j_width (tc_width p)); has "borders" (j_opt j_cborders (tc_borders p)); has "gridSpan" (j_opt jn32 (tc_grid_span p));
       has "verticalMerge" (j_opt (fun v => JStr (show_VMergeType v)) (tc_vmerge p));
       has "verticalAlign" (j_opt (fun v => JStr (show_VAlignType v)) (tc_valign p));
       has "textDirection" (j_opt (fun v => JStr (show_TextDirectionType v)) (tc_text_direction p));
       has "shading" (j_opt j_shading (tc_shading p)); may "margins" j_cmargins (tc_margins p)].

(** ** Tags, fields and pictures *)
(** elements/data_binding.rs:7-12, structured_data_tag_property.rs:9-15 *)
Definition j_binding (d : data_binding) : json :=
  obj [has "xpath" (j_opt JStr (db_xpath d)); has "prefix_mappings" (j_opt JStr (db_prefix d)); has "store_item_id" (j_opt JStr (db_store d))].
Definition j_sdtpr (p : sdtpr) : json :=
  obj [has "runProperty" (j_rpr (sd_rpr p)); has "dataBinding" (j_opt j_binding (sd_binding p)); has "alias" (j_opt JStr (sd_alias p))].
(** elements/instr_toc.rs:7-10, 18-71 *)
Definition j_range (r : N * N) : json := JArr [jn (fst r); jn (snd r)].
Definition j_style_level (s : string * N) : json := JArr [JStr (fst s); jn (snd s)].
Definition j_instr_toc (t : instr_toc) : json :=
  obj [may "headingStylesRange" j_range (it_heading t); may "tcFieldLevelRange" j_range (it_tc_level t);
       may "omitPageNumbersLevelRange" j_range (it_omit_page t); may "entryBookmarkName" JStr (it_bookmark t);
       has "stylesWithLevels" (JArr (map j_style_level (it_styles t))); may "entryAndPageNumberSeparator" JStr (it_entry_sep t);
       may "sequenceAndPageNumbersSeparator" JStr (it_seq_sep t); has "captionLabel" (j_opt JStr (it_caption t));
       may "captionLabelIncludingNumbers" JStr (it_caption_numbers t); may "seqFieldIdentifierForPrefix" JStr (it_seq_prefix t);
       may "tcFieldIdentifier" (j_opt JStr) (it_tc_id t); has "hyperlink" (JBool (it_hyperlink t)); has "preserveTab" (JBool (it_preserve_tab t));
       has "preserveNewLine" (JBool (it_preserve_nl t)); has "useAppliedParagraphLineLevel" (JBool (it_line_level t));
       has "hideTabAndPageNumbersInWebview" (JBool (it_hide_web t))].
(** elements/instr_text.rs:40-90, delete_instr_text.rs:36-74 (which has no page numbers);
    instr_tc.rs:9-18, instr_pageref.rs:8-14, instr_hyperlink.rs:4-12, instr_page.rs:7-9,
    instr_num_pages.rs:7-9 *)
Definition j_instr (i : instr) : json :=
  match i with
  | ITOC t => kind "toc" (j_instr_toc t)
  | ITC text omit level item =>
      kind "tc" (obj [has "text" (JStr text); has "omitsPageNumber" (JBool omit); has "level" (j_opt jn level); has "itemTypeIdentifier" (j_opt JStr item)])
  | IPAGE => kind "page" (obj [])
  | INUMPAGES => kind "numPages" (obj [])
  | IPAGEREF key h r => kind "pageref" (obj [has "pageRef" (JStr key); has "hyperlink" (JBool h); has "relativePosition" (JBool r)])
  | IHYPERLINK target a => kind "hyperlink" (obj [has "target" (JStr target); has "anchor" (JBool a)])
  | IUnsupported s => kind "unsupported" (JStr s)
  end.
(** types/drawing_position.rs:8-15, 42-49 *)
Definition j_position (d : drawing_position) : json :=
  match d with Offset x => obj [has "offset" (JNum x)] | Align a => obj [has "align" (JStr (ser_PicAlign a))] end.
(** elements/pic.rs:8-50; the image is an array of bytes, skipped if it is empty. *)
Definition j_bytes (s : string) : json := JArr (map (fun c => jn (N_of_ascii c)) (list_ascii_of_string s)).
Definition pic_fields (p : pic) : fields :=
  [has "id" (JStr (pic_id p)); ("image", match pic_image p with EmptyString => None | s => Some (j_bytes s) end);
   has "size" (j_range (pic_size p)); has "positionType" (JStr (if pic_anchor p then "anchor" else "inline")); has "simplePos" (JBool (pic_simple_pos p));
   has "simplePosX" (JNum (pic_simple_x p)); has "simplePosY" (JNum (pic_simple_y p)); has "layoutInCell" (JBool (pic_layout_in_cell p));
   has "relativeHeight" (jn (pic_relative_height p)); has "allowOverlap" (JBool (pic_overlap p)); has "positionH" (j_position (pic_h p));
   has "positionV" (j_position (pic_v p)); has "relativeFromH" (JStr (ser_RelativeFromHType (pic_from_h p)));
   has "relativeFromV" (JStr (ser_RelativeFromVType (pic_from_v p))); has "distT" (JNum (pic_dist_t p)); has "distB" (JNum (pic_dist_b p));
   has "distL" (JNum (pic_dist_l p)); has "distR" (JNum (pic_dist_r p)); has "rot" (jn (pic_rot p))].
Definition j_pic (p : pic) : json := obj (pic_fields p).
(** elements/table_of_contents_item.rs:8-16, table_of_contents.rs:37-41 *)
Definition j_toc_item (i : toc_item) : json :=
  obj [has "instr" (j_instr_toc (ti_instr i)); has "text" (JStr (ti_text i)); has "toc_key" (JStr (ti_key i)); has "level" (jn (ti_level i));
       has "dirty" (JBool (ti_dirty i)); has "page_ref" (j_opt JStr (ti_page i))].
Definition j_review (m : mark) : json := obj [has "author" (JStr (m_author m)); has "date" (JStr (m_date m))].
(** elements/hyperlink.rs:10-23, flattened into the hyperlink *)
Definition link_fields (l : link) : fields :=
  match l with
  | External rid path => [has "type" (JStr "external"); has "rid" (JStr rid); ("path", match path with EmptyString => None | s => Some (JStr s) end)]
  | Anchor a => [has "type" (JStr "anchor"); has "anchor" (JStr a)]
  end.

(** ** The tree *)
(** A [Vec] that is skipped if it is empty *)
Definition some_list (l : list json) : option json := match l with [] => None | _ => Some (JArr l) end.
Fixpoint part_in (s : slot) (l : list (slot * json)) : option json :=
  match l with
  | [] => None
  | (t, v) :: l =>
      match s, t with
      | HDefault, HDefault | HFirst, HFirst | HEven, HEven | FDefault, FDefault | FFirst, FFirst | FEven, FEven => Some v
      | _, _ => part_in s l
      end
  end.
(** elements/comment.rs:8-16, comment_range_start.rs:8-12 *)
Definition j_comment (c : comment_data) (ch : list json) : json :=
  obj [has "id" (jn (cd_id c)); has "author" (JStr (cd_author c)); has "date" (JStr (cd_date c)); has "children" (JArr ch);
       has "parentCommentId" (j_opt jn (cd_parent c))].
(** A header or footer with its relationship id, documents/header.rs:9-14, footer.rs *)
Definition j_part (rid : string) (numbering : bool) (ch : list json) : json :=
  JArr [JStr rid; obj [has "hasNumbering" (JBool numbering); has "children" (JArr ch)]].
(** The child enums of every container write the same for the same child: run.rs:49-157,
    paragraph.rs:70-156, insert.rs:32-64, delete.rs:22-48, move_from.rs:22-48, move_to.rs:32-64,
    structured_data_tag.rs:58-114, table.rs:144-158, table_row.rs:105-119, table_cell.rs:26-58,
    comment.rs:24-44, table_of_contents.rs:15-35, text_box_content.rs:21-41, section.rs:24-80,
    documents/document.rs:30-92, header.rs:55-81, footer.rs:55-81.
    Simplifications: of a text box only the children, of a shape nothing (their other
    contents are not in the model). *)
Fixpoint j_node (n : node) : json :=
  match n with
  | NRun p ch => kind "run" (obj [has "runProperty" (j_rpr p); has "children" (JArr (map j_node ch))])
  | NText s => kind "text" (obj [has "preserveSpace" (JBool true); has "text" (JStr s)])
  | NDelText s => kind "deleteText" (obj [has "text" (JStr s); has "preserveSpace" (JBool true)])
  | NSym f c => kind "sym" (obj [has "font" (JStr f); has "char" (JStr c)])
  | NTab => obj [has "type" (JStr "tab")]
  | NPTab t => kind "ptab" (j_ptab t)
  | NBreak t => kind "break" (obj [has "breakType" (JStr (show_BreakType t))])
  | NCr => obj [has "type" (JStr "carriageReturn")]
  | NPic p => kind "drawing" (kind "pic" (j_pic p))
  | NTextBox ch => kind "drawing" (kind "textBox" (obj [has "children" (JArr (map j_node ch))]))
  | NNoDrawing => kind "drawing" (obj [])
  | NShape => kind "shape" (obj [])
  | NFieldChar t d => kind "fieldChar" (obj [has "fieldCharType" (JStr (ser_FieldCharType t)); has "dirty" (JBool d)])
  | NInstr i => kind "instrText" (j_instr i)
  | NDelInstr i => kind "deleteInstrText" (j_instr i)
  | NInstrString s => kind "instrTextString" (JStr s)
  | NFootRef id _ _ => kind "footnoteReference" (obj [has "id" (jn id)])
  | NShading s => kind "shading" (j_shading s)
  | NCommentStart c ch => kind "commentRangeStart" (obj [has "id" (jn (cd_id c)); has "comment" (j_comment c (map j_node ch))])
  | NCommentEnd id => kind "commentRangeEnd" (obj [has "id" (jn id)])
  | NBookmarkStart id name => kind "bookmarkStart" (obj [has "id" (jn id); has "name" (JStr name)])
  | NBookmarkEnd id => kind "bookmarkEnd" (obj [has "id" (jn id)])
  | NIns m ch => kind "insert" (obj [has "children" (JArr (map j_node ch)); has "author" (JStr (m_author m)); has "date" (JStr (m_date m))])
  | NDel m ch => kind "delete" (obj [has "author" (JStr (m_author m)); has "date" (JStr (m_date m)); has "children" (JArr (map j_node ch))])
  | NMoveFrom m ch => kind "moveFrom" (obj [has "author" (JStr (m_author m)); has "date" (JStr (m_date m)); has "children" (JArr (map j_node ch))])
  | NMoveTo m ch => kind "moveTo" (obj [has "children" (JArr (map j_node ch)); has "author" (JStr (m_author m)); has "date" (JStr (m_date m))])
  | NLink l h ch => kind "hyperlink" (obj (link_fields l ++ [has "history" (j_opt jn h); has "children" (JArr (map j_node ch))]))
  | NSdt p nb ch => kind "structuredDataTag" (obj [has "children" (JArr (map j_node ch)); has "property" (j_sdtpr p); has "hasNumbering" (JBool nb)])
  | NPageNum => kind "pageNum" (obj [has "instr" (obj [])])
  | NNumPages => kind "numPages" (obj [has "instr" (obj [])])
  | NPara id p nb ch =>
      kind "paragraph" (obj [has "id" (JStr id); has "children" (JArr (map j_node ch)); has "property" (j_ppr p); has "hasNumbering" (JBool nb)])
  | NTable p grid nb rows =>
      kind "table" (obj [has "rows" (JArr (map j_node rows)); has "grid" (JArr (map jn grid)); has "hasNumbering" (JBool nb); has "property" (j_tblpr p)])
  | NRow p nb cells => kind "tableRow" (obj [has "cells" (JArr (map j_node cells)); has "hasNumbering" (JBool nb); has "property" (j_trpr p)])
  | NCell p nb ch => kind "tableCell" (obj [has "children" (JArr (map j_node ch)); has "property" (j_tcpr p); has "hasNumbering" (JBool nb)])
  | NToc d before after =>
      kind "tableOfContents"
        (obj [has "instr" (j_instr_toc (td_instr d)); has "items" (JArr (map j_toc_item (td_items d))); has "auto" (JBool (td_auto d));
              has "dirty" (JBool (td_dirty d)); has "without_sdt" (JBool (td_without_sdt d)); has "alias" (j_opt JStr (td_alias d));
              has "page_ref_placeholder" (j_opt JStr (td_page_placeholder d)); ("before_contents", some_list (map j_node before));
              ("after_contents", some_list (map j_node after)); may "delete" j_review (td_delete d); may "paragraph_property" j_ppr (td_ppr d)])
  | NSection p parts nb ch =>
      let ps := flat_map (fun q => match q with NPart s rid b l => [(s, j_part rid b (map j_node l))] | _ => [] end) parts in
      kind "section"
        (obj [has "property" (j_sectpr (fun s => part_in s ps) p); has "children" (JArr (map j_node ch)); has "hasNumbering" (JBool nb);
              has "tempHeader" JNull; has "tempFirstHeader" JNull; has "tempEvenHeader" JNull; has "tempFooter" JNull;
              has "tempFirstFooter" JNull; has "tempEvenFooter" JNull])
  | NPart _ _ _ _ => JNull
  end.
(** The headers and footers a list of parts gives. *)
Definition parts_json (parts : list node) : list (slot * json) :=
  flat_map (fun q => match q with NPart s rid b l => [(s, j_part rid b (map j_node l))] | _ => [] end) parts.
(** documents/document.rs:9-15 *)
Definition j_document (body : list node) (sp : sectpr) (parts : list node) (numbering : bool) : json :=
  obj [has "children" (JArr (map j_node body)); has "sectionProperty" (j_sectpr (fun s => part_in s (parts_json parts)) sp);
       has "hasNumbering" (JBool numbering)].
(** documents/comments.rs:8-12 *)
Definition j_comments (l : list node) : json :=
  obj [has "comments" (JArr (map (fun n => match n with NCommentStart c ch => j_comment c (map j_node ch) | _ => JNull end) l))].

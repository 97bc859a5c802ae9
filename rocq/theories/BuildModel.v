(** Model of the [BuildXML] implementations of the property records and of the
    document tree (documents/elements/*.rs, documents/{document,header,footer,
    comments,footnotes}.rs) and of the element constructors they use
    (xml_builder/{elements,drawing,pic,document,header,footer,comments,footnotes}.rs).
    Attribute values and texts are copied without escaping, as XMLBuilder does
    (xml_builder/mod.rs); what is escaped was escaped when it was stored. *)
From Coq Require Import NArith ZArith List Bool.
From Verif Require Import Str TypesModel Props Ast IdsModel EscapeModel InstrModel WriterModel.
Import ListNotations.

(** ** What is written: elements with element children, and elements with text.
    An element the builder writes never has both. *)
Inductive xml :=
| E (name : string) (attrs : list (string * string)) (ch : list xml)
| L (name : string) (attrs : list (string * string)) (texts : list string).

(** The calls of the event writer: xml_builder/mod.rs [write], [close], [plain_text]. *)
Fixpoint xcalls (x : xml) : list call :=
  match x with
  | E n a ch => CStart n a :: flat_map xcalls ch ++ [CEnd]
  | L n a ts => CStart n a :: map CText ts ++ [CEnd]
  end.
Definition leaf (n : string) (a : list (string * string)) : xml := E n a [].

(** ** The counters building takes ids from: para_id.rs, history_id.rs,
    paragraph_property_change_id.rs.  [None] is a panic. *)
Record ids := { id_para : N; id_hist : N; id_change : N }.
Definition M (A : Type) : Type := ids -> option (A * ids).
Definition ret {A} (a : A) : M A := fun s => Some (a, s).
Definition bind {A B} (m : M A) (k : A -> M B) : M B :=
  fun s => match m s with Some (a, s') => k a s' | None => None end.
Definition panic {A} : M A := fun _ => None.
Notation "x <- m ;; k" := (bind m (fun x => k)) (at level 100, m at next level, right associativity).
(** [generate_para_id], para_id.rs:24-38 *)
Definition take_para : M string := fun s =>
  match gen_para (id_para s) with
  | Some (i, c) => Some (i, {| id_para := c; id_hist := id_hist s; id_change := id_change s |})
  | None => None
  end.
(** [HistoryId::generate], history_id.rs:7-15 *)
Definition take_hist : M string := fun s =>
  match gen_history (id_hist s) with
  | Some (i, c) => Some (i, {| id_para := id_para s; id_hist := c; id_change := id_change s |})
  | None => None
  end.
(** [ParagraphPropertyChangeId::generate], paragraph_property_change_id.rs:7-15 *)
Definition take_change : M string := fun s =>
  match gen_paragraph_property_change (id_change s) with
  | Some (i, c) => Some (i, {| id_para := id_para s; id_hist := id_hist s; id_change := c |})
  | None => None
  end.
(** [add_children] and [apply_each], xml_builder/mod.rs *)
Definition each {A B} (f : A -> M (list B)) : list A -> M (list B) :=
  fix go l := match l with
              | [] => ret []
              | x :: r => a <- f x;; b <- go r;; ret (a ++ b)
              end.

(** ** Pieces.  [add_optional_child], [apply_opt], [apply_if] *)
Definition opt {A B} (f : A -> B) (o : option A) : list B := match o with Some a => [f a] | None => [] end.
Definition on {A} (b : bool) (l : list A) : list A := if b then l else [].
Definition is_on (o : option bool) : bool := match o with Some true => true | _ => false end.
Definition attr_s (k : string) (o : option string) : list (string * string) := opt (fun s => (k, s)) o.
Definition attr_n (k : string) (o : option N) : list (string * string) := opt (fun n => (k, show_N n)) o.
Definition attr_z (k : string) (o : option Z) : list (string * string) := opt (fun n => (k, show_Z n)) o.
(** [closed_with_str], [closed_with_usize], [closed_with_isize], macros.rs *)
Definition valued (n v : string) : xml := leaf n [("w:val", v)].
Definition valued_n (n : string) (v : N) : xml := valued n (show_N v).
Definition valued_z (n : string) (v : Z) : xml := valued n (show_Z v).
Definition show_bool (b : bool) : string := if b then "true" else "false".
Definition show_01 (b : bool) : string := if b then "1" else "0".
(** [as i32] of a usize and [as u32] of an i32 *)
Definition as_i32 (n : N) : Z :=
  let m := (Z.of_N n mod 4294967296)%Z in if (m <? 2147483648)%Z then m else (m - 4294967296)%Z.
Definition as_u32 (z : Z) : N := Z.to_N (z mod 4294967296).

(** ** Run properties *)
(** color.rs:55-69 with elements.rs:240-266 [color_with_theme] *)
Definition x_color (c : color) : xml :=
  leaf "w:color" (("w:val", c_val c) :: attr_s "w:themeColor" (c_theme c) ++ attr_s "w:themeShade" (c_shade c) ++
                  attr_s "w:themeTint" (c_tint c)).
(** bold.rs:33-47, italic.rs, strike.rs, dstrike.rs: an empty element, or one with [false] *)
Definition x_switch (n : string) (v : bool) : xml := if v then leaf n [] else valued n "false".
(** bold_cs.rs, italic_cs.rs: the value is not written *)
Definition x_bare (n : string) (v : bool) : xml := leaf n [].
(** run_fonts.rs:88-110 with elements.rs:31-73 [run_fonts] *)
Definition x_fonts (f : fonts) : xml :=
  leaf "w:rFonts" (attr_s "w:ascii" (f_ascii f) ++ attr_s "w:hAnsi" (f_hi_ansi f) ++ attr_s "w:cs" (f_cs f) ++
    attr_s "w:eastAsia" (f_east_asia f) ++ attr_s "w:asciiTheme" (f_ascii_theme f) ++
    attr_s "w:hAnsiTheme" (f_hi_ansi_theme f) ++ attr_s "w:cstheme" (f_cs_theme f) ++
    attr_s "w:eastAsiaTheme" (f_east_asia_theme f) ++ attr_s "w:hint" (f_hint f)).
(** [closed_border_el], macros.rs:511-530 *)
Definition x_border (n : string) (t : BorderType) (size space : N) (color : string) : xml :=
  leaf n [("w:val", show_BorderType t); ("w:sz", show_N size); ("w:space", show_N space); ("w:color", color)].
(** text_border.rs:54-63 *)
Definition x_text_border (b : text_border) : xml := x_border "w:bdr" (tb_type b) (tb_size b) (tb_space b) (tb_color b).
(** insert.rs:146-158, delete.rs:100-116 without runs *)
Definition b_mark (n : string) (m : mark) : M (list xml) :=
  i <- take_hist;; ret [leaf n [("w:id", i); ("w:author", m_author m); ("w:date", m_date m)]].
Definition b_opt_mark (n : string) (o : option mark) : M (list xml) :=
  match o with Some m => b_mark n m | None => ret [] end.
(** fit_text.rs with elements.rs:303-310 *)
Definition x_fit (f : fit_text) : xml := leaf "w:fitText" (("w:val", show_N (ft_val f)) :: attr_n "w:id" (ft_id f)).
(** positional_tab.rs:49-58 with elements.rs:738-751 *)
Definition x_ptab (t : ptab) : xml :=
  leaf "w:ptab" [("w:alignment", show_PositionalTabAlignmentType (pt_alignment t));
                 ("w:relativeTo", show_PositionalTabRelativeTo (pt_relative t)); ("w:leader", show_TabLeaderType (pt_leader t))].
(** shading.rs:47-58 *)
Definition x_shading (s : shading) : xml :=
  leaf "w:shd" [("w:val", show_ShdType (sh_type s)); ("w:color", sh_color s); ("w:fill", sh_fill s)].
(** run_property.rs:240-275: what precedes and what follows the tracked changes *)
Definition rpr_before (r : rpr) : list xml :=
  opt (valued_n "w:sz") (r_sz r) ++ opt (valued_n "w:szCs") (r_sz_cs r) ++ opt x_color (r_color r) ++
  opt (x_switch "w:b") (r_bold r) ++ opt (x_bare "w:bCs") (r_bold_cs r) ++
  opt (fun v => valued "w:caps" (show_bool v)) (r_caps r) ++
  opt (x_switch "w:i") (r_italic r) ++ opt (x_bare "w:iCs") (r_italic_cs r) ++
  opt (x_switch "w:strike") (r_strike r) ++ opt (x_switch "w:dstrike") (r_dstrike r) ++
  opt (valued "w:highlight") (r_highlight r) ++ opt (valued "w:u") (r_underline r) ++
  on (r_vanish r) [leaf "w:vanish" []] ++ on (r_spec_vanish r) [leaf "w:specVanish" []] ++
  opt x_fonts (r_fonts r) ++ opt x_text_border (r_border r).
Definition rpr_after (r : rpr) : list xml :=
  opt (fun v => valued "w:vertAlign" (show_VertAlignType v)) (r_vert r) ++
  opt (valued_z "w:spacing") (r_spacing r) ++ opt x_fit (r_fit r) ++ opt (valued_z "w:w") (r_stretch r) ++
  opt (valued "w:rStyle") (r_style r) ++ opt x_ptab (r_ptab r) ++ opt x_shading (r_shading r).
Definition b_rpr (r : rpr) : M (list xml) :=
  i <- b_opt_mark "w:ins" (r_ins r);;
  d <- b_opt_mark "w:del" (r_del r);;
  ret [E "w:rPr" [] (rpr_before r ++ i ++ d ++ rpr_after r)].

(** ** Section properties *)
(** page_size.rs:57-72, page_margin.rs:56-73, doc_grid.rs:55-64, header_reference.rs:32-41,
    footer_reference.rs:23-32, page_num_type.rs:37-46 *)
Definition x_page_size (p : page_size) : xml :=
  leaf "w:pgSz" (("w:w", show_N (pg_w p)) :: ("w:h", show_N (pg_h p)) ::
                 opt (fun o => ("w:orient", show_PageOrientationType o)) (pg_orient p)).
Definition x_page_margin (m : page_margin) : xml :=
  leaf "w:pgMar" [("w:top", show_Z (mg_top m)); ("w:right", show_Z (mg_right m)); ("w:bottom", show_Z (mg_bottom m));
                  ("w:left", show_Z (mg_left m)); ("w:header", show_Z (mg_header m)); ("w:footer", show_Z (mg_footer m));
                  ("w:gutter", show_Z (mg_gutter m))].
Definition x_doc_grid (g : doc_grid) : xml :=
  leaf "w:docGrid" (("w:type", show_DocGridType (dg_type g)) :: attr_n "w:linePitch" (dg_line_pitch g) ++
                    attr_z "w:charSpace" (dg_char_space g)).
Definition x_ref (n : string) (r : part_ref) : xml := leaf n [("w:type", pr_type r); ("r:id", pr_id r)].
Definition x_page_num (p : page_num_type) : xml :=
  leaf "w:pgNumType" (attr_n "w:start" (pn_start p) ++ attr_s "w:chapStyle" (pn_chap_style p)).
(** section_property.rs:220-246 *)
Definition x_sectpr (p : sectpr) : xml :=
  E "w:sectPr" [] ([x_page_size (sp_size p); x_page_margin (sp_margin p);
     leaf "w:cols" [("w:space", show_N (sp_space p)); ("w:num", show_N (sp_columns p))]] ++
    opt x_doc_grid (sp_doc_grid p) ++
    opt (x_ref "w:headerReference") (sp_header p) ++ opt (x_ref "w:headerReference") (sp_first_header p) ++
    opt (x_ref "w:headerReference") (sp_even_header p) ++
    opt (x_ref "w:footerReference") (sp_footer p) ++ opt (x_ref "w:footerReference") (sp_first_footer p) ++
    opt (x_ref "w:footerReference") (sp_even_footer p) ++
    opt x_page_num (sp_page_num p) ++
    on (negb (sp_text_direction p =s "lrTb")) [valued "w:textDirection" (sp_text_direction p)] ++
    opt (fun t => valued "w:type" (show_SectionType t)) (sp_type p) ++
    on (sp_title_pg p) [leaf "w:titlePg" []]).

(** ** Paragraph properties *)
(** numbering_property.rs:37-49 *)
Definition x_numpr (n : numpr) : xml :=
  E "w:numPr" [] (opt (valued_n "w:numId") (n_id n) ++ opt (valued_n "w:ilvl") (n_level n)).
(** frame_property.rs with elements.rs:591-644: the attributes are named [w:h_space] and [w:v_space] *)
Definition x_frame (f : framepr) : xml :=
  leaf "w:framePr" (attr_s "w:wrap" (fr_wrap f) ++ attr_s "w:hRule" (fr_h_rule f) ++ attr_s "w:hAnchor" (fr_h_anchor f) ++
    attr_s "w:vAnchor" (fr_v_anchor f) ++ attr_s "w:xAlign" (fr_x_align f) ++ attr_s "w:yAlign" (fr_y_align f) ++
    attr_z "w:x" (fr_x f) ++ attr_z "w:y" (fr_y f) ++ attr_z "w:h_space" (fr_h_space f) ++ attr_z "w:v_space" (fr_v_space f) ++
    attr_n "w:w" (fr_w f) ++ attr_n "w:h" (fr_h f)).
(** indent.rs:71-85 with elements.rs:273-300: the character counts of hanging and
    first-line indents are not written *)
Definition x_indent (i : indent) : xml :=
  leaf "w:ind" (("w:left", show_Z (match i_start i with Some v => v | None => 0%Z end)) ::
                ("w:right", show_Z (match i_end i with Some v => v | None => 0%Z end)) ::
                attr_z "w:leftChars" (i_start_chars i) ++
                match i_special i with
                | Some (FirstLine v) => [("w:firstLine", show_Z v)]
                | Some (Hanging v) => [("w:hanging", show_Z v)]
                | None => []
                end).
(** elements.rs:313-355 *)
Definition show_rule (t : LineSpacingType) : string :=
  match t with LineSpacingType_Auto => "auto" | LineSpacingType_AtLeast => "atLeast" | LineSpacingType_Exact => "exact" end.
(** line_spacing.rs:61-77 *)
Definition x_spacing (s : line_spacing) : xml :=
  leaf "w:spacing" (attr_n "w:before" (ls_before s) ++ attr_n "w:after" (ls_after s) ++
    attr_n "w:beforeLines" (ls_before_lines s) ++ attr_n "w:afterLines" (ls_after_lines s) ++
    attr_z "w:line" (ls_line s) ++ opt (fun r => ("w:lineRule", show_rule r)) (ls_rule s)).
(** paragraph_borders.rs:69-105 with [closed_paragraph_border_el], macros.rs:532-551 *)
Definition x_pborder (n : string) (b : pborder) : xml :=
  leaf n [("w:val", show_BorderType (pb_val b)); ("w:space", show_N (pb_space b)); ("w:sz", show_N (pb_size b)); ("w:color", pb_color b)].
(** paragraph_borders.rs:190-206 *)
Definition x_pborders (b : pborders) : xml :=
  E "w:pBdr" [] (opt (x_pborder "w:left") (pb_left b) ++ opt (x_pborder "w:right") (pb_right b) ++
    opt (x_pborder "w:top") (pb_top b) ++ opt (x_pborder "w:bottom") (pb_bottom b) ++
    opt (x_pborder "w:between") (pb_between b) ++ opt (x_pborder "w:bar") (pb_bar b)).
(** elements.rs:716-736 *)
Definition x_tab (t : tab) : xml :=
  leaf "w:tab" (opt (fun v => ("w:val", show_TabValueType v)) (t_val t) ++
                opt (fun l => ("w:leader", show_TabLeaderType l)) (t_leader t) ++ attr_n "w:pos" (t_pos t)).
(** paragraph_property.rs:222-259; [change] is the recorded former property *)
Definition ppr_before (b : ppr_base) : list xml :=
  opt (valued "w:pStyle") (p_style b) ++ opt x_numpr (p_numbering b) ++ opt x_frame (p_frame b) ++
  opt (valued "w:jc") (p_alignment b) ++ opt x_indent (p_indent b) ++ opt x_spacing (p_spacing b) ++
  opt (valued_n "w:outlineLvl") (p_outline b).
Definition ppr_after (b : ppr_base) : list xml :=
  opt x_pborders (p_borders b) ++ opt x_shading (p_shading b) ++
  opt (fun a => valued "w:textAlignment" (show_TextAlignmentType a)) (p_text_alignment b) ++
  opt (valued_z "w:adjustRightInd") (p_adjust_right_ind b) ++
  opt (fun v => valued "w:snapToGrid" (show_bool v)) (p_snap_to_grid b) ++
  on (is_on (p_keep_next b)) [leaf "w:keepNext" []] ++ on (is_on (p_keep_lines b)) [leaf "w:keepLines" []] ++
  on (is_on (p_page_break_before b)) [leaf "w:pageBreakBefore" []] ++ on (is_on (p_bidi b)) [leaf "w:bidi" []] ++
  opt (fun v => valued "w:widowControl" (show_01 v)) (p_widow_control b) ++
  match p_tabs b with [] => [] | l => [E "w:tabs" [] (map x_tab l)] end ++
  opt x_sectpr (p_section b).
(** paragraph_property.rs:222-259 and paragraph_property_change.rs:51-63 *)
Fixpoint b_ppr (p : ppr) : M (list xml) :=
  match p with
  | PPr b c =>
      r <- b_rpr (p_rpr b);;
      c <- match c with
           | Some (PChange author date q) =>
               i <- take_change;; x <- b_ppr q;;
               ret [E "w:pPrChange" [("w:id", i); ("w:author", author); ("w:date", date)] x]
           | None => ret []
           end;;
      ret [E "w:pPr" [] (r ++ ppr_before b ++ c ++ ppr_after b)]
  end.

(** ** Table properties *)
(** [closed_w_with_type_el], macros.rs:498-509 *)
Definition x_width (n : string) (w : Z) (t : WidthType) : xml := leaf n [("w:w", show_Z w); ("w:type", show_WidthType t)].
Definition x_uwidth (n : string) (w : width) : xml := x_width n (as_i32 (fst w)) (snd w).
Definition x_box (n : string) (b : border) : xml := x_border n (b_type b) (b_size b) (b_space b) (b_color b).
(** table_borders.rs:157-173 *)
Definition x_tborders (b : tborders) : xml :=
  E "w:tblBorders" [] (opt (x_box "w:top") (tbs_top b) ++ opt (x_box "w:left") (tbs_left b) ++
    opt (x_box "w:bottom") (tbs_bottom b) ++ opt (x_box "w:right") (tbs_right b) ++
    opt (x_box "w:insideH") (tbs_inside_h b) ++ opt (x_box "w:insideV") (tbs_inside_v b)).
(** table_cell_borders.rs:193-211 *)
Definition x_cborders (b : cborders) : xml :=
  E "w:tcBorders" [] (opt (x_box "w:top") (cb_top b) ++ opt (x_box "w:left") (cb_left b) ++
    opt (x_box "w:bottom") (cb_bottom b) ++ opt (x_box "w:right") (cb_right b) ++
    opt (x_box "w:insideH") (cb_inside_h b) ++ opt (x_box "w:insideV") (cb_inside_v b) ++
    opt (x_box "w:tl2br") (cb_tl2br b) ++ opt (x_box "w:tr2bl") (cb_tr2bl b)).
(** table_cell_margins.rs:70-84; cell_margins.rs:69-91 *)
Definition x_tmargins (m : tmargins) : xml :=
  E "w:tblCellMar" [] [x_uwidth "w:top" (tm_top m); x_uwidth "w:left" (tm_left m);
                       x_uwidth "w:bottom" (tm_bottom m); x_uwidth "w:right" (tm_right m)].
Definition x_cmargins (m : cmargins) : xml :=
  E "w:tcMar" [] (opt (x_uwidth "w:top") (cm_top m) ++ opt (x_uwidth "w:left") (cm_left m) ++
                  opt (x_uwidth "w:bottom") (cm_bottom m) ++ opt (x_uwidth "w:right") (cm_right m)).
(** elements.rs:646-692 *)
Definition x_tposition (p : tposition) : xml :=
  leaf "w:tblpPr" (attr_z "w:leftFromText" (tp_left p) ++ attr_z "w:rightFromText" (tp_right p) ++
    attr_s "w:vertAnchor" (tp_vert_anchor p) ++ attr_s "w:horzAnchor" (tp_horz_anchor p) ++
    attr_s "w:tblpXSpec" (tp_x_spec p) ++ attr_s "w:tblpYSpec" (tp_y_spec p) ++
    attr_z "w:tblpX" (tp_x p) ++ attr_z "w:tblpY" (tp_y p)).
(** table_property.rs:153-171 *)
Definition x_tblpr (p : tblpr) : xml :=
  E "w:tblPr" [] ([x_uwidth "w:tblW" (tpr_width p); valued "w:jc" (tpr_jc p); x_tborders (tpr_borders p)] ++
    opt x_tmargins (tpr_margins p) ++ opt (fun i => x_width "w:tblInd" (fst i) (snd i)) (tpr_indent p) ++
    opt (valued "w:tblStyle") (tpr_style p) ++
    opt (fun t => leaf "w:tblLayout" [("w:type", show_TableLayoutType t)]) (tpr_layout p) ++
    opt x_tposition (tpr_position p)).
(** table_row_property.rs:78-97: the grid and width before and after are not written *)
Definition b_trpr (p : trpr) : M (list xml) :=
  d <- b_opt_mark "w:del" (tr_del p);;
  i <- b_opt_mark "w:ins" (tr_ins p);;
  ret [E "w:trPr" [] (d ++ i ++ on (tr_cant_split p) [leaf "w:cantSplit" []] ++
         opt (fun h => leaf "w:trHeight" [("w:val", show_N h);
                ("w:hRule", show_HeightRule (match tr_rule p with Some r => r | None => HeightRule_AtLeast end))]) (tr_height p))].
(** table_cell_property.rs:127-145 *)
Definition x_tcpr (p : tcpr) : xml :=
  E "w:tcPr" [] (opt (x_uwidth "w:tcW") (tc_width p) ++ opt x_cborders (tc_borders p) ++
    opt (valued_n "w:gridSpan") (tc_grid_span p) ++ opt (fun v => valued "w:vMerge" (show_VMergeType v)) (tc_vmerge p) ++
    opt (fun v => valued "w:vAlign" (show_VAlignType v)) (tc_valign p) ++
    opt (fun v => valued "w:textDirection" (show_TextDirectionType v)) (tc_text_direction p) ++
    opt x_shading (tc_shading p) ++ opt x_cmargins (tc_margins p)).

(** ** Structured data tags: data_binding.rs:35-48, structured_data_tag_property.rs:43-56 *)
Definition x_binding (b : data_binding) : xml :=
  leaf "w:dataBinding" (attr_s "w:xpath" (db_xpath b) ++ attr_s "w:prefixMappings" (db_prefix b) ++ attr_s "w:storeItemID" (db_store b)).
Definition b_sdtpr (p : sdtpr) : M (list xml) :=
  r <- b_rpr (sd_rpr p);;
  ret [E "w:sdtPr" [] (r ++ opt x_binding (sd_binding p) ++ opt (valued "w:alias") (sd_alias p))].

(** ** Pictures: pic.rs:216-248 and drawing.rs:59-154.  [simple_pos] lands in the
    attribute [allowOverlap] (drawing.rs:83-85 with xml_builder/drawing.rs:16-29). *)
Definition x_pic (p : pic) : xml :=
  E "pic:pic" [("xmlns:pic", "http://schemas.openxmlformats.org/drawingml/2006/picture")]
    [E "pic:nvPicPr" [] [leaf "pic:cNvPr" [("id", "0"); ("name", "")];
       E "pic:cNvPicPr" [] [leaf "a:picLocks" [("noChangeAspect", "1"); ("noChangeArrowheads", "1")]]];
     E "pic:blipFill" [] [leaf "a:blip" [("r:embed", pic_id p)]; leaf "a:srcRect" []; E "a:stretch" [] [leaf "a:fillRect" []]];
     E "pic:spPr" [("bwMode", "auto")]
       [E "a:xfrm" [("rot", show_N (pic_rot p * 60 * 1000))]
          [leaf "a:off" [("x", "0"); ("y", "0")]; leaf "a:ext" [("cx", show_N (fst (pic_size p))); ("cy", show_N (snd (pic_size p)))]];
        E "a:prstGeom" [("prst", "rect")] [leaf "a:avLst" []]]].
Definition x_position (n rel : string) (d : drawing_position) : xml :=
  E n [("relativeFrom", rel)]
    [match d with
     | Offset x => L "wp:posOffset" [] [show_N (as_u32 x)]
     | Align a => L "wp:align" [] [show_PicAlign a]
     end].
Definition dists (p : pic) : list (string * string) :=
  [("distT", show_Z (pic_dist_t p)); ("distB", show_Z (pic_dist_b p)); ("distL", show_Z (pic_dist_l p)); ("distR", show_Z (pic_dist_r p))].
Definition x_graphic (p : pic) : list xml :=
  [leaf "wp:extent" [("cx", show_N (fst (pic_size p))); ("cy", show_N (snd (pic_size p)))];
   leaf "wp:effectExtent" [("b", "0"); ("l", "0"); ("r", "0"); ("t", "0")]] ++
  (if pic_overlap p then [leaf "wp:wrapNone" []]
   else on (pic_anchor p) [leaf "wp:wrapSquare" [("wrapText", "bothSides")]]) ++
  [leaf "wp:docPr" [("id", "1"); ("name", "Figure")];
   E "wp:cNvGraphicFramePr" [] [leaf "a:graphicFrameLocks"
     [("xmlns:a", "http://schemas.openxmlformats.org/drawingml/2006/main"); ("noChangeAspect", "1")]];
   E "a:graphic" [("xmlns:a", "http://schemas.openxmlformats.org/drawingml/2006/main")]
     [E "a:graphicData" [("uri", "http://schemas.openxmlformats.org/drawingml/2006/picture")] [x_pic p]]].
Definition x_drawing (p : pic) : xml :=
  E "w:drawing" []
    [if pic_anchor p then
       E "wp:anchor" (dists p ++ [("simplePos", "0"); ("allowOverlap", show_01 (pic_simple_pos p)); ("behindDoc", "0"); ("locked", "0");
                                  ("layoutInCell", show_01 (pic_layout_in_cell p)); ("relativeHeight", show_N (pic_relative_height p))])
         ([leaf "wp:simplePos" [("x", show_Z (pic_simple_x p)); ("y", show_Z (pic_simple_y p))];
           x_position "wp:positionH" (show_RelativeFromHType (pic_from_h p)) (pic_h p);
           x_position "wp:positionV" (show_RelativeFromVType (pic_from_v p)) (pic_v p)] ++ x_graphic p)
     else E "wp:inline" (dists p) (x_graphic p)].

(** ** Field instructions: instr_text.rs:19-38, delete_instr_text.rs:17-34 *)
Definition b_instr (n : string) (i : instr) : M (list xml) :=
  match i with
  | ITOC t => ret [L n [] [print_toc t]]
  | ITC text omit level item => ret [L n [] [print_tc {| tc_text := text; tc_omit := omit; tc_level := level; tc_item := item |}]]
  | IPAGEREF k h r => ret [L n [] [print_pageref k h r]]
  | IPAGE => ret [L n [] ["PAGE"]]
  | INUMPAGES => ret [L n [] ["NUMPAGES"]]
  | IHYPERLINK _ _ => panic                    (* todo!() *)
  | IUnsupported s => ret [L n [] [s]]
  end.

(** ** Nodes without children of their own that are written: run.rs:379-410,
    comment_range_start.rs:35-44, comment_range_end.rs:18-34, bookmark_start.rs:22-31,
    bookmark_end.rs:18-27.  [None] for the kinds with children. *)
Definition b_leaf (n : node) : option (M (list xml)) :=
  match n with
  | NText s => Some (ret [L "w:t" [("xml:space", "preserve")] [s]])
  | NDelText s => Some (ret [L "w:delText" [("xml:space", "preserve")] [s]])
  | NSym f c => Some (ret [leaf "w:sym" [("w:font", f); ("w:char", c)]])
  | NTab => Some (ret [leaf "w:tab" []])
  | NPTab t => Some (ret [x_ptab t])
  | NBreak t => Some (ret [leaf "w:br" [("w:type", show_BreakType t)]])
  | NCr => Some (ret [leaf "w:cr" []])
  | NPic p => Some (ret [x_drawing p])
  | NTextBox _ | NNoDrawing | NShape => Some panic       (* unimplemented!(), todo!() *)
  | NFieldChar t d => Some (ret [leaf "w:fldChar" [("w:fldCharType", show_FieldCharType t); ("w:dirty", show_bool d)]])
  | NInstr i => Some (b_instr "w:instrText" i)
  | NDelInstr i => Some (b_instr "w:delInstrText" i)
  | NInstrString s => Some (ret [L "w:instrText" [("xml:space", "preserve")] [escape s]])
  | NFootRef i _ _ => Some (ret [leaf "w:footnoteReference" [("w:id", show_N i)]])
  | NShading s => Some (ret [x_shading s])
  | NCommentStart c _ => Some (ret [leaf "w:commentRangeStart" [("w:id", show_N (cd_id c))]])
  | NCommentEnd i => Some (ret [E "w:r" [] [E "w:rPr" [] []]; leaf "w:commentRangeEnd" [("w:id", show_N i)];
                                E "w:r" [] [leaf "w:commentReference" [("w:id", show_N i)]]])
  | NBookmarkStart i n => Some (ret [leaf "w:bookmarkStart" [("w:id", show_N i); ("w:name", n)]])
  | NBookmarkEnd i => Some (ret [leaf "w:bookmarkEnd" [("w:id", show_N i)]])
  | _ => None
  end.
Definition b_leaves (l : list node) : M (list xml) := each (fun n => match b_leaf n with Some m => m | None => ret [] end) l.

(** run.rs:412-424; [inner] builds the children *)
Definition b_run (p : rpr) (inner : M (list xml)) : M (list xml) :=
  r <- b_rpr p;; c <- inner;; ret [E "w:r" [] (r ++ c)].
(** paragraph.rs:578-590 *)
Definition b_para (id : string) (p : ppr) (inner : M (list xml)) : M (list xml) :=
  r <- b_ppr p;; c <- inner;; ret [E "w:p" [("w14:paraId", id)] (r ++ c)].
(** [Paragraph::new] with content, made while building: takes an id (paragraph.rs:19-28, 159-161) *)
Definition b_new_para (p : ppr) (inner : M (list xml)) : M (list xml) := i <- take_para;; b_para i p inner.
Definition b_simple_run (l : list node) : M (list xml) := b_run rpr_empty (b_leaves l).
(** page_num.rs:26-39, num_pages.rs:26-39 *)
Definition page_field (i : instr) : list node :=
  [NFieldChar FieldCharType_Begin false; NInstr i; NFieldChar FieldCharType_Separate false; NText (escape "1"); NFieldChar FieldCharType_End false].
(** insert.rs:146-158, delete.rs:100-116, move_from.rs, move_to.rs *)
Definition b_tracked (n : string) (m : mark) (inner : M (list xml)) : M (list xml) :=
  i <- take_hist;; c <- inner;; ret [E n [("w:id", i); ("w:author", m_author m); ("w:date", m_date m)] c].
(** hyperlink.rs:101-123 *)
Definition link_attrs (l : link) (h : option N) : list (string * string) :=
  match l with External rid _ => [("r:id", rid)] | Anchor a => [("w:anchor", a)] end ++
  [("w:history", show_N (match h with Some n => n | None => 1 end))].
Definition b_link (l : link) (h : option N) (inner : M (list xml)) : M (list xml) :=
  c <- inner;; ret [E "w:hyperlink" (link_attrs l h) c].

(** ** Tables of contents *)
(** table_of_contents_item.rs:52-119.  [Run::add_text] escapes the text, which the
    item already holds escaped. *)
Definition toc_style (level : N) : ppr_base :=
  {| p_rpr := rpr_empty; p_style := Some (escape ("ToC" +++ show_N level)); p_numbering := None; p_alignment := None; p_indent := None;
     p_spacing := None; p_keep_next := None; p_keep_lines := None; p_bidi := None; p_page_break_before := None;
     p_widow_control := None; p_outline := None; p_section := None; p_tabs := []; p_borders := None;
     p_frame := None; p_text_alignment := None; p_adjust_right_ind := None; p_snap_to_grid := None;
     p_shading := None; p_div_id := None |}.
Definition with_tab (b : ppr_base) (t : tab) : ppr_base :=
  {| p_rpr := p_rpr b; p_style := p_style b; p_numbering := p_numbering b; p_alignment := p_alignment b; p_indent := p_indent b;
     p_spacing := p_spacing b; p_keep_next := p_keep_next b; p_keep_lines := p_keep_lines b; p_bidi := p_bidi b;
     p_page_break_before := p_page_break_before b; p_widow_control := p_widow_control b; p_outline := p_outline b;
     p_section := p_section b; p_tabs := p_tabs b ++ [t]; p_borders := p_borders b; p_frame := p_frame b;
     p_text_alignment := p_text_alignment b; p_adjust_right_ind := p_adjust_right_ind b; p_snap_to_grid := p_snap_to_grid b;
     p_shading := p_shading b; p_div_id := p_div_id b |}.
Definition toc_tab : tab := {| t_val := Some TabValueType_Right; t_leader := Some TabLeaderType_Dot; t_pos := Some 80000%N |}.
Definition toc_head (t : toc_item) : M (list xml) :=
  b_simple_run [NFieldChar FieldCharType_Begin (ti_dirty t); NInstr (ITOC (ti_instr t)); NFieldChar FieldCharType_Separate false].
Definition toc_line (t : toc_item) : M (list xml) :=
  a <- b_simple_run [NText (escape (ti_text t))];;
  b <- b_simple_run [NTab];;
  c <- b_simple_run [NFieldChar FieldCharType_Begin false; NInstr (IPAGEREF (ti_key t) true false); NFieldChar FieldCharType_Separate false;
                     NText (escape (match ti_page t with Some s => s | None => "1" end)); NFieldChar FieldCharType_End false];;
  ret (a ++ b ++ c).
Definition toc_entry (first : bool) (t : toc_item) : M (list xml) :=
  b_new_para (PPr (with_tab (toc_style (ti_level t)) toc_tab) None)
    (h <- (if first then toc_head t else ret []);;
     l <- (if it_hyperlink (ti_instr t) then b_link (Anchor (ti_key t)) None (toc_line t) else toc_line t);;
     ret (h ++ l)).
Definition toc_last (t : toc_item) : M (list xml) :=
  b_new_para (PPr (toc_style (ti_level t)) None) (b_simple_run [NFieldChar FieldCharType_End false]).
Fixpoint toc_entries (first : bool) (l : list toc_item) : M (list xml) :=
  match l with
  | [] => ret []
  | t :: r =>
      a <- toc_entry first t;;
      b <- match r with [] => toc_last t | _ => toc_entries false r end;;
      ret (a ++ b)
  end.
Definition b_items (l : list toc_item) : M (list xml) :=
  c <- toc_entries true l;; ret [E "w:sdt" [] [leaf "w:sdtPr" []; E "w:sdtContent" [] c]].
(** table_of_contents.rs:263-275 *)
Definition item_for (d : toc_data) (t : toc_item) : toc_item :=
  {| ti_instr := td_instr d; ti_text := ti_text t; ti_key := ti_key t; ti_level := ti_level t; ti_dirty := td_dirty d;
     ti_page := match ti_page t with Some s => Some s | None => td_page_placeholder d end |}.
(** table_of_contents.rs:197-219: the paragraph that opens the field *)
Definition toc_open (d : toc_data) : M (list xml) :=
  let p := match td_ppr d with Some p => p | None => ppr_empty end in
  match td_delete d with
  | Some m => b_new_para p (b_tracked "w:del" m
      (b_simple_run [NFieldChar FieldCharType_Begin true; NDelInstr (ITOC (td_instr d)); NFieldChar FieldCharType_Separate false]))
  | None => b_new_para p
      (b_simple_run [NFieldChar FieldCharType_Begin true; NInstr (ITOC (td_instr d)); NFieldChar FieldCharType_Separate false])
  end.
Definition end_run : M (list xml) := b_simple_run [NFieldChar FieldCharType_End false].
Definition empty_line : M (list xml) := b_new_para ppr_empty (b_simple_run [NText (escape "")]).
(** table_of_contents.rs:166-185, 257-261, 279-284, 315-318 *)
Definition in_sdt (d : toc_data) (inner : M (list xml)) : M (list xml) :=
  if td_without_sdt d then inner
  else p <- b_sdtpr {| sd_rpr := rpr_empty; sd_binding := None; sd_alias := td_alias d |};;
       c <- inner;; ret [E "w:sdt" [] (p ++ [E "w:sdtContent" [] c])].

(** ** The tree *)
Fixpoint b_node (n : node) : M (list xml) :=
  match n with
  | NRun p ch => b_run p (each b_node ch)
  | NIns m ch => b_tracked "w:ins" m (each b_node ch)
  | NDel m ch => b_tracked "w:del" m (each b_node ch)
  | NMoveFrom m ch => b_tracked "w:moveFrom" m (each b_node ch)
  | NMoveTo m ch => b_tracked "w:moveTo" m (each b_node ch)
  | NLink l h ch => b_link l h (each b_node ch)
  (* structured_data_tag.rs:156-170 *)
  | NSdt p _ ch => r <- b_sdtpr p;; c <- each b_node ch;; ret [E "w:sdt" [] (r ++ [E "w:sdtContent" [] c])]
  | NPageNum => b_simple_run (page_field IPAGE)
  | NNumPages => b_simple_run (page_field INUMPAGES)
  | NPara id p _ ch => b_para id p (each b_node ch)
  (* table.rs:128-142, table_grid.rs:17-28 *)
  | NTable p g _ rows =>
      c <- each b_node rows;;
      ret [E "w:tbl" [] (x_tblpr p :: E "w:tblGrid" [] (map (fun w => x_width "w:gridCol" (as_i32 w) WidthType_Dxa) g) :: c)]
  (* table_row.rs:91-103 *)
  | NRow p _ cells => r <- b_trpr p;; c <- each b_node cells;; ret [E "w:tr" [] (r ++ c)]
  (* table_cell.rs:156-181 *)
  | NCell p _ ch =>
      c <- each b_node ch;;
      e <- match ch with
           | [] => b_new_para ppr_empty (ret [])
           | [NTable _ _ _ _] => b_new_para ppr_empty (ret [])
           | _ => ret []
           end;;
      ret [E "w:tc" [] (x_tcpr p :: c ++ e)]
  (* table_of_contents.rs:166-320 *)
  | NToc d before after =>
      in_sdt d
        (match td_items d with
         | [] =>
             b <- each b_node before;;
             o <- toc_open d;;
             k <- take_para;;                              (* p2, made before it is known to be needed *)
             a <- match after with
                  | [] => b_para k ppr_empty end_run
                  | NPara id p _ ch :: r => x <- b_para id p (e <- end_run;; c <- each b_node ch;; ret (e ++ c));; y <- each b_node r;; ret (x ++ y)
                  | NTable _ _ _ _ :: _ => e <- empty_line;; c <- each b_node after;; ret (e ++ c)
                  | _ => each b_node after
                  end;;
             ret (b ++ o ++ a)
         | items =>
             b <- each b_node before;;
             i <- b_items (map (item_for d) items);;
             a <- match after with
                  | NTable _ _ _ _ :: _ => e <- empty_line;; c <- each b_node after;; ret (e ++ c)
                  | _ => each b_node after
                  end;;
             ret (b ++ i ++ a)
         end)
  (* section.rs:230-245 *)
  | NSection p _ _ ch =>
      i <- take_para;;
      c <- each b_node ch;;
      ret (c ++ [E "w:p" [("w14:paraId", i)] [E "w:pPr" [] [x_sectpr p]]])
  | NPart _ _ _ _ => ret []                                (* a part of its own, see [b_part] *)
  | _ => match b_leaf n with Some m => m | None => ret [] end
  end.
Definition b_nodes : list node -> M (list xml) := each b_node.

(** ** Parts *)
(** xml_builder/declaration.rs *)
Definition decl : call := CDecl "1.0" (Some "UTF-8") (Some true).
Definition ns_r := ("xmlns:r", "http://schemas.openxmlformats.org/officeDocument/2006/relationships").
Definition ns_o := ("xmlns:o", "urn:schemas-microsoft-com:office:office").
Definition ns_v := ("xmlns:v", "urn:schemas-microsoft-com:vml").
Definition ns_w := ("xmlns:w", "http://schemas.openxmlformats.org/wordprocessingml/2006/main").
Definition ns_w10 := ("xmlns:w10", "urn:schemas-microsoft-com:office:word").
Definition ns_wp := ("xmlns:wp", "http://schemas.openxmlformats.org/drawingml/2006/wordprocessingDrawing").
Definition ns_wps := ("xmlns:wps", "http://schemas.microsoft.com/office/word/2010/wordprocessingShape").
Definition ns_wpg := ("xmlns:wpg", "http://schemas.microsoft.com/office/word/2010/wordprocessingGroup").
Definition ns_mc := ("xmlns:mc", "http://schemas.openxmlformats.org/markup-compatibility/2006").
Definition ns_wp14 := ("xmlns:wp14", "http://schemas.microsoft.com/office/word/2010/wordprocessingDrawing").
Definition ns_w14 := ("xmlns:w14", "http://schemas.microsoft.com/office/word/2010/wordml").
Definition ns_w15 := ("xmlns:w15", "http://schemas.microsoft.com/office/word/2012/wordml").
(** xml_builder/document.rs:9-52, header.rs, footer.rs, comments.rs *)
Definition document_attrs := [ns_o; ns_r; ns_v; ns_w; ns_w10; ns_wp; ns_wps; ns_wpg; ns_mc; ns_wp14; ns_w14; ns_w15; ("mc:Ignorable", "w14 wp14")].
Definition part_attrs := [ns_r; ns_o; ns_v; ns_w; ns_w10; ns_wp; ns_wps; ns_wpg; ns_mc; ns_wp14; ns_w14; ("mc:Ignorable", "w14 wp14")].
Definition comments_attrs := [ns_o; ns_r; ns_v; ns_w; ns_w10; ns_wp; ns_wps; ns_wpg; ns_mc; ns_wp14; ns_w14; ("mc:Ignorable", "w14 wp14")].
(** xml_builder/footnotes.rs *)
Definition footnotes_attrs := [
  ("xmlns:wpc", "http://schemas.microsoft.com/office/word/2010/wordprocessingCanvas");
  ("xmlns:cx", "http://schemas.microsoft.com/office/drawing/2014/chartex");
  ("xmlns:cx1", "http://schemas.microsoft.com/office/drawing/2015/9/8/chartex");
  ("xmlns:cx2", "http://schemas.microsoft.com/office/drawing/2015/10/21/chartex");
  ("xmlns:cx3", "http://schemas.microsoft.com/office/drawing/2016/5/9/chartex");
  ("xmlns:cx4", "http://schemas.microsoft.com/office/drawing/2016/5/10/chartex");
  ("xmlns:cx5", "http://schemas.microsoft.com/office/drawing/2016/5/11/chartex");
  ("xmlns:cx6", "http://schemas.microsoft.com/office/drawing/2016/5/12/chartex");
  ("xmlns:cx7", "http://schemas.microsoft.com/office/drawing/2016/5/13/chartex");
  ("xmlns:cx8", "http://schemas.microsoft.com/office/drawing/2016/5/14/chartex");
  ns_mc;
  ("xmlns:aink", "http://schemas.microsoft.com/office/drawing/2016/ink");
  ("xmlns:am3d", "http://schemas.microsoft.com/office/drawing/2017/model3d");
  ns_o;
  ("xmlns:oel", "http://schemas.microsoft.com/office/2019/extlst");
  ns_r;
  ("xmlns:m", "http://schemas.openxmlformats.org/officeDocument/2006/math");
  ns_v; ns_wp14; ns_wp; ns_w10; ns_w; ns_w14; ns_w15;
  ("xmlns:w16cex", "http://schemas.microsoft.com/office/word/2018/wordml/cex");
  ("xmlns:w16cid", "http://schemas.microsoft.com/office/word/2016/wordml/cid");
  ("xmlns:w16", "http://schemas.microsoft.com/office/word/2018/wordml");
  ("xmlns:w16du", "http://schemas.microsoft.com/office/word/2023/wordml/word16du");
  ("xmlns:w16sdtdh", "http://schemas.microsoft.com/office/word/2020/wordml/sdtdatahash");
  ("xmlns:w16se", "http://schemas.microsoft.com/office/word/2015/wordml/symex");
  ns_wpg;
  ("xmlns:wpi", "http://schemas.microsoft.com/office/word/2010/wordprocessingInk");
  ("xmlns:wne", "http://schemas.microsoft.com/office/word/2006/wordml");
  ns_wps;
  ("mc:Ignorable", "w14 w15 w16se w16cid w16 w16cex w16sdtdh w16du wp14")].

(** document.rs:331-346 *)
Definition b_document (body : list node) (p : sectpr) : M xml :=
  c <- b_nodes body;; ret (E "w:document" document_attrs [E "w:body" [] (c ++ [x_sectpr p])]).
(** header.rs:83-99, footer.rs:83-99 *)
Definition part_root (s : slot) : string := match s with HDefault | HFirst | HEven => "w:hdr" | FDefault | FFirst | FEven => "w:ftr" end.
Definition b_part (n : node) : M xml :=
  match n with
  | NPart s _ _ ch => c <- b_nodes ch;; ret (E (part_root s) part_attrs c)
  | _ => panic                                             (* not a header or footer *)
  end.
(** comment.rs:108-119 and comments.rs:32-44 *)
Definition b_comment (c : comment_data * list node) : M (list xml) :=
  ch <- b_nodes (snd c);;
  ret [E "w:comment" [("w:id", show_N (cd_id (fst c))); ("w:author", cd_author (fst c)); ("w:date", cd_date (fst c)); ("w:initials", "")] ch].
Definition b_comments (l : list (comment_data * list node)) : M xml :=
  c <- each b_comment l;; ret (E "w:comments" comments_attrs c).
(** footnote.rs:50-68 and footnotes.rs:24-36 *)
Definition b_footnote (f : N * list node) : M (list xml) :=
  c <- match snd f with [] => b_new_para ppr_empty (ret []) | ch => b_nodes ch end;;
  ret [E "w:footnote" [("w:id", show_N (fst f))] c].
Definition b_footnotes (l : list (N * list node)) : M xml :=
  c <- each b_footnote l;; ret (E "w:footnotes" footnotes_attrs c).
(** The calls for a part that begins with a declaration. *)
Definition part_calls (x : xml) : list call := decl :: xcalls x.

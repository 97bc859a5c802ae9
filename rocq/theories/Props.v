(** The property records a document carries, as plain data.  Every record lists
    the fields of the Rust struct it models, in the order of the struct.  Numbers
    of type usize/u32 are [N], of type i32/isize are [Z]; range restrictions are
    stated where they matter. *)
From Coq Require Import NArith ZArith List.
From Verif Require Import Str TypesModel.
Import ListNotations.

(** Author and date of a tracked change: [Insert]/[Delete] when used as a mark in
    a property (elements/insert.rs:9-13, delete.rs:9-13).  Simplification: the
    runs such a mark could carry are not modelled; every setter in the crate
    creates it without runs (paragraph.rs:375-383). *)
Record mark := { m_author : string; m_date : string }.

(** elements/color.rs:28-36 *)
Record color := { c_val : string; c_theme : option string; c_shade : option string; c_tint : option string }.
(** elements/fit_text.rs:8-12 *)
Record fit_text := { ft_val : N; ft_id : option N }.
(** elements/run_fonts.rs:18-37 *)
Record fonts := {
  f_ascii : option string; f_hi_ansi : option string; f_east_asia : option string; f_cs : option string;
  f_ascii_theme : option string; f_hi_ansi_theme : option string; f_east_asia_theme : option string;
  f_cs_theme : option string; f_hint : option string }.
(** elements/text_border.rs:10-15 *)
Record text_border := { tb_type : BorderType; tb_size : N; tb_color : string; tb_space : N }.
(** elements/positional_tab.rs:12-16 *)
Record ptab := { pt_alignment : PositionalTabAlignmentType; pt_relative : PositionalTabRelativeTo; pt_leader : TabLeaderType }.
(** elements/shading.rs:11-15 *)
Record shading := { sh_type : ShdType; sh_color : string; sh_fill : string }.

(** elements/run_property.rs:11-62.  [Vanish]/[SpecVanish] carry no data
    (vanish.rs:8, spec_vanish.rs:8) and become booleans. *)
Record rpr := {
  r_style : option string; r_sz : option N; r_sz_cs : option N; r_color : option color;
  r_highlight : option string; r_vert : option VertAlignType; r_underline : option string;
  r_bold : option bool; r_bold_cs : option bool; r_caps : option bool; r_italic : option bool;
  r_italic_cs : option bool; r_vanish : bool; r_spec_vanish : bool; r_spacing : option Z;
  r_fit : option fit_text; r_stretch : option Z; r_fonts : option fonts; r_border : option text_border;
  r_del : option mark; r_ins : option mark; r_strike : option bool; r_dstrike : option bool;
  r_ptab : option ptab; r_shading : option shading }.

(** [RunProperty::new], run_property.rs:65-67 (derived Default: every field None). *)
Definition rpr_empty : rpr := {|
  r_style := None; r_sz := None; r_sz_cs := None; r_color := None; r_highlight := None; r_vert := None;
  r_underline := None; r_bold := None; r_bold_cs := None; r_caps := None; r_italic := None;
  r_italic_cs := None; r_vanish := false; r_spec_vanish := false; r_spacing := None; r_fit := None;
  r_stretch := None; r_fonts := None; r_border := None; r_del := None; r_ins := None; r_strike := None;
  r_dstrike := None; r_ptab := None; r_shading := None |}.

(** types/special_indent_type.rs *)
Inductive special_indent := FirstLine (v : Z) | Hanging (v : Z).
(** elements/indent.rs:10-18 *)
Record indent := {
  i_start : option Z; i_end : option Z; i_special : option special_indent; i_start_chars : option Z;
  i_hanging_chars : option Z; i_first_line_chars : option Z }.
(** elements/line_spacing.rs:10-23 *)
Record line_spacing := {
  ls_rule : option LineSpacingType; ls_before : option N; ls_after : option N;
  ls_before_lines : option N; ls_after_lines : option N; ls_line : option Z }.
(** elements/numbering_property.rs:10-13 *)
Record numpr := { n_id : option N; n_level : option N }.
(** elements/tab.rs:11-15 *)
Record tab := { t_val : option TabValueType; t_leader : option TabLeaderType; t_pos : option N }.
(** elements/paragraph_borders.rs:10-21, without the position, which is fixed by the field. *)
Record pborder := { pb_val : BorderType; pb_size : N; pb_space : N; pb_color : string }.
(** elements/paragraph_borders.rs:108-115.  Simplification: the position stored
    in a border equals the field it is stored in, which [set] (146-156) ensures. *)
Record pborders := {
  pb_left : option pborder; pb_right : option pborder; pb_top : option pborder;
  pb_bottom : option pborder; pb_between : option pborder; pb_bar : option pborder }.
(** elements/frame_property.rs:12-55 *)
Record framepr := {
  fr_h : option N; fr_h_rule : option string; fr_h_anchor : option string; fr_h_space : option Z;
  fr_v_anchor : option string; fr_v_space : option Z; fr_w : option N; fr_wrap : option string;
  fr_x : option Z; fr_x_align : option string; fr_y : option Z; fr_y_align : option string }.

(** elements/page_size.rs:10-14, page_margin in types/page_margin.rs, doc_grid.rs:10-14,
    page_num_type.rs:10-15, header_reference.rs:9-12 *)
Record page_size := { pg_w : N; pg_h : N; pg_orient : option PageOrientationType }.
Record page_margin := { mg_top : Z; mg_left : Z; mg_bottom : Z; mg_right : Z; mg_header : Z; mg_footer : Z; mg_gutter : Z }.
Record doc_grid := { dg_type : DocGridType; dg_line_pitch : option N; dg_char_space : option Z }.
Record page_num_type := { pn_start : option N; pn_chap_style : option string }.
Record part_ref := { pr_type : string; pr_id : string }.
(** elements/section_property.rs:12-49, without the header and footer contents,
    which live in the tree (Ast.v). *)
Record sectpr := {
  sp_size : page_size; sp_margin : page_margin; sp_columns : N; sp_space : N; sp_title_pg : bool;
  sp_text_direction : string; sp_doc_grid : option doc_grid;
  sp_header : option part_ref; sp_first_header : option part_ref; sp_even_header : option part_ref;
  sp_footer : option part_ref; sp_first_footer : option part_ref; sp_even_footer : option part_ref;
  sp_type : option SectionType; sp_page_num : option page_num_type }.
(** [SectionProperty::default], section_property.rs:190-218; page_size.rs:18-26;
    page_margin.rs:8-20. *)
Definition sectpr_default : sectpr := {|
  sp_size := {| pg_w := 11906; pg_h := 16838; pg_orient := None |};
  sp_margin := {| mg_top := 1985; mg_left := 1701; mg_bottom := 1701; mg_right := 1701; mg_header := 851;
                  mg_footer := 992; mg_gutter := 0 |};
  sp_columns := 1; sp_space := 425; sp_title_pg := false; sp_text_direction := "lrTb"; sp_doc_grid := None;
  sp_header := None; sp_first_header := None; sp_even_header := None;
  sp_footer := None; sp_first_footer := None; sp_even_footer := None;
  sp_type := None; sp_page_num := None |}.

(** elements/paragraph_property.rs:12-56 without [paragraph_property_change]
    (kept in [ppr] below, it is recursive).  Simplification: a section property
    inside a paragraph property carries no header or footer contents. *)
Record ppr_base := {
  p_rpr : rpr; p_style : option string; p_numbering : option numpr; p_alignment : option string;
  p_indent : option indent; p_spacing : option line_spacing; p_keep_next : option bool;
  p_keep_lines : option bool; p_bidi : option bool; p_page_break_before : option bool;
  p_widow_control : option bool; p_outline : option N; p_section : option sectpr; p_tabs : list tab;
  p_borders : option pborders; p_frame : option framepr; p_text_alignment : option TextAlignmentType;
  p_adjust_right_ind : option Z; p_snap_to_grid : option bool; p_shading : option shading;
  p_div_id : option string }.
(** elements/paragraph_property.rs:12-56 and paragraph_property_change.rs:10-14
    (author, date, boxed property). *)
Inductive ppr := PPr (base : ppr_base) (change : option ppr_change)
with ppr_change := PChange (author date : string) (prop : ppr).
Definition ppr_base_empty : ppr_base := {|
  p_rpr := rpr_empty; p_style := None; p_numbering := None; p_alignment := None; p_indent := None;
  p_spacing := None; p_keep_next := None; p_keep_lines := None; p_bidi := None; p_page_break_before := None;
  p_widow_control := None; p_outline := None; p_section := None; p_tabs := []; p_borders := None;
  p_frame := None; p_text_alignment := None; p_adjust_right_ind := None; p_snap_to_grid := None;
  p_shading := None; p_div_id := None |}.
(** [ParagraphProperty::new], paragraph_property.rs:59-61. *)
Definition ppr_empty : ppr := PPr ppr_base_empty None.
Definition base_of (p : ppr) : ppr_base := match p with PPr b _ => b end.

(** elements/table_borders.rs:22-28 and table_cell_borders.rs:24-30, without the
    position, which is fixed by the field. *)
Record border := { b_type : BorderType; b_size : N; b_color : string; b_space : N }.
(** elements/table_borders.rs:79-86 *)
Record tborders := {
  tbs_top : option border; tbs_left : option border; tbs_bottom : option border; tbs_right : option border;
  tbs_inside_h : option border; tbs_inside_v : option border }.
(** elements/table_cell_borders.rs:96-105 *)
Record cborders := {
  cb_top : option border; cb_left : option border; cb_bottom : option border; cb_right : option border;
  cb_inside_h : option border; cb_inside_v : option border; cb_tr2bl : option border; cb_tl2br : option border }.
(** elements/cell_margins.rs:10-13; 32-41; table_cell_margins.rs:11-16 *)
Definition width : Type := (N * WidthType)%type.
Record cmargins := { cm_top : option width; cm_left : option width; cm_bottom : option width; cm_right : option width }.
Record tmargins := { tm_top : width; tm_left : width; tm_bottom : width; tm_right : width }.
(** elements/table_position_property.rs:11-28 *)
Record tposition := {
  tp_left : option Z; tp_right : option Z; tp_vert_anchor : option string; tp_horz_anchor : option string;
  tp_x_spec : option string; tp_y_spec : option string; tp_x : option Z; tp_y : option Z }.
(** elements/table_property.rs:14-28; table_width.rs:10-13, table_indent.rs:10-13,
    table_style.rs:8-10, table_layout.rs:9-11, justification.rs:16-18 *)
Record tblpr := {
  tpr_width : width; tpr_jc : string; tpr_borders : tborders; tpr_margins : option tmargins;
  tpr_indent : option (Z * WidthType); tpr_style : option string; tpr_layout : option TableLayoutType;
  tpr_position : option tposition }.
Definition border_new : border :=
  {| b_type := BorderType_Single; b_size := 2; b_color := "000000"; b_space := 0 |}.
(** [TableProperty::default], table_property.rs:30-43, [TableBorders::default],
    table_borders.rs:88-99 *)
Definition tblpr_default : tblpr := {|
  tpr_width := (0%N, WidthType_Auto); tpr_jc := "left";
  tpr_borders := {| tbs_top := Some border_new; tbs_left := Some border_new; tbs_bottom := Some border_new;
                    tbs_right := Some border_new; tbs_inside_h := Some border_new; tbs_inside_v := Some border_new |};
  tpr_margins := None; tpr_indent := None; tpr_style := None; tpr_layout := None; tpr_position := None |}.
(** elements/table_row_property.rs:10-25.  Simplification: the f32 fields are
    whole numbers (Rust prints an integral f32 below 2^24 without a fraction). *)
Record trpr := {
  tr_grid_after : option N; tr_width_after : option N; tr_grid_before : option N; tr_width_before : option N;
  tr_height : option N; tr_rule : option HeightRule; tr_del : option mark; tr_ins : option mark;
  tr_cant_split : bool }.
Definition trpr_empty : trpr := {|
  tr_grid_after := None; tr_width_after := None; tr_grid_before := None; tr_width_before := None;
  tr_height := None; tr_rule := None; tr_del := None; tr_ins := None; tr_cant_split := false |}.
(** elements/table_cell_property.rs:14-24 *)
Record tcpr := {
  tc_width : option width; tc_borders : option cborders; tc_grid_span : option N; tc_vmerge : option VMergeType;
  tc_valign : option VAlignType; tc_text_direction : option TextDirectionType; tc_shading : option shading;
  tc_margins : option cmargins }.
Definition tcpr_empty : tcpr := {|
  tc_width := None; tc_borders := None; tc_grid_span := None; tc_vmerge := None; tc_valign := None;
  tc_text_direction := None; tc_shading := None; tc_margins := None |}.

(** elements/data_binding.rs:8-12; structured_data_tag_property.rs:11-15 *)
Record data_binding := { db_xpath : option string; db_prefix : option string; db_store : option string }.
Record sdtpr := { sd_rpr : rpr; sd_binding : option data_binding; sd_alias : option string }.
Definition sdtpr_empty : sdtpr := {| sd_rpr := rpr_empty; sd_binding := None; sd_alias := None |}.

(** elements/instr_toc.rs:22-71 *)
Record instr_toc := {
  it_heading : option (N * N); it_tc_level : option (N * N); it_omit_page : option (N * N);
  it_bookmark : option string; it_styles : list (string * N); it_entry_sep : option string;
  it_seq_sep : option string; it_caption : option string; it_caption_numbers : option string;
  it_seq_prefix : option string; it_tc_id : option (option string); it_hyperlink : bool;
  it_preserve_tab : bool; it_preserve_nl : bool; it_line_level : bool; it_hide_web : bool }.
(** [InstrToC::default] (derived). *)
Definition instr_toc_empty : instr_toc := {|
  it_heading := None; it_tc_level := None; it_omit_page := None; it_bookmark := None; it_styles := [];
  it_entry_sep := None; it_seq_sep := None; it_caption := None; it_caption_numbers := None;
  it_seq_prefix := None; it_tc_id := None; it_hyperlink := false; it_preserve_tab := false;
  it_preserve_nl := false; it_line_level := false; it_hide_web := false |}.
(** elements/instr_text.rs:9-17, instr_tc.rs:11-18, instr_pageref.rs:10-14,
    instr_hyperlink.rs:8-12 *)
Inductive instr :=
| ITOC (t : instr_toc)
| ITC (text : string) (omit : bool) (level : option N) (item : option string)
| IPAGE
| INUMPAGES
| IPAGEREF (key : string) (hyperlink relative : bool)
| IHYPERLINK (target : string) (anchor : bool)
| IUnsupported (s : string).

(** types/drawing_position.rs, elements/pic.rs:12-50 *)
Inductive drawing_position := Offset (x : Z) | Align (a : PicAlign).
Record pic := {
  pic_id : string; pic_image : string; pic_size : N * N; pic_anchor : bool; pic_simple_pos : bool;
  pic_simple_x : Z; pic_simple_y : Z; pic_layout_in_cell : bool; pic_relative_height : N;
  pic_overlap : bool; pic_h : drawing_position; pic_v : drawing_position;
  pic_from_h : RelativeFromHType; pic_from_v : RelativeFromVType;
  pic_dist_t : Z; pic_dist_b : Z; pic_dist_l : Z; pic_dist_r : Z; pic_rot : N }.

(** elements/table_of_contents_item.rs:9-16; table_of_contents.rs:24-66 without the
    before/after contents, which live in the tree *)
Record toc_item := {
  ti_instr : instr_toc; ti_text : string; ti_key : string; ti_level : N; ti_dirty : bool; ti_page : option string }.
Record toc_data := {
  td_instr : instr_toc; td_items : list toc_item; td_auto : bool; td_dirty : bool; td_without_sdt : bool;
  td_alias : option string; td_page_placeholder : option string; td_delete : option mark;
  td_ppr : option ppr }.
(** elements/comment.rs:10-16, without the children *)
Record comment_data := { cd_id : N; cd_author : string; cd_date : string; cd_parent : option N }.
(** elements/hyperlink.rs:13-32 *)
Inductive link := External (rid path : string) | Anchor (name : string).

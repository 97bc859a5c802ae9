(** The calls that set properties of runs, paragraphs, tables, rows and cells.  The methods
    of the element itself (run.rs:263-376, paragraph.rs:251-576, table.rs:72-125,
    table_row.rs:45-88, table_cell.rs:93-141) pass their arguments on to the methods of its
    property record modelled here.  Paths are below docx-core/src/documents/elements. *)
From Coq Require Import NArith ZArith List.
From Verif Require Import Str EscapeModel TypesModel Props PropsSet.
Import ListNotations.

(** ** Runs: run_property.rs *)
Inductive run_call :=
| RStyle (s : string)                        (* 69-72; run_style.rs:22-26 *)
| RSize (n : N)                              (* 74-78 *)
| RSpacing (z : Z)                           (* 80-83, 195-198 *)
| RColor (s : string)                        (* 85-88; color.rs:40-47 *)
| RThemeColor (s : string)                   (* 94-98; the token of the theme color *)
| RThemeShade (s : string)                   (* 101-105 *)
| RThemeTint (s : string)                    (* 108-112 *)
| RHighlight (s : string)                    (* 114-117 *)
| RVertAlign (t : VertAlignType)             (* 119-122 *)
| RBold | RNoBold                            (* 124-128, 130-134 *)
| RCaps                                      (* 136-139 *)
| RItalic | RNoItalic                        (* 141-145, 169-173 *)
| RStrike | RNoStrike                        (* 147-151, 153-156 *)
| RDstrike | RNoDstrike                      (* 158-162, 164-167 *)
| RUnderline (s : string)                    (* 175-178 *)
| RVanish | RSpecVanish                      (* 180-183, 185-188 *)
| RFonts (f : fonts)                         (* 190-193 *)
| RStretch (z : Z)                           (* 200-203 *)
| RFitText (n : N) (id : option N)           (* 205-212 *)
| RTextBorder (b : text_border)              (* 214-217 *)
| RDelete (m : mark) | RInsert (m : mark)    (* 219-222, 224-227 *)
| RPTab (t : ptab)                           (* 229-232 *)
| RShading (s : shading).                    (* 234-237 *)
(** color.rs:40-47 *)
Definition color_new (s : string) : color := {| c_val := s; c_theme := None; c_shade := None; c_tint := None |}.
(** [self.color.take().unwrap_or_else(|| Color::new("auto"))], run_property.rs:95, 102, 109 *)
Definition color_or_auto (p : rpr) : color := match r_color p with Some c => c | None => color_new "auto" end.
Definition on_run (c : run_call) (p : rpr) : rpr :=
  match c with
  | RStyle s => set_r_style (Some (escape_owned s)) p
  | RSize n => set_r_sz_cs (Some n) (set_r_sz (Some n) p)
  | RSpacing z => set_r_spacing (Some z) p
  | RColor s => set_r_color (Some (color_new s)) p
  | RThemeColor s => set_r_color (Some (set_c_theme (Some s) (color_or_auto p))) p
  | RThemeShade s => set_r_color (Some (set_c_shade (Some s) (color_or_auto p))) p
  | RThemeTint s => set_r_color (Some (set_c_tint (Some s) (color_or_auto p))) p
  | RHighlight s => set_r_highlight (Some s) p
  | RVertAlign t => set_r_vert (Some t) p
  | RBold => set_r_bold_cs (Some true) (set_r_bold (Some true) p)
  | RNoBold => set_r_bold_cs (Some false) (set_r_bold (Some false) p)
  | RCaps => set_r_caps (Some true) p
  | RItalic => set_r_italic_cs (Some true) (set_r_italic (Some true) p)
  | RNoItalic => set_r_italic_cs (Some false) (set_r_italic (Some false) p)
  | RStrike => set_r_dstrike None (set_r_strike (Some true) p)
  | RNoStrike => set_r_strike (Some false) p
  | RDstrike => set_r_strike None (set_r_dstrike (Some true) p)
  | RNoDstrike => set_r_dstrike (Some false) p
  | RUnderline s => set_r_underline (Some s) p
  | RVanish => set_r_vanish true p
  | RSpecVanish => set_r_spec_vanish true p
  | RFonts f => set_r_fonts (Some f) p
  | RStretch z => set_r_stretch (Some z) p
  | RFitText n id => set_r_fit (Some {| ft_val := n; ft_id := id |}) p
  | RTextBorder b => set_r_border (Some b) p
  | RDelete m => set_r_del (Some m) p
  | RInsert m => set_r_ins (Some m) p
  | RPTab t => set_r_ptab (Some t) p
  | RShading s => set_r_shading (Some s) p
  end.
(** run_fonts.rs:44-87 *)
Inductive font_call :=
| FAscii (s : string) | FHiAnsi (s : string) | FEastAsia (s : string) | FCs (s : string) | FAsciiTheme (s : string)
| FHiAnsiTheme (s : string) | FEastAsiaTheme (s : string) | FCsTheme (s : string) | FHint (s : string).
Definition on_fonts (c : font_call) (f : fonts) : fonts :=
  match c with
  | FAscii s => set_f_ascii (Some (escape_owned s)) f
  | FHiAnsi s => set_f_hi_ansi (Some (escape_owned s)) f
  | FEastAsia s => set_f_east_asia (Some (escape_owned s)) f
  | FCs s => set_f_cs (Some (escape_owned s)) f
  | FAsciiTheme s => set_f_ascii_theme (Some (escape_owned s)) f
  | FHiAnsiTheme s => set_f_hi_ansi_theme (Some (escape_owned s)) f
  | FEastAsiaTheme s => set_f_east_asia_theme (Some (escape_owned s)) f
  | FCsTheme s => set_f_cs_theme (Some (escape_owned s)) f
  | FHint s => set_f_hint (Some (escape_owned s)) f
  end.
(** line_spacing.rs:30-58 *)
Inductive spacing_call :=
| SRule (t : LineSpacingType) | SBefore (n : N) | SAfter (n : N) | SBeforeLines (n : N) | SAfterLines (n : N) | SLine (z : Z).
Definition on_spacing (c : spacing_call) (l : line_spacing) : line_spacing :=
  match c with
  | SRule t => set_ls_rule (Some t) l
  | SBefore n => set_ls_before (Some n) l
  | SAfter n => set_ls_after (Some n) l
  | SBeforeLines n => set_ls_before_lines (Some n) l
  | SAfterLines n => set_ls_after_lines (Some n) l
  | SLine z => set_ls_line (Some z) l
  end.

(** ** Paragraphs: paragraph_property.rs, paragraph_borders.rs *)
Inductive pside := PLeft | PRight | PTop | PBottom | PBetween | PBar.
(** paragraph_borders.rs:24-37, 38-41 *)
Definition pborder_of (t : BorderType) : pborder := {| pb_val := t; pb_size := 2; pb_space := 0; pb_color := "auto" |}.
(** [Default], paragraph_borders.rs:117-128 *)
Definition pborders_default : pborders :=
  let single := Some (pborder_of BorderType_Single) in
  {| pb_left := single; pb_right := single; pb_top := single; pb_bottom := single; pb_between := None; pb_bar := None |}.
(** paragraph_borders.rs:146-156 *)
Definition pborders_set (s : pside) (b : pborder) (x : pborders) : pborders :=
  match s with
  | PTop => set_pb_top (Some b) x | PLeft => set_pb_left (Some b) x | PBottom => set_pb_bottom (Some b) x
  | PRight => set_pb_right (Some b) x | PBetween => set_pb_between (Some b) x | PBar => set_pb_bar (Some b) x
  end.
(** paragraph_borders.rs:171-184 *)
Definition pborders_cleared : pborders :=
  let nil := Some (pborder_of BorderType_Nil) in
  {| pb_left := nil; pb_right := nil; pb_top := nil; pb_bottom := nil; pb_between := nil; pb_bar := nil |}.
(** [FrameProperty::default], frame_property.rs:8-55 *)
Definition frame_empty : framepr := {|
  fr_h := None; fr_h_rule := None; fr_h_anchor := None; fr_h_space := None; fr_v_anchor := None; fr_v_space := None; fr_w := None; fr_wrap := None;
  fr_x := None; fr_x_align := None; fr_y := None; fr_y_align := None |}.
(** What the calls of paragraph.rs:481-576 set, each in the frame there is or in a new one. *)
Inductive frame_call :=
| FWrap (s : string) | FVAnchor (s : string) | FHAnchor (s : string) | FHRule (s : string) | FXAlign (s : string) | FYAlign (s : string)
| FHSpace (z : Z) | FVSpace (z : Z) | FX (z : Z) | FY (z : Z) | FWidth (n : N) | FHeight (n : N).
Definition on_frame (c : frame_call) (f : framepr) : framepr :=
  match c with
  | FWrap s => set_fr_wrap (Some s) f | FVAnchor s => set_fr_v_anchor (Some s) f | FHAnchor s => set_fr_h_anchor (Some s) f
  | FHRule s => set_fr_h_rule (Some s) f | FXAlign s => set_fr_x_align (Some s) f | FYAlign s => set_fr_y_align (Some s) f
  | FHSpace z => set_fr_h_space (Some z) f | FVSpace z => set_fr_v_space (Some z) f | FX z => set_fr_x (Some z) f | FY z => set_fr_y (Some z) f
  | FWidth n => set_fr_w (Some n) f | FHeight n => set_fr_h (Some n) f
  end.
Inductive para_call :=
| PAlign (t : AlignmentType)                            (* 68-71 *)
| PStyle (s : string)                                   (* 73-76; paragraph_style.rs:28-36 *)
| PIndent (start : option Z) (special : option special_indent) (end_ start_chars : option Z) (* 78-87; indent.rs:22-38 *)
| PNumbering (id level : N)                             (* 89-92 *)
| PNumberingProperty (n : numpr)                        (* 94-97 *)
| PLineSpacing (l : line_spacing)                       (* 99-102 *)
| PSnapToGrid (v : bool)                                (* 109-112 *)
| PShading (s : shading)                                (* 114-117 *)
| PKeepNext (v : bool) | PKeepLines (v : bool)          (* 119-122, 124-127 *)
| POutline (n : N)                                      (* 129-137 *)
| PPageBreakBefore (v : bool) | PBidi (v : bool) | PWidowControl (v : bool) (* 139-142, 143-146, 147-150 *)
| PAddTab (t : tab)                                     (* 152-155 *)
| PSection (s : sectpr)                                 (* 157-160 *)
| PChanged (author date : string) (p : ppr)             (* 162-165 *)
| PFrameProperty (f : framepr)                          (* 167-170 *)
| PRunProperty (p : rpr)                                (* 172-175; paragraph.rs:360-363 *)
| PTextAlignment (t : TextAlignmentType)                (* 177-180 *)
| PAdjustRightInd (z : Z)                               (* 182-185 *)
| PHangingChars (z : Z) | PFirstLineChars (z : Z)       (* 187-192, 194-199 *)
| PSetBorders (b : pborders)                            (* 201-204 *)
| PSetBorder (s : pside) (b : pborder)                  (* 206-209 *)
| PClearBorder (s : pside)                              (* 211-214; paragraph_borders.rs:158-169 *)
| PClearBorders                                         (* 216-219 *)
| PRun (c : run_call)                                   (* 104-107; paragraph.rs:335-358, 375-383: calls on its run property *)
| PFrame (c : frame_call).                              (* paragraph.rs:481-576 *)
(** [unwrap_or_default] *)
Definition borders_of (b : ppr_base) : pborders := match p_borders b with Some x => x | None => pborders_default end.
Definition frame_of (b : ppr_base) : framepr := match p_frame b with Some f => f | None => frame_empty end.
Definition on_base (c : para_call) (b : ppr_base) : ppr_base :=
  match c with
  | PAlign t => set_p_alignment (Some (show_AlignmentType t)) b
  | PStyle s => set_p_style (Some (escape_owned s)) b
  | PIndent l sp e sc =>
      set_p_indent (Some {| i_start := l; i_end := e; i_special := sp; i_start_chars := sc; i_hanging_chars := None; i_first_line_chars := None |}) b
  | PNumbering id level => set_p_numbering (Some {| n_id := Some id; n_level := Some level |}) b
  | PNumberingProperty n => set_p_numbering (Some n) b
  | PLineSpacing l => set_p_spacing (Some l) b
  | PSnapToGrid v => set_p_snap_to_grid (Some v) b
  | PShading s => set_p_shading (Some s) b
  | PKeepNext v => set_p_keep_next (Some v) b
  | PKeepLines v => set_p_keep_lines (Some v) b
  | POutline n => set_p_outline (Some (if (10 <=? n)%N then 9%N else n)) b
  | PPageBreakBefore v => set_p_page_break_before (Some v) b
  | PBidi v => set_p_bidi (Some v) b
  | PWidowControl v => set_p_widow_control (Some v) b
  | PAddTab t => set_p_tabs (p_tabs b ++ [t]) b
  | PSection s => set_p_section (Some s) b
  | PChanged _ _ _ => b
  | PFrameProperty f => set_p_frame (Some f) b
  | PRunProperty p => set_p_rpr p b
  | PTextAlignment t => set_p_text_alignment (Some t) b
  | PAdjustRightInd z => set_p_adjust_right_ind (Some z) b
  | PHangingChars z => match p_indent b with Some i => set_p_indent (Some (set_i_hanging_chars (Some z) i)) b | None => b end
  | PFirstLineChars z => match p_indent b with Some i => set_p_indent (Some (set_i_first_line_chars (Some z) i)) b | None => b end
  | PSetBorders x => set_p_borders (Some x) b
  | PSetBorder s x => set_p_borders (Some (pborders_set s x (borders_of b))) b
  | PClearBorder s => set_p_borders (Some (pborders_set s (pborder_of BorderType_Nil) (borders_of b))) b
  | PClearBorders => set_p_borders (Some pborders_cleared) b
  | PRun r => set_p_rpr (on_run r (p_rpr b)) b
  | PFrame f => set_p_frame (Some (on_frame f (frame_of b))) b
  end.
Definition on_para (c : para_call) (p : ppr) : ppr :=
  match p with
  | PPr b ch => PPr (on_base c b) (match c with PChanged a d q => Some (PChange a d q) | _ => ch end)
  end.

(** ** Tables: table_property.rs, table_borders.rs, table_cell_margins.rs *)
Inductive tside := TLeft | TRight | TTop | TBottom | TInsideH | TInsideV.
(** table_borders.rs:31-39, 51-54 *)
Definition border_of (t : BorderType) : border := {| b_type := t; b_size := 2; b_color := "000000"; b_space := 0 |}.
(** table_borders.rs:117-127 *)
Definition tborders_set (s : tside) (b : border) (x : tborders) : tborders :=
  match s with
  | TTop => set_tbs_top (Some b) x | TLeft => set_tbs_left (Some b) x | TBottom => set_tbs_bottom (Some b) x | TRight => set_tbs_right (Some b) x
  | TInsideH => set_tbs_inside_h (Some b) x | TInsideV => set_tbs_inside_v (Some b) x
  end.
(** table_borders.rs:142-155 *)
Definition tborders_cleared : tborders :=
  let nil := Some (border_of BorderType_Nil) in
  {| tbs_top := nil; tbs_left := nil; tbs_bottom := nil; tbs_right := nil; tbs_inside_h := nil; tbs_inside_v := nil |}.
(** [Default], table_cell_margins.rs:18-33, cell_margins.rs:22-29 *)
Definition tmargins_default : tmargins :=
  {| tm_top := (0%N, WidthType_Dxa); tm_left := (55%N, WidthType_Dxa); tm_bottom := (0%N, WidthType_Dxa); tm_right := (55%N, WidthType_Dxa) |}.
Inductive edge := ETop | ERight | EBottom | ELeft.
(** table_cell_margins.rs:49-67 *)
Definition tmargins_set (e : edge) (w : width) (m : tmargins) : tmargins :=
  match e with ETop => set_tm_top w m | ERight => set_tm_right w m | EBottom => set_tm_bottom w m | ELeft => set_tm_left w m end.
Inductive table_call :=
| TIndent (z : Z)                                       (* 57-60 *)
| TWidth (n : N) (t : WidthType)                        (* 62-65 *)
| TAlign (t : TableAlignmentType)                       (* 67-70 *)
| TMargins (m : tmargins)                               (* 72-75 *)
| TMargin (e : edge) (n : N) (t : WidthType)            (* 77-115 *)
| TSetBorders (b : tborders)                            (* 117-120 *)
| TSetBorder (s : tside) (b : border)                   (* 122-125 *)
| TClearBorder (s : tside)                              (* 127-130; table_borders.rs:129-140 *)
| TClearBorders                                         (* 132-135 *)
| TStyle (s : string)                                   (* 137-140; table_style.rs:13-15 *)
| TLayout (t : TableLayoutType)                         (* 142-145 *)
| TPosition (p : tposition).                            (* 147-150 *)
Definition on_table (c : table_call) (p : tblpr) : tblpr :=
  match c with
  | TIndent z => set_tpr_indent (Some (z, WidthType_Dxa)) p
  | TWidth n t => set_tpr_width (n, t) p
  | TAlign t => set_tpr_jc (show_TableAlignmentType t) p
  | TMargins m => set_tpr_margins (Some m) p
  | TMargin e n t => set_tpr_margins (Some (tmargins_set e (n, t) (match tpr_margins p with Some m => m | None => tmargins_default end))) p
  | TSetBorders b => set_tpr_borders b p
  | TSetBorder s b => set_tpr_borders (tborders_set s b (tpr_borders p)) p
  | TClearBorder s => set_tpr_borders (tborders_set s (border_of BorderType_Nil) (tpr_borders p)) p
  | TClearBorders => set_tpr_borders tborders_cleared p
  | TStyle s => set_tpr_style (Some s) p
  | TLayout t => set_tpr_layout (Some t) p
  | TPosition q => set_tpr_position (Some q) p
  end.

(** ** Rows: table_row_property.rs *)
Inductive row_call :=
| WGridAfter (n : N) | WWidthAfter (n : N) | WGridBefore (n : N) | WWidthBefore (n : N)  (* 32-35, 37-40, 42-45, 47-50 *)
| WHeight (n : N) | WRule (r : HeightRule)              (* 52-55, 57-60 *)
| WDelete (m : mark) | WInsert (m : mark)               (* 62-65, 67-70 *)
| WCantSplit.                                           (* 72-75 *)
Definition on_row (c : row_call) (p : trpr) : trpr :=
  match c with
  | WGridAfter n => set_tr_grid_after (Some n) p | WWidthAfter n => set_tr_width_after (Some n) p
  | WGridBefore n => set_tr_grid_before (Some n) p | WWidthBefore n => set_tr_width_before (Some n) p
  | WHeight n => set_tr_height (Some n) p | WRule r => set_tr_rule (Some r) p
  | WDelete m => set_tr_del (Some m) p | WInsert m => set_tr_ins (Some m) p | WCantSplit => set_tr_cant_split true p
  end.

(** ** Cells: table_cell_property.rs, table_cell_borders.rs, cell_margins.rs *)
Inductive cside := CLeft | CRight | CTop | CBottom | CInsideH | CInsideV | CTl2br | CTr2bl.
(** [Default], table_cell_borders.rs:107-120 *)
Definition cborders_default : cborders :=
  let single := Some (border_of BorderType_Single) in
  {| cb_top := single; cb_left := single; cb_bottom := single; cb_right := single; cb_inside_h := single; cb_inside_v := single;
     cb_tr2bl := None; cb_tl2br := None |}.
(** table_cell_borders.rs:140-152 *)
Definition cborders_set (s : cside) (b : border) (x : cborders) : cborders :=
  match s with
  | CTop => set_cb_top (Some b) x | CLeft => set_cb_left (Some b) x | CBottom => set_cb_bottom (Some b) x | CRight => set_cb_right (Some b) x
  | CInsideH => set_cb_inside_h (Some b) x | CInsideV => set_cb_inside_v (Some b) x | CTr2bl => set_cb_tr2bl (Some b) x | CTl2br => set_cb_tl2br (Some b) x
  end.
(** table_cell_borders.rs:169-190 *)
Definition cborders_cleared : cborders :=
  let nil := Some (border_of BorderType_Nil) in
  {| cb_top := nil; cb_left := nil; cb_bottom := nil; cb_right := nil; cb_inside_h := nil; cb_inside_v := nil; cb_tr2bl := nil; cb_tl2br := nil |}.
(** cell_margins.rs:44-66 *)
Definition cmargins_empty : cmargins := {| cm_top := None; cm_left := None; cm_bottom := None; cm_right := None |}.
Definition cmargins_set (e : edge) (w : width) (m : cmargins) : cmargins :=
  match e with
  | ETop => set_cm_top (Some w) m | ERight => set_cm_right (Some w) m | EBottom => set_cm_bottom (Some w) m | ELeft => set_cm_left (Some w) m
  end.
Inductive cell_call :=
| CWidth (n : N) (t : WidthType)                        (* 31-34 *)
| CVerticalMerge (t : VMergeType)                       (* 36-39 *)
| CVerticalAlign (t : VAlignType)                       (* 41-44 *)
| CTextDirection (t : TextDirectionType)                (* 46-49 *)
| CGridSpan (n : N)                                     (* 51-54 *)
| CShading (s : shading)                                (* 56-59 *)
| CSetBorders (b : cborders)                            (* 61-64 *)
| CSetBorder (s : cside) (b : border)                   (* 66-69 *)
| CClearBorder (s : cside)                              (* 71-74; table_cell_borders.rs:154-167 *)
| CClearBorders                                         (* 76-79 *)
| CMargins (m : cmargins)                               (* 81-84 *)
| CMargin (e : edge) (n : N) (t : WidthType).           (* 86-124 *)
Definition cborders_of (p : tcpr) : cborders := match tc_borders p with Some b => b | None => cborders_default end.
Definition on_cell (c : cell_call) (p : tcpr) : tcpr :=
  match c with
  | CWidth n t => set_tc_width (Some (n, t)) p
  | CVerticalMerge t => set_tc_vmerge (Some t) p
  | CVerticalAlign t => set_tc_valign (Some t) p
  | CTextDirection t => set_tc_text_direction (Some t) p
  | CGridSpan n => set_tc_grid_span (Some n) p
  | CShading s => set_tc_shading (Some s) p
  | CSetBorders b => set_tc_borders (Some b) p
  | CSetBorder s b => set_tc_borders (Some (cborders_set s b (cborders_of p))) p
  | CClearBorder s => set_tc_borders (Some (cborders_set s (border_of BorderType_Nil) (cborders_of p))) p
  | CClearBorders => set_tc_borders (Some cborders_cleared) p
  | CMargins m => set_tc_margins (Some m) p
  | CMargin e n t => set_tc_margins (Some (cmargins_set e (n, t) (match tc_margins p with Some m => m | None => cmargins_empty end))) p
  end.
(** Calls one after the other *)
Definition calls {C P} (on : C -> P -> P) (cs : list C) (p : P) : P := fold_left (fun p c => on c p) cs p.

(** What building a tree and reading it back gives, as a function of the tree.
    [reread_x] says what becomes of [x]; [fits_x] says that the numbers in [x] are
    in the range in which they survive; [kept] says which nodes may stand where. *)
From Coq Require Import NArith ZArith List Bool.
From Verif Require Import Str TypesModel Props Ast EscapeModel XmlParser XmlSpec BuildModel InstrModel.
Import ListNotations.

(** ** Strings *)
(** What an XML reader reports of an attribute value and of a text. *)
Definition seen (s : string) : string := match decode_attr None s with Some t => t | None => s end.
Definition text_seen (s : string) : string := match text_meaning None s with Some t => t | None => s end.
(** The events of what is written. *)
Definition meant (a : list (string * string)) : list attribute := map (fun kv => (split_qname (fst kv), seen (snd kv))) a.
Definition text_events (s : string) : list event :=
  match s with
  | EmptyString => []
  | _ => [if all_char is_ws (text_seen s) then EWs (text_seen s) else EChars (text_seen s)]
  end.
Fixpoint events_of_xml (x : xml) : list event :=
  match x with
  | E n a ch => EStart (split_qname n) (meant a) :: flat_map events_of_xml ch ++ [EEnd (split_qname n)]
  | L n a ts => EStart (split_qname n) (meant a) :: text_events (concat_str ts) ++ [EEnd (split_qname n)]
  end.

(** The setters called while reading escape again. *)
Definition stored (s : string) : string := escape_owned (seen s).

(** ** Numbers *)
Definition all_of {A} (P : A -> Prop) (o : option A) : Prop := match o with Some a => P a | None => True end.
Definition is_u32 (n : N) : Prop := (n <= max_u32)%N.
Definition is_usize (n : N) : Prop := (n <= max_u64)%N.
Definition is_i32 (z : Z) : Prop := (- max_i32 - 1 <= z <= max_i32)%Z.
Definition is_i64 (z : Z) : Prop := (- max_i64 - 1 <= z <= max_i64)%Z.
(** Whole numbers an f64 and an f32 hold exactly. *)
Definition exact64 (n : N) : Prop := (n <= 2 ^ 53)%N.
Definition exact32 (n : N) : Prop := (n <= 2 ^ 24)%N.
(** Numbers that survive a cast to i32. *)
Definition small (n : N) : Prop := (n <= 2147483647)%N.

(** ** Run properties *)
Definition reread_mark (m : mark) : mark := {| m_author := stored (m_author m); m_date := seen (m_date m) |}.
Definition reread_color (c : color) : color :=
  {| c_val := seen (c_val c);
     c_theme := match c_theme c with
                | Some t => option_map show_ThemeColor (read_ThemeColor (seen t))
                | None => None
                end;
     c_shade := option_map seen (c_shade c); c_tint := option_map seen (c_tint c) |}.
Definition reread_fonts (f : fonts) : fonts :=
  {| f_ascii := option_map stored (f_ascii f); f_hi_ansi := option_map stored (f_hi_ansi f);
     f_east_asia := option_map stored (f_east_asia f); f_cs := option_map stored (f_cs f);
     f_ascii_theme := option_map stored (f_ascii_theme f); f_hi_ansi_theme := option_map stored (f_hi_ansi_theme f);
     f_east_asia_theme := option_map stored (f_east_asia_theme f); f_cs_theme := option_map stored (f_cs_theme f);
     f_hint := option_map stored (f_hint f) |}.
Definition reread_shading (s : shading) : shading :=
  {| sh_type := sh_type s; sh_color := seen (sh_color s); sh_fill := seen (sh_fill s) |}.
(** The reference point of a positional tab is lost. *)
Definition reread_ptab (t : ptab) : ptab :=
  {| pt_alignment := pt_alignment t; pt_relative := PositionalTabRelativeTo_Margin; pt_leader := pt_leader t |}.
(** The distance of a border from the text is lost. *)
Definition reread_text_border (b : text_border) : text_border :=
  {| tb_type := tb_type b; tb_size := tb_size b; tb_color := seen (tb_color b); tb_space := 0 |}.
(** The size, weight and slant for complex scripts become those of the other
    scripts, a double strike overrides a single one, and the width in percent is
    lost. *)
Definition reread_rpr (r : rpr) : rpr := {|
  r_style := option_map stored (r_style r); r_sz := r_sz r; r_sz_cs := r_sz r;
  r_color := option_map reread_color (r_color r); r_highlight := option_map seen (r_highlight r);
  r_vert := r_vert r; r_underline := option_map seen (r_underline r);
  r_bold := r_bold r; r_bold_cs := r_bold r; r_caps := r_caps r; r_italic := r_italic r;
  r_italic_cs := r_italic r; r_vanish := r_vanish r; r_spec_vanish := r_spec_vanish r;
  r_spacing := r_spacing r; r_fit := r_fit r; r_stretch := None;
  r_fonts := option_map reread_fonts (r_fonts r); r_border := option_map reread_text_border (r_border r);
  r_del := option_map reread_mark (r_del r); r_ins := option_map reread_mark (r_ins r);
  r_strike := match r_dstrike r with Some true => None | _ => r_strike r end; r_dstrike := r_dstrike r;
  r_ptab := option_map reread_ptab (r_ptab r); r_shading := option_map reread_shading (r_shading r) |}.
Definition fits_rpr (r : rpr) : Prop :=
  all_of exact64 (r_sz r) /\ all_of is_i32 (r_spacing r) /\
  all_of (fun f => is_usize (ft_val f) /\ all_of is_u32 (ft_id f)) (r_fit r) /\
  all_of (fun b => is_u32 (tb_size b) /\ is_u32 (tb_space b)) (r_border r).

(** ** Section properties *)
(** The orientation, the columns and their distance, and the direction of the text
    are lost. *)
Definition reread_ref (r : part_ref) : part_ref := {| pr_type := pr_type r; pr_id := seen (pr_id r) |}.
Definition reread_sectpr (p : sectpr) : sectpr := {|
  sp_size := {| pg_w := pg_w (sp_size p); pg_h := pg_h (sp_size p); pg_orient := None |};
  sp_margin := sp_margin p; sp_columns := 1; sp_space := 425; sp_title_pg := sp_title_pg p;
  sp_text_direction := "lrTb"; sp_doc_grid := sp_doc_grid p;
  sp_header := option_map reread_ref (sp_header p); sp_first_header := option_map reread_ref (sp_first_header p);
  sp_even_header := option_map reread_ref (sp_even_header p);
  sp_footer := option_map reread_ref (sp_footer p); sp_first_footer := option_map reread_ref (sp_first_footer p);
  sp_even_footer := option_map reread_ref (sp_even_footer p);
  sp_type := sp_type p;
  sp_page_num := option_map (fun n => {| pn_start := pn_start n; pn_chap_style := option_map seen (pn_chap_style n) |})
                            (sp_page_num p) |}.
Definition fits_margin (m : page_margin) : Prop :=
  is_i32 (mg_top m) /\ is_i32 (mg_left m) /\ is_i32 (mg_bottom m) /\ is_i32 (mg_right m) /\
  is_i32 (mg_header m) /\ is_i32 (mg_footer m) /\ is_i32 (mg_gutter m).
(** The header and footer references carry the type of their slot, as
    [SectionProperty::header] and its likes make them (section_property.rs:72-188). *)
Definition fits_sectpr (p : sectpr) : Prop :=
  small (pg_w (sp_size p)) /\ small (pg_h (sp_size p)) /\ fits_margin (sp_margin p) /\
  all_of (fun g => all_of exact32 (dg_line_pitch g) /\ all_of (fun z => (Z.abs z <= 2 ^ 24)%Z) (dg_char_space g))
         (sp_doc_grid p) /\
  all_of (fun r => pr_type r = "default"%string) (sp_header p) /\
  all_of (fun r => pr_type r = "first"%string) (sp_first_header p) /\
  all_of (fun r => pr_type r = "even"%string) (sp_even_header p) /\
  all_of (fun r => pr_type r = "default"%string) (sp_footer p) /\
  all_of (fun r => pr_type r = "first"%string) (sp_first_footer p) /\
  all_of (fun r => pr_type r = "even"%string) (sp_even_footer p) /\
  all_of (fun n => all_of is_u32 (pn_start n)) (sp_page_num p).

(** ** Paragraph properties *)
(** Indents that are absent become 0; the character counts of special indents are
    lost. *)
Definition reread_indent (i : indent) : indent := {|
  i_start := Some (match i_start i with Some v => v | None => 0%Z end);
  i_end := Some (match i_end i with Some v => v | None => 0%Z end);
  i_special := i_special i; i_start_chars := i_start_chars i; i_hanging_chars := None; i_first_line_chars := None |}.
Definition fits_indent (i : indent) : Prop :=
  all_of is_i32 (i_start i) /\ all_of is_i32 (i_end i) /\ all_of is_i32 (i_start_chars i) /\
  all_of (fun s => match s with FirstLine v | Hanging v => is_i32 v end) (i_special i).
Definition fits_spacing (s : line_spacing) : Prop :=
  all_of is_u32 (ls_before s) /\ all_of is_u32 (ls_after s) /\ all_of is_u32 (ls_before_lines s) /\
  all_of is_u32 (ls_after_lines s) /\ all_of is_i32 (ls_line s).
Definition reread_pborder (b : pborder) : pborder :=
  {| pb_val := pb_val b; pb_size := pb_size b; pb_space := pb_space b; pb_color := seen (pb_color b) |}.
Definition reread_pborders (b : pborders) : pborders := {|
  pb_left := option_map reread_pborder (pb_left b); pb_right := option_map reread_pborder (pb_right b);
  pb_top := option_map reread_pborder (pb_top b); pb_bottom := option_map reread_pborder (pb_bottom b);
  pb_between := option_map reread_pborder (pb_between b); pb_bar := option_map reread_pborder (pb_bar b) |}.
Definition fits_pborder (b : pborder) : Prop := is_u32 (pb_size b) /\ is_u32 (pb_space b).
Definition fits_pborders (b : pborders) : Prop :=
  all_of fits_pborder (pb_left b) /\ all_of fits_pborder (pb_right b) /\ all_of fits_pborder (pb_top b) /\
  all_of fits_pborder (pb_bottom b) /\ all_of fits_pborder (pb_between b) /\ all_of fits_pborder (pb_bar b).
(** The spaces around a frame are lost. *)
Definition reread_frame (f : framepr) : framepr := {|
  fr_h := fr_h f; fr_h_rule := option_map seen (fr_h_rule f); fr_h_anchor := option_map seen (fr_h_anchor f);
  fr_h_space := None; fr_v_anchor := option_map seen (fr_v_anchor f); fr_v_space := None; fr_w := fr_w f;
  fr_wrap := option_map seen (fr_wrap f); fr_x := fr_x f; fr_x_align := option_map seen (fr_x_align f);
  fr_y := fr_y f; fr_y_align := option_map seen (fr_y_align f) |}.
Definition fits_frame (f : framepr) : Prop :=
  all_of is_u32 (fr_h f) /\ all_of is_u32 (fr_w f) /\ all_of is_i32 (fr_x f) /\ all_of is_i32 (fr_y f).
(** A switch that is off is as good as none. *)
Definition only_on (o : option bool) : option bool := match o with Some true => Some true | _ => None end.
(** The alignment becomes one of the known ones, outline levels from ten on become
    nine; the direction of the text and the division are lost. *)
Definition reread_base (b : ppr_base) : ppr_base := {|
  p_rpr := reread_rpr (p_rpr b); p_style := option_map stored (p_style b); p_numbering := p_numbering b;
  p_alignment := match p_alignment b with
                 | Some a => option_map show_AlignmentType (read_AlignmentType (seen a))
                 | None => None
                 end;
  p_indent := option_map reread_indent (p_indent b); p_spacing := p_spacing b;
  p_keep_next := only_on (p_keep_next b); p_keep_lines := only_on (p_keep_lines b); p_bidi := None;
  p_page_break_before := only_on (p_page_break_before b); p_widow_control := only_on (p_widow_control b);
  p_outline := option_map (fun n => if (10 <=? n)%N then 9%N else n) (p_outline b);
  p_section := option_map reread_sectpr (p_section b); p_tabs := p_tabs b;
  p_borders := option_map reread_pborders (p_borders b); p_frame := option_map reread_frame (p_frame b);
  p_text_alignment := p_text_alignment b; p_adjust_right_ind := p_adjust_right_ind b;
  p_snap_to_grid := p_snap_to_grid b; p_shading := option_map reread_shading (p_shading b); p_div_id := None |}.
Definition fits_base (b : ppr_base) : Prop :=
  fits_rpr (p_rpr b) /\
  all_of (fun n => all_of is_usize (n_id n) /\ all_of is_usize (n_level n)) (p_numbering b) /\
  all_of fits_indent (p_indent b) /\ all_of fits_spacing (p_spacing b) /\ all_of is_usize (p_outline b) /\
  all_of fits_sectpr (p_section b) /\ Forall (fun t => all_of exact32 (t_pos t)) (p_tabs b) /\
  all_of fits_pborders (p_borders b) /\ all_of fits_frame (p_frame b) /\ all_of is_i64 (p_adjust_right_ind b).
Fixpoint reread_ppr (p : ppr) : ppr :=
  match p with
  | PPr b c =>
      PPr (reread_base b)
          match c with
          | Some (PChange author date q) => Some (PChange (stored author) (seen date) (reread_ppr q))
          | None => None
          end
  end.
Fixpoint fits_ppr (p : ppr) : Prop :=
  match p with
  | PPr b c => fits_base b /\ match c with Some (PChange _ _ q) => fits_ppr q | None => True end
  end.

(** ** Table properties *)
(** The distance of a border from the text is lost. *)
Definition reread_border (b : border) : border :=
  {| b_type := b_type b; b_size := b_size b; b_color := seen (b_color b); b_space := 0 |}.
Definition fits_border (b : border) : Prop := is_u32 (b_size b) /\ is_u32 (b_space b).
Definition reread_tborders (b : tborders) : tborders := {|
  tbs_top := option_map reread_border (tbs_top b); tbs_left := option_map reread_border (tbs_left b);
  tbs_bottom := option_map reread_border (tbs_bottom b); tbs_right := option_map reread_border (tbs_right b);
  tbs_inside_h := option_map reread_border (tbs_inside_h b); tbs_inside_v := option_map reread_border (tbs_inside_v b) |}.
Definition fits_tborders (b : tborders) : Prop :=
  all_of fits_border (tbs_top b) /\ all_of fits_border (tbs_left b) /\ all_of fits_border (tbs_bottom b) /\
  all_of fits_border (tbs_right b) /\ all_of fits_border (tbs_inside_h b) /\ all_of fits_border (tbs_inside_v b).
Definition reread_cborders (b : cborders) : cborders := {|
  cb_top := option_map reread_border (cb_top b); cb_left := option_map reread_border (cb_left b);
  cb_bottom := option_map reread_border (cb_bottom b); cb_right := option_map reread_border (cb_right b);
  cb_inside_h := option_map reread_border (cb_inside_h b); cb_inside_v := option_map reread_border (cb_inside_v b);
  cb_tr2bl := option_map reread_border (cb_tr2bl b); cb_tl2br := option_map reread_border (cb_tl2br b) |}.
Definition fits_cborders (b : cborders) : Prop :=
  all_of fits_border (cb_top b) /\ all_of fits_border (cb_left b) /\ all_of fits_border (cb_bottom b) /\
  all_of fits_border (cb_right b) /\ all_of fits_border (cb_inside_h b) /\ all_of fits_border (cb_inside_v b) /\
  all_of fits_border (cb_tr2bl b) /\ all_of fits_border (cb_tl2br b).
Definition fits_width (w : width) : Prop := small (fst w).
Definition fits_tmargins (m : tmargins) : Prop :=
  fits_width (tm_top m) /\ fits_width (tm_left m) /\ fits_width (tm_bottom m) /\ fits_width (tm_right m).
Definition fits_cmargins (m : cmargins) : Prop :=
  all_of fits_width (cm_top m) /\ all_of fits_width (cm_left m) /\ all_of fits_width (cm_bottom m) /\
  all_of fits_width (cm_right m).
Definition reread_tposition (t : tposition) : tposition := {|
  tp_left := tp_left t; tp_right := tp_right t; tp_vert_anchor := option_map seen (tp_vert_anchor t);
  tp_horz_anchor := option_map seen (tp_horz_anchor t); tp_x_spec := option_map seen (tp_x_spec t);
  tp_y_spec := option_map seen (tp_y_spec t); tp_x := tp_x t; tp_y := tp_y t |}.
Definition fits_tposition (t : tposition) : Prop :=
  all_of is_i32 (tp_left t) /\ all_of is_i32 (tp_right t) /\ all_of is_i32 (tp_x t) /\ all_of is_i32 (tp_y t).
(** The alignment becomes a known one, an indent of zero none, any other one is in
    twentieths of a point; the layout is lost. *)
Definition reread_tblpr (p : tblpr) : tblpr := {|
  tpr_width := tpr_width p;
  tpr_jc := match read_TableAlignmentType (seen (tpr_jc p)) with
            | Some a => show_TableAlignmentType a
            | None => "left"
            end;
  tpr_borders := reread_tborders (tpr_borders p); tpr_margins := tpr_margins p;
  tpr_indent := match tpr_indent p with
                | Some (z, _) => if (z =? 0)%Z then None else Some (z, WidthType_Dxa)
                | None => None
                end;
  tpr_style := option_map seen (tpr_style p); tpr_layout := None;
  tpr_position := option_map reread_tposition (tpr_position p) |}.
Definition fits_tblpr (p : tblpr) : Prop :=
  fits_width (tpr_width p) /\ fits_tborders (tpr_borders p) /\ all_of fits_tmargins (tpr_margins p) /\
  all_of (fun i => is_i32 (fst i)) (tpr_indent p) /\ all_of fits_tposition (tpr_position p).
(** The height keeps its rule, a rule without a height is lost, and so are the
    grid columns before and after and the ban on page breaks. *)
Definition reread_trpr (p : trpr) : trpr := {|
  tr_grid_after := None; tr_width_after := None; tr_grid_before := None; tr_width_before := None;
  tr_height := tr_height p;
  tr_rule := match tr_height p with
             | Some _ => Some (match tr_rule p with Some r => r | None => HeightRule_AtLeast end)
             | None => None
             end;
  tr_del := option_map reread_mark (tr_del p); tr_ins := option_map reread_mark (tr_ins p);
  tr_cant_split := false |}.
Definition fits_trpr (p : trpr) : Prop := all_of exact32 (tr_height p).
Definition reread_tcpr (p : tcpr) : tcpr := {|
  tc_width := tc_width p; tc_borders := option_map reread_cborders (tc_borders p); tc_grid_span := tc_grid_span p;
  tc_vmerge := tc_vmerge p; tc_valign := tc_valign p; tc_text_direction := tc_text_direction p;
  tc_shading := option_map reread_shading (tc_shading p); tc_margins := tc_margins p |}.
Definition fits_tcpr (p : tcpr) : Prop :=
  all_of fits_width (tc_width p) /\ all_of fits_cborders (tc_borders p) /\ all_of is_usize (tc_grid_span p) /\
  all_of fits_cmargins (tc_margins p).

(** ** Pictures *)
(** Negative offsets become the largest one and alignments the offset zero. *)
Definition reread_position (d : drawing_position) : drawing_position :=
  match d with
  | Offset z => Offset (if (z <? 0)%Z then max_i32 else z)
  | Align _ => Offset 0
  end.
(** The image and the rotation are lost, the mark for a simple position becomes the
    permission to overlap; a picture in the line keeps only its margins and size. *)
Definition reread_pic (p : pic) : pic :=
  let a := pic_anchor p in
  {| pic_id := seen (pic_id p); pic_image := ""; pic_size := pic_size p; pic_anchor := a; pic_simple_pos := false;
     pic_simple_x := if a then pic_simple_x p else 0%Z; pic_simple_y := if a then pic_simple_y p else 0%Z;
     pic_layout_in_cell := if a then pic_layout_in_cell p else true;
     pic_relative_height := if a then pic_relative_height p else 0%N;
     pic_overlap := if a then pic_simple_pos p else true;
     pic_h := if a then reread_position (pic_h p) else Offset 0;
     pic_v := if a then reread_position (pic_v p) else Offset 0;
     pic_from_h := if a then pic_from_h p else RelativeFromHType_Margin;
     pic_from_v := if a then match pic_from_v p with RelativeFromVType_OutsizeMargin => RelativeFromVType_Margin | v => v end
                   else RelativeFromVType_Margin;
     pic_dist_t := pic_dist_t p; pic_dist_b := pic_dist_b p; pic_dist_l := pic_dist_l p; pic_dist_r := pic_dist_r p;
     pic_rot := 0 |}.
Definition fits_position (d : drawing_position) : Prop := match d with Offset z => is_i32 z | Align _ => True end.
Definition fits_pic (p : pic) : Prop :=
  is_u32 (fst (pic_size p)) /\ is_u32 (snd (pic_size p)) /\ is_i32 (pic_simple_x p) /\ is_i32 (pic_simple_y p) /\
  is_u32 (pic_relative_height p) /\ fits_position (pic_h p) /\ fits_position (pic_v p) /\
  is_i32 (pic_dist_t p) /\ is_i32 (pic_dist_b p) /\ is_i32 (pic_dist_l p) /\ is_i32 (pic_dist_r p).

(** ** Runs *)
(** A text that is read has its entities replaced once more and its newlines removed. *)
Definition reread_text (f : string -> node) (s : string) : list node :=
  match s with EmptyString => [] | _ => [f (one_line (replace_escaped (text_seen s)))] end.
(** The text of a field instruction (instr_text.rs:19-38); none for a link, which is
    not implemented. *)
Definition instr_written (i : instr) : string :=
  match i with
  | ITOC t => print_toc t
  | ITC text omit level item => print_tc {| tc_text := text; tc_omit := omit; tc_level := level; tc_item := item |}
  | IPAGEREF k h r => print_pageref k h r
  | IPAGE => "PAGE"
  | INUMPAGES => "NUMPAGES"
  | IHYPERLINK _ _ => ""
  | IUnsupported s => s
  end.
Definition reread_in_run (n : node) : list node :=
  match n with
  | NText s => reread_text NText s
  | NDelText s => reread_text NDelText s
  | NSym f c => [NSym (seen f) (seen c)]
  | NTab | NBreak _ | NCr | NFieldChar _ _ => [n]
  | NPTab t => [NPTab (reread_ptab t)]
  | NPic p => [NPic (reread_pic p)]
  | NInstr i => [NInstrString (text_seen (instr_written i))]
  | NInstrString s => [NInstrString (text_seen (escape s))]
  | _ => []            (* deleted instructions, footnote references, shadings, starts of comments *)
  end.
Definition not_blank (s : string) : bool := negb (all_char is_ws (text_seen s)).
Definition kept_in_run (n : node) : bool :=
  match n with
  | NInstr i => not_blank (instr_written i)
  | NInstrString s => not_blank (escape s)
  | NCommentEnd _ => false          (* a run inside a run *)
  | _ => run_child n
  end.
Definition fits_in_run (n : node) : Prop := match n with NPic p => fits_pic p | _ => True end.

(** ** The tree *)
(** Where a node stands. *)
Inductive place := InDocument | InPart | InSdt | InComment | InPara | InLink | InIns | InDel | InTable | InRow.
Definition is_block (n : node) : bool := match n with NPara _ _ _ _ | NTable _ _ _ _ | NSdt _ _ _ => true | _ => false end.
(** [kept p n]: reading what is built from [n] at place [p] gives [reread p n].  Not
    so for tags in tags and blocks in paragraphs, which end the outer one early, for
    links in links, for tables in comments, whose paragraphs are taken out, and for
    tables of contents and sections, which are not treated here. *)
Fixpoint kept (p : place) (n : node) : bool :=
  match p, n with
  | (InPara | InLink | InIns | InDel | InSdt), NRun _ ch => forallb kept_in_run ch
  | (InDocument | InSdt | InPara | InLink | InIns | InDel), (NCommentStart _ _ | NCommentEnd _) => true
  | (InDocument | InSdt | InPara | InLink), (NBookmarkStart _ _ | NBookmarkEnd _) => true
  | (InPara | InLink), NIns _ ch => forallb (kept InIns) ch
  | (InPara | InLink | InIns), NDel _ ch => forallb (kept InDel) ch
  | InPara, NMoveFrom _ ch => forallb (kept InDel) ch
  | InPara, NMoveTo _ ch => forallb (kept InIns) ch
  | InLink, NMoveFrom _ ch => forallb (kept InDel) ch
  | InLink, NMoveTo _ ch => forallb (kept InLink) ch
  | InPara, NLink _ _ ch => forallb (kept InLink) ch
  | (InPara | InLink), NSdt _ _ ch => forallb (kept p) ch
  | (InPara | InLink), (NPageNum | NNumPages) => true
  | (InDocument | InPart), NSdt _ _ ch => forallb (kept InSdt) ch
  | (InDocument | InPart | InSdt | InComment), NPara _ _ _ ch => forallb (kept InPara) ch
  | (InDocument | InPart | InSdt), NTable _ _ _ ch => forallb (kept InTable) ch
  | InTable, NRow _ _ ch => forallb (kept InRow) ch
  | InRow, NCell _ _ ch =>
      match ch with [] | [NTable _ _ _ _] => false | _ => forallb (kept InPart) ch end
  | _, _ => false
  end.

(** [has_numbering] of a node. *)
Definition numbered (n : node) : bool :=
  match n with NPara _ _ b _ | NTable _ _ b _ | NRow _ b _ | NCell _ b _ => b | _ => false end.
Definition reread_link (l : link) : link :=
  match l with External rid _ => External (seen rid) "" | Anchor a => Anchor (seen a) end.
(** What the start of a comment becomes: the comment itself is found elsewhere. *)
Definition bare_comment (id : N) : comment_data :=
  {| cd_id := id; cd_author := "unnamed"; cd_date := "1970-01-01T00:00:00Z"; cd_parent := None |}.
Definition page_run (i : instr) : node := NRun rpr_empty (flat_map reread_in_run (page_field i)).
Fixpoint reread (p : place) (n : node) : list node :=
  match n with
  | NRun r ch => [NRun (reread_rpr r) (flat_map reread_in_run ch)]
  | NCommentStart c _ => [NCommentStart (bare_comment (cd_id c)) []]
  | NCommentEnd id =>
      match p with
      | InDocument => [NCommentEnd id]
      | _ => [NRun rpr_empty []; NCommentEnd id; NRun rpr_empty []]
      end
  | NBookmarkStart id s => [NBookmarkStart id (seen s)]
  | NBookmarkEnd id => [NBookmarkEnd id]
  | NIns m ch => [NIns (reread_mark m) (flat_map (reread InIns) ch)]
  | NDel m ch => [NDel (reread_mark m) (flat_map (reread InDel) ch)]
  | NMoveFrom m ch =>
      match p with InLink => [] | _ => [NMoveFrom (reread_mark m) (flat_map (reread InDel) ch)] end
  | NMoveTo m ch =>
      match p with
      | InLink => flat_map (reread InLink) ch
      | _ => [NMoveTo (reread_mark m) (flat_map (reread InIns) ch)]
      end
  | NLink l h ch =>
      [NLink (reread_link l) (Some (match h with Some n => n | None => 1%N end)) (flat_map (reread InLink) ch)]
  | NSdt q _ ch =>
      match p with
      | InPara | InLink =>
          opt (fun m => NIns (reread_mark m) []) (r_ins (sd_rpr q)) ++
          opt (fun m => NDel (reread_mark m) []) (r_del (sd_rpr q)) ++ flat_map (reread p) ch
      | _ => [NSdt sdtpr_empty false (flat_map (reread InSdt) ch)]
      end
  | NPageNum => [page_run IPAGE]
  | NNumPages => [page_run INUMPAGES]
  | NPara id q _ ch =>
      [NPara (seen id) (reread_ppr q) (match p_numbering (base_of q) with Some _ => true | None => false end)
             (flat_map (reread InPara) ch)]
  | NTable q g _ rows => [NTable (reread_tblpr q) g false (flat_map (reread InTable) rows)]
  | NRow q _ cells =>
      let cells := flat_map (reread InRow) cells in [NRow (reread_trpr q) (existsb numbered cells) cells]
  | NCell q _ ch =>
      let ch := flat_map (reread InPart) ch in [NCell (reread_tcpr q) (existsb numbered ch) ch]
  | _ => []
  end.

(** The numbers of one node. *)
Definition fits_node (n : node) : Prop :=
  match n with
  | NRun r _ => fits_rpr r
  | NPic p => fits_pic p
  | NCommentStart c _ => is_usize (cd_id c)
  | NCommentEnd id | NBookmarkStart id _ | NBookmarkEnd id => is_usize id
  | NLink _ h _ => all_of is_usize h
  | NSdt q _ _ => fits_rpr (sd_rpr q)
  | NPara _ q _ _ => fits_ppr q
  | NTable q g _ _ => fits_tblpr q /\ Forall small g
  | NRow q _ _ => fits_trpr q
  | NCell q _ _ => fits_tcpr q
  | _ => True
  end.
Definition fits (n : node) : Prop := Forall fits_node (all_nodes n).

(** How many paragraphs are read. *)
Definition sumN {A} (f : A -> N) (l : list A) : N := fold_right (fun a k => (f a + k)%N) 0%N l.
Fixpoint paras (n : node) : N :=
  match n with
  | NPara _ _ _ ch => (1 + sumN paras ch)%N
  | NIns _ ch | NDel _ ch | NMoveFrom _ ch | NMoveTo _ ch | NLink _ _ ch | NSdt _ _ ch | NTable _ _ _ ch | NRow _ _ ch | NCell _ _ ch => sumN paras ch
  | _ => 0%N
  end.

(** ** Comments *)
(** The author is escaped while reading; the comment this one answers is named elsewhere. *)
Definition reread_comment (c : comment_data * list node) : comment_data * list node :=
  ({| cd_id := cd_id (fst c); cd_author := escape (seen (cd_author (fst c))); cd_date := seen (cd_date (fst c)); cd_parent := None |},
   flat_map (reread InComment) (snd c)).
Definition fits_comment (c : comment_data * list node) : Prop := is_usize (cd_id (fst c)) /\ Forall fits (snd c).
Definition kept_comment (c : comment_data * list node) : bool := forallb (kept InComment) (snd c).

Definition paras_in (l : list (comment_data * list node)) : N := fold_right (fun c n => sumN paras (snd c) + n)%N 0%N l.

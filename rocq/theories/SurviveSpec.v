(** What comes back from building and reading exactly as it was.  Everything is
    stated about the stored fields. *)
From Coq Require Import NArith ZArith List Bool.
From Verif Require Import Str TypesModel Props Ast EscapeModel XmlParser XmlSpec RoundSpec.
From Verif Require EscapeSpec.
Import ListNotations.

(** A string that an XML reader reports as it is written; one that also passes through
    [escape] once more while reading; and a text. *)
Definition value_survives (s : string) : Prop := seen s = s.
Definition stored_survives (s : string) : Prop := escape (seen s) = s.
Definition text_survives (s : string) : Prop := s <> ""%string /\ one_line (replace_escaped (text_seen s)) = s.

(** ** Run formatting *)
Definition mark_survives (m : mark) : Prop := stored_survives (m_author m) /\ value_survives (m_date m).
Definition color_survives (c : color) : Prop :=
  value_survives (c_val c) /\ all_of (fun t => option_map show_ThemeColor (read_ThemeColor (seen t)) = Some t) (c_theme c) /\
  all_of value_survives (c_shade c) /\ all_of value_survives (c_tint c).
Definition fonts_survive (f : fonts) : Prop :=
  all_of stored_survives (f_ascii f) /\ all_of stored_survives (f_hi_ansi f) /\ all_of stored_survives (f_east_asia f) /\
  all_of stored_survives (f_cs f) /\ all_of stored_survives (f_ascii_theme f) /\ all_of stored_survives (f_hi_ansi_theme f) /\
  all_of stored_survives (f_east_asia_theme f) /\ all_of stored_survives (f_cs_theme f) /\ all_of stored_survives (f_hint f).
Definition shading_survives (s : shading) : Prop := value_survives (sh_color s) /\ value_survives (sh_fill s).
Definition rpr_survives (r : rpr) : Prop :=
  (* size, weight and slant are the same for complex scripts *)
  r_sz_cs r = r_sz r /\ r_bold_cs r = r_bold r /\ r_italic_cs r = r_italic r /\
  r_stretch r = None /\ (r_dstrike r = Some true -> r_strike r = None) /\
  all_of (fun t => pt_relative t = PositionalTabRelativeTo_Margin) (r_ptab r) /\
  all_of (fun b => tb_space b = 0%N /\ value_survives (tb_color b)) (r_border r) /\
  all_of stored_survives (r_style r) /\ all_of color_survives (r_color r) /\ all_of value_survives (r_highlight r) /\
  all_of value_survives (r_underline r) /\ all_of fonts_survive (r_fonts r) /\ all_of mark_survives (r_del r) /\
  all_of mark_survives (r_ins r) /\ all_of shading_survives (r_shading r).

(** ** Sections *)
Definition ref_survives (r : part_ref) : Prop := value_survives (pr_id r).
Definition sectpr_survives (p : sectpr) : Prop :=
  pg_orient (sp_size p) = None /\ sp_columns p = 1%N /\ sp_space p = 425%N /\ sp_text_direction p = "lrTb"%string /\
  all_of ref_survives (sp_header p) /\ all_of ref_survives (sp_first_header p) /\ all_of ref_survives (sp_even_header p) /\
  all_of ref_survives (sp_footer p) /\ all_of ref_survives (sp_first_footer p) /\ all_of ref_survives (sp_even_footer p) /\
  all_of (fun n => all_of value_survives (pn_chap_style n)) (sp_page_num p).

(** ** Paragraph formatting *)
Definition pborders_survive (b : pborders) : Prop :=
  let color := all_of (fun b => value_survives (pb_color b)) in
  color (pb_left b) /\ color (pb_right b) /\ color (pb_top b) /\ color (pb_bottom b) /\ color (pb_between b) /\ color (pb_bar b).
Definition frame_survives (f : framepr) : Prop :=
  fr_h_space f = None /\ fr_v_space f = None /\
  all_of value_survives (fr_h_rule f) /\ all_of value_survives (fr_h_anchor f) /\ all_of value_survives (fr_v_anchor f) /\
  all_of value_survives (fr_wrap f) /\ all_of value_survives (fr_x_align f) /\ all_of value_survives (fr_y_align f).
Definition indent_survives (i : indent) : Prop :=
  i_start i <> None /\ i_end i <> None /\ i_hanging_chars i = None /\ i_first_line_chars i = None.
Definition not_off (o : option bool) : Prop := o <> Some false.
Definition base_survives (b : ppr_base) : Prop :=
  rpr_survives (p_rpr b) /\ all_of stored_survives (p_style b) /\
  all_of (fun a => option_map show_AlignmentType (read_AlignmentType (seen a)) = Some a) (p_alignment b) /\
  all_of indent_survives (p_indent b) /\
  not_off (p_keep_next b) /\ not_off (p_keep_lines b) /\ not_off (p_page_break_before b) /\ not_off (p_widow_control b) /\
  p_bidi b = None /\ p_div_id b = None /\ all_of (fun n => (n < 10)%N) (p_outline b) /\
  all_of sectpr_survives (p_section b) /\ all_of pborders_survive (p_borders b) /\ all_of frame_survives (p_frame b) /\
  all_of shading_survives (p_shading b).
Fixpoint ppr_survives (p : ppr) : Prop :=
  match p with
  | PPr b c =>
      base_survives b /\
      match c with
      | Some (PChange author date q) => stored_survives author /\ value_survives date /\ ppr_survives q
      | None => True
      end
  end.

(** ** Table formatting *)
Definition border_survives (b : border) : Prop := b_space b = 0%N /\ value_survives (b_color b).
Definition tblpr_survives (p : tblpr) : Prop :=
  option_map show_TableAlignmentType (read_TableAlignmentType (seen (tpr_jc p))) = Some (tpr_jc p) /\
  (let b := tpr_borders p in
   all_of border_survives (tbs_top b) /\ all_of border_survives (tbs_left b) /\ all_of border_survives (tbs_bottom b) /\
   all_of border_survives (tbs_right b) /\ all_of border_survives (tbs_inside_h b) /\ all_of border_survives (tbs_inside_v b)) /\
  all_of (fun i => fst i <> 0%Z /\ snd i = WidthType_Dxa) (tpr_indent p) /\ all_of value_survives (tpr_style p) /\
  tpr_layout p = None /\
  all_of (fun t => all_of value_survives (tp_vert_anchor t) /\ all_of value_survives (tp_horz_anchor t) /\
                   all_of value_survives (tp_x_spec t) /\ all_of value_survives (tp_y_spec t)) (tpr_position p).
Definition trpr_survives (p : trpr) : Prop :=
  tr_grid_after p = None /\ tr_width_after p = None /\ tr_grid_before p = None /\ tr_width_before p = None /\
  (tr_height p = None <-> tr_rule p = None) /\ tr_cant_split p = false /\
  all_of mark_survives (tr_del p) /\ all_of mark_survives (tr_ins p).
Definition tcpr_survives (p : tcpr) : Prop :=
  all_of (fun b => all_of border_survives (cb_top b) /\ all_of border_survives (cb_left b) /\ all_of border_survives (cb_bottom b) /\
                   all_of border_survives (cb_right b) /\ all_of border_survives (cb_inside_h b) /\ all_of border_survives (cb_inside_v b) /\
                   all_of border_survives (cb_tr2bl b) /\ all_of border_survives (cb_tl2br b)) (tc_borders p) /\
  all_of shading_survives (tc_shading p).

(** ** Pictures *)
Definition offset_survives (d : drawing_position) : Prop := match d with Offset z => (0 <= z)%Z | Align _ => False end.
Definition pic_survives (p : pic) : Prop :=
  value_survives (pic_id p) /\ pic_image p = ""%string /\ pic_rot p = 0%N /\ pic_simple_pos p = false /\
  if pic_anchor p then
    pic_overlap p = false /\ offset_survives (pic_h p) /\ offset_survives (pic_v p) /\ pic_from_v p <> RelativeFromVType_OutsizeMargin
  else
    pic_simple_x p = 0%Z /\ pic_simple_y p = 0%Z /\ pic_layout_in_cell p = true /\ pic_relative_height p = 0%N /\ pic_overlap p = true /\
    pic_h p = Offset 0 /\ pic_v p = Offset 0 /\ pic_from_h p = RelativeFromHType_Margin /\ pic_from_v p = RelativeFromVType_Margin.

(** ** The tree *)
Definition child_survives (n : node) : Prop :=
  match n with
  | NText s | NDelText s => text_survives s
  | NSym f c => value_survives f /\ value_survives c
  | NTab | NBreak _ | NCr | NFieldChar _ _ => True
  | NPTab t => pt_relative t = PositionalTabRelativeTo_Margin
  | NPic p => pic_survives p
  | NInstrString s => has_char ch_cr s = false
  | _ => False
  end.
(** Which flag says that something inside is numbered. *)
Definition flag_right (b : bool) (ch : list node) : Prop := b = existsb numbered ch.
Fixpoint survives (p : place) (n : node) : Prop :=
  let all p := fold_right (fun c q => survives p c /\ q) True in
  match n with
  | NRun r ch => rpr_survives r /\ Forall child_survives ch
  | NCommentStart c ch => c = bare_comment (cd_id c) /\ ch = []
  | NCommentEnd _ => p = InDocument
  | NBookmarkStart _ s => value_survives s
  | NBookmarkEnd _ => True
  | NIns m ch => mark_survives m /\ all InIns ch
  | NDel m ch => mark_survives m /\ all InDel ch
  | NMoveFrom m ch => p <> InLink /\ mark_survives m /\ all InDel ch
  | NMoveTo m ch => p <> InLink /\ mark_survives m /\ all InIns ch
  | NLink l h ch =>
      match l with External rid path => value_survives rid /\ path = ""%string | Anchor a => value_survives a end /\
      h <> None /\ all InLink ch
  | NSdt q b ch => p <> InPara /\ p <> InLink /\ q = sdtpr_empty /\ b = false /\ all InSdt ch
  | NPara id q b ch =>
      value_survives id /\ ppr_survives q /\ (b = true <-> p_numbering (base_of q) <> None) /\ all InPara ch
  | NTable q _ b rows => tblpr_survives q /\ b = false /\ all InTable rows
  | NRow q b cells => trpr_survives q /\ flag_right b cells /\ all InRow cells
  | NCell q b ch => tcpr_survives q /\ flag_right b ch /\ all InPart ch
  | _ => False
  end.

(** ** Texts *)
(** The texts of a tree in the order in which they stand.  Moves out of a link are left
    out: they are not read. *)
Definition run_text (n : node) : list string := match n with NText s | NDelText s => [s] | _ => [] end.
Fixpoint texts (p : place) (n : node) : list string :=
  match n with
  | NRun _ ch => flat_map run_text ch
  | NPageNum | NNumPages => ["1"%string]
  | NIns _ ch => flat_map (texts InIns) ch
  | NDel _ ch => flat_map (texts InDel) ch
  | NMoveFrom _ ch => match p with InLink => [] | _ => flat_map (texts InDel) ch end
  | NMoveTo _ ch => match p with InLink => flat_map (texts InLink) ch | _ => flat_map (texts InIns) ch end
  | NLink _ _ ch => flat_map (texts InLink) ch
  | NSdt _ _ ch => match p with InPara | InLink => flat_map (texts p) ch | _ => flat_map (texts InSdt) ch end
  | NPara _ _ _ ch => flat_map (texts InPara) ch
  | NTable _ _ _ ch => flat_map (texts InTable) ch
  | NRow _ _ ch => flat_map (texts InRow) ch
  | NCell _ _ ch => flat_map (texts InPart) ch
  | _ => []
  end.
(** A text given to [Run::add_text] or [Run::add_delete_text], and what is read of it. *)
Definition as_stored (u : string) : string := escape (one_line u).
Definition line_end (c : ascii) : bool := (c =c ch_nl) || (c =c ch_cr).
Definition as_read (u : string) : list string :=
  match filter_str (fun c => negb (line_end c)) u with
  | EmptyString => []
  | v => [replace_escaped v]
  end.
(** What is read of a stored text. *)
Definition back (s : string) : list string := match s with EmptyString => [] | _ => [one_line (replace_escaped (text_seen s))] end.
(** Every [&] in [s] begins a reference that stands for something. *)
Definition references_ok (s : string) : Prop := forall a b, s = a +++ str1 ch_amp +++ b ->
  exists name rest v, b = name +++ ";" +++ rest /\ has_char ";" name = false /\ has_char ch_amp name = false /\ resolve_ref name = Some v.
(** The texts that come back as they were given. *)
Definition comes_back (u : string) : Prop :=
  u <> ""%string /\ has_char ch_nl u = false /\ has_char ch_cr u = false /\ EscapeSpec.entity_free u.

(** ** Places *)
(** [inner p n]: what stands in [n], itself at place [p], and at which place. *)
Definition inner (p : place) (n : node) : option (place * list node) :=
  match n with
  | NIns _ ch => Some (InIns, ch)
  | NDel _ ch => Some (InDel, ch)
  | NMoveFrom _ ch => match p with InLink => None | _ => Some (InDel, ch) end
  | NMoveTo _ ch => match p with InLink => Some (InLink, ch) | _ => Some (InIns, ch) end
  | NLink _ _ ch => Some (InLink, ch)
  | NSdt _ _ ch => match p with InPara | InLink => Some (p, ch) | _ => Some (InSdt, ch) end
  | NPara _ _ _ ch => Some (InPara, ch)
  | NTable _ _ _ ch => Some (InTable, ch)
  | NRow _ _ ch => Some (InRow, ch)
  | NCell _ _ ch => Some (InPart, ch)
  | _ => None
  end.
(** [stands p l q m]: [m] stands at a place [q] somewhere in [l], which is at place [p]. *)
Inductive stands (p : place) (l : list node) : place -> node -> Prop :=
| Here n : In n l -> stands p l p n
| Below n p' ch q m : In n l -> inner p n = Some (p', ch) -> stands p' ch q m -> stands p l q m.

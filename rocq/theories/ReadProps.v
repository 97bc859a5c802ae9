(** The readers of properties that contain no runs or paragraphs: attributes,
    and the elements below [rPr], [pPr], [sectPr], [tblPr], [tcPr]. *)
From Verif Require Import Str StrFind TypesModel Props PropsSet XmlParser FloatModel EscapeModel ReadBase.

(** ** Conversions between integer types ([as]), two's complement on 64 bits *)
Definition wrap_u32 (z : Z) : N := Z.to_N (z mod 4294967296).
Definition wrap_usize (z : Z) : N := Z.to_N (z mod 18446744073709551616).
Definition wrap_i32 (z : Z) : Z := ((z + 2147483648) mod 4294967296 - 2147483648)%Z.

(** ** reader/attributes *)
(** [is_false], bool_value.rs:3-5. *)
Definition is_false (v : string) : bool :=
  (v =s "0") || (lower_str v =s "false") || (lower_str v =s "off").
(** [read_bool], bool_value.rs:7-16. *)
Definition read_bool (atts : list attribute) : bool :=
  match attr_val atts with
  | Some v => negb (is_false v)
  | None => match attr_first atts with Some v => negb (is_false v) | None => true end
  end.
(** [BorderAttrs] and [read_border], border.rs:9-39; [size] and [space] are never None. *)
Record border_attrs := { ba_type : BorderType; ba_color : string; ba_size : N; ba_space : N }.
Definition read_border (atts : list attribute) : R border_attrs :=
  each_attr_m (fun b name v =>
    if name =s "color" then
      ret {| ba_type := ba_type b; ba_color := v; ba_size := ba_size b; ba_space := ba_space b |}
    else if name =s "sz" then
      x <- or_fail (parse_f64 v) ;;
      ret {| ba_type := ba_type b; ba_color := ba_color b; ba_size := as_u32f x; ba_space := ba_space b |}
    else if name =s "space" then
      x <- or_fail (parse_f64 v) ;;
      ret {| ba_type := ba_type b; ba_color := ba_color b; ba_size := ba_size b; ba_space := as_u32f x |}
    else if name =s "val" then
      t <- or_fail (read_BorderType v) ;;
      ret {| ba_type := t; ba_color := ba_color b; ba_size := ba_size b; ba_space := ba_space b |}
    else ret b) atts
  {| ba_type := BorderType_Single; ba_color := "000000"; ba_size := 4; ba_space := 0 |}.
(** [value_to_dax], val.rs:17-24.  [v * 20] panics when it overflows (debug build;
    a release build wraps). *)
Definition ends_with (p s : string) : bool :=
  if Nat.leb (String.length p) (String.length s)
  then substring (String.length s - String.length p) (String.length p) s =s p else false.
Definition value_to_dax (v : string) : R Z :=
  if ends_with "pt" v then
    x <- or_fail (parse_f64 (replace "pt" "" v)) ;;
    let z := (as_i32f x * 20)%Z in
    if ((- max_i32 - 1 <=? z) && (z <=? max_i32))%Z then ret z else crash
  else
    x <- or_fail (parse_f64 v) ;; ret (as_i32f x).
(** [read_width], width.rs:9-22. *)
Definition read_width (atts : list attribute) : R (Z * WidthType) :=
  each_attr_m (fun wt name v =>
    if name =s "type" then t <- or_fail (read_WidthType v) ;; ret (fst wt, t)
    else if name =s "w" then
      x <- or_crash (parse_f64 (replace "%" "" v)) ;; ret (as_isizef x, snd wt)
    else ret wt) atts (0%Z, WidthType_Auto).
(** [read_indent], indent.rs:21-62; the result is the indent the caller builds from
    it (paragraph_property.rs:24-34, elements/indent.rs:20-36). *)
Definition read_indent (atts : list attribute) : R indent :=
  each_attr_m (fun i name v =>
    if (name =s "left") || (name =s "start") then x <- value_to_dax v ;; ret (set_i_start (Some x) i)
    else if (name =s "leftChars") || (name =s "startChars") then
      x <- or_fail (parse_f64 v) ;; ret (set_i_start_chars (Some (as_i32f x)) i)
    else if (name =s "end") || (name =s "right") then x <- value_to_dax v ;; ret (set_i_end (Some x) i)
    else if name =s "hanging" then x <- value_to_dax v ;; ret (set_i_special (Some (Hanging x)) i)
    else if name =s "firstLine" then x <- value_to_dax v ;; ret (set_i_special (Some (FirstLine x)) i)
    else if name =s "firstLineChars" then
      ret (upd (parse_f64 v) (fun x => set_i_first_line_chars (Some (as_i32f x))) i)
    else if name =s "hangingChars" then
      ret (upd (parse_f64 v) (fun x => set_i_hanging_chars (Some (as_i32f x))) i)
    else ret i) atts
  {| i_start := None; i_end := None; i_special := None; i_start_chars := None; i_hanging_chars := None;
     i_first_line_chars := None |}.
(** [read_line_spacing], line_spacing.rs:7-34. *)
Definition read_line_spacing (atts : list attribute) : R line_spacing :=
  each_attr_m (fun l name v =>
    if name =s "before" then x <- or_fail (parse_f64 v) ;; ret (set_ls_before (Some (as_u32f x)) l)
    else if name =s "after" then x <- or_fail (parse_f64 v) ;; ret (set_ls_after (Some (as_u32f x)) l)
    else if name =s "line" then x <- or_fail (parse_f64 v) ;; ret (set_ls_line (Some (as_i32f x)) l)
    else if name =s "lineRule" then t <- or_fail (read_LineSpacingType v) ;; ret (set_ls_rule (Some t) l)
    else if name =s "beforeLines" then x <- or_fail (parse_f64 v) ;; ret (set_ls_before_lines (Some (as_u32f x)) l)
    else if name =s "afterLines" then x <- or_fail (parse_f64 v) ;; ret (set_ls_after_lines (Some (as_u32f x)) l)
    else ret l) atts
  {| ls_rule := None; ls_before := None; ls_after := None; ls_before_lines := None; ls_after_lines := None;
     ls_line := None |}.

(** ** Elements read from their attributes alone *)
(** shading.rs:8-28; the default is elements/shading.rs:17-25. *)
Definition shading_default : shading := {| sh_type := ShdType_Clear; sh_color := "auto"; sh_fill := "FFFFFF" |}.
Definition read_shading (atts : list attribute) : shading :=
  each_attr (fun s name v =>
    if name =s "val" then upd (read_ShdType v) set_sh_type s
    else if name =s "color" then set_sh_color v s
    else if name =s "fill" then set_sh_fill v s
    else s) shading_default atts.
(** frame_property.rs:6-65.  The attribute names are compared through
    [XMLElement::from_str] (xml_element.rs:435-445). *)
Definition frame_empty : framepr :=
  {| fr_h := None; fr_h_rule := None; fr_h_anchor := None; fr_h_space := None; fr_v_anchor := None;
     fr_v_space := None; fr_w := None; fr_wrap := None; fr_x := None; fr_x_align := None; fr_y := None;
     fr_y_align := None |}.
Definition read_frame (atts : list attribute) : framepr :=
  each_attr (fun f name v =>
    if name =s "wrap" then set_fr_wrap (Some v) f
    else if name =s "hRule" then set_fr_h_rule (Some v) f
    else if name =s "hAnchor" then set_fr_h_anchor (Some v) f
    else if name =s "vAnchor" then set_fr_v_anchor (Some v) f
    else if name =s "hSpace" then upd (parse_f64 v) (fun x => set_fr_h_space (Some (as_i32f x))) f
    else if name =s "vSpace" then upd (parse_f64 v) (fun x => set_fr_v_space (Some (as_i32f x))) f
    else if name =s "xAlign" then set_fr_x_align (Some v) f
    else if name =s "yAlign" then set_fr_y_align (Some v) f
    else if name =s "w" then upd (parse_f64 v) (fun x => set_fr_w (Some (as_u32f x))) f
    else if name =s "h" then upd (parse_f64 v) (fun x => set_fr_h (Some (as_u32f x))) f
    else if name =s "x" then upd (parse_f64 v) (fun x => set_fr_x (Some (as_i32f x))) f
    else if name =s "y" then upd (parse_f64 v) (fun x => set_fr_y (Some (as_i32f x))) f
    else f) frame_empty atts.
(** table_position_property.rs:6-52 *)
Definition read_tposition (atts : list attribute) : tposition :=
  each_attr (fun t name v =>
    if name =s "leftFromText" then upd (parse_i32 v) (fun z => set_tp_left (Some z)) t
    else if name =s "rightFromText" then upd (parse_i32 v) (fun z => set_tp_right (Some z)) t
    else if name =s "vertAnchor" then set_tp_vert_anchor (Some v) t
    else if name =s "horzAnchor" then set_tp_horz_anchor (Some v) t
    else if name =s "tblpXSpec" then set_tp_x_spec (Some v) t
    else if name =s "tblpYSpec" then set_tp_y_spec (Some v) t
    else if name =s "tblpX" then upd (parse_i32 v) (fun z => set_tp_x (Some z)) t
    else if name =s "tblpY" then upd (parse_i32 v) (fun z => set_tp_y (Some z)) t
    else t)
  {| tp_left := None; tp_right := None; tp_vert_anchor := None; tp_horz_anchor := None; tp_x_spec := None;
     tp_y_spec := None; tp_x := None; tp_y := None |} atts.
(** doc_grid.rs:8-29 *)
Definition read_doc_grid (atts : list attribute) : R doc_grid :=
  each_attr_m (fun d name v =>
    if name =s "type" then t <- or_fail (read_DocGridType v) ;; ret (set_dg_type t d)
    else if name =s "linePitch" then x <- or_fail (parse_f32 v) ;; ret (set_dg_line_pitch (Some (as_usizef x)) d)
    else if name =s "charSpace" then x <- or_fail (parse_f32 v) ;; ret (set_dg_char_space (Some (as_isizef x)) d)
    else ret d) atts
  {| dg_type := DocGridType_Default; dg_line_pitch := None; dg_char_space := None |}.
(** page_num_type.rs:6-24 *)
Definition read_page_num (atts : list attribute) : page_num_type :=
  each_attr (fun p name v =>
    if name =s "start" then upd (parse_u32 v) (fun n => set_pn_start (Some n)) p
    else if name =s "chapStyle" then set_pn_chap_style (Some v) p
    else p) {| pn_start := None; pn_chap_style := None |} atts.
(** [read_color], run_property.rs:14-29, on the color alone. *)
Definition read_color (atts : list attribute) : color :=
  let c := {| c_val := match attr_val atts with Some v => v | None => "auto" end;
              c_theme := None; c_shade := None; c_tint := None |} in
  let c := match attr_get "themeColor" atts with
           | Some t => upd (read_ThemeColor t) (fun t => set_c_theme (Some (show_ThemeColor t))) c
           | None => c
           end in
  let c := upd (attr_get "themeShade" atts) (fun v => set_c_shade (Some v)) c in
  upd (attr_get "themeTint" atts) (fun v => set_c_tint (Some v)) c.
(** [read_run_fonts], run_property.rs:31-67; the setters escape (elements/run_fonts.rs:44-86). *)
Definition read_fonts (atts : list attribute) : fonts :=
  each_attr (fun f name v =>
    let v := Some (escape_owned v) in
    if name =s "asciiTheme" then set_f_ascii_theme v f
    else if name =s "eastAsiaTheme" then set_f_east_asia_theme v f
    else if name =s "hAnsiTheme" then set_f_hi_ansi_theme v f
    else if name =s "cstheme" then set_f_cs_theme v f
    else if name =s "ascii" then set_f_ascii v f
    else if name =s "eastAsia" then set_f_east_asia v f
    else if name =s "hAnsi" then set_f_hi_ansi v f
    else if name =s "cs" then set_f_cs v f
    else if name =s "hint" then set_f_hint v f
    else f)
  {| f_ascii := None; f_hi_ansi := None; f_east_asia := None; f_cs := None; f_ascii_theme := None;
     f_hi_ansi_theme := None; f_east_asia_theme := None; f_cs_theme := None; f_hint := None |} atts.

(** ** Elements with a loop of their own *)
(** First attribute of that name whose value parses (tab.rs:8-47, positional_tab.rs:8-47). *)
Fixpoint attr_parsed {A} (f : string -> option A) (name : string) (atts : list attribute) : option A :=
  match atts with
  | [] => None
  | (q, v) :: l =>
      if q_local q =s name then match f v with Some a => Some a | None => attr_parsed f name l end
      else attr_parsed f name l
  end.
(** Skip to the end of the element (the loops of tab.rs:64-76, positional_tab.rs:64-76,
    mc_fallback.rs:15-31), giving the value known at the start. *)
Definition to_end {A} (own : string) (a : A) : R A := element own (fun a _ _ => ret a) (fun a => a) a.
(** positional_tab.rs:49-78; [relative_to] is looked for in the attribute
    [alignment] (36-47); default elements/positional_tab.rs:18-26. *)
Definition read_ptab (atts : list attribute) : R ptab :=
  to_end "ptab"
    (upd (attr_parsed read_TabLeaderType "leader" atts) set_pt_leader
    (upd (attr_parsed read_PositionalTabRelativeTo "alignment" atts) set_pt_relative
    (upd (attr_parsed read_PositionalTabAlignmentType "alignment" atts) set_pt_alignment
      {| pt_alignment := PositionalTabAlignmentType_Left; pt_relative := PositionalTabRelativeTo_Margin;
         pt_leader := TabLeaderType_None |}))).
(** tab.rs:49-78 *)
Definition read_tab (atts : list attribute) : R tab :=
  to_end "tab"
    (upd (attr_parsed read_TabLeaderType "leader" atts) (fun l => set_t_leader (Some l))
    (upd (attr_parsed parse_f32 "pos" atts) (fun x => set_t_pos (Some (as_usizef x)))
    (upd (attr_parsed read_TabValueType "val" atts) (fun t => set_t_val (Some t))
      {| t_val := None; t_leader := None; t_pos := None |}))).
(** tabs.rs:6-36 *)
Definition read_tabs : R (list tab) :=
  element "tabs" (fun ts q atts =>
    if q_local q =s "tab" then o <- attempt (read_tab atts) ;; ret (upd o (fun t ts => ts ++ [t]) ts)
    else ret ts) (fun ts => ts) [].
(** numbering_property.rs:6-57 *)
Definition read_numpr : R numpr :=
  element "numPr" (fun n q atts =>
    if q_local q =s "ilvl" then
      v <- or_crash (attr_first atts) ;; l <- or_fail (parse_usize v) ;;
      ret {| n_id := n_id n; n_level := Some l |}
    else if q_local q =s "numId" then
      v <- or_crash (attr_first atts) ;; i <- or_fail (parse_usize v) ;;
      ret {| n_id := Some i; n_level := n_level n |}
    else ret n) (fun n => n) {| n_id := None; n_level := None |}.
(** paragraph_borders.rs:7-51; [set] is elements/paragraph_borders.rs:146-156. *)
Definition pborders_empty : pborders :=
  {| pb_left := None; pb_right := None; pb_top := None; pb_bottom := None; pb_between := None; pb_bar := None |}.
Definition read_pborders : R pborders :=
  element "pBdr" (fun p q atts =>
    let one (set : option pborder -> pborders -> pborders) :=
      b <- read_border atts ;;
      ret (set (Some {| pb_val := ba_type b; pb_size := ba_size b; pb_space := ba_space b; pb_color := ba_color b |}) p) in
    if q_local q =s "top" then one set_pb_top
    else if q_local q =s "left" then one set_pb_left
    else if q_local q =s "bottom" then one set_pb_bottom
    else if q_local q =s "right" then one set_pb_right
    else if q_local q =s "between" then one set_pb_between
    else if q_local q =s "bar" then one set_pb_bar
    else ret p) (fun p => p) pborders_empty.
(** [TableBorder::new(..).border_type(..).color(..).size(..)] with the attributes
    read (table_borders.rs:19-26); the space stays at its default 0
    (elements/table_borders.rs:31-39). *)
Definition border_of (b : border_attrs) : border :=
  {| b_type := ba_type b; b_size := ba_size b; b_color := ba_color b; b_space := 0 |}.
(** table_borders.rs:7-98 *)
Definition tborders_empty : tborders :=
  {| tbs_top := None; tbs_left := None; tbs_bottom := None; tbs_right := None; tbs_inside_h := None; tbs_inside_v := None |}.
Definition read_tborders : R tborders :=
  element "tblBorders" (fun t q atts =>
    let one (set : option border -> tborders -> tborders) := b <- read_border atts ;; ret (set (Some (border_of b)) t) in
    if q_local q =s "top" then one set_tbs_top
    else if q_local q =s "right" then one set_tbs_right
    else if q_local q =s "bottom" then one set_tbs_bottom
    else if q_local q =s "left" then one set_tbs_left
    else if q_local q =s "insideH" then one set_tbs_inside_h
    else if q_local q =s "insideV" then one set_tbs_inside_v
    else ret t) (fun t => t) tborders_empty.
(** table_cell_borders.rs:7-120 *)
Definition cborders_empty : cborders :=
  {| cb_top := None; cb_left := None; cb_bottom := None; cb_right := None; cb_inside_h := None;
     cb_inside_v := None; cb_tr2bl := None; cb_tl2br := None |}.
Definition read_cborders : R cborders :=
  element "tcBorders" (fun t q atts =>
    let one (set : option border -> cborders -> cborders) := b <- read_border atts ;; ret (set (Some (border_of b)) t) in
    if q_local q =s "top" then one set_cb_top
    else if (q_local q =s "right") || (q_local q =s "end") then one set_cb_right
    else if q_local q =s "bottom" then one set_cb_bottom
    else if (q_local q =s "left") || (q_local q =s "start") then one set_cb_left
    else if q_local q =s "insideH" then one set_cb_inside_h
    else if q_local q =s "insideV" then one set_cb_inside_v
    else if q_local q =s "tl2br" then one set_cb_tl2br
    else if q_local q =s "tr2bl" then one set_cb_tr2bl
    else ret t) (fun t => t) cborders_empty.
(** A [(isize, WidthType)] of [read_width] stored as [(usize, WidthType)]. *)
Definition width_of (w : Z * WidthType) : width := (wrap_usize (fst w), snd w).
(** table_cell_margins.rs:6-51; default elements/table_cell_margins.rs:18-33. *)
Definition tmargins_default : tmargins :=
  {| tm_top := (0%N, WidthType_Dxa); tm_left := (55%N, WidthType_Dxa); tm_bottom := (0%N, WidthType_Dxa);
     tm_right := (55%N, WidthType_Dxa) |}.
Definition read_tmargins : R tmargins :=
  element "tblCellMar" (fun m q atts =>
    let one (set : width -> tmargins -> tmargins) :=
      o <- attempt (read_width atts) ;; ret (upd o (fun w => set (width_of w)) m) in
    if q_local q =s "top" then one set_tm_top
    else if q_local q =s "right" then one set_tm_right
    else if q_local q =s "bottom" then one set_tm_bottom
    else if q_local q =s "left" then one set_tm_left
    else ret m) (fun m => m) tmargins_default.
(** cell_margins.rs:6-51 *)
Definition read_cmargins : R cmargins :=
  element "tcMar" (fun m q atts =>
    let one (set : option width -> cmargins -> cmargins) :=
      o <- attempt (read_width atts) ;; ret (upd o (fun w => set (Some (width_of w))) m) in
    if q_local q =s "top" then one set_cm_top
    else if q_local q =s "right" then one set_cm_right
    else if q_local q =s "bottom" then one set_cm_bottom
    else if q_local q =s "left" then one set_cm_left
    else ret m) (fun m => m) {| cm_top := None; cm_left := None; cm_bottom := None; cm_right := None |}.

(** ** section_property.rs *)
(** [read_page_size], 8-23 *)
Definition read_page_size (atts : list attribute) : R page_size :=
  each_attr_m (fun p name v =>
    if name =s "w" then x <- value_to_dax v ;; ret (set_pg_w (wrap_u32 x) p)
    else if name =s "h" then x <- value_to_dax v ;; ret (set_pg_h (wrap_u32 x) p)
    else ret p) atts (sp_size sectpr_default).
(** [read_page_margin], 25-57 *)
Definition read_page_margin (atts : list attribute) : R page_margin :=
  each_attr_m (fun m name v =>
    if name =s "top" then x <- value_to_dax v ;; ret (set_mg_top x m)
    else if name =s "right" then x <- value_to_dax v ;; ret (set_mg_right x m)
    else if name =s "bottom" then x <- value_to_dax v ;; ret (set_mg_bottom x m)
    else if name =s "left" then x <- value_to_dax v ;; ret (set_mg_left x m)
    else if name =s "header" then x <- value_to_dax v ;; ret (set_mg_header x m)
    else if name =s "footer" then x <- value_to_dax v ;; ret (set_mg_footer x m)
    else if name =s "gutter" then x <- value_to_dax v ;; ret (set_mg_gutter x m)
    else ret m) atts (sp_margin sectpr_default).
(** [read_header_or_footer_reference], 59-77 *)
Definition read_part_ref (atts : list attribute) : part_ref :=
  each_attr (fun p name v =>
    if name =s "type" then {| pr_type := v; pr_id := pr_id p |}
    else if name =s "id" then {| pr_type := pr_type p; pr_id := v |}
    else p) {| pr_type := "default"; pr_id := "" |} atts.
(** [SectionProperty::read], 79-175 *)
Definition read_sectpr : R sectpr :=
  element "sectPr" (fun sp q atts =>
    if q_local q =s "pgMar" then m <- read_page_margin atts ;; ret (set_sp_margin m sp)
    else if q_local q =s "pgSz" then z <- read_page_size atts ;; ret (set_sp_size z sp)
    else if q_local q =s "docGrid" then
      o <- attempt (read_doc_grid atts) ;; ret (upd o (fun d => set_sp_doc_grid (Some d)) sp)
    else if q_local q =s "pgNumType" then ret (set_sp_page_num (Some (read_page_num atts)) sp)
    else if q_local q =s "headerReference" then
      let p := read_part_ref atts in
      ret (if pr_type p =s "default" then set_sp_header (Some p) sp
           else if pr_type p =s "first" then set_sp_first_header (Some p) sp
           else if pr_type p =s "even" then set_sp_even_header (Some p) sp
           else sp)
    else if q_local q =s "footerReference" then
      let p := read_part_ref atts in
      ret (if pr_type p =s "default" then set_sp_footer (Some p) sp
           else if pr_type p =s "first" then set_sp_first_footer (Some p) sp
           else if pr_type p =s "even" then set_sp_even_footer (Some p) sp
           else sp)
    else if q_local q =s "type" then
      ret (match attr_val atts with
           | Some v => upd (read_SectionType v) (fun t => set_sp_type (Some t)) sp
           | None => sp
           end)
    else if q_local q =s "titlePg" then ret (set_sp_title_pg true sp)
    else ret sp) (fun sp => sp) sectpr_default.

(** ** table_property.rs:9-75 *)
Definition read_tblpr : R tblpr :=
  element "tblPr" (fun t q atts =>
    if q_local q =s "tblBorders" then
      o <- attempt read_tborders ;; ret (upd o set_tpr_borders t)
    else if q_local q =s "tblCellMar" then
      o <- attempt read_tmargins ;; ret (upd o (fun m => set_tpr_margins (Some m)) t)
    else if q_local q =s "tblW" then
      o <- attempt (read_width atts) ;; ret (upd o (fun w => set_tpr_width (width_of w)) t)
    else if q_local q =s "jc" then
      v <- or_crash (attr_first atts) ;;
      ret (upd (read_TableAlignmentType v) (fun a => set_tpr_jc (show_TableAlignmentType a)) t)
    else if q_local q =s "tblInd" then
      o <- attempt (read_width atts) ;;
      ret (upd o (fun w => if (fst w =? 0)%Z then fun t => t
                           else set_tpr_indent (Some (wrap_i32 (fst w), WidthType_Dxa))) t)
    else if q_local q =s "tblStyle" then ret (upd (attr_val atts) (fun v => set_tpr_style (Some v)) t)
    else if q_local q =s "tblpPr" then ret (set_tpr_position (Some (read_tposition atts)) t)
    else ret t) (fun t => t) (set_tpr_borders tborders_empty tblpr_default).

(** ** table_cell_property.rs:7-86 *)
Definition read_tcpr : R tcpr :=
  element "tcPr" (fun t q atts =>
    ignore_if (q_local q) "tcPrChange" ;;
    if q_local q =s "tcW" then
      w <- each_attr_m (fun wt name v =>
             if name =s "type" then x <- or_fail (read_WidthType v) ;; ret (fst wt, x)
             else if name =s "w" then n <- or_fail (parse_usize v) ;; ret (n, snd wt)
             else ret wt) atts (0%N, WidthType_Auto) ;;
      ret (set_tc_width (Some w) t)
    else if q_local q =s "gridSpan" then
      match attr_first atts with
      | Some v => n <- or_fail (parse_usize v) ;; ret (set_tc_grid_span (Some n) t)
      | None => ret t
      end
    else if q_local q =s "vMerge" then
      match attr_first atts with
      | Some v => m <- or_fail (read_VMergeType v) ;; ret (set_tc_vmerge (Some m) t)
      | None => ret (set_tc_vmerge (Some VMergeType_Continue) t)
      end
    else if q_local q =s "vAlign" then
      match attr_first atts with
      | Some v => m <- or_fail (read_VAlignType v) ;; ret (set_tc_valign (Some m) t)
      | None => ret t
      end
    else if q_local q =s "shd" then ret (set_tc_shading (Some (read_shading atts)) t)
    else if q_local q =s "textDirection" then
      ret (match attr_first atts with
           | Some v => upd (read_TextDirectionType v) (fun d => set_tc_text_direction (Some d)) t
           | None => t
           end)
    else if q_local q =s "tcBorders" then b <- read_cborders ;; ret (set_tc_borders (Some b) t)
    else if q_local q =s "tcMar" then
      o <- attempt read_cmargins ;; ret (upd o (fun m => set_tc_margins (Some m)) t)
    else ret t) (fun t => t) tcpr_empty.

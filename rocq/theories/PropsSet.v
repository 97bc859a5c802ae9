(** Field updates of the records of [Props]: [set_f v x] is [x] with field [f]
    replaced by [v].  They model the assignments [self.f = v] of the setters and of
    the reader; each use cites the assignment it models. *)
From Coq Require Import NArith ZArith List.
From Verif Require Import Str TypesModel Props.

Definition set_c_val (v : string) (x : color) : color :=
  {| c_val := v; c_theme := c_theme x; c_shade := c_shade x; c_tint := c_tint x |}.
Definition set_c_theme (v : option string) (x : color) : color :=
  {| c_val := c_val x; c_theme := v; c_shade := c_shade x; c_tint := c_tint x |}.
Definition set_c_shade (v : option string) (x : color) : color :=
  {| c_val := c_val x; c_theme := c_theme x; c_shade := v; c_tint := c_tint x |}.
Definition set_c_tint (v : option string) (x : color) : color :=
  {| c_val := c_val x; c_theme := c_theme x; c_shade := c_shade x; c_tint := v |}.
Definition set_f_ascii (v : option string) (x : fonts) : fonts :=
  {| f_ascii := v; f_hi_ansi := f_hi_ansi x; f_east_asia := f_east_asia x; f_cs := f_cs x; f_ascii_theme := f_ascii_theme x; f_hi_ansi_theme := f_hi_ansi_theme x; f_east_asia_theme := f_east_asia_theme x; f_cs_theme := f_cs_theme x; f_hint := f_hint x |}.
Definition set_f_hi_ansi (v : option string) (x : fonts) : fonts :=
  {| f_ascii := f_ascii x; f_hi_ansi := v; f_east_asia := f_east_asia x; f_cs := f_cs x; f_ascii_theme := f_ascii_theme x; f_hi_ansi_theme := f_hi_ansi_theme x; f_east_asia_theme := f_east_asia_theme x; f_cs_theme := f_cs_theme x; f_hint := f_hint x |}.
Definition set_f_east_asia (v : option string) (x : fonts) : fonts :=
  {| f_ascii := f_ascii x; f_hi_ansi := f_hi_ansi x; f_east_asia := v; f_cs := f_cs x; f_ascii_theme := f_ascii_theme x; f_hi_ansi_theme := f_hi_ansi_theme x; f_east_asia_theme := f_east_asia_theme x; f_cs_theme := f_cs_theme x; f_hint := f_hint x |}.
Definition set_f_cs (v : option string) (x : fonts) : fonts :=
  {| f_ascii := f_ascii x; f_hi_ansi := f_hi_ansi x; f_east_asia := f_east_asia x; f_cs := v; f_ascii_theme := f_ascii_theme x; f_hi_ansi_theme := f_hi_ansi_theme x; f_east_asia_theme := f_east_asia_theme x; f_cs_theme := f_cs_theme x; f_hint := f_hint x |}.
Definition set_f_ascii_theme (v : option string) (x : fonts) : fonts :=
  {| f_ascii := f_ascii x; f_hi_ansi := f_hi_ansi x; f_east_asia := f_east_asia x; f_cs := f_cs x; f_ascii_theme := v; f_hi_ansi_theme := f_hi_ansi_theme x; f_east_asia_theme := f_east_asia_theme x; f_cs_theme := f_cs_theme x; f_hint := f_hint x |}.
Definition set_f_hi_ansi_theme (v : option string) (x : fonts) : fonts :=
  {| f_ascii := f_ascii x; f_hi_ansi := f_hi_ansi x; f_east_asia := f_east_asia x; f_cs := f_cs x; f_ascii_theme := f_ascii_theme x; f_hi_ansi_theme := v; f_east_asia_theme := f_east_asia_theme x; f_cs_theme := f_cs_theme x; f_hint := f_hint x |}.
Definition set_f_east_asia_theme (v : option string) (x : fonts) : fonts :=
  {| f_ascii := f_ascii x; f_hi_ansi := f_hi_ansi x; f_east_asia := f_east_asia x; f_cs := f_cs x; f_ascii_theme := f_ascii_theme x; f_hi_ansi_theme := f_hi_ansi_theme x; f_east_asia_theme := v; f_cs_theme := f_cs_theme x; f_hint := f_hint x |}.
Definition set_f_cs_theme (v : option string) (x : fonts) : fonts :=
  {| f_ascii := f_ascii x; f_hi_ansi := f_hi_ansi x; f_east_asia := f_east_asia x; f_cs := f_cs x; f_ascii_theme := f_ascii_theme x; f_hi_ansi_theme := f_hi_ansi_theme x; f_east_asia_theme := f_east_asia_theme x; f_cs_theme := v; f_hint := f_hint x |}.
Definition set_f_hint (v : option string) (x : fonts) : fonts :=
  {| f_ascii := f_ascii x; f_hi_ansi := f_hi_ansi x; f_east_asia := f_east_asia x; f_cs := f_cs x; f_ascii_theme := f_ascii_theme x; f_hi_ansi_theme := f_hi_ansi_theme x; f_east_asia_theme := f_east_asia_theme x; f_cs_theme := f_cs_theme x; f_hint := v |}.
Definition set_tb_type (v : BorderType) (x : text_border) : text_border :=
  {| tb_type := v; tb_size := tb_size x; tb_color := tb_color x; tb_space := tb_space x |}.
Definition set_tb_size (v : N) (x : text_border) : text_border :=
  {| tb_type := tb_type x; tb_size := v; tb_color := tb_color x; tb_space := tb_space x |}.
Definition set_tb_color (v : string) (x : text_border) : text_border :=
  {| tb_type := tb_type x; tb_size := tb_size x; tb_color := v; tb_space := tb_space x |}.
Definition set_tb_space (v : N) (x : text_border) : text_border :=
  {| tb_type := tb_type x; tb_size := tb_size x; tb_color := tb_color x; tb_space := v |}.
Definition set_pt_alignment (v : PositionalTabAlignmentType) (x : ptab) : ptab :=
  {| pt_alignment := v; pt_relative := pt_relative x; pt_leader := pt_leader x |}.
Definition set_pt_relative (v : PositionalTabRelativeTo) (x : ptab) : ptab :=
  {| pt_alignment := pt_alignment x; pt_relative := v; pt_leader := pt_leader x |}.
Definition set_pt_leader (v : TabLeaderType) (x : ptab) : ptab :=
  {| pt_alignment := pt_alignment x; pt_relative := pt_relative x; pt_leader := v |}.
Definition set_sh_type (v : ShdType) (x : shading) : shading :=
  {| sh_type := v; sh_color := sh_color x; sh_fill := sh_fill x |}.
Definition set_sh_color (v : string) (x : shading) : shading :=
  {| sh_type := sh_type x; sh_color := v; sh_fill := sh_fill x |}.
Definition set_sh_fill (v : string) (x : shading) : shading :=
  {| sh_type := sh_type x; sh_color := sh_color x; sh_fill := v |}.
Definition set_r_style (v : option string) (x : rpr) : rpr :=
  {| r_style := v; r_sz := r_sz x; r_sz_cs := r_sz_cs x; r_color := r_color x; r_highlight := r_highlight x; r_vert := r_vert x; r_underline := r_underline x; r_bold := r_bold x; r_bold_cs := r_bold_cs x; r_caps := r_caps x; r_italic := r_italic x; r_italic_cs := r_italic_cs x; r_vanish := r_vanish x; r_spec_vanish := r_spec_vanish x; r_spacing := r_spacing x; r_fit := r_fit x; r_stretch := r_stretch x; r_fonts := r_fonts x; r_border := r_border x; r_del := r_del x; r_ins := r_ins x; r_strike := r_strike x; r_dstrike := r_dstrike x; r_ptab := r_ptab x; r_shading := r_shading x |}.
Definition set_r_sz (v : option N) (x : rpr) : rpr :=
  {| r_style := r_style x; r_sz := v; r_sz_cs := r_sz_cs x; r_color := r_color x; r_highlight := r_highlight x; r_vert := r_vert x; r_underline := r_underline x; r_bold := r_bold x; r_bold_cs := r_bold_cs x; r_caps := r_caps x; r_italic := r_italic x; r_italic_cs := r_italic_cs x; r_vanish := r_vanish x; r_spec_vanish := r_spec_vanish x; r_spacing := r_spacing x; r_fit := r_fit x; r_stretch := r_stretch x; r_fonts := r_fonts x; r_border := r_border x; r_del := r_del x; r_ins := r_ins x; r_strike := r_strike x; r_dstrike := r_dstrike x; r_ptab := r_ptab x; r_shading := r_shading x |}.
Definition set_r_sz_cs (v : option N) (x : rpr) : rpr :=
  {| r_style := r_style x; r_sz := r_sz x; r_sz_cs := v; r_color := r_color x; r_highlight := r_highlight x; r_vert := r_vert x; r_underline := r_underline x; r_bold := r_bold x; r_bold_cs := r_bold_cs x; r_caps := r_caps x; r_italic := r_italic x; r_italic_cs := r_italic_cs x; r_vanish := r_vanish x; r_spec_vanish := r_spec_vanish x; r_spacing := r_spacing x; r_fit := r_fit x; r_stretch := r_stretch x; r_fonts := r_fonts x; r_border := r_border x; r_del := r_del x; r_ins := r_ins x; r_strike := r_strike x; r_dstrike := r_dstrike x; r_ptab := r_ptab x; r_shading := r_shading x |}.
Definition set_r_color (v : option color) (x : rpr) : rpr :=
  {| r_style := r_style x; r_sz := r_sz x; r_sz_cs := r_sz_cs x; r_color := v; r_highlight := r_highlight x; r_vert := r_vert x; r_underline := r_underline x; r_bold := r_bold x; r_bold_cs := r_bold_cs x; r_caps := r_caps x; r_italic := r_italic x; r_italic_cs := r_italic_cs x; r_vanish := r_vanish x; r_spec_vanish := r_spec_vanish x; r_spacing := r_spacing x; r_fit := r_fit x; r_stretch := r_stretch x; r_fonts := r_fonts x; r_border := r_border x; r_del := r_del x; r_ins := r_ins x; r_strike := r_strike x; r_dstrike := r_dstrike x; r_ptab := r_ptab x; r_shading := r_shading x |}.
Definition set_r_highlight (v : option string) (x : rpr) : rpr :=
  {| r_style := r_style x; r_sz := r_sz x; r_sz_cs := r_sz_cs x; r_color := r_color x; r_highlight := v; r_vert := r_vert x; r_underline := r_underline x; r_bold := r_bold x; r_bold_cs := r_bold_cs x; r_caps := r_caps x; r_italic := r_italic x; r_italic_cs := r_italic_cs x; r_vanish := r_vanish x; r_spec_vanish := r_spec_vanish x; r_spacing := r_spacing x; r_fit := r_fit x; r_stretch := r_stretch x; r_fonts := r_fonts x; r_border := r_border x; r_del := r_del x; r_ins := r_ins x; r_strike := r_strike x; r_dstrike := r_dstrike x; r_ptab := r_ptab x; r_shading := r_shading x |}.
Definition set_r_vert (v : option VertAlignType) (x : rpr) : rpr :=
  {| r_style := r_style x; r_sz := r_sz x; r_sz_cs := r_sz_cs x; r_color := r_color x; r_highlight := r_highlight x; r_vert := v; r_underline := r_underline x; r_bold := r_bold x; r_bold_cs := r_bold_cs x; r_caps := r_caps x; r_italic := r_italic x; r_italic_cs := r_italic_cs x; r_vanish := r_vanish x; r_spec_vanish := r_spec_vanish x; r_spacing := r_spacing x; r_fit := r_fit x; r_stretch := r_stretch x; r_fonts := r_fonts x; r_border := r_border x; r_del := r_del x; r_ins := r_ins x; r_strike := r_strike x; r_dstrike := r_dstrike x; r_ptab := r_ptab x; r_shading := r_shading x |}.
Definition set_r_underline (v : option string) (x : rpr) : rpr :=
  {| r_style := r_style x; r_sz := r_sz x; r_sz_cs := r_sz_cs x; r_color := r_color x; r_highlight := r_highlight x; r_vert := r_vert x; r_underline := v; r_bold := r_bold x; r_bold_cs := r_bold_cs x; r_caps := r_caps x; r_italic := r_italic x; r_italic_cs := r_italic_cs x; r_vanish := r_vanish x; r_spec_vanish := r_spec_vanish x; r_spacing := r_spacing x; r_fit := r_fit x; r_stretch := r_stretch x; r_fonts := r_fonts x; r_border := r_border x; r_del := r_del x; r_ins := r_ins x; r_strike := r_strike x; r_dstrike := r_dstrike x; r_ptab := r_ptab x; r_shading := r_shading x |}.
Definition set_r_bold (v : option bool) (x : rpr) : rpr :=
  {| r_style := r_style x; r_sz := r_sz x; r_sz_cs := r_sz_cs x; r_color := r_color x; r_highlight := r_highlight x; r_vert := r_vert x; r_underline := r_underline x; r_bold := v; r_bold_cs := r_bold_cs x; r_caps := r_caps x; r_italic := r_italic x; r_italic_cs := r_italic_cs x; r_vanish := r_vanish x; r_spec_vanish := r_spec_vanish x; r_spacing := r_spacing x; r_fit := r_fit x; r_stretch := r_stretch x; r_fonts := r_fonts x; r_border := r_border x; r_del := r_del x; r_ins := r_ins x; r_strike := r_strike x; r_dstrike := r_dstrike x; r_ptab := r_ptab x; r_shading := r_shading x |}.
Definition set_r_bold_cs (v : option bool) (x : rpr) : rpr :=
  {| r_style := r_style x; r_sz := r_sz x; r_sz_cs := r_sz_cs x; r_color := r_color x; r_highlight := r_highlight x; r_vert := r_vert x; r_underline := r_underline x; r_bold := r_bold x; r_bold_cs := v; r_caps := r_caps x; r_italic := r_italic x; r_italic_cs := r_italic_cs x; r_vanish := r_vanish x; r_spec_vanish := r_spec_vanish x; r_spacing := r_spacing x; r_fit := r_fit x; r_stretch := r_stretch x; r_fonts := r_fonts x; r_border := r_border x; r_del := r_del x; r_ins := r_ins x; r_strike := r_strike x; r_dstrike := r_dstrike x; r_ptab := r_ptab x; r_shading := r_shading x |}.
Definition set_r_caps (v : option bool) (x : rpr) : rpr :=
  {| r_style := r_style x; r_sz := r_sz x; r_sz_cs := r_sz_cs x; r_color := r_color x; r_highlight := r_highlight x; r_vert := r_vert x; r_underline := r_underline x; r_bold := r_bold x; r_bold_cs := r_bold_cs x; r_caps := v; r_italic := r_italic x; r_italic_cs := r_italic_cs x; r_vanish := r_vanish x; r_spec_vanish := r_spec_vanish x; r_spacing := r_spacing x; r_fit := r_fit x; r_stretch := r_stretch x; r_fonts := r_fonts x; r_border := r_border x; r_del := r_del x; r_ins := r_ins x; r_strike := r_strike x; r_dstrike := r_dstrike x; r_ptab := r_ptab x; r_shading := r_shading x |}.
Definition set_r_italic (v : option bool) (x : rpr) : rpr :=
  {| r_style := r_style x; r_sz := r_sz x; r_sz_cs := r_sz_cs x; r_color := r_color x; r_highlight := r_highlight x; r_vert := r_vert x; r_underline := r_underline x; r_bold := r_bold x; r_bold_cs := r_bold_cs x; r_caps := r_caps x; r_italic := v; r_italic_cs := r_italic_cs x; r_vanish := r_vanish x; r_spec_vanish := r_spec_vanish x; r_spacing := r_spacing x; r_fit := r_fit x; r_stretch := r_stretch x; r_fonts := r_fonts x; r_border := r_border x; r_del := r_del x; r_ins := r_ins x; r_strike := r_strike x; r_dstrike := r_dstrike x; r_ptab := r_ptab x; r_shading := r_shading x |}.
Definition set_r_italic_cs (v : option bool) (x : rpr) : rpr :=
  {| r_style := r_style x; r_sz := r_sz x; r_sz_cs := r_sz_cs x; r_color := r_color x; r_highlight := r_highlight x; r_vert := r_vert x; r_underline := r_underline x; r_bold := r_bold x; r_bold_cs := r_bold_cs x; r_caps := r_caps x; r_italic := r_italic x; r_italic_cs := v; r_vanish := r_vanish x; r_spec_vanish := r_spec_vanish x; r_spacing := r_spacing x; r_fit := r_fit x; r_stretch := r_stretch x; r_fonts := r_fonts x; r_border := r_border x; r_del := r_del x; r_ins := r_ins x; r_strike := r_strike x; r_dstrike := r_dstrike x; r_ptab := r_ptab x; r_shading := r_shading x |}.
Definition set_r_vanish (v : bool) (x : rpr) : rpr :=
  {| r_style := r_style x; r_sz := r_sz x; r_sz_cs := r_sz_cs x; r_color := r_color x; r_highlight := r_highlight x; r_vert := r_vert x; r_underline := r_underline x; r_bold := r_bold x; r_bold_cs := r_bold_cs x; r_caps := r_caps x; r_italic := r_italic x; r_italic_cs := r_italic_cs x; r_vanish := v; r_spec_vanish := r_spec_vanish x; r_spacing := r_spacing x; r_fit := r_fit x; r_stretch := r_stretch x; r_fonts := r_fonts x; r_border := r_border x; r_del := r_del x; r_ins := r_ins x; r_strike := r_strike x; r_dstrike := r_dstrike x; r_ptab := r_ptab x; r_shading := r_shading x |}.
Definition set_r_spec_vanish (v : bool) (x : rpr) : rpr :=
  {| r_style := r_style x; r_sz := r_sz x; r_sz_cs := r_sz_cs x; r_color := r_color x; r_highlight := r_highlight x; r_vert := r_vert x; r_underline := r_underline x; r_bold := r_bold x; r_bold_cs := r_bold_cs x; r_caps := r_caps x; r_italic := r_italic x; r_italic_cs := r_italic_cs x; r_vanish := r_vanish x; r_spec_vanish := v; r_spacing := r_spacing x; r_fit := r_fit x; r_stretch := r_stretch x; r_fonts := r_fonts x; r_border := r_border x; r_del := r_del x; r_ins := r_ins x; r_strike := r_strike x; r_dstrike := r_dstrike x; r_ptab := r_ptab x; r_shading := r_shading x |}.
Definition set_r_spacing (v : option Z) (x : rpr) : rpr :=
  {| r_style := r_style x; r_sz := r_sz x; r_sz_cs := r_sz_cs x; r_color := r_color x; r_highlight := r_highlight x; r_vert := r_vert x; r_underline := r_underline x; r_bold := r_bold x; r_bold_cs := r_bold_cs x; r_caps := r_caps x; r_italic := r_italic x; r_italic_cs := r_italic_cs x; r_vanish := r_vanish x; r_spec_vanish := r_spec_vanish x; r_spacing := v; r_fit := r_fit x; r_stretch := r_stretch x; r_fonts := r_fonts x; r_border := r_border x; r_del := r_del x; r_ins := r_ins x; r_strike := r_strike x; r_dstrike := r_dstrike x; r_ptab := r_ptab x; r_shading := r_shading x |}.
Definition set_r_fit (v : option fit_text) (x : rpr) : rpr :=
  {| r_style := r_style x; r_sz := r_sz x; r_sz_cs := r_sz_cs x; r_color := r_color x; r_highlight := r_highlight x; r_vert := r_vert x; r_underline := r_underline x; r_bold := r_bold x; r_bold_cs := r_bold_cs x; r_caps := r_caps x; r_italic := r_italic x; r_italic_cs := r_italic_cs x; r_vanish := r_vanish x; r_spec_vanish := r_spec_vanish x; r_spacing := r_spacing x; r_fit := v; r_stretch := r_stretch x; r_fonts := r_fonts x; r_border := r_border x; r_del := r_del x; r_ins := r_ins x; r_strike := r_strike x; r_dstrike := r_dstrike x; r_ptab := r_ptab x; r_shading := r_shading x |}.
Definition set_r_stretch (v : option Z) (x : rpr) : rpr :=
  {| r_style := r_style x; r_sz := r_sz x; r_sz_cs := r_sz_cs x; r_color := r_color x; r_highlight := r_highlight x; r_vert := r_vert x; r_underline := r_underline x; r_bold := r_bold x; r_bold_cs := r_bold_cs x; r_caps := r_caps x; r_italic := r_italic x; r_italic_cs := r_italic_cs x; r_vanish := r_vanish x; r_spec_vanish := r_spec_vanish x; r_spacing := r_spacing x; r_fit := r_fit x; r_stretch := v; r_fonts := r_fonts x; r_border := r_border x; r_del := r_del x; r_ins := r_ins x; r_strike := r_strike x; r_dstrike := r_dstrike x; r_ptab := r_ptab x; r_shading := r_shading x |}.
Definition set_r_fonts (v : option fonts) (x : rpr) : rpr :=
  {| r_style := r_style x; r_sz := r_sz x; r_sz_cs := r_sz_cs x; r_color := r_color x; r_highlight := r_highlight x; r_vert := r_vert x; r_underline := r_underline x; r_bold := r_bold x; r_bold_cs := r_bold_cs x; r_caps := r_caps x; r_italic := r_italic x; r_italic_cs := r_italic_cs x; r_vanish := r_vanish x; r_spec_vanish := r_spec_vanish x; r_spacing := r_spacing x; r_fit := r_fit x; r_stretch := r_stretch x; r_fonts := v; r_border := r_border x; r_del := r_del x; r_ins := r_ins x; r_strike := r_strike x; r_dstrike := r_dstrike x; r_ptab := r_ptab x; r_shading := r_shading x |}.
Definition set_r_border (v : option text_border) (x : rpr) : rpr :=
  {| r_style := r_style x; r_sz := r_sz x; r_sz_cs := r_sz_cs x; r_color := r_color x; r_highlight := r_highlight x; r_vert := r_vert x; r_underline := r_underline x; r_bold := r_bold x; r_bold_cs := r_bold_cs x; r_caps := r_caps x; r_italic := r_italic x; r_italic_cs := r_italic_cs x; r_vanish := r_vanish x; r_spec_vanish := r_spec_vanish x; r_spacing := r_spacing x; r_fit := r_fit x; r_stretch := r_stretch x; r_fonts := r_fonts x; r_border := v; r_del := r_del x; r_ins := r_ins x; r_strike := r_strike x; r_dstrike := r_dstrike x; r_ptab := r_ptab x; r_shading := r_shading x |}.
Definition set_r_del (v : option mark) (x : rpr) : rpr :=
  {| r_style := r_style x; r_sz := r_sz x; r_sz_cs := r_sz_cs x; r_color := r_color x; r_highlight := r_highlight x; r_vert := r_vert x; r_underline := r_underline x; r_bold := r_bold x; r_bold_cs := r_bold_cs x; r_caps := r_caps x; r_italic := r_italic x; r_italic_cs := r_italic_cs x; r_vanish := r_vanish x; r_spec_vanish := r_spec_vanish x; r_spacing := r_spacing x; r_fit := r_fit x; r_stretch := r_stretch x; r_fonts := r_fonts x; r_border := r_border x; r_del := v; r_ins := r_ins x; r_strike := r_strike x; r_dstrike := r_dstrike x; r_ptab := r_ptab x; r_shading := r_shading x |}.
Definition set_r_ins (v : option mark) (x : rpr) : rpr :=
  {| r_style := r_style x; r_sz := r_sz x; r_sz_cs := r_sz_cs x; r_color := r_color x; r_highlight := r_highlight x; r_vert := r_vert x; r_underline := r_underline x; r_bold := r_bold x; r_bold_cs := r_bold_cs x; r_caps := r_caps x; r_italic := r_italic x; r_italic_cs := r_italic_cs x; r_vanish := r_vanish x; r_spec_vanish := r_spec_vanish x; r_spacing := r_spacing x; r_fit := r_fit x; r_stretch := r_stretch x; r_fonts := r_fonts x; r_border := r_border x; r_del := r_del x; r_ins := v; r_strike := r_strike x; r_dstrike := r_dstrike x; r_ptab := r_ptab x; r_shading := r_shading x |}.
Definition set_r_strike (v : option bool) (x : rpr) : rpr :=
  {| r_style := r_style x; r_sz := r_sz x; r_sz_cs := r_sz_cs x; r_color := r_color x; r_highlight := r_highlight x; r_vert := r_vert x; r_underline := r_underline x; r_bold := r_bold x; r_bold_cs := r_bold_cs x; r_caps := r_caps x; r_italic := r_italic x; r_italic_cs := r_italic_cs x; r_vanish := r_vanish x; r_spec_vanish := r_spec_vanish x; r_spacing := r_spacing x; r_fit := r_fit x; r_stretch := r_stretch x; r_fonts := r_fonts x; r_border := r_border x; r_del := r_del x; r_ins := r_ins x; r_strike := v; r_dstrike := r_dstrike x; r_ptab := r_ptab x; r_shading := r_shading x |}.
Definition set_r_dstrike (v : option bool) (x : rpr) : rpr :=
  {| r_style := r_style x; r_sz := r_sz x; r_sz_cs := r_sz_cs x; r_color := r_color x; r_highlight := r_highlight x; r_vert := r_vert x; r_underline := r_underline x; r_bold := r_bold x; r_bold_cs := r_bold_cs x; r_caps := r_caps x; r_italic := r_italic x; r_italic_cs := r_italic_cs x; r_vanish := r_vanish x; r_spec_vanish := r_spec_vanish x; r_spacing := r_spacing x; r_fit := r_fit x; r_stretch := r_stretch x; r_fonts := r_fonts x; r_border := r_border x; r_del := r_del x; r_ins := r_ins x; r_strike := r_strike x; r_dstrike := v; r_ptab := r_ptab x; r_shading := r_shading x |}.
Definition set_r_ptab (v : option ptab) (x : rpr) : rpr :=
  {| r_style := r_style x; r_sz := r_sz x; r_sz_cs := r_sz_cs x; r_color := r_color x; r_highlight := r_highlight x; r_vert := r_vert x; r_underline := r_underline x; r_bold := r_bold x; r_bold_cs := r_bold_cs x; r_caps := r_caps x; r_italic := r_italic x; r_italic_cs := r_italic_cs x; r_vanish := r_vanish x; r_spec_vanish := r_spec_vanish x; r_spacing := r_spacing x; r_fit := r_fit x; r_stretch := r_stretch x; r_fonts := r_fonts x; r_border := r_border x; r_del := r_del x; r_ins := r_ins x; r_strike := r_strike x; r_dstrike := r_dstrike x; r_ptab := v; r_shading := r_shading x |}.
Definition set_r_shading (v : option shading) (x : rpr) : rpr :=
  {| r_style := r_style x; r_sz := r_sz x; r_sz_cs := r_sz_cs x; r_color := r_color x; r_highlight := r_highlight x; r_vert := r_vert x; r_underline := r_underline x; r_bold := r_bold x; r_bold_cs := r_bold_cs x; r_caps := r_caps x; r_italic := r_italic x; r_italic_cs := r_italic_cs x; r_vanish := r_vanish x; r_spec_vanish := r_spec_vanish x; r_spacing := r_spacing x; r_fit := r_fit x; r_stretch := r_stretch x; r_fonts := r_fonts x; r_border := r_border x; r_del := r_del x; r_ins := r_ins x; r_strike := r_strike x; r_dstrike := r_dstrike x; r_ptab := r_ptab x; r_shading := v |}.
Definition set_i_start (v : option Z) (x : indent) : indent :=
  {| i_start := v; i_end := i_end x; i_special := i_special x; i_start_chars := i_start_chars x; i_hanging_chars := i_hanging_chars x; i_first_line_chars := i_first_line_chars x |}.
Definition set_i_end (v : option Z) (x : indent) : indent :=
  {| i_start := i_start x; i_end := v; i_special := i_special x; i_start_chars := i_start_chars x; i_hanging_chars := i_hanging_chars x; i_first_line_chars := i_first_line_chars x |}.
Definition set_i_special (v : option special_indent) (x : indent) : indent :=
  {| i_start := i_start x; i_end := i_end x; i_special := v; i_start_chars := i_start_chars x; i_hanging_chars := i_hanging_chars x; i_first_line_chars := i_first_line_chars x |}.
Definition set_i_start_chars (v : option Z) (x : indent) : indent :=
  {| i_start := i_start x; i_end := i_end x; i_special := i_special x; i_start_chars := v; i_hanging_chars := i_hanging_chars x; i_first_line_chars := i_first_line_chars x |}.
Definition set_i_hanging_chars (v : option Z) (x : indent) : indent :=
  {| i_start := i_start x; i_end := i_end x; i_special := i_special x; i_start_chars := i_start_chars x; i_hanging_chars := v; i_first_line_chars := i_first_line_chars x |}.
Definition set_i_first_line_chars (v : option Z) (x : indent) : indent :=
  {| i_start := i_start x; i_end := i_end x; i_special := i_special x; i_start_chars := i_start_chars x; i_hanging_chars := i_hanging_chars x; i_first_line_chars := v |}.
Definition set_ls_rule (v : option LineSpacingType) (x : line_spacing) : line_spacing :=
  {| ls_rule := v; ls_before := ls_before x; ls_after := ls_after x; ls_before_lines := ls_before_lines x; ls_after_lines := ls_after_lines x; ls_line := ls_line x |}.
Definition set_ls_before (v : option N) (x : line_spacing) : line_spacing :=
  {| ls_rule := ls_rule x; ls_before := v; ls_after := ls_after x; ls_before_lines := ls_before_lines x; ls_after_lines := ls_after_lines x; ls_line := ls_line x |}.
Definition set_ls_after (v : option N) (x : line_spacing) : line_spacing :=
  {| ls_rule := ls_rule x; ls_before := ls_before x; ls_after := v; ls_before_lines := ls_before_lines x; ls_after_lines := ls_after_lines x; ls_line := ls_line x |}.
Definition set_ls_before_lines (v : option N) (x : line_spacing) : line_spacing :=
  {| ls_rule := ls_rule x; ls_before := ls_before x; ls_after := ls_after x; ls_before_lines := v; ls_after_lines := ls_after_lines x; ls_line := ls_line x |}.
Definition set_ls_after_lines (v : option N) (x : line_spacing) : line_spacing :=
  {| ls_rule := ls_rule x; ls_before := ls_before x; ls_after := ls_after x; ls_before_lines := ls_before_lines x; ls_after_lines := v; ls_line := ls_line x |}.
Definition set_ls_line (v : option Z) (x : line_spacing) : line_spacing :=
  {| ls_rule := ls_rule x; ls_before := ls_before x; ls_after := ls_after x; ls_before_lines := ls_before_lines x; ls_after_lines := ls_after_lines x; ls_line := v |}.
Definition set_t_val (v : option TabValueType) (x : tab) : tab :=
  {| t_val := v; t_leader := t_leader x; t_pos := t_pos x |}.
Definition set_t_leader (v : option TabLeaderType) (x : tab) : tab :=
  {| t_val := t_val x; t_leader := v; t_pos := t_pos x |}.
Definition set_t_pos (v : option N) (x : tab) : tab :=
  {| t_val := t_val x; t_leader := t_leader x; t_pos := v |}.
Definition set_pb_left (v : option pborder) (x : pborders) : pborders :=
  {| pb_left := v; pb_right := pb_right x; pb_top := pb_top x; pb_bottom := pb_bottom x; pb_between := pb_between x; pb_bar := pb_bar x |}.
Definition set_pb_right (v : option pborder) (x : pborders) : pborders :=
  {| pb_left := pb_left x; pb_right := v; pb_top := pb_top x; pb_bottom := pb_bottom x; pb_between := pb_between x; pb_bar := pb_bar x |}.
Definition set_pb_top (v : option pborder) (x : pborders) : pborders :=
  {| pb_left := pb_left x; pb_right := pb_right x; pb_top := v; pb_bottom := pb_bottom x; pb_between := pb_between x; pb_bar := pb_bar x |}.
Definition set_pb_bottom (v : option pborder) (x : pborders) : pborders :=
  {| pb_left := pb_left x; pb_right := pb_right x; pb_top := pb_top x; pb_bottom := v; pb_between := pb_between x; pb_bar := pb_bar x |}.
Definition set_pb_between (v : option pborder) (x : pborders) : pborders :=
  {| pb_left := pb_left x; pb_right := pb_right x; pb_top := pb_top x; pb_bottom := pb_bottom x; pb_between := v; pb_bar := pb_bar x |}.
Definition set_pb_bar (v : option pborder) (x : pborders) : pborders :=
  {| pb_left := pb_left x; pb_right := pb_right x; pb_top := pb_top x; pb_bottom := pb_bottom x; pb_between := pb_between x; pb_bar := v |}.
Definition set_fr_h (v : option N) (x : framepr) : framepr :=
  {| fr_h := v; fr_h_rule := fr_h_rule x; fr_h_anchor := fr_h_anchor x; fr_h_space := fr_h_space x; fr_v_anchor := fr_v_anchor x; fr_v_space := fr_v_space x; fr_w := fr_w x; fr_wrap := fr_wrap x; fr_x := fr_x x; fr_x_align := fr_x_align x; fr_y := fr_y x; fr_y_align := fr_y_align x |}.
Definition set_fr_h_rule (v : option string) (x : framepr) : framepr :=
  {| fr_h := fr_h x; fr_h_rule := v; fr_h_anchor := fr_h_anchor x; fr_h_space := fr_h_space x; fr_v_anchor := fr_v_anchor x; fr_v_space := fr_v_space x; fr_w := fr_w x; fr_wrap := fr_wrap x; fr_x := fr_x x; fr_x_align := fr_x_align x; fr_y := fr_y x; fr_y_align := fr_y_align x |}.
Definition set_fr_h_anchor (v : option string) (x : framepr) : framepr :=
  {| fr_h := fr_h x; fr_h_rule := fr_h_rule x; fr_h_anchor := v; fr_h_space := fr_h_space x; fr_v_anchor := fr_v_anchor x; fr_v_space := fr_v_space x; fr_w := fr_w x; fr_wrap := fr_wrap x; fr_x := fr_x x; fr_x_align := fr_x_align x; fr_y := fr_y x; fr_y_align := fr_y_align x |}.
Definition set_fr_h_space (v : option Z) (x : framepr) : framepr :=
  {| fr_h := fr_h x; fr_h_rule := fr_h_rule x; fr_h_anchor := fr_h_anchor x; fr_h_space := v; fr_v_anchor := fr_v_anchor x; fr_v_space := fr_v_space x; fr_w := fr_w x; fr_wrap := fr_wrap x; fr_x := fr_x x; fr_x_align := fr_x_align x; fr_y := fr_y x; fr_y_align := fr_y_align x |}.
Definition set_fr_v_anchor (v : option string) (x : framepr) : framepr :=
  {| fr_h := fr_h x; fr_h_rule := fr_h_rule x; fr_h_anchor := fr_h_anchor x; fr_h_space := fr_h_space x; fr_v_anchor := v; fr_v_space := fr_v_space x; fr_w := fr_w x; fr_wrap := fr_wrap x; fr_x := fr_x x; fr_x_align := fr_x_align x; fr_y := fr_y x; fr_y_align := fr_y_align x |}.
Definition set_fr_v_space (v : option Z) (x : framepr) : framepr :=
  {| fr_h := fr_h x; fr_h_rule := fr_h_rule x; fr_h_anchor := fr_h_anchor x; fr_h_space := fr_h_space x; fr_v_anchor := fr_v_anchor x; fr_v_space := v; fr_w := fr_w x; fr_wrap := fr_wrap x; fr_x := fr_x x; fr_x_align := fr_x_align x; fr_y := fr_y x; fr_y_align := fr_y_align x |}.
Definition set_fr_w (v : option N) (x : framepr) : framepr :=
  {| fr_h := fr_h x; fr_h_rule := fr_h_rule x; fr_h_anchor := fr_h_anchor x; fr_h_space := fr_h_space x; fr_v_anchor := fr_v_anchor x; fr_v_space := fr_v_space x; fr_w := v; fr_wrap := fr_wrap x; fr_x := fr_x x; fr_x_align := fr_x_align x; fr_y := fr_y x; fr_y_align := fr_y_align x |}.
Definition set_fr_wrap (v : option string) (x : framepr) : framepr :=
  {| fr_h := fr_h x; fr_h_rule := fr_h_rule x; fr_h_anchor := fr_h_anchor x; fr_h_space := fr_h_space x; fr_v_anchor := fr_v_anchor x; fr_v_space := fr_v_space x; fr_w := fr_w x; fr_wrap := v; fr_x := fr_x x; fr_x_align := fr_x_align x; fr_y := fr_y x; fr_y_align := fr_y_align x |}.
Definition set_fr_x (v : option Z) (x : framepr) : framepr :=
  {| fr_h := fr_h x; fr_h_rule := fr_h_rule x; fr_h_anchor := fr_h_anchor x; fr_h_space := fr_h_space x; fr_v_anchor := fr_v_anchor x; fr_v_space := fr_v_space x; fr_w := fr_w x; fr_wrap := fr_wrap x; fr_x := v; fr_x_align := fr_x_align x; fr_y := fr_y x; fr_y_align := fr_y_align x |}.
Definition set_fr_x_align (v : option string) (x : framepr) : framepr :=
  {| fr_h := fr_h x; fr_h_rule := fr_h_rule x; fr_h_anchor := fr_h_anchor x; fr_h_space := fr_h_space x; fr_v_anchor := fr_v_anchor x; fr_v_space := fr_v_space x; fr_w := fr_w x; fr_wrap := fr_wrap x; fr_x := fr_x x; fr_x_align := v; fr_y := fr_y x; fr_y_align := fr_y_align x |}.
Definition set_fr_y (v : option Z) (x : framepr) : framepr :=
  {| fr_h := fr_h x; fr_h_rule := fr_h_rule x; fr_h_anchor := fr_h_anchor x; fr_h_space := fr_h_space x; fr_v_anchor := fr_v_anchor x; fr_v_space := fr_v_space x; fr_w := fr_w x; fr_wrap := fr_wrap x; fr_x := fr_x x; fr_x_align := fr_x_align x; fr_y := v; fr_y_align := fr_y_align x |}.
Definition set_fr_y_align (v : option string) (x : framepr) : framepr :=
  {| fr_h := fr_h x; fr_h_rule := fr_h_rule x; fr_h_anchor := fr_h_anchor x; fr_h_space := fr_h_space x; fr_v_anchor := fr_v_anchor x; fr_v_space := fr_v_space x; fr_w := fr_w x; fr_wrap := fr_wrap x; fr_x := fr_x x; fr_x_align := fr_x_align x; fr_y := fr_y x; fr_y_align := v |}.
Definition set_pg_w (v : N) (x : page_size) : page_size :=
  {| pg_w := v; pg_h := pg_h x; pg_orient := pg_orient x |}.
Definition set_pg_h (v : N) (x : page_size) : page_size :=
  {| pg_w := pg_w x; pg_h := v; pg_orient := pg_orient x |}.
Definition set_pg_orient (v : option PageOrientationType) (x : page_size) : page_size :=
  {| pg_w := pg_w x; pg_h := pg_h x; pg_orient := v |}.
Definition set_mg_top (v : Z) (x : page_margin) : page_margin :=
  {| mg_top := v; mg_left := mg_left x; mg_bottom := mg_bottom x; mg_right := mg_right x; mg_header := mg_header x; mg_footer := mg_footer x; mg_gutter := mg_gutter x |}.
Definition set_mg_left (v : Z) (x : page_margin) : page_margin :=
  {| mg_top := mg_top x; mg_left := v; mg_bottom := mg_bottom x; mg_right := mg_right x; mg_header := mg_header x; mg_footer := mg_footer x; mg_gutter := mg_gutter x |}.
Definition set_mg_bottom (v : Z) (x : page_margin) : page_margin :=
  {| mg_top := mg_top x; mg_left := mg_left x; mg_bottom := v; mg_right := mg_right x; mg_header := mg_header x; mg_footer := mg_footer x; mg_gutter := mg_gutter x |}.
Definition set_mg_right (v : Z) (x : page_margin) : page_margin :=
  {| mg_top := mg_top x; mg_left := mg_left x; mg_bottom := mg_bottom x; mg_right := v; mg_header := mg_header x; mg_footer := mg_footer x; mg_gutter := mg_gutter x |}.
Definition set_mg_header (v : Z) (x : page_margin) : page_margin :=
  {| mg_top := mg_top x; mg_left := mg_left x; mg_bottom := mg_bottom x; mg_right := mg_right x; mg_header := v; mg_footer := mg_footer x; mg_gutter := mg_gutter x |}.
Definition set_mg_footer (v : Z) (x : page_margin) : page_margin :=
  {| mg_top := mg_top x; mg_left := mg_left x; mg_bottom := mg_bottom x; mg_right := mg_right x; mg_header := mg_header x; mg_footer := v; mg_gutter := mg_gutter x |}.
Definition set_mg_gutter (v : Z) (x : page_margin) : page_margin :=
  {| mg_top := mg_top x; mg_left := mg_left x; mg_bottom := mg_bottom x; mg_right := mg_right x; mg_header := mg_header x; mg_footer := mg_footer x; mg_gutter := v |}.
Definition set_dg_type (v : DocGridType) (x : doc_grid) : doc_grid :=
  {| dg_type := v; dg_line_pitch := dg_line_pitch x; dg_char_space := dg_char_space x |}.
Definition set_dg_line_pitch (v : option N) (x : doc_grid) : doc_grid :=
  {| dg_type := dg_type x; dg_line_pitch := v; dg_char_space := dg_char_space x |}.
Definition set_dg_char_space (v : option Z) (x : doc_grid) : doc_grid :=
  {| dg_type := dg_type x; dg_line_pitch := dg_line_pitch x; dg_char_space := v |}.
Definition set_pn_start (v : option N) (x : page_num_type) : page_num_type :=
  {| pn_start := v; pn_chap_style := pn_chap_style x |}.
Definition set_pn_chap_style (v : option string) (x : page_num_type) : page_num_type :=
  {| pn_start := pn_start x; pn_chap_style := v |}.
Definition set_sp_size (v : page_size) (x : sectpr) : sectpr :=
  {| sp_size := v; sp_margin := sp_margin x; sp_columns := sp_columns x; sp_space := sp_space x; sp_title_pg := sp_title_pg x; sp_text_direction := sp_text_direction x; sp_doc_grid := sp_doc_grid x; sp_header := sp_header x; sp_first_header := sp_first_header x; sp_even_header := sp_even_header x; sp_footer := sp_footer x; sp_first_footer := sp_first_footer x; sp_even_footer := sp_even_footer x; sp_type := sp_type x; sp_page_num := sp_page_num x |}.
Definition set_sp_margin (v : page_margin) (x : sectpr) : sectpr :=
  {| sp_size := sp_size x; sp_margin := v; sp_columns := sp_columns x; sp_space := sp_space x; sp_title_pg := sp_title_pg x; sp_text_direction := sp_text_direction x; sp_doc_grid := sp_doc_grid x; sp_header := sp_header x; sp_first_header := sp_first_header x; sp_even_header := sp_even_header x; sp_footer := sp_footer x; sp_first_footer := sp_first_footer x; sp_even_footer := sp_even_footer x; sp_type := sp_type x; sp_page_num := sp_page_num x |}.
Definition set_sp_columns (v : N) (x : sectpr) : sectpr :=
  {| sp_size := sp_size x; sp_margin := sp_margin x; sp_columns := v; sp_space := sp_space x; sp_title_pg := sp_title_pg x; sp_text_direction := sp_text_direction x; sp_doc_grid := sp_doc_grid x; sp_header := sp_header x; sp_first_header := sp_first_header x; sp_even_header := sp_even_header x; sp_footer := sp_footer x; sp_first_footer := sp_first_footer x; sp_even_footer := sp_even_footer x; sp_type := sp_type x; sp_page_num := sp_page_num x |}.
Definition set_sp_space (v : N) (x : sectpr) : sectpr :=
  {| sp_size := sp_size x; sp_margin := sp_margin x; sp_columns := sp_columns x; sp_space := v; sp_title_pg := sp_title_pg x; sp_text_direction := sp_text_direction x; sp_doc_grid := sp_doc_grid x; sp_header := sp_header x; sp_first_header := sp_first_header x; sp_even_header := sp_even_header x; sp_footer := sp_footer x; sp_first_footer := sp_first_footer x; sp_even_footer := sp_even_footer x; sp_type := sp_type x; sp_page_num := sp_page_num x |}.
Definition set_sp_title_pg (v : bool) (x : sectpr) : sectpr :=
  {| sp_size := sp_size x; sp_margin := sp_margin x; sp_columns := sp_columns x; sp_space := sp_space x; sp_title_pg := v; sp_text_direction := sp_text_direction x; sp_doc_grid := sp_doc_grid x; sp_header := sp_header x; sp_first_header := sp_first_header x; sp_even_header := sp_even_header x; sp_footer := sp_footer x; sp_first_footer := sp_first_footer x; sp_even_footer := sp_even_footer x; sp_type := sp_type x; sp_page_num := sp_page_num x |}.
Definition set_sp_text_direction (v : string) (x : sectpr) : sectpr :=
  {| sp_size := sp_size x; sp_margin := sp_margin x; sp_columns := sp_columns x; sp_space := sp_space x; sp_title_pg := sp_title_pg x; sp_text_direction := v; sp_doc_grid := sp_doc_grid x; sp_header := sp_header x; sp_first_header := sp_first_header x; sp_even_header := sp_even_header x; sp_footer := sp_footer x; sp_first_footer := sp_first_footer x; sp_even_footer := sp_even_footer x; sp_type := sp_type x; sp_page_num := sp_page_num x |}.
Definition set_sp_doc_grid (v : option doc_grid) (x : sectpr) : sectpr :=
  {| sp_size := sp_size x; sp_margin := sp_margin x; sp_columns := sp_columns x; sp_space := sp_space x; sp_title_pg := sp_title_pg x; sp_text_direction := sp_text_direction x; sp_doc_grid := v; sp_header := sp_header x; sp_first_header := sp_first_header x; sp_even_header := sp_even_header x; sp_footer := sp_footer x; sp_first_footer := sp_first_footer x; sp_even_footer := sp_even_footer x; sp_type := sp_type x; sp_page_num := sp_page_num x |}.
Definition set_sp_header (v : option part_ref) (x : sectpr) : sectpr :=
  {| sp_size := sp_size x; sp_margin := sp_margin x; sp_columns := sp_columns x; sp_space := sp_space x; sp_title_pg := sp_title_pg x; sp_text_direction := sp_text_direction x; sp_doc_grid := sp_doc_grid x; sp_header := v; sp_first_header := sp_first_header x; sp_even_header := sp_even_header x; sp_footer := sp_footer x; sp_first_footer := sp_first_footer x; sp_even_footer := sp_even_footer x; sp_type := sp_type x; sp_page_num := sp_page_num x |}.
Definition set_sp_first_header (v : option part_ref) (x : sectpr) : sectpr :=
  {| sp_size := sp_size x; sp_margin := sp_margin x; sp_columns := sp_columns x; sp_space := sp_space x; sp_title_pg := sp_title_pg x; sp_text_direction := sp_text_direction x; sp_doc_grid := sp_doc_grid x; sp_header := sp_header x; sp_first_header := v; sp_even_header := sp_even_header x; sp_footer := sp_footer x; sp_first_footer := sp_first_footer x; sp_even_footer := sp_even_footer x; sp_type := sp_type x; sp_page_num := sp_page_num x |}.
Definition set_sp_even_header (v : option part_ref) (x : sectpr) : sectpr :=
  {| sp_size := sp_size x; sp_margin := sp_margin x; sp_columns := sp_columns x; sp_space := sp_space x; sp_title_pg := sp_title_pg x; sp_text_direction := sp_text_direction x; sp_doc_grid := sp_doc_grid x; sp_header := sp_header x; sp_first_header := sp_first_header x; sp_even_header := v; sp_footer := sp_footer x; sp_first_footer := sp_first_footer x; sp_even_footer := sp_even_footer x; sp_type := sp_type x; sp_page_num := sp_page_num x |}.
Definition set_sp_footer (v : option part_ref) (x : sectpr) : sectpr :=
  {| sp_size := sp_size x; sp_margin := sp_margin x; sp_columns := sp_columns x; sp_space := sp_space x; sp_title_pg := sp_title_pg x; sp_text_direction := sp_text_direction x; sp_doc_grid := sp_doc_grid x; sp_header := sp_header x; sp_first_header := sp_first_header x; sp_even_header := sp_even_header x; sp_footer := v; sp_first_footer := sp_first_footer x; sp_even_footer := sp_even_footer x; sp_type := sp_type x; sp_page_num := sp_page_num x |}.
Definition set_sp_first_footer (v : option part_ref) (x : sectpr) : sectpr :=
  {| sp_size := sp_size x; sp_margin := sp_margin x; sp_columns := sp_columns x; sp_space := sp_space x; sp_title_pg := sp_title_pg x; sp_text_direction := sp_text_direction x; sp_doc_grid := sp_doc_grid x; sp_header := sp_header x; sp_first_header := sp_first_header x; sp_even_header := sp_even_header x; sp_footer := sp_footer x; sp_first_footer := v; sp_even_footer := sp_even_footer x; sp_type := sp_type x; sp_page_num := sp_page_num x |}.
Definition set_sp_even_footer (v : option part_ref) (x : sectpr) : sectpr :=
  {| sp_size := sp_size x; sp_margin := sp_margin x; sp_columns := sp_columns x; sp_space := sp_space x; sp_title_pg := sp_title_pg x; sp_text_direction := sp_text_direction x; sp_doc_grid := sp_doc_grid x; sp_header := sp_header x; sp_first_header := sp_first_header x; sp_even_header := sp_even_header x; sp_footer := sp_footer x; sp_first_footer := sp_first_footer x; sp_even_footer := v; sp_type := sp_type x; sp_page_num := sp_page_num x |}.
Definition set_sp_type (v : option SectionType) (x : sectpr) : sectpr :=
  {| sp_size := sp_size x; sp_margin := sp_margin x; sp_columns := sp_columns x; sp_space := sp_space x; sp_title_pg := sp_title_pg x; sp_text_direction := sp_text_direction x; sp_doc_grid := sp_doc_grid x; sp_header := sp_header x; sp_first_header := sp_first_header x; sp_even_header := sp_even_header x; sp_footer := sp_footer x; sp_first_footer := sp_first_footer x; sp_even_footer := sp_even_footer x; sp_type := v; sp_page_num := sp_page_num x |}.
Definition set_sp_page_num (v : option page_num_type) (x : sectpr) : sectpr :=
  {| sp_size := sp_size x; sp_margin := sp_margin x; sp_columns := sp_columns x; sp_space := sp_space x; sp_title_pg := sp_title_pg x; sp_text_direction := sp_text_direction x; sp_doc_grid := sp_doc_grid x; sp_header := sp_header x; sp_first_header := sp_first_header x; sp_even_header := sp_even_header x; sp_footer := sp_footer x; sp_first_footer := sp_first_footer x; sp_even_footer := sp_even_footer x; sp_type := sp_type x; sp_page_num := v |}.
Definition set_p_rpr (v : rpr) (x : ppr_base) : ppr_base :=
  {| p_rpr := v; p_style := p_style x; p_numbering := p_numbering x; p_alignment := p_alignment x; p_indent := p_indent x; p_spacing := p_spacing x; p_keep_next := p_keep_next x; p_keep_lines := p_keep_lines x; p_bidi := p_bidi x; p_page_break_before := p_page_break_before x; p_widow_control := p_widow_control x; p_outline := p_outline x; p_section := p_section x; p_tabs := p_tabs x; p_borders := p_borders x; p_frame := p_frame x; p_text_alignment := p_text_alignment x; p_adjust_right_ind := p_adjust_right_ind x; p_snap_to_grid := p_snap_to_grid x; p_shading := p_shading x; p_div_id := p_div_id x |}.
Definition set_p_style (v : option string) (x : ppr_base) : ppr_base :=
  {| p_rpr := p_rpr x; p_style := v; p_numbering := p_numbering x; p_alignment := p_alignment x; p_indent := p_indent x; p_spacing := p_spacing x; p_keep_next := p_keep_next x; p_keep_lines := p_keep_lines x; p_bidi := p_bidi x; p_page_break_before := p_page_break_before x; p_widow_control := p_widow_control x; p_outline := p_outline x; p_section := p_section x; p_tabs := p_tabs x; p_borders := p_borders x; p_frame := p_frame x; p_text_alignment := p_text_alignment x; p_adjust_right_ind := p_adjust_right_ind x; p_snap_to_grid := p_snap_to_grid x; p_shading := p_shading x; p_div_id := p_div_id x |}.
Definition set_p_numbering (v : option numpr) (x : ppr_base) : ppr_base :=
  {| p_rpr := p_rpr x; p_style := p_style x; p_numbering := v; p_alignment := p_alignment x; p_indent := p_indent x; p_spacing := p_spacing x; p_keep_next := p_keep_next x; p_keep_lines := p_keep_lines x; p_bidi := p_bidi x; p_page_break_before := p_page_break_before x; p_widow_control := p_widow_control x; p_outline := p_outline x; p_section := p_section x; p_tabs := p_tabs x; p_borders := p_borders x; p_frame := p_frame x; p_text_alignment := p_text_alignment x; p_adjust_right_ind := p_adjust_right_ind x; p_snap_to_grid := p_snap_to_grid x; p_shading := p_shading x; p_div_id := p_div_id x |}.
Definition set_p_alignment (v : option string) (x : ppr_base) : ppr_base :=
  {| p_rpr := p_rpr x; p_style := p_style x; p_numbering := p_numbering x; p_alignment := v; p_indent := p_indent x; p_spacing := p_spacing x; p_keep_next := p_keep_next x; p_keep_lines := p_keep_lines x; p_bidi := p_bidi x; p_page_break_before := p_page_break_before x; p_widow_control := p_widow_control x; p_outline := p_outline x; p_section := p_section x; p_tabs := p_tabs x; p_borders := p_borders x; p_frame := p_frame x; p_text_alignment := p_text_alignment x; p_adjust_right_ind := p_adjust_right_ind x; p_snap_to_grid := p_snap_to_grid x; p_shading := p_shading x; p_div_id := p_div_id x |}.
Definition set_p_indent (v : option indent) (x : ppr_base) : ppr_base :=
  {| p_rpr := p_rpr x; p_style := p_style x; p_numbering := p_numbering x; p_alignment := p_alignment x; p_indent := v; p_spacing := p_spacing x; p_keep_next := p_keep_next x; p_keep_lines := p_keep_lines x; p_bidi := p_bidi x; p_page_break_before := p_page_break_before x; p_widow_control := p_widow_control x; p_outline := p_outline x; p_section := p_section x; p_tabs := p_tabs x; p_borders := p_borders x; p_frame := p_frame x; p_text_alignment := p_text_alignment x; p_adjust_right_ind := p_adjust_right_ind x; p_snap_to_grid := p_snap_to_grid x; p_shading := p_shading x; p_div_id := p_div_id x |}.
Definition set_p_spacing (v : option line_spacing) (x : ppr_base) : ppr_base :=
  {| p_rpr := p_rpr x; p_style := p_style x; p_numbering := p_numbering x; p_alignment := p_alignment x; p_indent := p_indent x; p_spacing := v; p_keep_next := p_keep_next x; p_keep_lines := p_keep_lines x; p_bidi := p_bidi x; p_page_break_before := p_page_break_before x; p_widow_control := p_widow_control x; p_outline := p_outline x; p_section := p_section x; p_tabs := p_tabs x; p_borders := p_borders x; p_frame := p_frame x; p_text_alignment := p_text_alignment x; p_adjust_right_ind := p_adjust_right_ind x; p_snap_to_grid := p_snap_to_grid x; p_shading := p_shading x; p_div_id := p_div_id x |}.
Definition set_p_keep_next (v : option bool) (x : ppr_base) : ppr_base :=
  {| p_rpr := p_rpr x; p_style := p_style x; p_numbering := p_numbering x; p_alignment := p_alignment x; p_indent := p_indent x; p_spacing := p_spacing x; p_keep_next := v; p_keep_lines := p_keep_lines x; p_bidi := p_bidi x; p_page_break_before := p_page_break_before x; p_widow_control := p_widow_control x; p_outline := p_outline x; p_section := p_section x; p_tabs := p_tabs x; p_borders := p_borders x; p_frame := p_frame x; p_text_alignment := p_text_alignment x; p_adjust_right_ind := p_adjust_right_ind x; p_snap_to_grid := p_snap_to_grid x; p_shading := p_shading x; p_div_id := p_div_id x |}.
Definition set_p_keep_lines (v : option bool) (x : ppr_base) : ppr_base :=
  {| p_rpr := p_rpr x; p_style := p_style x; p_numbering := p_numbering x; p_alignment := p_alignment x; p_indent := p_indent x; p_spacing := p_spacing x; p_keep_next := p_keep_next x; p_keep_lines := v; p_bidi := p_bidi x; p_page_break_before := p_page_break_before x; p_widow_control := p_widow_control x; p_outline := p_outline x; p_section := p_section x; p_tabs := p_tabs x; p_borders := p_borders x; p_frame := p_frame x; p_text_alignment := p_text_alignment x; p_adjust_right_ind := p_adjust_right_ind x; p_snap_to_grid := p_snap_to_grid x; p_shading := p_shading x; p_div_id := p_div_id x |}.
Definition set_p_bidi (v : option bool) (x : ppr_base) : ppr_base :=
  {| p_rpr := p_rpr x; p_style := p_style x; p_numbering := p_numbering x; p_alignment := p_alignment x; p_indent := p_indent x; p_spacing := p_spacing x; p_keep_next := p_keep_next x; p_keep_lines := p_keep_lines x; p_bidi := v; p_page_break_before := p_page_break_before x; p_widow_control := p_widow_control x; p_outline := p_outline x; p_section := p_section x; p_tabs := p_tabs x; p_borders := p_borders x; p_frame := p_frame x; p_text_alignment := p_text_alignment x; p_adjust_right_ind := p_adjust_right_ind x; p_snap_to_grid := p_snap_to_grid x; p_shading := p_shading x; p_div_id := p_div_id x |}.
Definition set_p_page_break_before (v : option bool) (x : ppr_base) : ppr_base :=
  {| p_rpr := p_rpr x; p_style := p_style x; p_numbering := p_numbering x; p_alignment := p_alignment x; p_indent := p_indent x; p_spacing := p_spacing x; p_keep_next := p_keep_next x; p_keep_lines := p_keep_lines x; p_bidi := p_bidi x; p_page_break_before := v; p_widow_control := p_widow_control x; p_outline := p_outline x; p_section := p_section x; p_tabs := p_tabs x; p_borders := p_borders x; p_frame := p_frame x; p_text_alignment := p_text_alignment x; p_adjust_right_ind := p_adjust_right_ind x; p_snap_to_grid := p_snap_to_grid x; p_shading := p_shading x; p_div_id := p_div_id x |}.
Definition set_p_widow_control (v : option bool) (x : ppr_base) : ppr_base :=
  {| p_rpr := p_rpr x; p_style := p_style x; p_numbering := p_numbering x; p_alignment := p_alignment x; p_indent := p_indent x; p_spacing := p_spacing x; p_keep_next := p_keep_next x; p_keep_lines := p_keep_lines x; p_bidi := p_bidi x; p_page_break_before := p_page_break_before x; p_widow_control := v; p_outline := p_outline x; p_section := p_section x; p_tabs := p_tabs x; p_borders := p_borders x; p_frame := p_frame x; p_text_alignment := p_text_alignment x; p_adjust_right_ind := p_adjust_right_ind x; p_snap_to_grid := p_snap_to_grid x; p_shading := p_shading x; p_div_id := p_div_id x |}.
Definition set_p_outline (v : option N) (x : ppr_base) : ppr_base :=
  {| p_rpr := p_rpr x; p_style := p_style x; p_numbering := p_numbering x; p_alignment := p_alignment x; p_indent := p_indent x; p_spacing := p_spacing x; p_keep_next := p_keep_next x; p_keep_lines := p_keep_lines x; p_bidi := p_bidi x; p_page_break_before := p_page_break_before x; p_widow_control := p_widow_control x; p_outline := v; p_section := p_section x; p_tabs := p_tabs x; p_borders := p_borders x; p_frame := p_frame x; p_text_alignment := p_text_alignment x; p_adjust_right_ind := p_adjust_right_ind x; p_snap_to_grid := p_snap_to_grid x; p_shading := p_shading x; p_div_id := p_div_id x |}.
Definition set_p_section (v : option sectpr) (x : ppr_base) : ppr_base :=
  {| p_rpr := p_rpr x; p_style := p_style x; p_numbering := p_numbering x; p_alignment := p_alignment x; p_indent := p_indent x; p_spacing := p_spacing x; p_keep_next := p_keep_next x; p_keep_lines := p_keep_lines x; p_bidi := p_bidi x; p_page_break_before := p_page_break_before x; p_widow_control := p_widow_control x; p_outline := p_outline x; p_section := v; p_tabs := p_tabs x; p_borders := p_borders x; p_frame := p_frame x; p_text_alignment := p_text_alignment x; p_adjust_right_ind := p_adjust_right_ind x; p_snap_to_grid := p_snap_to_grid x; p_shading := p_shading x; p_div_id := p_div_id x |}.
Definition set_p_tabs (v : list tab) (x : ppr_base) : ppr_base :=
  {| p_rpr := p_rpr x; p_style := p_style x; p_numbering := p_numbering x; p_alignment := p_alignment x; p_indent := p_indent x; p_spacing := p_spacing x; p_keep_next := p_keep_next x; p_keep_lines := p_keep_lines x; p_bidi := p_bidi x; p_page_break_before := p_page_break_before x; p_widow_control := p_widow_control x; p_outline := p_outline x; p_section := p_section x; p_tabs := v; p_borders := p_borders x; p_frame := p_frame x; p_text_alignment := p_text_alignment x; p_adjust_right_ind := p_adjust_right_ind x; p_snap_to_grid := p_snap_to_grid x; p_shading := p_shading x; p_div_id := p_div_id x |}.
Definition set_p_borders (v : option pborders) (x : ppr_base) : ppr_base :=
  {| p_rpr := p_rpr x; p_style := p_style x; p_numbering := p_numbering x; p_alignment := p_alignment x; p_indent := p_indent x; p_spacing := p_spacing x; p_keep_next := p_keep_next x; p_keep_lines := p_keep_lines x; p_bidi := p_bidi x; p_page_break_before := p_page_break_before x; p_widow_control := p_widow_control x; p_outline := p_outline x; p_section := p_section x; p_tabs := p_tabs x; p_borders := v; p_frame := p_frame x; p_text_alignment := p_text_alignment x; p_adjust_right_ind := p_adjust_right_ind x; p_snap_to_grid := p_snap_to_grid x; p_shading := p_shading x; p_div_id := p_div_id x |}.
Definition set_p_frame (v : option framepr) (x : ppr_base) : ppr_base :=
  {| p_rpr := p_rpr x; p_style := p_style x; p_numbering := p_numbering x; p_alignment := p_alignment x; p_indent := p_indent x; p_spacing := p_spacing x; p_keep_next := p_keep_next x; p_keep_lines := p_keep_lines x; p_bidi := p_bidi x; p_page_break_before := p_page_break_before x; p_widow_control := p_widow_control x; p_outline := p_outline x; p_section := p_section x; p_tabs := p_tabs x; p_borders := p_borders x; p_frame := v; p_text_alignment := p_text_alignment x; p_adjust_right_ind := p_adjust_right_ind x; p_snap_to_grid := p_snap_to_grid x; p_shading := p_shading x; p_div_id := p_div_id x |}.
Definition set_p_text_alignment (v : option TextAlignmentType) (x : ppr_base) : ppr_base :=
  {| p_rpr := p_rpr x; p_style := p_style x; p_numbering := p_numbering x; p_alignment := p_alignment x; p_indent := p_indent x; p_spacing := p_spacing x; p_keep_next := p_keep_next x; p_keep_lines := p_keep_lines x; p_bidi := p_bidi x; p_page_break_before := p_page_break_before x; p_widow_control := p_widow_control x; p_outline := p_outline x; p_section := p_section x; p_tabs := p_tabs x; p_borders := p_borders x; p_frame := p_frame x; p_text_alignment := v; p_adjust_right_ind := p_adjust_right_ind x; p_snap_to_grid := p_snap_to_grid x; p_shading := p_shading x; p_div_id := p_div_id x |}.
Definition set_p_adjust_right_ind (v : option Z) (x : ppr_base) : ppr_base :=
  {| p_rpr := p_rpr x; p_style := p_style x; p_numbering := p_numbering x; p_alignment := p_alignment x; p_indent := p_indent x; p_spacing := p_spacing x; p_keep_next := p_keep_next x; p_keep_lines := p_keep_lines x; p_bidi := p_bidi x; p_page_break_before := p_page_break_before x; p_widow_control := p_widow_control x; p_outline := p_outline x; p_section := p_section x; p_tabs := p_tabs x; p_borders := p_borders x; p_frame := p_frame x; p_text_alignment := p_text_alignment x; p_adjust_right_ind := v; p_snap_to_grid := p_snap_to_grid x; p_shading := p_shading x; p_div_id := p_div_id x |}.
Definition set_p_snap_to_grid (v : option bool) (x : ppr_base) : ppr_base :=
  {| p_rpr := p_rpr x; p_style := p_style x; p_numbering := p_numbering x; p_alignment := p_alignment x; p_indent := p_indent x; p_spacing := p_spacing x; p_keep_next := p_keep_next x; p_keep_lines := p_keep_lines x; p_bidi := p_bidi x; p_page_break_before := p_page_break_before x; p_widow_control := p_widow_control x; p_outline := p_outline x; p_section := p_section x; p_tabs := p_tabs x; p_borders := p_borders x; p_frame := p_frame x; p_text_alignment := p_text_alignment x; p_adjust_right_ind := p_adjust_right_ind x; p_snap_to_grid := v; p_shading := p_shading x; p_div_id := p_div_id x |}.
Definition set_p_shading (v : option shading) (x : ppr_base) : ppr_base :=
  {| p_rpr := p_rpr x; p_style := p_style x; p_numbering := p_numbering x; p_alignment := p_alignment x; p_indent := p_indent x; p_spacing := p_spacing x; p_keep_next := p_keep_next x; p_keep_lines := p_keep_lines x; p_bidi := p_bidi x; p_page_break_before := p_page_break_before x; p_widow_control := p_widow_control x; p_outline := p_outline x; p_section := p_section x; p_tabs := p_tabs x; p_borders := p_borders x; p_frame := p_frame x; p_text_alignment := p_text_alignment x; p_adjust_right_ind := p_adjust_right_ind x; p_snap_to_grid := p_snap_to_grid x; p_shading := v; p_div_id := p_div_id x |}.
Definition set_p_div_id (v : option string) (x : ppr_base) : ppr_base :=
  {| p_rpr := p_rpr x; p_style := p_style x; p_numbering := p_numbering x; p_alignment := p_alignment x; p_indent := p_indent x; p_spacing := p_spacing x; p_keep_next := p_keep_next x; p_keep_lines := p_keep_lines x; p_bidi := p_bidi x; p_page_break_before := p_page_break_before x; p_widow_control := p_widow_control x; p_outline := p_outline x; p_section := p_section x; p_tabs := p_tabs x; p_borders := p_borders x; p_frame := p_frame x; p_text_alignment := p_text_alignment x; p_adjust_right_ind := p_adjust_right_ind x; p_snap_to_grid := p_snap_to_grid x; p_shading := p_shading x; p_div_id := v |}.
Definition set_tbs_top (v : option border) (x : tborders) : tborders :=
  {| tbs_top := v; tbs_left := tbs_left x; tbs_bottom := tbs_bottom x; tbs_right := tbs_right x; tbs_inside_h := tbs_inside_h x; tbs_inside_v := tbs_inside_v x |}.
Definition set_tbs_left (v : option border) (x : tborders) : tborders :=
  {| tbs_top := tbs_top x; tbs_left := v; tbs_bottom := tbs_bottom x; tbs_right := tbs_right x; tbs_inside_h := tbs_inside_h x; tbs_inside_v := tbs_inside_v x |}.
Definition set_tbs_bottom (v : option border) (x : tborders) : tborders :=
  {| tbs_top := tbs_top x; tbs_left := tbs_left x; tbs_bottom := v; tbs_right := tbs_right x; tbs_inside_h := tbs_inside_h x; tbs_inside_v := tbs_inside_v x |}.
Definition set_tbs_right (v : option border) (x : tborders) : tborders :=
  {| tbs_top := tbs_top x; tbs_left := tbs_left x; tbs_bottom := tbs_bottom x; tbs_right := v; tbs_inside_h := tbs_inside_h x; tbs_inside_v := tbs_inside_v x |}.
Definition set_tbs_inside_h (v : option border) (x : tborders) : tborders :=
  {| tbs_top := tbs_top x; tbs_left := tbs_left x; tbs_bottom := tbs_bottom x; tbs_right := tbs_right x; tbs_inside_h := v; tbs_inside_v := tbs_inside_v x |}.
Definition set_tbs_inside_v (v : option border) (x : tborders) : tborders :=
  {| tbs_top := tbs_top x; tbs_left := tbs_left x; tbs_bottom := tbs_bottom x; tbs_right := tbs_right x; tbs_inside_h := tbs_inside_h x; tbs_inside_v := v |}.
Definition set_cb_top (v : option border) (x : cborders) : cborders :=
  {| cb_top := v; cb_left := cb_left x; cb_bottom := cb_bottom x; cb_right := cb_right x; cb_inside_h := cb_inside_h x; cb_inside_v := cb_inside_v x; cb_tr2bl := cb_tr2bl x; cb_tl2br := cb_tl2br x |}.
Definition set_cb_left (v : option border) (x : cborders) : cborders :=
  {| cb_top := cb_top x; cb_left := v; cb_bottom := cb_bottom x; cb_right := cb_right x; cb_inside_h := cb_inside_h x; cb_inside_v := cb_inside_v x; cb_tr2bl := cb_tr2bl x; cb_tl2br := cb_tl2br x |}.
Definition set_cb_bottom (v : option border) (x : cborders) : cborders :=
  {| cb_top := cb_top x; cb_left := cb_left x; cb_bottom := v; cb_right := cb_right x; cb_inside_h := cb_inside_h x; cb_inside_v := cb_inside_v x; cb_tr2bl := cb_tr2bl x; cb_tl2br := cb_tl2br x |}.
Definition set_cb_right (v : option border) (x : cborders) : cborders :=
  {| cb_top := cb_top x; cb_left := cb_left x; cb_bottom := cb_bottom x; cb_right := v; cb_inside_h := cb_inside_h x; cb_inside_v := cb_inside_v x; cb_tr2bl := cb_tr2bl x; cb_tl2br := cb_tl2br x |}.
Definition set_cb_inside_h (v : option border) (x : cborders) : cborders :=
  {| cb_top := cb_top x; cb_left := cb_left x; cb_bottom := cb_bottom x; cb_right := cb_right x; cb_inside_h := v; cb_inside_v := cb_inside_v x; cb_tr2bl := cb_tr2bl x; cb_tl2br := cb_tl2br x |}.
Definition set_cb_inside_v (v : option border) (x : cborders) : cborders :=
  {| cb_top := cb_top x; cb_left := cb_left x; cb_bottom := cb_bottom x; cb_right := cb_right x; cb_inside_h := cb_inside_h x; cb_inside_v := v; cb_tr2bl := cb_tr2bl x; cb_tl2br := cb_tl2br x |}.
Definition set_cb_tr2bl (v : option border) (x : cborders) : cborders :=
  {| cb_top := cb_top x; cb_left := cb_left x; cb_bottom := cb_bottom x; cb_right := cb_right x; cb_inside_h := cb_inside_h x; cb_inside_v := cb_inside_v x; cb_tr2bl := v; cb_tl2br := cb_tl2br x |}.
Definition set_cb_tl2br (v : option border) (x : cborders) : cborders :=
  {| cb_top := cb_top x; cb_left := cb_left x; cb_bottom := cb_bottom x; cb_right := cb_right x; cb_inside_h := cb_inside_h x; cb_inside_v := cb_inside_v x; cb_tr2bl := cb_tr2bl x; cb_tl2br := v |}.
Definition set_cm_top (v : option width) (x : cmargins) : cmargins :=
  {| cm_top := v; cm_left := cm_left x; cm_bottom := cm_bottom x; cm_right := cm_right x |}.
Definition set_cm_left (v : option width) (x : cmargins) : cmargins :=
  {| cm_top := cm_top x; cm_left := v; cm_bottom := cm_bottom x; cm_right := cm_right x |}.
Definition set_cm_bottom (v : option width) (x : cmargins) : cmargins :=
  {| cm_top := cm_top x; cm_left := cm_left x; cm_bottom := v; cm_right := cm_right x |}.
Definition set_cm_right (v : option width) (x : cmargins) : cmargins :=
  {| cm_top := cm_top x; cm_left := cm_left x; cm_bottom := cm_bottom x; cm_right := v |}.
Definition set_tm_top (v : width) (x : tmargins) : tmargins :=
  {| tm_top := v; tm_left := tm_left x; tm_bottom := tm_bottom x; tm_right := tm_right x |}.
Definition set_tm_left (v : width) (x : tmargins) : tmargins :=
  {| tm_top := tm_top x; tm_left := v; tm_bottom := tm_bottom x; tm_right := tm_right x |}.
Definition set_tm_bottom (v : width) (x : tmargins) : tmargins :=
  {| tm_top := tm_top x; tm_left := tm_left x; tm_bottom := v; tm_right := tm_right x |}.
Definition set_tm_right (v : width) (x : tmargins) : tmargins :=
  {| tm_top := tm_top x; tm_left := tm_left x; tm_bottom := tm_bottom x; tm_right := v |}.
Definition set_tp_left (v : option Z) (x : tposition) : tposition :=
  {| tp_left := v; tp_right := tp_right x; tp_vert_anchor := tp_vert_anchor x; tp_horz_anchor := tp_horz_anchor x; tp_x_spec := tp_x_spec x; tp_y_spec := tp_y_spec x; tp_x := tp_x x; tp_y := tp_y x |}.
Definition set_tp_right (v : option Z) (x : tposition) : tposition :=
  {| tp_left := tp_left x; tp_right := v; tp_vert_anchor := tp_vert_anchor x; tp_horz_anchor := tp_horz_anchor x; tp_x_spec := tp_x_spec x; tp_y_spec := tp_y_spec x; tp_x := tp_x x; tp_y := tp_y x |}.
Definition set_tp_vert_anchor (v : option string) (x : tposition) : tposition :=
  {| tp_left := tp_left x; tp_right := tp_right x; tp_vert_anchor := v; tp_horz_anchor := tp_horz_anchor x; tp_x_spec := tp_x_spec x; tp_y_spec := tp_y_spec x; tp_x := tp_x x; tp_y := tp_y x |}.
Definition set_tp_horz_anchor (v : option string) (x : tposition) : tposition :=
  {| tp_left := tp_left x; tp_right := tp_right x; tp_vert_anchor := tp_vert_anchor x; tp_horz_anchor := v; tp_x_spec := tp_x_spec x; tp_y_spec := tp_y_spec x; tp_x := tp_x x; tp_y := tp_y x |}.
Definition set_tp_x_spec (v : option string) (x : tposition) : tposition :=
  {| tp_left := tp_left x; tp_right := tp_right x; tp_vert_anchor := tp_vert_anchor x; tp_horz_anchor := tp_horz_anchor x; tp_x_spec := v; tp_y_spec := tp_y_spec x; tp_x := tp_x x; tp_y := tp_y x |}.
Definition set_tp_y_spec (v : option string) (x : tposition) : tposition :=
  {| tp_left := tp_left x; tp_right := tp_right x; tp_vert_anchor := tp_vert_anchor x; tp_horz_anchor := tp_horz_anchor x; tp_x_spec := tp_x_spec x; tp_y_spec := v; tp_x := tp_x x; tp_y := tp_y x |}.
Definition set_tp_x (v : option Z) (x : tposition) : tposition :=
  {| tp_left := tp_left x; tp_right := tp_right x; tp_vert_anchor := tp_vert_anchor x; tp_horz_anchor := tp_horz_anchor x; tp_x_spec := tp_x_spec x; tp_y_spec := tp_y_spec x; tp_x := v; tp_y := tp_y x |}.
Definition set_tp_y (v : option Z) (x : tposition) : tposition :=
  {| tp_left := tp_left x; tp_right := tp_right x; tp_vert_anchor := tp_vert_anchor x; tp_horz_anchor := tp_horz_anchor x; tp_x_spec := tp_x_spec x; tp_y_spec := tp_y_spec x; tp_x := tp_x x; tp_y := v |}.
Definition set_tpr_width (v : width) (x : tblpr) : tblpr :=
  {| tpr_width := v; tpr_jc := tpr_jc x; tpr_borders := tpr_borders x; tpr_margins := tpr_margins x; tpr_indent := tpr_indent x; tpr_style := tpr_style x; tpr_layout := tpr_layout x; tpr_position := tpr_position x |}.
Definition set_tpr_jc (v : string) (x : tblpr) : tblpr :=
  {| tpr_width := tpr_width x; tpr_jc := v; tpr_borders := tpr_borders x; tpr_margins := tpr_margins x; tpr_indent := tpr_indent x; tpr_style := tpr_style x; tpr_layout := tpr_layout x; tpr_position := tpr_position x |}.
Definition set_tpr_borders (v : tborders) (x : tblpr) : tblpr :=
  {| tpr_width := tpr_width x; tpr_jc := tpr_jc x; tpr_borders := v; tpr_margins := tpr_margins x; tpr_indent := tpr_indent x; tpr_style := tpr_style x; tpr_layout := tpr_layout x; tpr_position := tpr_position x |}.
Definition set_tpr_margins (v : option tmargins) (x : tblpr) : tblpr :=
  {| tpr_width := tpr_width x; tpr_jc := tpr_jc x; tpr_borders := tpr_borders x; tpr_margins := v; tpr_indent := tpr_indent x; tpr_style := tpr_style x; tpr_layout := tpr_layout x; tpr_position := tpr_position x |}.
Definition set_tpr_indent (v : option (Z * WidthType)) (x : tblpr) : tblpr :=
  {| tpr_width := tpr_width x; tpr_jc := tpr_jc x; tpr_borders := tpr_borders x; tpr_margins := tpr_margins x; tpr_indent := v; tpr_style := tpr_style x; tpr_layout := tpr_layout x; tpr_position := tpr_position x |}.
Definition set_tpr_style (v : option string) (x : tblpr) : tblpr :=
  {| tpr_width := tpr_width x; tpr_jc := tpr_jc x; tpr_borders := tpr_borders x; tpr_margins := tpr_margins x; tpr_indent := tpr_indent x; tpr_style := v; tpr_layout := tpr_layout x; tpr_position := tpr_position x |}.
Definition set_tpr_layout (v : option TableLayoutType) (x : tblpr) : tblpr :=
  {| tpr_width := tpr_width x; tpr_jc := tpr_jc x; tpr_borders := tpr_borders x; tpr_margins := tpr_margins x; tpr_indent := tpr_indent x; tpr_style := tpr_style x; tpr_layout := v; tpr_position := tpr_position x |}.
Definition set_tpr_position (v : option tposition) (x : tblpr) : tblpr :=
  {| tpr_width := tpr_width x; tpr_jc := tpr_jc x; tpr_borders := tpr_borders x; tpr_margins := tpr_margins x; tpr_indent := tpr_indent x; tpr_style := tpr_style x; tpr_layout := tpr_layout x; tpr_position := v |}.
Definition set_tr_grid_after (v : option N) (x : trpr) : trpr :=
  {| tr_grid_after := v; tr_width_after := tr_width_after x; tr_grid_before := tr_grid_before x; tr_width_before := tr_width_before x; tr_height := tr_height x; tr_rule := tr_rule x; tr_del := tr_del x; tr_ins := tr_ins x; tr_cant_split := tr_cant_split x |}.
Definition set_tr_width_after (v : option N) (x : trpr) : trpr :=
  {| tr_grid_after := tr_grid_after x; tr_width_after := v; tr_grid_before := tr_grid_before x; tr_width_before := tr_width_before x; tr_height := tr_height x; tr_rule := tr_rule x; tr_del := tr_del x; tr_ins := tr_ins x; tr_cant_split := tr_cant_split x |}.
Definition set_tr_grid_before (v : option N) (x : trpr) : trpr :=
  {| tr_grid_after := tr_grid_after x; tr_width_after := tr_width_after x; tr_grid_before := v; tr_width_before := tr_width_before x; tr_height := tr_height x; tr_rule := tr_rule x; tr_del := tr_del x; tr_ins := tr_ins x; tr_cant_split := tr_cant_split x |}.
Definition set_tr_width_before (v : option N) (x : trpr) : trpr :=
  {| tr_grid_after := tr_grid_after x; tr_width_after := tr_width_after x; tr_grid_before := tr_grid_before x; tr_width_before := v; tr_height := tr_height x; tr_rule := tr_rule x; tr_del := tr_del x; tr_ins := tr_ins x; tr_cant_split := tr_cant_split x |}.
Definition set_tr_height (v : option N) (x : trpr) : trpr :=
  {| tr_grid_after := tr_grid_after x; tr_width_after := tr_width_after x; tr_grid_before := tr_grid_before x; tr_width_before := tr_width_before x; tr_height := v; tr_rule := tr_rule x; tr_del := tr_del x; tr_ins := tr_ins x; tr_cant_split := tr_cant_split x |}.
Definition set_tr_rule (v : option HeightRule) (x : trpr) : trpr :=
  {| tr_grid_after := tr_grid_after x; tr_width_after := tr_width_after x; tr_grid_before := tr_grid_before x; tr_width_before := tr_width_before x; tr_height := tr_height x; tr_rule := v; tr_del := tr_del x; tr_ins := tr_ins x; tr_cant_split := tr_cant_split x |}.
Definition set_tr_del (v : option mark) (x : trpr) : trpr :=
  {| tr_grid_after := tr_grid_after x; tr_width_after := tr_width_after x; tr_grid_before := tr_grid_before x; tr_width_before := tr_width_before x; tr_height := tr_height x; tr_rule := tr_rule x; tr_del := v; tr_ins := tr_ins x; tr_cant_split := tr_cant_split x |}.
Definition set_tr_ins (v : option mark) (x : trpr) : trpr :=
  {| tr_grid_after := tr_grid_after x; tr_width_after := tr_width_after x; tr_grid_before := tr_grid_before x; tr_width_before := tr_width_before x; tr_height := tr_height x; tr_rule := tr_rule x; tr_del := tr_del x; tr_ins := v; tr_cant_split := tr_cant_split x |}.
Definition set_tr_cant_split (v : bool) (x : trpr) : trpr :=
  {| tr_grid_after := tr_grid_after x; tr_width_after := tr_width_after x; tr_grid_before := tr_grid_before x; tr_width_before := tr_width_before x; tr_height := tr_height x; tr_rule := tr_rule x; tr_del := tr_del x; tr_ins := tr_ins x; tr_cant_split := v |}.
Definition set_tc_width (v : option width) (x : tcpr) : tcpr :=
  {| tc_width := v; tc_borders := tc_borders x; tc_grid_span := tc_grid_span x; tc_vmerge := tc_vmerge x; tc_valign := tc_valign x; tc_text_direction := tc_text_direction x; tc_shading := tc_shading x; tc_margins := tc_margins x |}.
Definition set_tc_borders (v : option cborders) (x : tcpr) : tcpr :=
  {| tc_width := tc_width x; tc_borders := v; tc_grid_span := tc_grid_span x; tc_vmerge := tc_vmerge x; tc_valign := tc_valign x; tc_text_direction := tc_text_direction x; tc_shading := tc_shading x; tc_margins := tc_margins x |}.
Definition set_tc_grid_span (v : option N) (x : tcpr) : tcpr :=
  {| tc_width := tc_width x; tc_borders := tc_borders x; tc_grid_span := v; tc_vmerge := tc_vmerge x; tc_valign := tc_valign x; tc_text_direction := tc_text_direction x; tc_shading := tc_shading x; tc_margins := tc_margins x |}.
Definition set_tc_vmerge (v : option VMergeType) (x : tcpr) : tcpr :=
  {| tc_width := tc_width x; tc_borders := tc_borders x; tc_grid_span := tc_grid_span x; tc_vmerge := v; tc_valign := tc_valign x; tc_text_direction := tc_text_direction x; tc_shading := tc_shading x; tc_margins := tc_margins x |}.
Definition set_tc_valign (v : option VAlignType) (x : tcpr) : tcpr :=
  {| tc_width := tc_width x; tc_borders := tc_borders x; tc_grid_span := tc_grid_span x; tc_vmerge := tc_vmerge x; tc_valign := v; tc_text_direction := tc_text_direction x; tc_shading := tc_shading x; tc_margins := tc_margins x |}.
Definition set_tc_text_direction (v : option TextDirectionType) (x : tcpr) : tcpr :=
  {| tc_width := tc_width x; tc_borders := tc_borders x; tc_grid_span := tc_grid_span x; tc_vmerge := tc_vmerge x; tc_valign := tc_valign x; tc_text_direction := v; tc_shading := tc_shading x; tc_margins := tc_margins x |}.
Definition set_tc_shading (v : option shading) (x : tcpr) : tcpr :=
  {| tc_width := tc_width x; tc_borders := tc_borders x; tc_grid_span := tc_grid_span x; tc_vmerge := tc_vmerge x; tc_valign := tc_valign x; tc_text_direction := tc_text_direction x; tc_shading := v; tc_margins := tc_margins x |}.
Definition set_tc_margins (v : option cmargins) (x : tcpr) : tcpr :=
  {| tc_width := tc_width x; tc_borders := tc_borders x; tc_grid_span := tc_grid_span x; tc_vmerge := tc_vmerge x; tc_valign := tc_valign x; tc_text_direction := tc_text_direction x; tc_shading := tc_shading x; tc_margins := v |}.
Definition set_pic_id (v : string) (x : pic) : pic :=
  {| pic_id := v; pic_image := pic_image x; pic_size := pic_size x; pic_anchor := pic_anchor x; pic_simple_pos := pic_simple_pos x; pic_simple_x := pic_simple_x x; pic_simple_y := pic_simple_y x; pic_layout_in_cell := pic_layout_in_cell x; pic_relative_height := pic_relative_height x; pic_overlap := pic_overlap x; pic_h := pic_h x; pic_v := pic_v x; pic_from_h := pic_from_h x; pic_from_v := pic_from_v x; pic_dist_t := pic_dist_t x; pic_dist_b := pic_dist_b x; pic_dist_l := pic_dist_l x; pic_dist_r := pic_dist_r x; pic_rot := pic_rot x |}.
Definition set_pic_image (v : string) (x : pic) : pic :=
  {| pic_id := pic_id x; pic_image := v; pic_size := pic_size x; pic_anchor := pic_anchor x; pic_simple_pos := pic_simple_pos x; pic_simple_x := pic_simple_x x; pic_simple_y := pic_simple_y x; pic_layout_in_cell := pic_layout_in_cell x; pic_relative_height := pic_relative_height x; pic_overlap := pic_overlap x; pic_h := pic_h x; pic_v := pic_v x; pic_from_h := pic_from_h x; pic_from_v := pic_from_v x; pic_dist_t := pic_dist_t x; pic_dist_b := pic_dist_b x; pic_dist_l := pic_dist_l x; pic_dist_r := pic_dist_r x; pic_rot := pic_rot x |}.
Definition set_pic_size (v : N * N) (x : pic) : pic :=
  {| pic_id := pic_id x; pic_image := pic_image x; pic_size := v; pic_anchor := pic_anchor x; pic_simple_pos := pic_simple_pos x; pic_simple_x := pic_simple_x x; pic_simple_y := pic_simple_y x; pic_layout_in_cell := pic_layout_in_cell x; pic_relative_height := pic_relative_height x; pic_overlap := pic_overlap x; pic_h := pic_h x; pic_v := pic_v x; pic_from_h := pic_from_h x; pic_from_v := pic_from_v x; pic_dist_t := pic_dist_t x; pic_dist_b := pic_dist_b x; pic_dist_l := pic_dist_l x; pic_dist_r := pic_dist_r x; pic_rot := pic_rot x |}.
Definition set_pic_anchor (v : bool) (x : pic) : pic :=
  {| pic_id := pic_id x; pic_image := pic_image x; pic_size := pic_size x; pic_anchor := v; pic_simple_pos := pic_simple_pos x; pic_simple_x := pic_simple_x x; pic_simple_y := pic_simple_y x; pic_layout_in_cell := pic_layout_in_cell x; pic_relative_height := pic_relative_height x; pic_overlap := pic_overlap x; pic_h := pic_h x; pic_v := pic_v x; pic_from_h := pic_from_h x; pic_from_v := pic_from_v x; pic_dist_t := pic_dist_t x; pic_dist_b := pic_dist_b x; pic_dist_l := pic_dist_l x; pic_dist_r := pic_dist_r x; pic_rot := pic_rot x |}.
Definition set_pic_simple_pos (v : bool) (x : pic) : pic :=
  {| pic_id := pic_id x; pic_image := pic_image x; pic_size := pic_size x; pic_anchor := pic_anchor x; pic_simple_pos := v; pic_simple_x := pic_simple_x x; pic_simple_y := pic_simple_y x; pic_layout_in_cell := pic_layout_in_cell x; pic_relative_height := pic_relative_height x; pic_overlap := pic_overlap x; pic_h := pic_h x; pic_v := pic_v x; pic_from_h := pic_from_h x; pic_from_v := pic_from_v x; pic_dist_t := pic_dist_t x; pic_dist_b := pic_dist_b x; pic_dist_l := pic_dist_l x; pic_dist_r := pic_dist_r x; pic_rot := pic_rot x |}.
Definition set_pic_simple_x (v : Z) (x : pic) : pic :=
  {| pic_id := pic_id x; pic_image := pic_image x; pic_size := pic_size x; pic_anchor := pic_anchor x; pic_simple_pos := pic_simple_pos x; pic_simple_x := v; pic_simple_y := pic_simple_y x; pic_layout_in_cell := pic_layout_in_cell x; pic_relative_height := pic_relative_height x; pic_overlap := pic_overlap x; pic_h := pic_h x; pic_v := pic_v x; pic_from_h := pic_from_h x; pic_from_v := pic_from_v x; pic_dist_t := pic_dist_t x; pic_dist_b := pic_dist_b x; pic_dist_l := pic_dist_l x; pic_dist_r := pic_dist_r x; pic_rot := pic_rot x |}.
Definition set_pic_simple_y (v : Z) (x : pic) : pic :=
  {| pic_id := pic_id x; pic_image := pic_image x; pic_size := pic_size x; pic_anchor := pic_anchor x; pic_simple_pos := pic_simple_pos x; pic_simple_x := pic_simple_x x; pic_simple_y := v; pic_layout_in_cell := pic_layout_in_cell x; pic_relative_height := pic_relative_height x; pic_overlap := pic_overlap x; pic_h := pic_h x; pic_v := pic_v x; pic_from_h := pic_from_h x; pic_from_v := pic_from_v x; pic_dist_t := pic_dist_t x; pic_dist_b := pic_dist_b x; pic_dist_l := pic_dist_l x; pic_dist_r := pic_dist_r x; pic_rot := pic_rot x |}.
Definition set_pic_layout_in_cell (v : bool) (x : pic) : pic :=
  {| pic_id := pic_id x; pic_image := pic_image x; pic_size := pic_size x; pic_anchor := pic_anchor x; pic_simple_pos := pic_simple_pos x; pic_simple_x := pic_simple_x x; pic_simple_y := pic_simple_y x; pic_layout_in_cell := v; pic_relative_height := pic_relative_height x; pic_overlap := pic_overlap x; pic_h := pic_h x; pic_v := pic_v x; pic_from_h := pic_from_h x; pic_from_v := pic_from_v x; pic_dist_t := pic_dist_t x; pic_dist_b := pic_dist_b x; pic_dist_l := pic_dist_l x; pic_dist_r := pic_dist_r x; pic_rot := pic_rot x |}.
Definition set_pic_relative_height (v : N) (x : pic) : pic :=
  {| pic_id := pic_id x; pic_image := pic_image x; pic_size := pic_size x; pic_anchor := pic_anchor x; pic_simple_pos := pic_simple_pos x; pic_simple_x := pic_simple_x x; pic_simple_y := pic_simple_y x; pic_layout_in_cell := pic_layout_in_cell x; pic_relative_height := v; pic_overlap := pic_overlap x; pic_h := pic_h x; pic_v := pic_v x; pic_from_h := pic_from_h x; pic_from_v := pic_from_v x; pic_dist_t := pic_dist_t x; pic_dist_b := pic_dist_b x; pic_dist_l := pic_dist_l x; pic_dist_r := pic_dist_r x; pic_rot := pic_rot x |}.
Definition set_pic_overlap (v : bool) (x : pic) : pic :=
  {| pic_id := pic_id x; pic_image := pic_image x; pic_size := pic_size x; pic_anchor := pic_anchor x; pic_simple_pos := pic_simple_pos x; pic_simple_x := pic_simple_x x; pic_simple_y := pic_simple_y x; pic_layout_in_cell := pic_layout_in_cell x; pic_relative_height := pic_relative_height x; pic_overlap := v; pic_h := pic_h x; pic_v := pic_v x; pic_from_h := pic_from_h x; pic_from_v := pic_from_v x; pic_dist_t := pic_dist_t x; pic_dist_b := pic_dist_b x; pic_dist_l := pic_dist_l x; pic_dist_r := pic_dist_r x; pic_rot := pic_rot x |}.
Definition set_pic_h (v : drawing_position) (x : pic) : pic :=
  {| pic_id := pic_id x; pic_image := pic_image x; pic_size := pic_size x; pic_anchor := pic_anchor x; pic_simple_pos := pic_simple_pos x; pic_simple_x := pic_simple_x x; pic_simple_y := pic_simple_y x; pic_layout_in_cell := pic_layout_in_cell x; pic_relative_height := pic_relative_height x; pic_overlap := pic_overlap x; pic_h := v; pic_v := pic_v x; pic_from_h := pic_from_h x; pic_from_v := pic_from_v x; pic_dist_t := pic_dist_t x; pic_dist_b := pic_dist_b x; pic_dist_l := pic_dist_l x; pic_dist_r := pic_dist_r x; pic_rot := pic_rot x |}.
Definition set_pic_v (v : drawing_position) (x : pic) : pic :=
  {| pic_id := pic_id x; pic_image := pic_image x; pic_size := pic_size x; pic_anchor := pic_anchor x; pic_simple_pos := pic_simple_pos x; pic_simple_x := pic_simple_x x; pic_simple_y := pic_simple_y x; pic_layout_in_cell := pic_layout_in_cell x; pic_relative_height := pic_relative_height x; pic_overlap := pic_overlap x; pic_h := pic_h x; pic_v := v; pic_from_h := pic_from_h x; pic_from_v := pic_from_v x; pic_dist_t := pic_dist_t x; pic_dist_b := pic_dist_b x; pic_dist_l := pic_dist_l x; pic_dist_r := pic_dist_r x; pic_rot := pic_rot x |}.
Definition set_pic_from_h (v : RelativeFromHType) (x : pic) : pic :=
  {| pic_id := pic_id x; pic_image := pic_image x; pic_size := pic_size x; pic_anchor := pic_anchor x; pic_simple_pos := pic_simple_pos x; pic_simple_x := pic_simple_x x; pic_simple_y := pic_simple_y x; pic_layout_in_cell := pic_layout_in_cell x; pic_relative_height := pic_relative_height x; pic_overlap := pic_overlap x; pic_h := pic_h x; pic_v := pic_v x; pic_from_h := v; pic_from_v := pic_from_v x; pic_dist_t := pic_dist_t x; pic_dist_b := pic_dist_b x; pic_dist_l := pic_dist_l x; pic_dist_r := pic_dist_r x; pic_rot := pic_rot x |}.
Definition set_pic_from_v (v : RelativeFromVType) (x : pic) : pic :=
  {| pic_id := pic_id x; pic_image := pic_image x; pic_size := pic_size x; pic_anchor := pic_anchor x; pic_simple_pos := pic_simple_pos x; pic_simple_x := pic_simple_x x; pic_simple_y := pic_simple_y x; pic_layout_in_cell := pic_layout_in_cell x; pic_relative_height := pic_relative_height x; pic_overlap := pic_overlap x; pic_h := pic_h x; pic_v := pic_v x; pic_from_h := pic_from_h x; pic_from_v := v; pic_dist_t := pic_dist_t x; pic_dist_b := pic_dist_b x; pic_dist_l := pic_dist_l x; pic_dist_r := pic_dist_r x; pic_rot := pic_rot x |}.
Definition set_pic_dist_t (v : Z) (x : pic) : pic :=
  {| pic_id := pic_id x; pic_image := pic_image x; pic_size := pic_size x; pic_anchor := pic_anchor x; pic_simple_pos := pic_simple_pos x; pic_simple_x := pic_simple_x x; pic_simple_y := pic_simple_y x; pic_layout_in_cell := pic_layout_in_cell x; pic_relative_height := pic_relative_height x; pic_overlap := pic_overlap x; pic_h := pic_h x; pic_v := pic_v x; pic_from_h := pic_from_h x; pic_from_v := pic_from_v x; pic_dist_t := v; pic_dist_b := pic_dist_b x; pic_dist_l := pic_dist_l x; pic_dist_r := pic_dist_r x; pic_rot := pic_rot x |}.
Definition set_pic_dist_b (v : Z) (x : pic) : pic :=
  {| pic_id := pic_id x; pic_image := pic_image x; pic_size := pic_size x; pic_anchor := pic_anchor x; pic_simple_pos := pic_simple_pos x; pic_simple_x := pic_simple_x x; pic_simple_y := pic_simple_y x; pic_layout_in_cell := pic_layout_in_cell x; pic_relative_height := pic_relative_height x; pic_overlap := pic_overlap x; pic_h := pic_h x; pic_v := pic_v x; pic_from_h := pic_from_h x; pic_from_v := pic_from_v x; pic_dist_t := pic_dist_t x; pic_dist_b := v; pic_dist_l := pic_dist_l x; pic_dist_r := pic_dist_r x; pic_rot := pic_rot x |}.
Definition set_pic_dist_l (v : Z) (x : pic) : pic :=
  {| pic_id := pic_id x; pic_image := pic_image x; pic_size := pic_size x; pic_anchor := pic_anchor x; pic_simple_pos := pic_simple_pos x; pic_simple_x := pic_simple_x x; pic_simple_y := pic_simple_y x; pic_layout_in_cell := pic_layout_in_cell x; pic_relative_height := pic_relative_height x; pic_overlap := pic_overlap x; pic_h := pic_h x; pic_v := pic_v x; pic_from_h := pic_from_h x; pic_from_v := pic_from_v x; pic_dist_t := pic_dist_t x; pic_dist_b := pic_dist_b x; pic_dist_l := v; pic_dist_r := pic_dist_r x; pic_rot := pic_rot x |}.
Definition set_pic_dist_r (v : Z) (x : pic) : pic :=
  {| pic_id := pic_id x; pic_image := pic_image x; pic_size := pic_size x; pic_anchor := pic_anchor x; pic_simple_pos := pic_simple_pos x; pic_simple_x := pic_simple_x x; pic_simple_y := pic_simple_y x; pic_layout_in_cell := pic_layout_in_cell x; pic_relative_height := pic_relative_height x; pic_overlap := pic_overlap x; pic_h := pic_h x; pic_v := pic_v x; pic_from_h := pic_from_h x; pic_from_v := pic_from_v x; pic_dist_t := pic_dist_t x; pic_dist_b := pic_dist_b x; pic_dist_l := pic_dist_l x; pic_dist_r := v; pic_rot := pic_rot x |}.
Definition set_pic_rot (v : N) (x : pic) : pic :=
  {| pic_id := pic_id x; pic_image := pic_image x; pic_size := pic_size x; pic_anchor := pic_anchor x; pic_simple_pos := pic_simple_pos x; pic_simple_x := pic_simple_x x; pic_simple_y := pic_simple_y x; pic_layout_in_cell := pic_layout_in_cell x; pic_relative_height := pic_relative_height x; pic_overlap := pic_overlap x; pic_h := pic_h x; pic_v := pic_v x; pic_from_h := pic_from_h x; pic_from_v := pic_from_v x; pic_dist_t := pic_dist_t x; pic_dist_b := pic_dist_b x; pic_dist_l := pic_dist_l x; pic_dist_r := pic_dist_r x; pic_rot := v |}.

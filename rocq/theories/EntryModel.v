(** The setters of styles, numberings and settings.  Paths are below
    docx-core/src/documents. *)
From Coq Require Import NArith ZArith List.
From Verif Require Import Str EscapeModel TypesModel Props PropsSet StyleModel CallModel.
Import ListNotations.
Open Scope list_scope.

(** ** Styles: elements/style.rs *)
(** The assignments [self.f = v]. *)
Definition set_sty_name (v : string) (x : style) : style := {|
  sty_id := sty_id x; sty_name := v; sty_type := sty_type x; sty_rpr := sty_rpr x; sty_ppr := sty_ppr x; sty_tblpr := sty_tblpr x; sty_tcpr := sty_tcpr x; sty_based_on := sty_based_on x; sty_next := sty_next x; sty_link := sty_link x; sty_q_format := sty_q_format x; sty_ui_priority := sty_ui_priority x; sty_semi_hidden := sty_semi_hidden x; sty_unhide := sty_unhide x |}.
Definition set_sty_rpr (v : rpr) (x : style) : style := {|
  sty_id := sty_id x; sty_name := sty_name x; sty_type := sty_type x; sty_rpr := v; sty_ppr := sty_ppr x; sty_tblpr := sty_tblpr x; sty_tcpr := sty_tcpr x; sty_based_on := sty_based_on x; sty_next := sty_next x; sty_link := sty_link x; sty_q_format := sty_q_format x; sty_ui_priority := sty_ui_priority x; sty_semi_hidden := sty_semi_hidden x; sty_unhide := sty_unhide x |}.
Definition set_sty_ppr (v : ppr) (x : style) : style := {|
  sty_id := sty_id x; sty_name := sty_name x; sty_type := sty_type x; sty_rpr := sty_rpr x; sty_ppr := v; sty_tblpr := sty_tblpr x; sty_tcpr := sty_tcpr x; sty_based_on := sty_based_on x; sty_next := sty_next x; sty_link := sty_link x; sty_q_format := sty_q_format x; sty_ui_priority := sty_ui_priority x; sty_semi_hidden := sty_semi_hidden x; sty_unhide := sty_unhide x |}.
Definition set_sty_tblpr (v : tblpr) (x : style) : style := {|
  sty_id := sty_id x; sty_name := sty_name x; sty_type := sty_type x; sty_rpr := sty_rpr x; sty_ppr := sty_ppr x; sty_tblpr := v; sty_tcpr := sty_tcpr x; sty_based_on := sty_based_on x; sty_next := sty_next x; sty_link := sty_link x; sty_q_format := sty_q_format x; sty_ui_priority := sty_ui_priority x; sty_semi_hidden := sty_semi_hidden x; sty_unhide := sty_unhide x |}.
Definition set_sty_tcpr (v : tcpr) (x : style) : style := {|
  sty_id := sty_id x; sty_name := sty_name x; sty_type := sty_type x; sty_rpr := sty_rpr x; sty_ppr := sty_ppr x; sty_tblpr := sty_tblpr x; sty_tcpr := v; sty_based_on := sty_based_on x; sty_next := sty_next x; sty_link := sty_link x; sty_q_format := sty_q_format x; sty_ui_priority := sty_ui_priority x; sty_semi_hidden := sty_semi_hidden x; sty_unhide := sty_unhide x |}.
Definition set_sty_based_on (v : option string) (x : style) : style := {|
  sty_id := sty_id x; sty_name := sty_name x; sty_type := sty_type x; sty_rpr := sty_rpr x; sty_ppr := sty_ppr x; sty_tblpr := sty_tblpr x; sty_tcpr := sty_tcpr x; sty_based_on := v; sty_next := sty_next x; sty_link := sty_link x; sty_q_format := sty_q_format x; sty_ui_priority := sty_ui_priority x; sty_semi_hidden := sty_semi_hidden x; sty_unhide := sty_unhide x |}.
Definition set_sty_next (v : option string) (x : style) : style := {|
  sty_id := sty_id x; sty_name := sty_name x; sty_type := sty_type x; sty_rpr := sty_rpr x; sty_ppr := sty_ppr x; sty_tblpr := sty_tblpr x; sty_tcpr := sty_tcpr x; sty_based_on := sty_based_on x; sty_next := v; sty_link := sty_link x; sty_q_format := sty_q_format x; sty_ui_priority := sty_ui_priority x; sty_semi_hidden := sty_semi_hidden x; sty_unhide := sty_unhide x |}.
Definition set_sty_link (v : option string) (x : style) : style := {|
  sty_id := sty_id x; sty_name := sty_name x; sty_type := sty_type x; sty_rpr := sty_rpr x; sty_ppr := sty_ppr x; sty_tblpr := sty_tblpr x; sty_tcpr := sty_tcpr x; sty_based_on := sty_based_on x; sty_next := sty_next x; sty_link := v; sty_q_format := sty_q_format x; sty_ui_priority := sty_ui_priority x; sty_semi_hidden := sty_semi_hidden x; sty_unhide := sty_unhide x |}.
Definition set_sty_q_format (v : bool) (x : style) : style := {|
  sty_id := sty_id x; sty_name := sty_name x; sty_type := sty_type x; sty_rpr := sty_rpr x; sty_ppr := sty_ppr x; sty_tblpr := sty_tblpr x; sty_tcpr := sty_tcpr x; sty_based_on := sty_based_on x; sty_next := sty_next x; sty_link := sty_link x; sty_q_format := v; sty_ui_priority := sty_ui_priority x; sty_semi_hidden := sty_semi_hidden x; sty_unhide := sty_unhide x |}.
Definition set_sty_ui_priority (v : option N) (x : style) : style := {|
  sty_id := sty_id x; sty_name := sty_name x; sty_type := sty_type x; sty_rpr := sty_rpr x; sty_ppr := sty_ppr x; sty_tblpr := sty_tblpr x; sty_tcpr := sty_tcpr x; sty_based_on := sty_based_on x; sty_next := sty_next x; sty_link := sty_link x; sty_q_format := sty_q_format x; sty_ui_priority := v; sty_semi_hidden := sty_semi_hidden x; sty_unhide := sty_unhide x |}.
Definition set_sty_semi_hidden (v : bool) (x : style) : style := {|
  sty_id := sty_id x; sty_name := sty_name x; sty_type := sty_type x; sty_rpr := sty_rpr x; sty_ppr := sty_ppr x; sty_tblpr := sty_tblpr x; sty_tcpr := sty_tcpr x; sty_based_on := sty_based_on x; sty_next := sty_next x; sty_link := sty_link x; sty_q_format := sty_q_format x; sty_ui_priority := sty_ui_priority x; sty_semi_hidden := v; sty_unhide := sty_unhide x |}.
Definition set_sty_unhide (v : bool) (x : style) : style := {|
  sty_id := sty_id x; sty_name := sty_name x; sty_type := sty_type x; sty_rpr := sty_rpr x; sty_ppr := sty_ppr x; sty_tblpr := sty_tblpr x; sty_tcpr := sty_tcpr x; sty_based_on := sty_based_on x; sty_next := sty_next x; sty_link := sty_link x; sty_q_format := sty_q_format x; sty_ui_priority := sty_ui_priority x; sty_semi_hidden := sty_semi_hidden x; sty_unhide := v |}.
Inductive style_call :=
| YName (s : string)                                    (* 78-81; name.rs:15-19 *)
| YBasedOn (s : string)                                 (* 83-86; based_on.rs:14-18 *)
| YNext (s : string)                                    (* 88-91; next.rs:13-15: not escaped *)
| YLink (s : string)                                    (* 93-96; link.rs:14-18 *)
| YQFormat (b : bool)                                   (* 98-101 *)
| YUiPriority (n : N)                                   (* 103-106 *)
| YSemiHidden | YUnhideWhenUsed                         (* 108-111, 113-116 *)
| YSize (n : N) | YColor (s : string)                   (* 118-121, 123-126 *)
| YThemeColor (s : string) | YThemeShade (s : string) | YThemeTint (s : string) (* 129-132, 135-138, 141-144 *)
| YHighlight (s : string)                               (* 146-149 *)
| YBold | YItalic | YUnderline (s : string) | YVanish   (* 151-154, 156-159, 161-164, 166-169 *)
| YTextBorder (b : text_border) | YFonts (f : fonts)    (* 171-174, 176-179 *)
| YShading (s : shading)                                (* style_ext.rs:21-24 *)
| YAlign (t : AlignmentType)                            (* 181-184 *)
| YTextAlignment (t : TextAlignmentType)                (* 186-189 *)
| YSnapToGrid (v : bool) | YLineSpacing (l : line_spacing) (* 191-194, 196-199 *)
| YIndent (start : option Z) (special : option special_indent) (end_ start_chars : option Z) (* 201-212 *)
| YHangingChars (z : Z) | YFirstLineChars (z : Z)       (* 214-217, 219-222 *)
| YOutline (n : N)                                      (* 224-227 *)
| YTableProperty (p : tblpr)                            (* 229-232 *)
| YTableIndent (z : Z) | YTableAlign (t : TableAlignmentType) (* 234-237, 239-242 *)
| YStyle (s : string) | YLayout (t : TableLayoutType)   (* 244-247, 249-252 *)
| YWidth (n : N) (t : WidthType)                        (* 254-257 *)
| YMargins (m : tmargins)                               (* 259-262 *)
| YSetBorders (b : tborders)                            (* 264-267 *)
| YSetBorder (s : tside) (b : border)                   (* 269-272 *)
| YClearBorder (s : tside) | YClearBorders              (* 274-277, 279-282 *)
| YTableCellProperty (p : tcpr)                         (* 284-287 *)
| YFrame (c : frame_call).                              (* 290-384 *)
Definition on_style (c : style_call) (s : style) : style :=
  let run r := set_sty_rpr (on_run r (sty_rpr s)) s in
  let para p := set_sty_ppr (on_para p (sty_ppr s)) s in
  let table t := set_sty_tblpr (on_table t (sty_tblpr s)) s in
  match c with
  | YName n => set_sty_name (escape_owned n) s
  | YBasedOn n => set_sty_based_on (Some (escape_owned n)) s
  | YNext n => set_sty_next (Some n) s
  | YLink n => set_sty_link (Some (escape_owned n)) s
  | YQFormat b => set_sty_q_format b s
  | YUiPriority n => set_sty_ui_priority (Some n) s
  | YSemiHidden => set_sty_semi_hidden true s
  | YUnhideWhenUsed => set_sty_unhide true s
  | YSize n => run (RSize n) | YColor n => run (RColor n)
  | YThemeColor n => run (RThemeColor n) | YThemeShade n => run (RThemeShade n) | YThemeTint n => run (RThemeTint n)
  | YHighlight n => run (RHighlight n) | YBold => run RBold | YItalic => run RItalic | YUnderline n => run (RUnderline n)
  | YVanish => run RVanish | YTextBorder b => run (RTextBorder b) | YFonts f => run (RFonts f) | YShading v => run (RShading v)
  | YAlign t => para (PAlign t) | YTextAlignment t => para (PTextAlignment t) | YSnapToGrid v => para (PSnapToGrid v)
  | YLineSpacing l => para (PLineSpacing l) | YIndent l sp e sc => para (PIndent l sp e sc)
  | YHangingChars z => para (PHangingChars z) | YFirstLineChars z => para (PFirstLineChars z) | YOutline n => para (POutline n)
  | YTableProperty p => set_sty_tblpr p s
  | YTableIndent z => table (TIndent z) | YTableAlign t => table (TAlign t) | YStyle n => table (TStyle n) | YLayout t => table (TLayout t)
  | YWidth n t => table (TWidth n t) | YMargins m => table (TMargins m) | YSetBorders b => table (TSetBorders b)
  | YSetBorder e b => table (TSetBorder e b) | YClearBorder e => table (TClearBorder e) | YClearBorders => table TClearBorders
  | YTableCellProperty p => set_sty_tcpr p s
  | YFrame f => para (PFrame f)
  end.

(** ** All styles: styles.rs, with elements/doc_defaults.rs:17-47, run_property_default.rs:14-33 and
    paragraph_property_default.rs:14-27, which pass the values on *)
Definition set_ss_rpr (v : rpr) (x : styles) : styles := {|
  ss_rpr := v; ss_ppr := ss_ppr x; ss_list := ss_list x |}.
Definition set_ss_ppr (v : ppr) (x : styles) : styles := {|
  ss_rpr := ss_rpr x; ss_ppr := v; ss_list := ss_list x |}.
Definition set_ss_list (v : list style) (x : styles) : styles := {|
  ss_rpr := ss_rpr x; ss_ppr := ss_ppr x; ss_list := v |}.
Inductive styles_call :=
| YsAdd (s : style)                                     (* 21-24 *)
| YsSize (n : N)                                        (* 26-29 *)
| YsSpacing (z : Z)                                     (* 31-34 *)
| YsLineSpacing (l : line_spacing)                      (* 36-39 *)
| YsFonts (f : fonts).                                  (* 41-44 *)
Definition on_styles (c : styles_call) (t : styles) : styles :=
  match c with
  | YsAdd s => set_ss_list (ss_list t ++ [s]) t
  | YsSize n => set_ss_rpr (on_run (RSize n) (ss_rpr t)) t
  | YsSpacing z => set_ss_rpr (on_run (RSpacing z) (ss_rpr t)) t
  | YsLineSpacing l => set_ss_ppr (on_para (PLineSpacing l) (ss_ppr t)) t
  | YsFonts f => set_ss_rpr (on_run (RFonts f) (ss_rpr t)) t
  end.

(** ** Levels: elements/level.rs *)
Definition set_lv_ppr (v : ppr) (x : level) : level := {|
  lv_level := lv_level x; lv_start := lv_start x; lv_format := lv_format x; lv_text := lv_text x; lv_jc := lv_jc x; lv_ppr := v; lv_rpr := lv_rpr x; lv_suffix := lv_suffix x; lv_pstyle := lv_pstyle x; lv_restart := lv_restart x; lv_lgl := lv_lgl x |}.
Definition set_lv_rpr (v : rpr) (x : level) : level := {|
  lv_level := lv_level x; lv_start := lv_start x; lv_format := lv_format x; lv_text := lv_text x; lv_jc := lv_jc x; lv_ppr := lv_ppr x; lv_rpr := v; lv_suffix := lv_suffix x; lv_pstyle := lv_pstyle x; lv_restart := lv_restart x; lv_lgl := lv_lgl x |}.
Definition set_lv_suffix (v : LevelSuffixType) (x : level) : level := {|
  lv_level := lv_level x; lv_start := lv_start x; lv_format := lv_format x; lv_text := lv_text x; lv_jc := lv_jc x; lv_ppr := lv_ppr x; lv_rpr := lv_rpr x; lv_suffix := v; lv_pstyle := lv_pstyle x; lv_restart := lv_restart x; lv_lgl := lv_lgl x |}.
Definition set_lv_pstyle (v : option string) (x : level) : level := {|
  lv_level := lv_level x; lv_start := lv_start x; lv_format := lv_format x; lv_text := lv_text x; lv_jc := lv_jc x; lv_ppr := lv_ppr x; lv_rpr := lv_rpr x; lv_suffix := lv_suffix x; lv_pstyle := v; lv_restart := lv_restart x; lv_lgl := lv_lgl x |}.
Definition set_lv_restart (v : option N) (x : level) : level := {|
  lv_level := lv_level x; lv_start := lv_start x; lv_format := lv_format x; lv_text := lv_text x; lv_jc := lv_jc x; lv_ppr := lv_ppr x; lv_rpr := lv_rpr x; lv_suffix := lv_suffix x; lv_pstyle := lv_pstyle x; lv_restart := v; lv_lgl := lv_lgl x |}.
Definition set_lv_lgl (v : bool) (x : level) : level := {|
  lv_level := lv_level x; lv_start := lv_start x; lv_format := lv_format x; lv_text := lv_text x; lv_jc := lv_jc x; lv_ppr := lv_ppr x; lv_rpr := lv_rpr x; lv_suffix := lv_suffix x; lv_pstyle := lv_pstyle x; lv_restart := lv_restart x; lv_lgl := v |}.
Inductive level_call :=
| LIndent (start : option Z) (special : option special_indent) (end_ start_chars : option Z) (* 48-59 *)
| LParagraphStyle (s : string)                          (* 61-64; paragraph_style.rs:28-36 *)
| LSuffix (t : LevelSuffixType)                         (* 66-69 *)
| LSize (n : N) | LSpacing (z : Z) | LColor (s : string) | LHighlight (s : string) (* 72-75, 77-80, 82-85, 87-90 *)
| LBold | LNoBold | LItalic | LNoItalic                 (* 92-95, 97-100, 102-105, 107-110 *)
| LStrike | LNoStrike | LDstrike | LNoDstrike           (* 112-115, 117-120, 122-125, 127-130 *)
| LUnderline (s : string) | LVanish | LFonts (f : fonts) (* 132-135, 137-140, 142-145 *)
| LRestart (n : N)                                      (* 147-150; level_restart.rs:13-15 *)
| LIsLgl.                                               (* 152-155 *)
Definition on_level (c : level_call) (l : level) : level :=
  let run r := set_lv_rpr (on_run r (lv_rpr l)) l in
  match c with
  | LIndent i sp e sc => set_lv_ppr (on_para (PIndent i sp e sc) (lv_ppr l)) l
  | LParagraphStyle s => set_lv_pstyle (Some (escape_owned s)) l
  | LSuffix t => set_lv_suffix t l
  | LSize n => run (RSize n) | LSpacing z => run (RSpacing z) | LColor s => run (RColor s) | LHighlight s => run (RHighlight s)
  | LBold => run RBold | LNoBold => run RNoBold | LItalic => run RItalic | LNoItalic => run RNoItalic
  | LStrike => run RStrike | LNoStrike => run RNoStrike | LDstrike => run RDstrike | LNoDstrike => run RNoDstrike
  | LUnderline s => run (RUnderline s) | LVanish => run RVanish | LFonts f => run (RFonts f)
  | LRestart n => set_lv_restart (Some n) l
  | LIsLgl => set_lv_lgl true l
  end.

(** ** Numberings: elements/{abstract_numbering,numbering,level_override}.rs, numberings.rs *)
Definition set_an_style_link (v : option string) (x : abstract_num) : abstract_num := {|
  an_id := an_id x; an_style_link := v; an_num_style_link := an_num_style_link x; an_levels := an_levels x; an_multi := an_multi x |}.
Definition set_an_num_style_link (v : option string) (x : abstract_num) : abstract_num := {|
  an_id := an_id x; an_style_link := an_style_link x; an_num_style_link := v; an_levels := an_levels x; an_multi := an_multi x |}.
Definition set_an_levels (v : list level) (x : abstract_num) : abstract_num := {|
  an_id := an_id x; an_style_link := an_style_link x; an_num_style_link := an_num_style_link x; an_levels := v; an_multi := an_multi x |}.
(** abstract_numbering.rs:29-32, 34-37, 39-42 *)
Inductive abstract_call := AAddLevel (l : level) | ANumStyleLink (s : string) | AStyleLink (s : string).
Definition on_abstract (c : abstract_call) (a : abstract_num) : abstract_num :=
  match c with
  | AAddLevel l => set_an_levels (an_levels a ++ [l]) a
  | ANumStyleLink s => set_an_num_style_link (Some s) a
  | AStyleLink s => set_an_style_link (Some s) a
  end.
(** level_override.rs:30-33, 35-38 *)
Inductive override_call := OStart (n : N) | OLevel (l : level).
Definition on_override (c : override_call) (o : level_override) : level_override :=
  match c with
  | OStart n => {| ov_level := ov_level o; ov_start := Some n; ov_replace := ov_replace o |}
  | OLevel l => {| ov_level := ov_level o; ov_start := ov_start o; ov_replace := Some l |}
  end.
(** numbering.rs:25-28, 30-33 *)
Inductive num_call := NOverrides (l : list level_override) | NAddOverride (o : level_override).
Definition on_num (c : num_call) (n : num) : num :=
  match c with
  | NOverrides l => {| nm_id := nm_id n; nm_abstract := nm_abstract n; nm_overrides := l |}
  | NAddOverride o => {| nm_id := nm_id n; nm_abstract := nm_abstract n; nm_overrides := nm_overrides n ++ [o] |}
  end.
(** numberings.rs:21-24, 26-29 *)
Inductive numberings_call := NsAbstract (a : abstract_num) | NsNum (n : num).
Definition on_numberings (c : numberings_call) (t : numberings) : numberings :=
  match c with
  | NsAbstract a => {| ns_abstracts := ns_abstracts t ++ [a]; ns_nums := ns_nums t |}
  | NsNum n => {| ns_abstracts := ns_abstracts t; ns_nums := ns_nums t ++ [n] |}
  end.

(** ** Settings: settings.rs *)
Definition set_cfg_tab (v : N) (x : settings) : settings := {|
  cfg_tab := v; cfg_doc_id := cfg_doc_id x; cfg_vars := cfg_vars x; cfg_even_odd := cfg_even_odd x; cfg_adjust := cfg_adjust x; cfg_spacing := cfg_spacing x |}.
Definition set_cfg_doc_id (v : option string) (x : settings) : settings := {|
  cfg_tab := cfg_tab x; cfg_doc_id := v; cfg_vars := cfg_vars x; cfg_even_odd := cfg_even_odd x; cfg_adjust := cfg_adjust x; cfg_spacing := cfg_spacing x |}.
Definition set_cfg_vars (v : list (string * string)) (x : settings) : settings := {|
  cfg_tab := cfg_tab x; cfg_doc_id := cfg_doc_id x; cfg_vars := v; cfg_even_odd := cfg_even_odd x; cfg_adjust := cfg_adjust x; cfg_spacing := cfg_spacing x |}.
Definition set_cfg_even_odd (v : bool) (x : settings) : settings := {|
  cfg_tab := cfg_tab x; cfg_doc_id := cfg_doc_id x; cfg_vars := cfg_vars x; cfg_even_odd := v; cfg_adjust := cfg_adjust x; cfg_spacing := cfg_spacing x |}.
Definition set_cfg_adjust (v : bool) (x : settings) : settings := {|
  cfg_tab := cfg_tab x; cfg_doc_id := cfg_doc_id x; cfg_vars := cfg_vars x; cfg_even_odd := cfg_even_odd x; cfg_adjust := v; cfg_spacing := cfg_spacing x |}.
Definition set_cfg_spacing (v : option CharacterSpacingValues) (x : settings) : settings := {|
  cfg_tab := cfg_tab x; cfg_doc_id := cfg_doc_id x; cfg_vars := cfg_vars x; cfg_even_odd := cfg_even_odd x; cfg_adjust := cfg_adjust x; cfg_spacing := v |}.
Inductive settings_call :=
| GDocId (s : string)                                   (* 28-31; doc_id.rs:13-15 *)
| GTabStop (n : N)                                      (* 33-36 *)
| GDocVar (name val : string)                           (* 38-41; doc_var.rs:14-19 *)
| GEvenAndOdd | GAdjust                                 (* 43-46, 48-51 *)
| GSpacing (v : CharacterSpacingValues).                (* 53-56 *)
Definition on_settings (c : settings_call) (x : settings) : settings :=
  match c with
  | GDocId s => set_cfg_doc_id (Some s) x
  | GTabStop n => set_cfg_tab n x
  | GDocVar n v => set_cfg_vars (cfg_vars x ++ [(n, v)]) x
  | GEvenAndOdd => set_cfg_even_odd true x
  | GAdjust => set_cfg_adjust true x
  | GSpacing v => set_cfg_spacing (Some v) x
  end.

(** Styles, numberings and settings: the records and how they are built.
    documents/{styles,numberings,settings}.rs, documents/elements/{style,doc_defaults,
    run_property_default,paragraph_property_default,abstract_numbering,numbering,level,
    level_override,doc_id,doc_var,zoom,default_tab_stop}.rs, xml_builder/{styles,numbering,
    settings,elements}.rs. *)
From Coq Require Import NArith ZArith List Bool.
From Verif Require Import Str TypesModel Props PropsSet EscapeModel WriterModel BuildModel.
Import ListNotations.

(** ** Styles *)
(** elements/style.rs:12-34.  [Name], [BasedOn], [Next] and [Link] are their strings
    ([Name::new], [BasedOn::new] and [Link::new] escape: see [style_named] etc.). *)
Record style := {
  sty_id : string; sty_name : string; sty_type : StyleType; sty_rpr : rpr; sty_ppr : ppr; sty_tblpr : tblpr; sty_tcpr : tcpr;
  sty_based_on : option string; sty_next : option string; sty_link : option string; sty_q_format : bool;
  sty_ui_priority : option N; sty_semi_hidden : bool; sty_unhide : bool }.
(** [Style::new], elements/style.rs:69-76 with [Default] 44-66; name.rs:15-19 *)
Definition style_new (id : string) (t : StyleType) : style := {|
  sty_id := escape_owned id; sty_name := escape_owned ""; sty_type := t; sty_rpr := rpr_empty; sty_ppr := ppr_empty;
  sty_tblpr := tblpr_default; sty_tcpr := tcpr_empty; sty_based_on := None; sty_next := None; sty_link := None;
  sty_q_format := true; sty_ui_priority := None; sty_semi_hidden := false; sty_unhide := false |}.
(** [Style::name], elements/style.rs:78-81 with name.rs:15-19 *)
Definition style_named (n : string) (s : style) : style := {|
  sty_id := sty_id s; sty_name := escape_owned n; sty_type := sty_type s; sty_rpr := sty_rpr s; sty_ppr := sty_ppr s;
  sty_tblpr := sty_tblpr s; sty_tcpr := sty_tcpr s; sty_based_on := sty_based_on s; sty_next := sty_next s; sty_link := sty_link s;
  sty_q_format := sty_q_format s; sty_ui_priority := sty_ui_priority s; sty_semi_hidden := sty_semi_hidden s; sty_unhide := sty_unhide s |}.
(** elements/style.rs:387-414 with elements.rs:221-227 [open_style] *)
Definition b_style (s : style) : M (list xml) :=
  r <- b_rpr (sty_rpr s);;
  p <- b_ppr (sty_ppr s);;
  ret [E "w:style" [("w:type", show_StyleType (sty_type s)); ("w:styleId", sty_id s)]
        ([valued "w:name" (sty_name s)] ++ r ++ p ++
         match sty_type s with StyleType_Table => [x_tcpr (sty_tcpr s); x_tblpr (sty_tblpr s)] | _ => [] end ++
         opt (valued "w:next") (sty_next s) ++ opt (valued "w:link") (sty_link s) ++
         on (sty_q_format s) [leaf "w:qFormat" []] ++ opt (valued_n "w:uiPriority") (sty_ui_priority s) ++
         on (sty_semi_hidden s) [leaf "w:semiHidden" []] ++ on (sty_unhide s) [leaf "w:unhideWhenUsed" []] ++
         opt (valued "w:basedOn") (sty_based_on s))].
(** documents/styles.rs:9-14 with elements/doc_defaults.rs:10-14: the default run and
    paragraph properties, and the styles. *)
Record styles := { ss_rpr : rpr; ss_ppr : ppr; ss_list : list style }.
(** elements/doc_defaults.rs:55-70, run_property_default.rs, paragraph_property_default.rs *)
Definition b_doc_defaults (r : rpr) (p : ppr) : M (list xml) :=
  r <- b_rpr r;;
  p <- b_ppr p;;
  ret [E "w:docDefaults" [] [E "w:rPrDefault" [] r; E "w:pPrDefault" [] p]].
(** documents/styles.rs:84 *)
Definition style_normal : style := style_named "Normal" (style_new "Normal" StyleType_Paragraph).
(** xml_builder/styles.rs:9-35 *)
Definition styles_attrs := [ns_mc; ns_r; ns_w; ns_w14; ns_w15; ("mc:Ignorable", "w14 w15")].
(** documents/styles.rs:79-93: there is no declaration. *)
Definition b_styles (t : styles) : M xml :=
  d <- b_doc_defaults (ss_rpr t) (ss_ppr t);;
  n <- b_style style_normal;;
  l <- each b_style (ss_list t);;
  ret (E "w:styles" styles_attrs (d ++ n ++ l)).

(** ** Numberings *)
(** elements/level.rs:8-23 *)
Record level := {
  lv_level : N; lv_start : N; lv_format : string; lv_text : string; lv_jc : string; lv_ppr : ppr; lv_rpr : rpr;
  lv_suffix : LevelSuffixType; lv_pstyle : option string; lv_restart : option N; lv_lgl : bool }.
(** [Level::new], elements/level.rs:26-46 *)
Definition level_new (l start : N) (format text jc : string) : level := {|
  lv_level := l; lv_start := start; lv_format := format; lv_text := text; lv_jc := jc; lv_ppr := ppr_empty; lv_rpr := rpr_empty;
  lv_suffix := LevelSuffixType_Tab; lv_pstyle := None; lv_restart := None; lv_lgl := false |}.
(** elements/level.rs:158-180 *)
Definition b_level (l : level) : M (list xml) :=
  p <- b_ppr (lv_ppr l);;
  r <- b_rpr (lv_rpr l);;
  ret [E "w:lvl" [("w:ilvl", show_N (lv_level l))]
        ([valued_n "w:start" (lv_start l)] ++ [valued "w:numFmt" (lv_format l)] ++ [valued "w:lvlText" (lv_text l)] ++
         [valued "w:lvlJc" (lv_jc l)] ++ p ++ r ++ opt (valued "w:pStyle") (lv_pstyle l) ++
         opt (valued_n "w:lvlRestart") (lv_restart l) ++ on (lv_lgl l) [leaf "w:isLgl" []] ++
         match lv_suffix l with LevelSuffixType_Tab => [] | s => [valued "w:suff" (show_LevelSuffixType s)] end)].
(** elements/abstract_numbering.rs:7-16 *)
Record abstract_num := {
  an_id : N; an_style_link : option string; an_num_style_link : option string; an_levels : list level; an_multi : option string }.
(** elements/abstract_numbering.rs:45-59: the two links are not written. *)
Definition b_abstract (a : abstract_num) : M (list xml) :=
  l <- each b_level (an_levels a);;
  ret [E "w:abstractNum" [("w:abstractNumId", show_N (an_id a))] (opt (valued "w:multiLevelType") (an_multi a) ++ l)].
(** elements/level_override.rs:13-19 *)
Record level_override := { ov_level : N; ov_start : option N; ov_replace : option level }.
(** elements/level_override.rs:41-55 *)
Definition b_override (o : level_override) : M (list xml) :=
  l <- match ov_replace o with Some l => b_level l | None => ret [] end;;
  ret [E "w:lvlOverride" [("w:ilvl", show_N (ov_level o))] (l ++ opt (valued_n "w:startOverride") (ov_start o))].
(** elements/numbering.rs:8-14 *)
Record num := { nm_id : N; nm_abstract : N; nm_overrides : list level_override }.
(** elements/numbering.rs:36-50 *)
Definition b_num (n : num) : M (list xml) :=
  l <- each b_override (nm_overrides n);;
  ret [E "w:num" [("w:numId", show_N (nm_id n))] (valued_n "w:abstractNumId" (nm_abstract n) :: l)].
(** documents/numberings.rs:9-14 *)
Record numberings := { ns_abstracts : list abstract_num; ns_nums : list num }.
(** [Level::indent] with a left and a hanging indent, elements/level.rs:48-59 *)
Definition hanging (left by_ : Z) (l : level) : level := {|
  lv_level := lv_level l; lv_start := lv_start l; lv_format := lv_format l; lv_text := lv_text l; lv_jc := lv_jc l;
  lv_ppr := PPr (set_p_indent
    (Some {| i_start := Some left; i_end := None; i_special := Some (Hanging by_); i_start_chars := None;
             i_hanging_chars := None; i_first_line_chars := None |}) ppr_base_empty) None;
  lv_rpr := lv_rpr l; lv_suffix := lv_suffix l; lv_pstyle := lv_pstyle l; lv_restart := lv_restart l; lv_lgl := lv_lgl l |}.
(** [create_default_numbering], documents/numberings.rs:49-176 *)
Definition default_abstract : abstract_num := {|
  an_id := 1; an_style_link := None; an_num_style_link := None; an_multi := None;
  an_levels := [
    hanging 420 420 (level_new 0 1 "decimal" "%1." "left");
    hanging 840 420 (level_new 1 1 "decimal" "(%2)" "left");
    hanging 1260 420 (level_new 2 1 "decimalEnclosedCircle" "%3" "left");
    hanging 1680 420 (level_new 3 1 "decimal" "%4." "left");
    hanging 2100 420 (level_new 4 1 "decimal" "(%5)" "left");
    hanging 2520 420 (level_new 5 1 "decimalEnclosedCircle" "%6" "left");
    hanging 2940 420 (level_new 6 1 "decimal" "%7." "left");
    hanging 3360 420 (level_new 7 1 "decimal" "(%8)" "left");
    hanging 3780 420 (level_new 8 1 "decimalEnclosedCircle" "%9" "left")] |}.
(** [Numbering::new(1, 1)], documents/numberings.rs:42 *)
Definition default_num : num := {| nm_id := 1; nm_abstract := 1; nm_overrides := [] |}.
(** xml_builder/numbering.rs:8-23 *)
Definition numbering_attrs := [ns_r; ns_o; ns_v; ns_w].
(** documents/numberings.rs:32-47 *)
Definition b_numberings (t : numberings) : M xml :=
  d <- b_abstract default_abstract;;
  a <- each b_abstract (ns_abstracts t);;
  e <- b_num default_num;;
  n <- each b_num (ns_nums t);;
  ret (E "w:numbering" numbering_attrs (d ++ a ++ e ++ n)).

(** ** Settings *)
(** documents/settings.rs:12-21.  The zoom is always 100: there is no setter. *)
Record settings := {
  cfg_tab : N; cfg_doc_id : option string; cfg_vars : list (string * string); cfg_even_odd : bool;
  cfg_adjust : bool; cfg_spacing : option CharacterSpacingValues }.
(** documents/settings.rs:59-71 *)
Definition settings_default : settings := {|
  cfg_tab := 840; cfg_doc_id := None; cfg_vars := []; cfg_even_odd := false; cfg_adjust := false; cfg_spacing := None |}.
(** elements.rs:517-523 [compat_setting] *)
Definition x_compat (name v : string) : xml :=
  leaf "w:compatSetting" [("w:name", name); ("w:uri", "http://schemas.microsoft.com/office/word"); ("w:val", v)].
(** elements/doc_id.rs:27-35 with elements.rs:538 *)
Definition x_doc_id (id : string) : xml := leaf "w15:docId" [("w15:val", "{" +++ id +++ "}")].
(** elements/doc_var.rs:22-31 with elements.rs:541 *)
Definition x_doc_var (v : string * string) : xml := leaf "w:docVar" [("w:name", fst v); ("w:val", snd v)].
(** documents/settings.rs:73-135 *)
Definition x_settings (c : settings) : xml :=
  E "w:settings" [ns_w; ns_w14; ns_w15] (
    [valued_n "w:defaultTabStop" (cfg_tab c)] ++ [leaf "w:zoom" [("w:percent", show_N 100)]] ++
    [E "w:compat" [] (
       [leaf "w:spaceForUL" []; leaf "w:balanceSingleByteDoubleByteWidth" []; leaf "w:doNotLeaveBackslashAlone" [];
        leaf "w:ulTrailSpace" []; leaf "w:doNotExpandShiftReturn" []] ++
       opt (fun v => valued "w:characterSpacingControl" (show_CharacterSpacingValues v)) (cfg_spacing c) ++
       on (cfg_adjust c) [leaf "w:adjustLineHeightInTable" []] ++
       [leaf "w:useFELayout" []; x_compat "compatibilityMode" "15"; x_compat "overrideTableStyleFontSizeAndJustification" "1";
        x_compat "enableOpenTypeFeatures" "1"; x_compat "doNotFlipMirrorIndents" "1";
        x_compat "differentiateMultirowTableHeaders" "1"; x_compat "useWord2013TrackBottomHyphenation" "0"])] ++
    opt x_doc_id (cfg_doc_id c) ++
    match cfg_vars c with [] => [] | l => [E "w:docVars" [] (map x_doc_var l)] end ++
    on (cfg_even_odd c) [leaf "w:evenAndOddHeaders" []]).

(** The JSON of styles, numberings and settings: what serde writes for
    documents/{styles,numberings,settings}.rs and the structs in them. *)
From Coq Require Import NArith ZArith List Bool.
From Verif Require Import Str TypesModel Props JsonModel StyleModel.
Import ListNotations.

(** ** Names of enum values: [rename_all = "camelCase"] *)
(** types/style_type.rs:10-18 *)
Definition ser_StyleType (v : StyleType) : string :=
  match v with
  | StyleType_Paragraph => "paragraph" | StyleType_Character => "character" | StyleType_Numbering => "numbering"
  | StyleType_Table => "table" | StyleType_Unsupported => "unsupported"
  end.
(** types/level_suffix_type.rs:11-17 *)
Definition ser_LevelSuffixType (v : LevelSuffixType) : string :=
  match v with LevelSuffixType_Nothing => "nothing" | LevelSuffixType_Space => "space" | LevelSuffixType_Tab => "tab" end.
(** types/character_spacing_values.rs:10-17 *)
Definition ser_CharacterSpacingValues (v : CharacterSpacingValues) : string :=
  match v with
  | CharacterSpacingValues_DoNotCompress => "doNotCompress" | CharacterSpacingValues_CompressPunctuation => "compressPunctuation"
  | CharacterSpacingValues_CompressPunctuationAndJapaneseKana => "compressPunctuationAndJapaneseKana"
  | CharacterSpacingValues_Unsupported => "unsupported"
  end.

(** ** Styles *)
(** elements/style.rs:12-42; name.rs:44-51, based_on.rs:21-28, next.rs:18-25, link.rs:21-28 *)
Definition j_style (s : style) : json :=
  obj [has "styleId" (JStr (sty_id s)); has "name" (JStr (sty_name s)); has "styleType" (JStr (ser_StyleType (sty_type s)));
       has "runProperty" (j_rpr (sty_rpr s)); has "paragraphProperty" (j_ppr (sty_ppr s)); has "tableProperty" (j_tblpr (sty_tblpr s));
       has "tableCellProperty" (j_tcpr (sty_tcpr s)); has "basedOn" (j_opt JStr (sty_based_on s)); has "next" (j_opt JStr (sty_next s));
       may "link" JStr (sty_link s); flag "qFormat" (JBool false) (negb (sty_q_format s)); may "uiPriority" jn (sty_ui_priority s);
       flag "semiHidden" (JBool true) (sty_semi_hidden s); flag "unhideWhenUsed" (JBool true) (sty_unhide s)].
(** elements/doc_defaults.rs:10-15, run_property_default.rs:8-12, paragraph_property_default.rs:8-12 *)
Definition j_doc_defaults (r : rpr) (p : ppr) : json :=
  obj [has "runPropertyDefault" (obj [has "runProperty" (j_rpr r)]); has "paragraphPropertyDefault" (obj [has "paragraphProperty" (j_ppr p)])].
(** documents/styles.rs:9-14 *)
Definition j_styles (t : styles) : json :=
  obj [has "docDefaults" (j_doc_defaults (ss_rpr t) (ss_ppr t)); has "styles" (JArr (map j_style (ss_list t)))].

(** ** Numberings *)
(** elements/level.rs:8-23; start.rs:27-34, number_format.rs:29-36, level_text.rs:27-34,
    level_jc.rs:29-36, paragraph_style.rs:50-57, level_restart.rs:29-36, is_lgl.rs:25-32 *)
Definition j_level (l : level) : json :=
  obj [has "level" (jn (lv_level l)); has "start" (jn32 (lv_start l)); has "format" (JStr (lv_format l)); has "text" (JStr (lv_text l));
       has "jc" (JStr (lv_jc l)); has "paragraphProperty" (j_ppr (lv_ppr l)); has "runProperty" (j_rpr (lv_rpr l));
       has "suffix" (JStr (ser_LevelSuffixType (lv_suffix l))); has "pstyle" (j_opt JStr (lv_pstyle l));
       has "levelRestart" (j_opt jn (lv_restart l)); flag "isLgl" (JBool true) (lv_lgl l)].
(** elements/abstract_numbering.rs:7-16 *)
Definition j_abstract (a : abstract_num) : json :=
  obj [has "id" (jn (an_id a)); has "styleLink" (j_opt JStr (an_style_link a)); has "numStyleLink" (j_opt JStr (an_num_style_link a));
       has "levels" (JArr (map j_level (an_levels a))); may "multiLevelType" JStr (an_multi a)].
(** elements/level_override.rs:13-19 *)
Definition j_override (o : level_override) : json :=
  obj [has "level" (jn (ov_level o)); has "overrideStart" (j_opt jn (ov_start o)); has "overrideLevel" (j_opt j_level (ov_replace o))].
(** elements/numbering.rs:8-14 *)
Definition j_num (n : num) : json :=
  obj [has "id" (jn (nm_id n)); has "abstractNumId" (jn (nm_abstract n)); has "levelOverrides" (JArr (map j_override (nm_overrides n)))].
(** documents/numberings.rs:9-14 *)
Definition j_numberings (t : numberings) : json :=
  obj [has "abstractNums" (JArr (map j_abstract (ns_abstracts t))); has "numberings" (JArr (map j_num (ns_nums t)))].

(** ** Settings *)
(** elements/doc_var.rs:7-11 *)
Definition j_var (v : string * string) : json := obj [has "name" (JStr (fst v)); has "val" (JStr (snd v))].
(** documents/settings.rs:10-21; default_tab_stop.rs:29-36, zoom.rs:29-36, doc_id.rs:18-25 *)
Definition j_settings (c : settings) : json :=
  obj [has "defaultTabStop" (jn (cfg_tab c)); has "zoom" (jn 100); has "docId" (j_opt JStr (cfg_doc_id c));
       has "docVars" (JArr (map j_var (cfg_vars c))); has "evenAndOddHeaders" (JBool (cfg_even_odd c));
       has "adjustLineHeightInTable" (JBool (cfg_adjust c));
       may "characterSpacingControl" (fun v => JStr (ser_CharacterSpacingValues v)) (cfg_spacing c)].

(** What each setter of styles, numberings and settings says, in the words of [CallSpec]. *)
From Coq Require Import NArith ZArith List Bool.
From Verif Require Import Str EscapeModel TypesModel Props JsonModel TsSpec StyleModel SheetModel CallModel CallSpec EntryModel.
Import ListNotations.
Open Scope list_scope.

(** ** Histories about one part of a whole *)
(** The calls that are about a part, in their order, as calls of that part *)
Definition only {C A} (part : C -> option A) (cs : list C) : list A :=
  flat_map (fun c => match part c with Some a => [a] | None => [] end) cs.
(** What calls, one after the other, make of what was seen before *)
Definition said {C} (says : C -> list change) (cs : list C) (before : view) : view := fold_left (fun w c => changes_of (says c) w) cs before.
Definition tells {C} (says : C -> list change) (cs : list C) (before after : view) : Prop :=
  (forall path, plain path = true -> after path = said says cs before path) /\ (forall path, missing (after path) = missing (said says cs before path)).
Definition inside (place : list string) (w : view) : view := fun path => w (place ++ path).
(** Outside of these members all is exactly what the calls say, and nothing else changed. *)
Definition tells_outside {C} (parts : list string) (says : C -> list change) (cs : list C) (before after : view) : Prop :=
  forall k path, ~ In k parts -> after (k :: path) = said says cs before (k :: path).

(** ** Styles *)
Definition run_of_style (c : style_call) : option run_call :=
  match c with
  | YSize n => Some (RSize n) | YColor s => Some (RColor s) | YThemeColor s => Some (RThemeColor s) | YThemeShade s => Some (RThemeShade s)
  | YThemeTint s => Some (RThemeTint s) | YHighlight s => Some (RHighlight s) | YBold => Some RBold | YItalic => Some RItalic
  | YUnderline s => Some (RUnderline s) | YVanish => Some RVanish | YTextBorder b => Some (RTextBorder b) | YFonts f => Some (RFonts f) | YShading s => Some (RShading s)
  | _ => None
  end.
Definition para_of_style (c : style_call) : option para_call :=
  match c with
  | YAlign t => Some (PAlign t) | YTextAlignment t => Some (PTextAlignment t) | YSnapToGrid v => Some (PSnapToGrid v)
  | YLineSpacing l => Some (PLineSpacing l) | YIndent l sp e sc => Some (PIndent l sp e sc) | YHangingChars z => Some (PHangingChars z)
  | YFirstLineChars z => Some (PFirstLineChars z) | YOutline n => Some (POutline n) | YFrame f => Some (PFrame f)
  | _ => None
  end.
Definition table_of_style (c : style_call) : option table_call :=
  match c with
  | YTableIndent z => Some (TIndent z) | YTableAlign t => Some (TAlign t) | YStyle s => Some (TStyle s) | YLayout t => Some (TLayout t)
  | YWidth n t => Some (TWidth n t) | YMargins m => Some (TMargins m) | YSetBorders b => Some (TSetBorders b)
  | YSetBorder s b => Some (TSetBorder s b) | YClearBorder s => Some (TClearBorder s) | YClearBorders => Some TClearBorders
  | _ => None
  end.
Definition whole_table (c : style_call) : bool := match c with YTableProperty _ => true | _ => false end.
(** What is said about the style itself.  That it is a quick style is shown only if it is not. *)
Definition style_says (c : style_call) : list change :=
  match c with
  | YName s => [Put ["name"] (JStr (escape_owned s))] | YBasedOn s => [Put ["basedOn"] (JStr (escape_owned s))]
  | YNext s => [Put ["next"] (JStr s)] | YLink s => [Put ["link"] (JStr (escape_owned s))]
  | YQFormat true => [Drop ["qFormat"]] | YQFormat false => [Put ["qFormat"] no]
  | YUiPriority n => [Put ["uiPriority"] (number n)]
  | YSemiHidden => [Put ["semiHidden"] yes] | YUnhideWhenUsed => [Put ["unhideWhenUsed"] yes]
  | YTableCellProperty p => [Put ["tableCellProperty"] (j_tcpr p)]
  | _ => []
  end.
Record style_setters (cs : list style_call) (before after : view) : Prop := {
  style_itself : tells_outside ["runProperty"; "paragraphProperty"; "tableProperty"] style_says cs before after;
  style_run : tells run_says (only run_of_style cs) (inside ["runProperty"] before) (inside ["runProperty"] after);
  style_para : tells para_says (only para_of_style cs) (inside ["paragraphProperty"] before) (inside ["paragraphProperty"] after);
  (* a whole table property replaces what was there, and what is called later changes it *)
  style_table : existsb whole_table cs = false ->
    tells table_says (only table_of_style cs) (inside ["tableProperty"] before) (inside ["tableProperty"] after);
  style_whole_table : forall bs p ds, cs = bs ++ YTableProperty p :: ds -> existsb whole_table ds = false ->
    tells table_says (only table_of_style ds) (seen (j_tblpr p)) (inside ["tableProperty"] after) }.
Definition default_run (c : styles_call) : option run_call :=
  match c with YsSize n => Some (RSize n) | YsSpacing z => Some (RSpacing z) | YsFonts f => Some (RFonts f) | _ => None end.
Definition default_para (c : styles_call) : option para_call := match c with YsLineSpacing l => Some (PLineSpacing l) | _ => None end.
Definition styles_says (c : styles_call) : list change := match c with YsAdd s => [Append ["styles"] (j_style s)] | _ => [] end.
Record styles_setters (cs : list styles_call) (before after : view) : Prop := {
  styles_themselves : tells_outside ["docDefaults"] styles_says cs before after;
  styles_run : let r := inside ["docDefaults"; "runPropertyDefault"; "runProperty"] in tells run_says (only default_run cs) (r before) (r after);
  styles_para : let p := inside ["docDefaults"; "paragraphPropertyDefault"; "paragraphProperty"] in
    tells para_says (only default_para cs) (p before) (p after) }.

(** ** Numberings *)
Definition run_of_level (c : level_call) : option run_call :=
  match c with
  | LSize n => Some (RSize n) | LSpacing z => Some (RSpacing z) | LColor s => Some (RColor s) | LHighlight s => Some (RHighlight s)
  | LBold => Some RBold | LNoBold => Some RNoBold | LItalic => Some RItalic | LNoItalic => Some RNoItalic
  | LStrike => Some RStrike | LNoStrike => Some RNoStrike | LDstrike => Some RDstrike | LNoDstrike => Some RNoDstrike
  | LUnderline s => Some (RUnderline s) | LVanish => Some RVanish | LFonts f => Some (RFonts f)
  | _ => None
  end.
Definition para_of_level (c : level_call) : option para_call := match c with LIndent l sp e sc => Some (PIndent l sp e sc) | _ => None end.
Definition level_says (c : level_call) : list change :=
  match c with
  | LParagraphStyle s => [Put ["pstyle"] (JStr (escape_owned s))]
  | LSuffix t => [Put ["suffix"] (JStr (match t with LevelSuffixType_Nothing => "nothing" | LevelSuffixType_Space => "space" | LevelSuffixType_Tab => "tab" end))]
  | LRestart n => [Put ["levelRestart"] (number n)]
  | LIsLgl => [Put ["isLgl"] yes]
  | _ => []
  end.
Record level_setters (cs : list level_call) (before after : view) : Prop := {
  level_itself : tells_outside ["runProperty"; "paragraphProperty"] level_says cs before after;
  level_run : tells run_says (only run_of_level cs) (inside ["runProperty"] before) (inside ["runProperty"] after);
  level_para : tells para_says (only para_of_level cs) (inside ["paragraphProperty"] before) (inside ["paragraphProperty"] after) }.
Definition abstract_says (c : abstract_call) : list change :=
  match c with
  | AAddLevel l => [Append ["levels"] (j_level l)] | ANumStyleLink s => [Put ["numStyleLink"] (JStr s)] | AStyleLink s => [Put ["styleLink"] (JStr s)]
  end.
Definition override_says (c : override_call) : list change :=
  match c with OStart n => [Put ["overrideStart"] (number n)] | OLevel l => [Put ["overrideLevel"] (j_level l)] end.
Definition num_says (c : num_call) : list change :=
  match c with NOverrides l => [Put ["levelOverrides"] (JArr (map j_override l))] | NAddOverride o => [Append ["levelOverrides"] (j_override o)] end.
Definition numberings_says (c : numberings_call) : list change :=
  match c with NsAbstract a => [Append ["abstractNums"] (j_abstract a)] | NsNum n => [Append ["numberings"] (j_num n)] end.

(** ** Settings *)
Definition spacing_name (v : CharacterSpacingValues) : string :=
  match v with
  | CharacterSpacingValues_DoNotCompress => "doNotCompress" | CharacterSpacingValues_CompressPunctuation => "compressPunctuation"
  | CharacterSpacingValues_CompressPunctuationAndJapaneseKana => "compressPunctuationAndJapaneseKana"
  | CharacterSpacingValues_Unsupported => "unsupported"
  end.
Definition settings_says (c : settings_call) : list change :=
  match c with
  | GDocId s => [Put ["docId"] (JStr s)] | GTabStop n => [Put ["defaultTabStop"] (number n)]
  | GDocVar n v => [Append ["docVars"] (JObj [("name", JStr n); ("val", JStr v)])]
  | GEvenAndOdd => [Put ["evenAndOddHeaders"] yes] | GAdjust => [Put ["adjustLineHeightInTable"] yes]
  | GSpacing v => [Put ["characterSpacingControl"] (JStr (spacing_name v))]
  end.

(** ** What is added stays in the order of the calls *)
Definition added_style (c : styles_call) : option style := match c with YsAdd s => Some s | _ => None end.
Definition added_level (c : abstract_call) : option level := match c with AAddLevel l => Some l | _ => None end.
Definition added_abstract (c : numberings_call) : option abstract_num := match c with NsAbstract a => Some a | _ => None end.
Definition added_num (c : numberings_call) : option num := match c with NsNum n => Some n | _ => None end.
Definition added_var (c : settings_call) : option (string * string) := match c with GDocVar n v => Some (n, v) | _ => None end.
(** The array at [k] is what it was, followed by what the calls added. *)
Definition grows {C A} (k : string) (part : C -> option A) (json_of : A -> json) (cs : list C) (before after : view) : Prop :=
  exists l, before [k] = Some (JArr l) /\ after [k] = Some (JArr (l ++ map json_of (only part cs))).

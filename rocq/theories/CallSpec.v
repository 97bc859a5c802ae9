(** What each setter says, as changes of the members of a JSON object. *)
From Coq Require Import NArith ZArith List Bool.
From Verif Require Import Str EscapeModel TypesModel Props JsonModel TsSpec CallModel.
Import ListNotations.
Open Scope list_scope.

(** ** Looking into JSON, and changing what is found there *)
(** What is found by following names from the whole value. *)
Fixpoint at_ (path : list string) (v : json) : option json :=
  match path with
  | [] => Some v
  | k :: path => match v with JObj l => match member_of k l with Some x => at_ path x | None => None end | _ => None end
  end.
Definition view : Type := list string -> option json.
Definition seen (v : json) : view := fun path => at_ path v.
Definition missing (o : option json) : bool := match o with None | Some JNull => true | Some _ => false end.
(** What is left of [path] below [place]. *)
Fixpoint below (place path : list string) : option (list string) :=
  match place, path with
  | [], _ => Some path
  | a :: place, k :: path => if a =s k then below place path else None
  | _ :: _, [] => None
  end.
Inductive change :=
| Put (place : list string) (v : json)              (* [v] is there now, whatever was there *)
| Drop (place : list string)                        (* nothing is there now *)
| Default (place : list string) (v : json)          (* [v] is there now if nothing was *)
| PutIn (group : string) (k : string) (v : json)    (* [v] is there now if the group is there *)
| Append (place : list string) (v : json).          (* the list there ends with [v] now *)
Definition put (place : list string) (o : option json) (w : view) : view :=
  fun path => match below place path with Some r => match o with Some v => at_ r v | None => None end | None => w path end.
Definition change_of (c : change) (w : view) : view :=
  match c with
  | Put q v => put q (Some v) w
  | Drop q => put q None w
  | Default q v => if missing (w q) then put q (Some v) w else w
  | PutIn g k v => if missing (w [g]) then w else put [g; k] (Some v) w
  | Append q v => match w q with Some (JArr l) => put q (Some (JArr (l ++ [v]))) w | _ => w end
  end.
Definition changes_of (l : list change) (w : view) : view := fold_left (fun w c => change_of c w) l w.
Definition in_group (g : string) (c : change) : change :=
  match c with
  | Put q v => Put (g :: q) v | Drop q => Drop (g :: q) | Default q v => Default (g :: q) v | Append q v => Append (g :: q) v
  | PutIn _ _ _ => c
  end.

(** ** Runs *)
Definition yes : json := JBool true.
Definition no : json := JBool false.
Definition number (n : N) : json := JNum (Z.of_N n).
(** sizes, spans and outline levels are shown as 32-bit numbers *)
Definition number32 (n : N) : json := JNum (Z.of_N (n mod 2 ^ 32)).
Definition run_says (c : run_call) : list change :=
  match c with
  | RStyle s => [Put ["style"] (JStr (escape_owned s))]
  | RSize n => [Put ["sz"] (number32 n); Put ["szCs"] (number32 n)]
  | RSpacing z => [Put ["characterSpacing"] (JNum z)]
  | RColor s => [Put ["color"] (JStr s)]
  | RThemeColor _ | RThemeShade _ | RThemeTint _ => [Default ["color"] (JStr "auto")]
  | RHighlight s => [Put ["highlight"] (JStr s)]
  | RVertAlign t => [Put ["vertAlign"] (JStr (show_VertAlignType t))]
  | RBold => [Put ["bold"] yes; Put ["boldCs"] yes]
  | RNoBold => [Put ["bold"] no; Put ["boldCs"] no]
  | RCaps => [Put ["caps"] yes]
  | RItalic => [Put ["italic"] yes; Put ["italicCs"] yes]
  | RNoItalic => [Put ["italic"] no; Put ["italicCs"] no]
  | RStrike => [Put ["strike"] yes; Drop ["dstrike"]]
  | RNoStrike => [Put ["strike"] no]
  | RDstrike => [Put ["dstrike"] yes; Drop ["strike"]]
  | RNoDstrike => [Put ["dstrike"] no]
  | RUnderline s => [Put ["underline"] (JStr s)]
  | RVanish => [Put ["vanish"] yes]
  | RSpecVanish => [Put ["specVanish"] yes]
  | RFonts f => [Put ["fonts"] (j_fonts f)]
  | RStretch z => [Put ["stretch"] (JNum z)]
  | RFitText n None => [Put ["fitText"] (JObj [("val", number n)])]
  | RFitText n (Some id) => [Put ["fitText"] (JObj [("val", number n); ("id", number id)])]
  | RTextBorder b => [Put ["textBorder"] (j_text_border b)]
  | RDelete m => [Put ["del"] (j_del m)]
  | RInsert m => [Put ["ins"] (j_ins m)]
  | RPTab t => [Put ["positionalTab"] (j_ptab t)]
  | RShading s => [Put ["shading"] (j_shading s)]
  end.
Definition font_says (c : font_call) : list change :=
  match c with
  | FAscii s => [Put ["ascii"] (JStr (escape_owned s))] | FHiAnsi s => [Put ["hiAnsi"] (JStr (escape_owned s))]
  | FEastAsia s => [Put ["eastAsia"] (JStr (escape_owned s))] | FCs s => [Put ["cs"] (JStr (escape_owned s))]
  | FAsciiTheme s => [Put ["asciiTheme"] (JStr (escape_owned s))] | FHiAnsiTheme s => [Put ["hiAnsiTheme"] (JStr (escape_owned s))]
  | FEastAsiaTheme s => [Put ["eastAsiaTheme"] (JStr (escape_owned s))] | FCsTheme s => [Put ["csTheme"] (JStr (escape_owned s))]
  | FHint s => [Put ["hint"] (JStr (escape_owned s))]
  end.
Definition spacing_says (c : spacing_call) : list change :=
  match c with
  | SRule t => [Put ["lineRule"] (JStr (ser_LineSpacingType t))]
  | SBefore n => [Put ["before"] (number n)] | SAfter n => [Put ["after"] (number n)]
  | SBeforeLines n => [Put ["beforeLines"] (number n)] | SAfterLines n => [Put ["afterLines"] (number n)]
  | SLine z => [Put ["line"] (JNum z)]
  end.

(** ** Paragraphs *)
Definition pside_name (s : pside) : string :=
  match s with PLeft => "left" | PRight => "right" | PTop => "top" | PBottom => "bottom" | PBetween => "between" | PBar => "bar" end.
Definition line_at (s : pside) (type : string) : json :=
  JObj [("position", JStr (pside_name s)); ("val", JStr type); ("size", JNum 2); ("space", JNum 0); ("color", JStr "auto")].
Definition lines_all_round : json :=
  JObj [("left", line_at PLeft "single"); ("right", line_at PRight "single"); ("top", line_at PTop "single"); ("bottom", line_at PBottom "single");
        ("between", JNull); ("bar", JNull)].
Definition no_lines : json := JObj (map (fun s => (pside_name s, line_at s "nil")) [PLeft; PRight; PTop; PBottom; PBetween; PBar]).
Definition or_null {A} (f : A -> json) (o : option A) : json := match o with Some a => f a | None => JNull end.
Definition frame_says (c : frame_call) : change :=
  match c with
  | FWrap s => Put ["wrap"] (JStr s) | FVAnchor s => Put ["vAnchor"] (JStr s) | FHAnchor s => Put ["hAnchor"] (JStr s)
  | FHRule s => Put ["hRule"] (JStr s) | FXAlign s => Put ["xAlign"] (JStr s) | FYAlign s => Put ["yAlign"] (JStr s)
  | FHSpace z => Put ["hSpace"] (JNum z) | FVSpace z => Put ["vSpace"] (JNum z) | FX z => Put ["x"] (JNum z) | FY z => Put ["y"] (JNum z)
  | FWidth n => Put ["w"] (number n) | FHeight n => Put ["h"] (number n)
  end.
Definition para_says (c : para_call) : list change :=
  match c with
  | PAlign t => [Put ["alignment"] (JStr (show_AlignmentType t))]
  | PStyle s => [Put ["style"] (JStr (escape_owned s))]
  | PIndent l sp e sc =>
      [Put ["indent"] (JObj [("start", or_null JNum l); ("startChars", or_null JNum sc); ("end", or_null JNum e);
                             ("specialIndent", or_null j_special sp); ("hangingChars", JNull); ("firstLineChars", JNull)])]
  | PNumbering id level => [Put ["numberingProperty"] (JObj [("id", number id); ("level", number level)])]
  | PNumberingProperty n => [Put ["numberingProperty"] (j_numpr n)]
  | PLineSpacing l => [Put ["lineSpacing"] (j_spacing l)]
  | PSnapToGrid v => [Put ["snapToGrid"] (JBool v)]
  | PShading s => [Put ["shading"] (j_shading s)]
  | PKeepNext v => [Put ["keepNext"] (JBool v)]
  | PKeepLines v => [Put ["keepLines"] (JBool v)]
  | POutline n => [Put ["outlineLvl"] (number (N.min n 9))]
  | PPageBreakBefore v => [Put ["pageBreakBefore"] (JBool v)]
  | PBidi v => [Put ["bidi"] (JBool v)]
  | PWidowControl v => [Put ["widowControl"] (JBool v)]
  | PAddTab t => [Append ["tabs"] (j_tab t)]
  | PSection s => [Put ["sectionProperty"] (j_sectpr no_parts s)]
  | PChanged a d p => [Put ["paragraphPropertyChange"] (JObj [("author", JStr a); ("date", JStr d); ("property", j_ppr p)])]
  | PFrameProperty f => [Put ["frameProperty"] (j_frame f)]
  | PRunProperty p => [Put ["runProperty"] (j_rpr p)]
  | PTextAlignment t => [Put ["textAlignment"] (JStr (show_TextAlignmentType t))]
  | PAdjustRightInd z => [Put ["adjustRightInd"] (JNum z)]
  | PHangingChars z => [PutIn "indent" "hangingChars" (JNum z)]
  | PFirstLineChars z => [PutIn "indent" "firstLineChars" (JNum z)]
  | PSetBorders b => [Put ["borders"] (j_pborders b)]
  | PSetBorder s b => [Default ["borders"] lines_all_round; Put ["borders"; pside_name s] (j_pborder (pside_name s) b)]
  | PClearBorder s => [Default ["borders"] lines_all_round; Put ["borders"; pside_name s] (line_at s "nil")]
  | PClearBorders => [Put ["borders"] no_lines]
  | PRun r => map (in_group "runProperty") (run_says r)
  | PFrame f => [Default ["frameProperty"] (JObj []); in_group "frameProperty" (frame_says f)]
  end.

(** ** Tables, rows and cells *)
Definition edge_name (e : edge) : string := match e with ETop => "top" | ERight => "right" | EBottom => "bottom" | ELeft => "left" end.
Definition margin_of (n : N) (t : WidthType) : json := JObj [("val", number n); ("widthType", JStr (ser_WidthType t))].
Definition width_of (z : Z) (t : WidthType) : json := JObj [("width", JNum z); ("widthType", JStr (ser_WidthType t))].
Definition table_line (at_ type : string) : json :=
  JObj [("borderType", JStr type); ("size", JNum 2); ("color", JStr "000000"); ("position", JStr at_); ("space", JNum 0)].
Definition tside_name (s : tside) : string :=
  match s with TLeft => "left" | TRight => "right" | TTop => "top" | TBottom => "bottom" | TInsideH => "insideH" | TInsideV => "insideV" end.
Definition usual_margins : json :=
  JObj [("top", margin_of 0 WidthType_Dxa); ("left", margin_of 55 WidthType_Dxa); ("bottom", margin_of 0 WidthType_Dxa); ("right", margin_of 55 WidthType_Dxa)].
Definition table_says (c : table_call) : list change :=
  match c with
  | TIndent z => [Put ["indent"] (width_of z WidthType_Dxa)]
  | TWidth n t => [Put ["width"] (width_of (Z.of_N n) t)]
  | TAlign t => [Put ["justification"] (JStr (show_TableAlignmentType t))]
  | TMargins m => [Put ["margins"] (j_tmargins m)]
  | TMargin e n t => [Default ["margins"] usual_margins; Put ["margins"; edge_name e] (margin_of n t)]
  | TSetBorders b => [Put ["borders"] (j_tborders b)]
  | TSetBorder s b => [Put ["borders"; tside_name s] (j_border (tside_name s) b)]
  | TClearBorder s => [Put ["borders"; tside_name s] (table_line (tside_name s) "nil")]
  | TClearBorders => map (fun s => Put ["borders"; tside_name s] (table_line (tside_name s) "nil")) [TLeft; TRight; TTop; TBottom; TInsideH; TInsideV]
  | TStyle s => [Put ["style"] (JStr s)]
  | TLayout t => [Put ["layout"] (JStr (show_TableLayoutType t))]
  | TPosition p => [Put ["position"] (j_tposition p)]
  end.
Definition row_says (c : row_call) : list change :=
  match c with
  | WGridAfter n => [Put ["gridAfter"] (number n)] | WWidthAfter n => [Put ["widthAfter"] (JWhole n)]
  | WGridBefore n => [Put ["gridBefore"] (number n)] | WWidthBefore n => [Put ["widthBefore"] (JWhole n)]
  | WHeight n => [Put ["rowHeight"] (JWhole n)] | WRule r => [Put ["heightRule"] (JStr (ser_HeightRule r))]
  | WDelete m => [Put ["del"] (j_del m)] | WInsert m => [Put ["ins"] (j_ins m)] | WCantSplit => [Put ["cantSplit"] (JStr "cantSplit")]
  end.
Definition cside_name (s : cside) : string :=
  match s with
  | CLeft => "left" | CRight => "right" | CTop => "top" | CBottom => "bottom" | CInsideH => "insideH" | CInsideV => "insideV"
  | CTl2br => "tl2br" | CTr2bl => "tr2bl"
  end.
Definition cell_lines : json :=
  JObj (map (fun s => (s, table_line s "single")) ["top"; "left"; "bottom"; "right"; "insideH"; "insideV"] ++ [("tr2bl", JNull); ("tl2br", JNull)]).
Definition no_cell_lines : json :=
  JObj (map (fun s => (s, table_line s "nil")) ["top"; "left"; "bottom"; "right"; "insideH"; "insideV"; "tr2bl"; "tl2br"]).
Definition cell_says (c : cell_call) : list change :=
  match c with
  | CWidth n t => [Put ["width"] (width_of (Z.of_N n) t)]
  | CVerticalMerge t => [Put ["verticalMerge"] (JStr (show_VMergeType t))]
  | CVerticalAlign t => [Put ["verticalAlign"] (JStr (show_VAlignType t))]
  | CTextDirection t => [Put ["textDirection"] (JStr (show_TextDirectionType t))]
  | CGridSpan n => [Put ["gridSpan"] (number32 n)]
  | CShading s => [Put ["shading"] (j_shading s)]
  | CSetBorders b => [Put ["borders"] (j_cborders b)]
  | CSetBorder s b => [Default ["borders"] cell_lines; Put ["borders"; cside_name s] (j_border (cside_name s) b)]
  | CClearBorder s => [Default ["borders"] cell_lines; Put ["borders"; cside_name s] (table_line (cside_name s) "nil")]
  | CClearBorders => [Put ["borders"] no_cell_lines]
  | CMargins m => [Put ["margins"] (j_cmargins m)]
  | CMargin e n t => [Default ["margins"] (JObj []); Put ["margins"; edge_name e] (margin_of n t)]
  end.

(** ** Histories of calls *)
(** Where single members may be set: not the whole, nor a group of members. *)
Definition plain (path : list string) : bool :=
  match path with
  | [] => false
  | [k] => negb (existsb (String.eqb k) ["indent"; "borders"; "frameProperty"; "runProperty"; "margins"])
  | _ => true
  end.
(** After the calls every single member is what the calls, one after the other, say; and a
    group is missing just if they leave it missing. *)
Definition does_what_it_says {C P} (on : C -> P -> P) (json_of : P -> json) (says : C -> list change) : Prop :=
  forall (cs : list C) (p : P),
    let after := seen (json_of (calls on cs p)) in
    let said := fold_left (fun w c => changes_of (says c) w) cs (seen (json_of p)) in
    (forall path, plain path = true -> after path = said path) /\ (forall path, missing (after path) = missing (said path)).

(** ** The last call wins *)
(** The member a change is about, or the group with that member *)
Definition place_of (c : change) : string :=
  match c with
  | Put (k :: _) _ | Drop (k :: _) | Default (k :: _) _ | Append (k :: _) _ => k
  | PutIn g _ _ => g
  | _ => EmptyString
  end.
Definition placed (c : change) : bool := match c with Put [] _ | Drop [] | Default [] _ | Append [] _ => false | _ => true end.
Definition names (k : string) (l : list change) : bool := existsb (fun c => place_of c =s k) l.
(** If a call sets [k] to [v] and no later call names [k], it is [v] in the end; and what no
    call names stays as it was. *)
Definition last_call_wins {C P} (on : C -> P -> P) (json_of : P -> json) (says : C -> list change) : Prop :=
  (forall cs c ds p k path v, plain (k :: path) = true -> filter (fun x => place_of x =s k) (says c) = [Put [k] v] ->
     forallb (fun d => negb (names k (says d))) ds = true -> at_ (k :: path) (json_of (calls on (cs ++ c :: ds) p)) = at_ path v) /\
  (forall cs p k path, plain (k :: path) = true -> forallb (fun c => negb (names k (says c))) cs = true ->
     at_ (k :: path) (json_of (calls on cs p)) = at_ (k :: path) (json_of p)).

(** Model of the enumerated attribute types of docx-core/src/types: each type,
    how it is printed ([Display]) and how it is read ([FromStr]). *)
From Verif Require Import Str.

(** [AlignmentType], types/alignment_type.rs:14-23 *)
Inductive AlignmentType : Type :=
| AlignmentType_Both
| AlignmentType_Center
| AlignmentType_Distribute
| AlignmentType_Start
| AlignmentType_End
| AlignmentType_Left
| AlignmentType_Right
| AlignmentType_Justified.
(** [Display], types/alignment_type.rs:25-38 *)
Definition show_AlignmentType (v : AlignmentType) : string :=
  match v with
  | AlignmentType_Both => "both"
  | AlignmentType_Center => "center"
  | AlignmentType_Distribute => "distribute"
  | AlignmentType_Start => "start"
  | AlignmentType_End => "end"
  | AlignmentType_Left => "left"
  | AlignmentType_Right => "right"
  | AlignmentType_Justified => "justified"
  end.
(** [FromStr], types/alignment_type.rs:40-55; [None] is [Err] *)
Definition read_AlignmentType (s : string) : option AlignmentType :=
  if (s =s "left") then Some AlignmentType_Left else
  if (s =s "right") then Some AlignmentType_Right else
  if (s =s "distribute") then Some AlignmentType_Distribute else
  if (s =s "center") then Some AlignmentType_Center else
  if (s =s "both") then Some AlignmentType_Both else
  if (s =s "start") then Some AlignmentType_Start else
  if (s =s "end") then Some AlignmentType_End else
  if (s =s "justified") then Some AlignmentType_Justified else
  Some AlignmentType_Left.

(** [BorderType], types/border_type.rs:15-47 *)
Inductive BorderType : Type :=
| BorderType_Nil
| BorderType_None
| BorderType_Single
| BorderType_Thick
| BorderType_Double
| BorderType_Dotted
| BorderType_Dashed
| BorderType_DotDash
| BorderType_DotDotDash
| BorderType_Triple
| BorderType_ThinThickSmallGap
| BorderType_ThickThinSmallGap
| BorderType_ThinThickThinSmallGap
| BorderType_ThinThickMediumGap
| BorderType_ThickThinMediumGap
| BorderType_ThinThickThinMediumGap
| BorderType_ThinThickLargeGap
| BorderType_ThickThinLargeGap
| BorderType_ThinThickThinLargeGap
| BorderType_Wave
| BorderType_DoubleWave
| BorderType_DashSmallGap
| BorderType_DashDotStroked
| BorderType_ThreeDEmboss
| BorderType_ThreeDEngrave
| BorderType_Outset
| BorderType_Inset
| BorderType_Apples
| BorderType_ArchedScallops
| BorderType_BabyPacifier
| BorderType_BabyRattle.
(** [Display], types/border_type.rs:49-85 *)
Definition show_BorderType (v : BorderType) : string :=
  match v with
  | BorderType_Nil => "nil"
  | BorderType_None => "none"
  | BorderType_Single => "single"
  | BorderType_Thick => "thick"
  | BorderType_Double => "double"
  | BorderType_Dotted => "dotted"
  | BorderType_Dashed => "dashed"
  | BorderType_DotDash => "dotDash"
  | BorderType_DotDotDash => "dotDotDash"
  | BorderType_Triple => "triple"
  | BorderType_ThinThickSmallGap => "thinThickSmallGap"
  | BorderType_ThickThinSmallGap => "thickThinSmallGap"
  | BorderType_ThinThickThinSmallGap => "thinThickThinSmallGap"
  | BorderType_ThinThickMediumGap => "thinThickMediumGap"
  | BorderType_ThickThinMediumGap => "thickThinMediumGap"
  | BorderType_ThinThickThinMediumGap => "thinThickThinMediumGap"
  | BorderType_ThinThickLargeGap => "thinThickLargeGap"
  | BorderType_ThickThinLargeGap => "thickThinLargeGap"
  | BorderType_ThinThickThinLargeGap => "thinThickThinLargeGap"
  | BorderType_Wave => "wave"
  | BorderType_DoubleWave => "doubleWave"
  | BorderType_DashSmallGap => "dashSmallGap"
  | BorderType_DashDotStroked => "dashDotStroked"
  | BorderType_ThreeDEmboss => "threeDEmboss"
  | BorderType_ThreeDEngrave => "threeDEngrave"
  | BorderType_Outset => "outset"
  | BorderType_Inset => "inset"
  | BorderType_Apples => "apples"
  | BorderType_ArchedScallops => "archedScallops"
  | BorderType_BabyPacifier => "babyPacifier"
  | BorderType_BabyRattle => "babyRattle"
  end.
(** [FromStr], types/border_type.rs:87-125; [None] is [Err] *)
Definition read_BorderType (s : string) : option BorderType :=
  if (s =s "nil") then Some BorderType_Nil else
  if (s =s "none") then Some BorderType_None else
  if (s =s "single") then Some BorderType_Single else
  if (s =s "thick") then Some BorderType_Thick else
  if (s =s "double") then Some BorderType_Double else
  if (s =s "dotted") then Some BorderType_Dotted else
  if (s =s "dashed") then Some BorderType_Dashed else
  if (s =s "dotDash") then Some BorderType_DotDash else
  if (s =s "dotDotDash") then Some BorderType_DotDotDash else
  if (s =s "triple") then Some BorderType_Triple else
  if (s =s "thinThickSmallGap") then Some BorderType_ThinThickSmallGap else
  if (s =s "thickThinSmallGap") then Some BorderType_ThickThinSmallGap else
  if (s =s "thinThickThinSmallGap") then Some BorderType_ThinThickThinSmallGap else
  if (s =s "thinThickMediumGap") then Some BorderType_ThinThickMediumGap else
  if (s =s "thickThinMediumGap") then Some BorderType_ThickThinMediumGap else
  if (s =s "thinThickThinMediumGap") then Some BorderType_ThinThickThinMediumGap else
  if (s =s "thinThickLargeGap") then Some BorderType_ThinThickLargeGap else
  if (s =s "thickThinLargeGap") then Some BorderType_ThickThinLargeGap else
  if (s =s "thinThickThinLargeGap") then Some BorderType_ThinThickThinLargeGap else
  if (s =s "wave") then Some BorderType_Wave else
  if (s =s "doubleWave") then Some BorderType_DoubleWave else
  if (s =s "dashSmallGap") then Some BorderType_DashSmallGap else
  if (s =s "dashDotStroked") then Some BorderType_DashDotStroked else
  if (s =s "threeDEmboss") then Some BorderType_ThreeDEmboss else
  if (s =s "threeDEngrave") then Some BorderType_ThreeDEngrave else
  if (s =s "outset") then Some BorderType_Outset else
  if (s =s "inset") then Some BorderType_Inset else
  if (s =s "apples") then Some BorderType_Apples else
  if (s =s "archedScallops") then Some BorderType_ArchedScallops else
  if (s =s "babyPacifier") then Some BorderType_BabyPacifier else
  if (s =s "babyRattle") then Some BorderType_BabyRattle else
  Some BorderType_Single.

(** [BreakType], types/break_type.rs:16-21 *)
Inductive BreakType : Type :=
| BreakType_Page
| BreakType_Column
| BreakType_TextWrapping
| BreakType_Unsupported.
(** [Display], types/break_type.rs:23-32 *)
Definition show_BreakType (v : BreakType) : string :=
  match v with
  | BreakType_Page => "page"
  | BreakType_Column => "column"
  | BreakType_TextWrapping => "textWrapping"
  | BreakType_Unsupported => "unsupported"
  end.
(** [FromStr], types/break_type.rs:34-44; [None] is [Err] *)
Definition read_BreakType (s : string) : option BreakType :=
  if (s =s "page") then Some BreakType_Page else
  if (s =s "column") then Some BreakType_Column else
  if (s =s "textWrapping") then Some BreakType_TextWrapping else
  Some BreakType_Unsupported.

(** [CharacterSpacingValues], types/character_spacing_values.rs:12-17 *)
Inductive CharacterSpacingValues : Type :=
| CharacterSpacingValues_DoNotCompress
| CharacterSpacingValues_CompressPunctuation
| CharacterSpacingValues_CompressPunctuationAndJapaneseKana
| CharacterSpacingValues_Unsupported.
(** [Display], types/character_spacing_values.rs:19-30 *)
Definition show_CharacterSpacingValues (v : CharacterSpacingValues) : string :=
  match v with
  | CharacterSpacingValues_DoNotCompress => "doNotCompress"
  | CharacterSpacingValues_CompressPunctuation => "compressPunctuation"
  | CharacterSpacingValues_CompressPunctuationAndJapaneseKana => "compressPunctuationAndJapaneseKana"
  | CharacterSpacingValues_Unsupported => "unsupported"
  end.
(** [FromStr], types/character_spacing_values.rs:32-44; [None] is [Err] *)
Definition read_CharacterSpacingValues (s : string) : option CharacterSpacingValues :=
  if (s =s "doNotCompress") then Some CharacterSpacingValues_DoNotCompress else
  if (s =s "compressPunctuation") then Some CharacterSpacingValues_CompressPunctuation else
  if (s =s "compressPunctuationAndJapaneseKana") then Some CharacterSpacingValues_CompressPunctuationAndJapaneseKana else
  None.

(** [DocGridType], types/doc_grid_type.rs:13-18 *)
Inductive DocGridType : Type :=
| DocGridType_Default
| DocGridType_Lines
| DocGridType_LinesAndChars
| DocGridType_SnapToChars.
(** [Display], types/doc_grid_type.rs:20-29 *)
Definition show_DocGridType (v : DocGridType) : string :=
  match v with
  | DocGridType_Default => "default"
  | DocGridType_Lines => "lines"
  | DocGridType_LinesAndChars => "linesAndChars"
  | DocGridType_SnapToChars => "snapToChars"
  end.
(** [FromStr], types/doc_grid_type.rs:31-42; [None] is [Err] *)
Definition read_DocGridType (s : string) : option DocGridType :=
  if (s =s "default") then Some DocGridType_Default else
  if (s =s "lines") then Some DocGridType_Lines else
  if (s =s "linesAndChars") then Some DocGridType_LinesAndChars else
  if (s =s "snapToChars") then Some DocGridType_SnapToChars else
  None.

(** [PicAlign], types/drawing_position.rs:22-28 *)
Inductive PicAlign : Type :=
| PicAlign_Left
| PicAlign_Right
| PicAlign_Center
| PicAlign_Bottom
| PicAlign_Top.
(** [Display], types/drawing_position.rs:30-40 *)
Definition show_PicAlign (v : PicAlign) : string :=
  match v with
  | PicAlign_Left => "left"
  | PicAlign_Right => "right"
  | PicAlign_Center => "center"
  | PicAlign_Bottom => "bottom"
  | PicAlign_Top => "top"
  end.

(** [FieldCharType], types/field_char_type.rs:18-23 *)
Inductive FieldCharType : Type :=
| FieldCharType_Begin
| FieldCharType_Separate
| FieldCharType_End
| FieldCharType_Unsupported.
(** [Display], types/field_char_type.rs:25-34 *)
Definition show_FieldCharType (v : FieldCharType) : string :=
  match v with
  | FieldCharType_Begin => "begin"
  | FieldCharType_Separate => "separate"
  | FieldCharType_End => "end"
  | FieldCharType_Unsupported => "unsupported"
  end.
(** [FromStr], types/field_char_type.rs:36-46; [None] is [Err] *)
Definition read_FieldCharType (s : string) : option FieldCharType :=
  if (s =s "begin") then Some FieldCharType_Begin else
  if (s =s "separate") then Some FieldCharType_Separate else
  if (s =s "end") then Some FieldCharType_End else
  Some FieldCharType_Unsupported.

(** [FontPitchType], types/font_pitch_type.rs:7-11 *)
Inductive FontPitchType : Type :=
| FontPitchType_Default
| FontPitchType_Fixed
| FontPitchType_Variable.
(** [Display], types/font_pitch_type.rs:13-21 *)
Definition show_FontPitchType (v : FontPitchType) : string :=
  match v with
  | FontPitchType_Default => "default"
  | FontPitchType_Fixed => "fixed"
  | FontPitchType_Variable => "variable"
  end.

(** [HeightRule], types/height_rule.rs:13-18 *)
Inductive HeightRule : Type :=
| HeightRule_Auto
| HeightRule_AtLeast
| HeightRule_Exact.
(** [Display], types/height_rule.rs:20-28 *)
Definition show_HeightRule (v : HeightRule) : string :=
  match v with
  | HeightRule_Auto => "auto"
  | HeightRule_AtLeast => "atLeast"
  | HeightRule_Exact => "exact"
  end.
(** [FromStr], types/height_rule.rs:30-40; [None] is [Err] *)
Definition read_HeightRule (s : string) : option HeightRule :=
  if (s =s "auto") then Some HeightRule_Auto else
  if (s =s "atLeast") then Some HeightRule_AtLeast else
  if (s =s "exact") then Some HeightRule_Exact else
  Some HeightRule_AtLeast.

(** [HyperlinkType], types/hyperlink_type.rs:15-18 *)
Inductive HyperlinkType : Type :=
| HyperlinkType_Anchor
| HyperlinkType_External.
(** [Display], types/hyperlink_type.rs:20-27 *)
Definition show_HyperlinkType (v : HyperlinkType) : string :=
  match v with
  | HyperlinkType_Anchor => "anchor"
  | HyperlinkType_External => "external"
  end.
(** [FromStr], types/hyperlink_type.rs:29-38; [None] is [Err] *)
Definition read_HyperlinkType (s : string) : option HyperlinkType :=
  if (s =s "anchor") then Some HyperlinkType_Anchor else
  if (s =s "external") then Some HyperlinkType_External else
  Some HyperlinkType_Anchor.

(** [LevelSuffixType], types/level_suffix_type.rs:13-17 *)
Inductive LevelSuffixType : Type :=
| LevelSuffixType_Nothing
| LevelSuffixType_Space
| LevelSuffixType_Tab.
(** [Display], types/level_suffix_type.rs:19-27 *)
Definition show_LevelSuffixType (v : LevelSuffixType) : string :=
  match v with
  | LevelSuffixType_Nothing => "nothing"
  | LevelSuffixType_Space => "space"
  | LevelSuffixType_Tab => "tab"
  end.
(** [FromStr], types/level_suffix_type.rs:29-39; [None] is [Err] *)
Definition read_LevelSuffixType (s : string) : option LevelSuffixType :=
  if (s =s "nothing") then Some LevelSuffixType_Nothing else
  if (s =s "space") then Some LevelSuffixType_Space else
  if (s =s "tab") then Some LevelSuffixType_Tab else
  Some LevelSuffixType_Tab.

(** [LineSpacingType], types/line_spacing_type.rs:11-15 *)
Inductive LineSpacingType : Type :=
| LineSpacingType_Auto
| LineSpacingType_AtLeast
| LineSpacingType_Exact.
(** [FromStr], types/line_spacing_type.rs:17-27; [None] is [Err] *)
Definition read_LineSpacingType (s : string) : option LineSpacingType :=
  if (s =s "auto") then Some LineSpacingType_Auto else
  if (s =s "atLeast") then Some LineSpacingType_AtLeast else
  if (s =s "exact") then Some LineSpacingType_Exact else
  None.

(** [PageOrientationType], types/page_orientation_type.rs:13-16 *)
Inductive PageOrientationType : Type :=
| PageOrientationType_Landscape
| PageOrientationType_Portrait.
(** [Display], types/page_orientation_type.rs:18-25 *)
Definition show_PageOrientationType (v : PageOrientationType) : string :=
  match v with
  | PageOrientationType_Landscape => "landscape"
  | PageOrientationType_Portrait => "portrait"
  end.
(** [FromStr], types/page_orientation_type.rs:27-36; [None] is [Err] *)
Definition read_PageOrientationType (s : string) : option PageOrientationType :=
  if (s =s "landscape") then Some PageOrientationType_Landscape else
  if (s =s "portrait") then Some PageOrientationType_Portrait else
  Some PageOrientationType_Portrait.

(** [PositionalTabAlignmentType], types/positional_tab_alignment_type.rs:15-19 *)
Inductive PositionalTabAlignmentType : Type :=
| PositionalTabAlignmentType_Center
| PositionalTabAlignmentType_Left
| PositionalTabAlignmentType_Right.
(** [Display], types/positional_tab_alignment_type.rs:21-29 *)
Definition show_PositionalTabAlignmentType (v : PositionalTabAlignmentType) : string :=
  match v with
  | PositionalTabAlignmentType_Center => "center"
  | PositionalTabAlignmentType_Left => "left"
  | PositionalTabAlignmentType_Right => "right"
  end.
(** [FromStr], types/positional_tab_alignment_type.rs:31-41; [None] is [Err] *)
Definition read_PositionalTabAlignmentType (s : string) : option PositionalTabAlignmentType :=
  if (s =s "center") then Some PositionalTabAlignmentType_Center else
  if (s =s "right") then Some PositionalTabAlignmentType_Right else
  if (s =s "left") then Some PositionalTabAlignmentType_Left else
  None.

(** [PositionalTabRelativeTo], types/positional_tab_relative_to.rs:15-18 *)
Inductive PositionalTabRelativeTo : Type :=
| PositionalTabRelativeTo_Indent
| PositionalTabRelativeTo_Margin.
(** [Display], types/positional_tab_relative_to.rs:20-27 *)
Definition show_PositionalTabRelativeTo (v : PositionalTabRelativeTo) : string :=
  match v with
  | PositionalTabRelativeTo_Indent => "indent"
  | PositionalTabRelativeTo_Margin => "margin"
  end.
(** [FromStr], types/positional_tab_relative_to.rs:29-38; [None] is [Err] *)
Definition read_PositionalTabRelativeTo (s : string) : option PositionalTabRelativeTo :=
  if (s =s "indent") then Some PositionalTabRelativeTo_Indent else
  if (s =s "margin") then Some PositionalTabRelativeTo_Margin else
  None.

(** [RelativeFromHType], types/relative_from_type.rs:16-46 *)
Inductive RelativeFromHType : Type :=
| RelativeFromHType_Character
| RelativeFromHType_Column
| RelativeFromHType_InsideMargin
| RelativeFromHType_LeftMargin
| RelativeFromHType_Margin
| RelativeFromHType_OutsizeMargin
| RelativeFromHType_Page
| RelativeFromHType_RightMargin.
(** [Display], types/relative_from_type.rs:48-61 *)
Definition show_RelativeFromHType (v : RelativeFromHType) : string :=
  match v with
  | RelativeFromHType_Character => "character"
  | RelativeFromHType_Column => "column"
  | RelativeFromHType_InsideMargin => "insideMargin"
  | RelativeFromHType_LeftMargin => "leftMargin"
  | RelativeFromHType_Margin => "margin"
  | RelativeFromHType_OutsizeMargin => "outsizeMargin"
  | RelativeFromHType_Page => "page"
  | RelativeFromHType_RightMargin => "rightMargin"
  end.
(** [FromStr], types/relative_from_type.rs:63-78; [None] is [Err] *)
Definition read_RelativeFromHType (s : string) : option RelativeFromHType :=
  if (s =s "character") then Some RelativeFromHType_Character else
  if (s =s "column") then Some RelativeFromHType_Column else
  if (s =s "insideMargin") then Some RelativeFromHType_InsideMargin else
  if (s =s "leftMargin") then Some RelativeFromHType_LeftMargin else
  if (s =s "margin") then Some RelativeFromHType_Margin else
  if (s =s "outsizeMargin") then Some RelativeFromHType_OutsizeMargin else
  if (s =s "page") then Some RelativeFromHType_Page else
  if (s =s "rightMargin") then Some RelativeFromHType_RightMargin else
  Some RelativeFromHType_Margin.

(** [RelativeFromVType], types/relative_from_type.rs:85-95 *)
Inductive RelativeFromVType : Type :=
| RelativeFromVType_BottomMargin
| RelativeFromVType_InsideMargin
| RelativeFromVType_Line
| RelativeFromVType_Margin
| RelativeFromVType_OutsizeMargin
| RelativeFromVType_Page
| RelativeFromVType_Paragraph
| RelativeFromVType_TopMargin.
(** [Display], types/relative_from_type.rs:97-110 *)
Definition show_RelativeFromVType (v : RelativeFromVType) : string :=
  match v with
  | RelativeFromVType_BottomMargin => "bottomMargin"
  | RelativeFromVType_InsideMargin => "insideMargin"
  | RelativeFromVType_Line => "line"
  | RelativeFromVType_Margin => "margin"
  | RelativeFromVType_OutsizeMargin => "outsideMargin"
  | RelativeFromVType_Page => "page"
  | RelativeFromVType_Paragraph => "paragraph"
  | RelativeFromVType_TopMargin => "topMargin"
  end.
(** [FromStr], types/relative_from_type.rs:112-127; [None] is [Err] *)
Definition read_RelativeFromVType (s : string) : option RelativeFromVType :=
  if (s =s "bottomMargin") then Some RelativeFromVType_BottomMargin else
  if (s =s "insideMargin") then Some RelativeFromVType_InsideMargin else
  if (s =s "line") then Some RelativeFromVType_Line else
  if (s =s "margin") then Some RelativeFromVType_Margin else
  if (s =s "outsizeMargin") then Some RelativeFromVType_OutsizeMargin else
  if (s =s "page") then Some RelativeFromVType_Page else
  if (s =s "paragraph") then Some RelativeFromVType_Paragraph else
  if (s =s "topMargin") then Some RelativeFromVType_TopMargin else
  Some RelativeFromVType_Margin.

(** [SectionType], types/section_type.rs:22-28 *)
Inductive SectionType : Type :=
| SectionType_NextPage
| SectionType_NextColumn
| SectionType_Continuous
| SectionType_EvenPage
| SectionType_OddPage.
(** [Display], types/section_type.rs:30-40 *)
Definition show_SectionType (v : SectionType) : string :=
  match v with
  | SectionType_NextPage => "nextPage"
  | SectionType_NextColumn => "nextColumn"
  | SectionType_Continuous => "continuous"
  | SectionType_EvenPage => "evenPage"
  | SectionType_OddPage => "oddPage"
  end.
(** [FromStr], types/section_type.rs:42-54; [None] is [Err] *)
Definition read_SectionType (s : string) : option SectionType :=
  if (s =s "nextPage") then Some SectionType_NextPage else
  if (s =s "nextColumn") then Some SectionType_NextColumn else
  if (s =s "continuous") then Some SectionType_Continuous else
  if (s =s "evenPage") then Some SectionType_EvenPage else
  if (s =s "oddPage") then Some SectionType_OddPage else
  Some SectionType_Continuous.

(** [ShdType], types/shd_type.rs:53-92 *)
Inductive ShdType : Type :=
| ShdType_Nil
| ShdType_Clear
| ShdType_Solid
| ShdType_HorzStripe
| ShdType_VertStripe
| ShdType_ReverseDiagStripe
| ShdType_DiagStripe
| ShdType_HorzCross
| ShdType_DiagCross
| ShdType_ThinHorzStripe
| ShdType_ThinVertStripe
| ShdType_ThinReverseDiagStripe
| ShdType_ThinDiagStripe
| ShdType_ThinHorzCross
| ShdType_ThinDiagCross
| ShdType_Pct5
| ShdType_Pct10
| ShdType_Pct12
| ShdType_Pct15
| ShdType_Pct20
| ShdType_Pct25
| ShdType_Pct30
| ShdType_Pct35
| ShdType_Pct37
| ShdType_Pct40
| ShdType_Pct45
| ShdType_Pct50
| ShdType_Pct55
| ShdType_Pct60
| ShdType_Pct62
| ShdType_Pct65
| ShdType_Pct70
| ShdType_Pct75
| ShdType_Pct80
| ShdType_Pct85
| ShdType_Pct87
| ShdType_Pct90
| ShdType_Pct95.
(** [Display], types/shd_type.rs:94-137 *)
Definition show_ShdType (v : ShdType) : string :=
  match v with
  | ShdType_Nil => "nil"
  | ShdType_Clear => "clear"
  | ShdType_Solid => "solid"
  | ShdType_HorzStripe => "horzStripe"
  | ShdType_VertStripe => "vertStripe"
  | ShdType_ReverseDiagStripe => "reverseDiagStripe"
  | ShdType_DiagStripe => "diagStripe"
  | ShdType_HorzCross => "horzCross"
  | ShdType_DiagCross => "diagCross"
  | ShdType_ThinHorzStripe => "thinHorzStripe"
  | ShdType_ThinVertStripe => "thinVertStripe"
  | ShdType_ThinReverseDiagStripe => "thinReverseDiagStripe"
  | ShdType_ThinDiagStripe => "thinDiagStripe"
  | ShdType_ThinHorzCross => "thinHorzCross"
  | ShdType_ThinDiagCross => "thinDiagCross"
  | ShdType_Pct5 => "pct5"
  | ShdType_Pct10 => "pct10"
  | ShdType_Pct12 => "pct12"
  | ShdType_Pct15 => "pct15"
  | ShdType_Pct20 => "pct20"
  | ShdType_Pct25 => "pct25"
  | ShdType_Pct30 => "pct30"
  | ShdType_Pct35 => "pct35"
  | ShdType_Pct37 => "pct37"
  | ShdType_Pct40 => "pct40"
  | ShdType_Pct45 => "pct45"
  | ShdType_Pct50 => "pct50"
  | ShdType_Pct55 => "pct55"
  | ShdType_Pct60 => "pct60"
  | ShdType_Pct62 => "pct62"
  | ShdType_Pct65 => "pct65"
  | ShdType_Pct70 => "pct70"
  | ShdType_Pct75 => "pct75"
  | ShdType_Pct80 => "pct80"
  | ShdType_Pct85 => "pct85"
  | ShdType_Pct87 => "pct87"
  | ShdType_Pct90 => "pct90"
  | ShdType_Pct95 => "pct95"
  end.
(** [FromStr], types/shd_type.rs:139-184; [None] is [Err] *)
Definition read_ShdType (s : string) : option ShdType :=
  if (s =s "nil") then Some ShdType_Nil else
  if (s =s "clear") then Some ShdType_Clear else
  if (s =s "solid") then Some ShdType_Solid else
  if (s =s "horzStripe") then Some ShdType_HorzStripe else
  if (s =s "vertStripe") then Some ShdType_VertStripe else
  if (s =s "reverseDiagStripe") then Some ShdType_ReverseDiagStripe else
  if (s =s "diagStripe") then Some ShdType_DiagStripe else
  if (s =s "horzCross") then Some ShdType_HorzCross else
  if (s =s "diagCross") then Some ShdType_DiagCross else
  if (s =s "thinHorzStripe") then Some ShdType_ThinHorzStripe else
  if (s =s "thinVertStripe") then Some ShdType_ThinVertStripe else
  if (s =s "thinReverseDiagStripe") then Some ShdType_ThinReverseDiagStripe else
  if (s =s "thinDiagStripe") then Some ShdType_ThinDiagStripe else
  if (s =s "thinHorzCross") then Some ShdType_ThinHorzCross else
  if (s =s "thinDiagCross") then Some ShdType_ThinDiagCross else
  if (s =s "pct5") then Some ShdType_Pct5 else
  if (s =s "pct10") then Some ShdType_Pct10 else
  if (s =s "pct12") then Some ShdType_Pct12 else
  if (s =s "pct15") then Some ShdType_Pct15 else
  if (s =s "pct20") then Some ShdType_Pct20 else
  if (s =s "pct25") then Some ShdType_Pct25 else
  if (s =s "pct30") then Some ShdType_Pct30 else
  if (s =s "pct35") then Some ShdType_Pct35 else
  if (s =s "pct37") then Some ShdType_Pct37 else
  if (s =s "pct40") then Some ShdType_Pct40 else
  if (s =s "pct45") then Some ShdType_Pct45 else
  if (s =s "pct50") then Some ShdType_Pct50 else
  if (s =s "pct55") then Some ShdType_Pct55 else
  if (s =s "pct60") then Some ShdType_Pct60 else
  if (s =s "pct62") then Some ShdType_Pct62 else
  if (s =s "pct65") then Some ShdType_Pct65 else
  if (s =s "pct70") then Some ShdType_Pct70 else
  if (s =s "pct75") then Some ShdType_Pct75 else
  if (s =s "pct80") then Some ShdType_Pct80 else
  if (s =s "pct85") then Some ShdType_Pct85 else
  if (s =s "pct87") then Some ShdType_Pct87 else
  if (s =s "pct90") then Some ShdType_Pct90 else
  if (s =s "pct95") then Some ShdType_Pct95 else
  None.

(** [StyleType], types/style_type.rs:12-18 *)
Inductive StyleType : Type :=
| StyleType_Paragraph
| StyleType_Character
| StyleType_Numbering
| StyleType_Table
| StyleType_Unsupported.
(** [Display], types/style_type.rs:20-30 *)
Definition show_StyleType (v : StyleType) : string :=
  match v with
  | StyleType_Paragraph => "paragraph"
  | StyleType_Character => "character"
  | StyleType_Numbering => "numbering"
  | StyleType_Table => "table"
  | StyleType_Unsupported => "unsupported"
  end.
(** [FromStr], types/style_type.rs:32-43; [None] is [Err] *)
Definition read_StyleType (s : string) : option StyleType :=
  if (s =s "paragraph") then Some StyleType_Paragraph else
  if (s =s "character") then Some StyleType_Character else
  if (s =s "numbering") then Some StyleType_Numbering else
  if (s =s "table") then Some StyleType_Table else
  Some StyleType_Unsupported.

(** [TabLeaderType], types/tab_leader_type.rs:15-22 *)
Inductive TabLeaderType : Type :=
| TabLeaderType_Dot
| TabLeaderType_Heavy
| TabLeaderType_Hyphen
| TabLeaderType_MiddleDot
| TabLeaderType_None
| TabLeaderType_Underscore.
(** [Display], types/tab_leader_type.rs:24-35 *)
Definition show_TabLeaderType (v : TabLeaderType) : string :=
  match v with
  | TabLeaderType_Dot => "dot"
  | TabLeaderType_Heavy => "heavy"
  | TabLeaderType_Hyphen => "hyphen"
  | TabLeaderType_MiddleDot => "middleDot"
  | TabLeaderType_None => "none"
  | TabLeaderType_Underscore => "underscore"
  end.
(** [FromStr], types/tab_leader_type.rs:37-50; [None] is [Err] *)
Definition read_TabLeaderType (s : string) : option TabLeaderType :=
  if (s =s "dot") then Some TabLeaderType_Dot else
  if (s =s "heavy") then Some TabLeaderType_Heavy else
  if (s =s "hyphen") then Some TabLeaderType_Hyphen else
  if (s =s "middleDot") then Some TabLeaderType_MiddleDot else
  if (s =s "none") then Some TabLeaderType_None else
  if (s =s "underscore") then Some TabLeaderType_Underscore else
  None.

(** [TabValueType], types/tab_value_type.rs:15-25 *)
Inductive TabValueType : Type :=
| TabValueType_Bar
| TabValueType_Center
| TabValueType_Clear
| TabValueType_Decimal
| TabValueType_End
| TabValueType_Right
| TabValueType_Num
| TabValueType_Start
| TabValueType_Left.
(** [Display], types/tab_value_type.rs:27-41 *)
Definition show_TabValueType (v : TabValueType) : string :=
  match v with
  | TabValueType_Bar => "bar"
  | TabValueType_Center => "center"
  | TabValueType_Clear => "clear"
  | TabValueType_Decimal => "decimal"
  | TabValueType_End => "end"
  | TabValueType_Right => "right"
  | TabValueType_Num => "num"
  | TabValueType_Start => "start"
  | TabValueType_Left => "left"
  end.
(** [FromStr], types/tab_value_type.rs:43-59; [None] is [Err] *)
Definition read_TabValueType (s : string) : option TabValueType :=
  if (s =s "bar") then Some TabValueType_Bar else
  if (s =s "center") then Some TabValueType_Center else
  if (s =s "clear") then Some TabValueType_Clear else
  if (s =s "decimal") then Some TabValueType_Decimal else
  if (s =s "end") then Some TabValueType_End else
  if (s =s "right") then Some TabValueType_Right else
  if (s =s "num") then Some TabValueType_Num else
  if (s =s "start") then Some TabValueType_Start else
  if (s =s "left") then Some TabValueType_Left else
  None.

(** [TableAlignmentType], types/table_alignment_type.rs:10-14 *)
Inductive TableAlignmentType : Type :=
| TableAlignmentType_Center
| TableAlignmentType_Left
| TableAlignmentType_Right.
(** [Display], types/table_alignment_type.rs:16-24 *)
Definition show_TableAlignmentType (v : TableAlignmentType) : string :=
  match v with
  | TableAlignmentType_Center => "center"
  | TableAlignmentType_Left => "left"
  | TableAlignmentType_Right => "right"
  end.
(** [FromStr], types/table_alignment_type.rs:26-36; [None] is [Err] *)
Definition read_TableAlignmentType (s : string) : option TableAlignmentType :=
  if (s =s "start") || (s =s "left") then Some TableAlignmentType_Left else
  if (s =s "right") || (s =s "end") then Some TableAlignmentType_Right else
  if (s =s "center") then Some TableAlignmentType_Center else
  Some TableAlignmentType_Left.

(** [TableLayoutType], types/table_layout_type.rs:12-15 *)
Inductive TableLayoutType : Type :=
| TableLayoutType_Fixed
| TableLayoutType_Autofit.
(** [Display], types/table_layout_type.rs:17-24 *)
Definition show_TableLayoutType (v : TableLayoutType) : string :=
  match v with
  | TableLayoutType_Fixed => "fixed"
  | TableLayoutType_Autofit => "autofit"
  end.
(** [FromStr], types/table_layout_type.rs:26-34; [None] is [Err] *)
Definition read_TableLayoutType (s : string) : option TableLayoutType :=
  if (s =s "fixed") then Some TableLayoutType_Fixed else
  Some TableLayoutType_Autofit.

(** [TextAlignmentType], types/text_alignment_type.rs:13-19 *)
Inductive TextAlignmentType : Type :=
| TextAlignmentType_Auto
| TextAlignmentType_Baseline
| TextAlignmentType_Bottom
| TextAlignmentType_Center
| TextAlignmentType_Top.
(** [Display], types/text_alignment_type.rs:21-31 *)
Definition show_TextAlignmentType (v : TextAlignmentType) : string :=
  match v with
  | TextAlignmentType_Auto => "auto"
  | TextAlignmentType_Baseline => "baseline"
  | TextAlignmentType_Bottom => "bottom"
  | TextAlignmentType_Center => "center"
  | TextAlignmentType_Top => "top"
  end.
(** [FromStr], types/text_alignment_type.rs:33-45; [None] is [Err] *)
Definition read_TextAlignmentType (s : string) : option TextAlignmentType :=
  if (s =s "auto") then Some TextAlignmentType_Auto else
  if (s =s "baseline") then Some TextAlignmentType_Baseline else
  if (s =s "bottom") then Some TextAlignmentType_Bottom else
  if (s =s "center") then Some TextAlignmentType_Center else
  if (s =s "top") then Some TextAlignmentType_Top else
  None.

(** [TextDirectionType], types/text_direction_type.rs:15-26 *)
Inductive TextDirectionType : Type :=
| TextDirectionType_Lr
| TextDirectionType_LrV
| TextDirectionType_Rl
| TextDirectionType_RlV
| TextDirectionType_Tb
| TextDirectionType_TbV
| TextDirectionType_TbRlV
| TextDirectionType_TbRl
| TextDirectionType_BtLr
| TextDirectionType_LrTbV.
(** [Display], types/text_direction_type.rs:28-43 *)
Definition show_TextDirectionType (v : TextDirectionType) : string :=
  match v with
  | TextDirectionType_Lr => "lr"
  | TextDirectionType_LrV => "lrV"
  | TextDirectionType_Rl => "rl"
  | TextDirectionType_RlV => "rlV"
  | TextDirectionType_Tb => "tb"
  | TextDirectionType_TbV => "tbV"
  | TextDirectionType_TbRlV => "tbRlV"
  | TextDirectionType_TbRl => "tbRl"
  | TextDirectionType_BtLr => "btLr"
  | TextDirectionType_LrTbV => "lrTbV"
  end.
(** [FromStr], types/text_direction_type.rs:45-62; [None] is [Err] *)
Definition read_TextDirectionType (s : string) : option TextDirectionType :=
  if (s =s "lr") then Some TextDirectionType_Lr else
  if (s =s "lrV") then Some TextDirectionType_LrV else
  if (s =s "rl") then Some TextDirectionType_Rl else
  if (s =s "rlV") then Some TextDirectionType_RlV else
  if (s =s "tb") then Some TextDirectionType_Tb else
  if (s =s "tbV") then Some TextDirectionType_TbV else
  if (s =s "tbRlV") then Some TextDirectionType_TbRlV else
  if (s =s "tbRl") then Some TextDirectionType_TbRl else
  if (s =s "btLr") then Some TextDirectionType_BtLr else
  if (s =s "lrTbV") then Some TextDirectionType_LrTbV else
  None.

(** [ThemeColor], types/theme_color.rs:25-62 *)
Inductive ThemeColor : Type :=
| ThemeColor_Dark1
| ThemeColor_Light1
| ThemeColor_Dark2
| ThemeColor_Light2
| ThemeColor_Accent1
| ThemeColor_Accent2
| ThemeColor_Accent3
| ThemeColor_Accent4
| ThemeColor_Accent5
| ThemeColor_Accent6
| ThemeColor_Hyperlink
| ThemeColor_FollowedHyperlink
| ThemeColor_None
| ThemeColor_Background1
| ThemeColor_Text1
| ThemeColor_Background2
| ThemeColor_Text2
| ThemeColor_Unsupported.
(** [Display], types/theme_color.rs:64-87 *)
Definition show_ThemeColor (v : ThemeColor) : string :=
  match v with
  | ThemeColor_Dark1 => "dark1"
  | ThemeColor_Light1 => "light1"
  | ThemeColor_Dark2 => "dark2"
  | ThemeColor_Light2 => "light2"
  | ThemeColor_Accent1 => "accent1"
  | ThemeColor_Accent2 => "accent2"
  | ThemeColor_Accent3 => "accent3"
  | ThemeColor_Accent4 => "accent4"
  | ThemeColor_Accent5 => "accent5"
  | ThemeColor_Accent6 => "accent6"
  | ThemeColor_Hyperlink => "hyperlink"
  | ThemeColor_FollowedHyperlink => "followedHyperlink"
  | ThemeColor_None => "none"
  | ThemeColor_Background1 => "background1"
  | ThemeColor_Text1 => "text1"
  | ThemeColor_Background2 => "background2"
  | ThemeColor_Text2 => "text2"
  | ThemeColor_Unsupported => "unsupported"
  end.
(** [FromStr], types/theme_color.rs:89-116; [None] is [Err] *)
Definition read_ThemeColor (s : string) : option ThemeColor :=
  if (s =s "dark1") then Some ThemeColor_Dark1 else
  if (s =s "light1") then Some ThemeColor_Light1 else
  if (s =s "dark2") then Some ThemeColor_Dark2 else
  if (s =s "light2") then Some ThemeColor_Light2 else
  if (s =s "accent1") then Some ThemeColor_Accent1 else
  if (s =s "accent2") then Some ThemeColor_Accent2 else
  if (s =s "accent3") then Some ThemeColor_Accent3 else
  if (s =s "accent4") then Some ThemeColor_Accent4 else
  if (s =s "accent5") then Some ThemeColor_Accent5 else
  if (s =s "accent6") then Some ThemeColor_Accent6 else
  if (s =s "hyperlink") then Some ThemeColor_Hyperlink else
  if (s =s "followedHyperlink") then Some ThemeColor_FollowedHyperlink else
  if (s =s "none") then Some ThemeColor_None else
  if (s =s "background1") then Some ThemeColor_Background1 else
  if (s =s "text1") then Some ThemeColor_Text1 else
  if (s =s "background2") then Some ThemeColor_Background2 else
  if (s =s "text2") then Some ThemeColor_Text2 else
  Some ThemeColor_Unsupported.

(** [VertAlignType], types/vert_align_type.rs:10-15 *)
Inductive VertAlignType : Type :=
| VertAlignType_Baseline
| VertAlignType_SuperScript
| VertAlignType_SubScript
| VertAlignType_Unsupported.
(** [Display], types/vert_align_type.rs:20-29 *)
Definition show_VertAlignType (v : VertAlignType) : string :=
  match v with
  | VertAlignType_Baseline => "baseline"
  | VertAlignType_SuperScript => "superscript"
  | VertAlignType_SubScript => "subscript"
  | VertAlignType_Unsupported => "unsupported"
  end.
(** [FromStr], types/vert_align_type.rs:31-41; [None] is [Err] *)
Definition read_VertAlignType (s : string) : option VertAlignType :=
  if (s =s "subscript") then Some VertAlignType_SubScript else
  if (s =s "superscript") then Some VertAlignType_SuperScript else
  if (s =s "baseline") then Some VertAlignType_Baseline else
  Some VertAlignType_Unsupported.

(** [VAlignType], types/vertical_align_type.rs:10-15 *)
Inductive VAlignType : Type :=
| VAlignType_Top
| VAlignType_Center
| VAlignType_Bottom
| VAlignType_Unsupported.
(** [Display], types/vertical_align_type.rs:17-26 *)
Definition show_VAlignType (v : VAlignType) : string :=
  match v with
  | VAlignType_Top => "top"
  | VAlignType_Center => "center"
  | VAlignType_Bottom => "bottom"
  | VAlignType_Unsupported => "unsupported"
  end.
(** [FromStr], types/vertical_align_type.rs:28-38; [None] is [Err] *)
Definition read_VAlignType (s : string) : option VAlignType :=
  if (s =s "top") then Some VAlignType_Top else
  if (s =s "center") then Some VAlignType_Center else
  if (s =s "bottom") then Some VAlignType_Bottom else
  Some VAlignType_Unsupported.

(** [VMergeType], types/vertical_merge_type.rs:10-14 *)
Inductive VMergeType : Type :=
| VMergeType_Continue
| VMergeType_Restart
| VMergeType_Unsupported.
(** [Display], types/vertical_merge_type.rs:16-24 *)
Definition show_VMergeType (v : VMergeType) : string :=
  match v with
  | VMergeType_Continue => "continue"
  | VMergeType_Restart => "restart"
  | VMergeType_Unsupported => "unsupported"
  end.
(** [FromStr], types/vertical_merge_type.rs:26-35; [None] is [Err] *)
Definition read_VMergeType (s : string) : option VMergeType :=
  if (s =s "continue") then Some VMergeType_Continue else
  if (s =s "restart") then Some VMergeType_Restart else
  Some VMergeType_Unsupported.

(** [WidthType], types/width_type.rs:12-18 *)
Inductive WidthType : Type :=
| WidthType_Dxa
| WidthType_Auto
| WidthType_Pct
| WidthType_Nil
| WidthType_Unsupported.
(** [Display], types/width_type.rs:20-30 *)
Definition show_WidthType (v : WidthType) : string :=
  match v with
  | WidthType_Dxa => "dxa"
  | WidthType_Auto => "auto"
  | WidthType_Pct => "pct"
  | WidthType_Nil => "nil"
  | WidthType_Unsupported => "unsupported"
  end.
(** [FromStr], types/width_type.rs:32-44; [None] is [Err] *)
Definition read_WidthType (s : string) : option WidthType :=
  if (s =s "DXA") || (s =s "dxa") then Some WidthType_Dxa else
  if (s =s "Auto") || (s =s "auto") then Some WidthType_Auto else
  if (s =s "Pct") || (s =s "pct") then Some WidthType_Pct else
  if (s =s "Nil") || (s =s "nil") then Some WidthType_Nil else
  Some WidthType_Unsupported.

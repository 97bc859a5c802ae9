From Verif Require Import Str TypesModel TypesSpec.

Ltac solve_survive := intros v; destruct v; reflexivity.

Lemma all_survive :
  survives show_AlignmentType read_AlignmentType
  /\ survives show_BorderType read_BorderType
  /\ survives show_BreakType read_BreakType
  /\ survives show_DocGridType read_DocGridType
  /\ survives show_FieldCharType read_FieldCharType
  /\ survives show_HeightRule read_HeightRule
  /\ survives show_HyperlinkType read_HyperlinkType
  /\ survives show_LevelSuffixType read_LevelSuffixType
  /\ survives show_PageOrientationType read_PageOrientationType
  /\ survives show_PositionalTabAlignmentType read_PositionalTabAlignmentType
  /\ survives show_PositionalTabRelativeTo read_PositionalTabRelativeTo
  /\ survives show_RelativeFromHType read_RelativeFromHType
  /\ survives show_SectionType read_SectionType
  /\ survives show_ShdType read_ShdType
  /\ survives show_StyleType read_StyleType
  /\ survives show_TabLeaderType read_TabLeaderType
  /\ survives show_TabValueType read_TabValueType
  /\ survives show_TableAlignmentType read_TableAlignmentType
  /\ survives show_TableLayoutType read_TableLayoutType
  /\ survives show_TextAlignmentType read_TextAlignmentType
  /\ survives show_TextDirectionType read_TextDirectionType
  /\ survives show_ThemeColor read_ThemeColor
  /\ survives show_VertAlignType read_VertAlignType
  /\ survives show_VAlignType read_VAlignType
  /\ survives show_VMergeType read_VMergeType
  /\ survives show_WidthType read_WidthType.
Proof. repeat split; solve_survive. Qed.

Lemma relative_from_v_iff v :
  read_RelativeFromVType (show_RelativeFromVType v) = Some v <-> v <> RelativeFromVType_OutsizeMargin.
Proof. destruct v; cbn; split; intros H; congruence. Qed.

Lemma relative_from_v_bad : exists v, read_RelativeFromVType (show_RelativeFromVType v) <> Some v.
Proof. exists RelativeFromVType_OutsizeMargin. discriminate. Qed.

Lemma character_spacing_iff v :
  read_CharacterSpacingValues (show_CharacterSpacingValues v) = Some v <-> v <> CharacterSpacingValues_Unsupported.
Proof. destruct v; cbn; split; intros H; congruence. Qed.

Lemma neq_alias (s : string) l : ~ In s l -> forall x, In x l -> (s =s x) = false.
Proof. intros H x Hx. apply String.eqb_neq. intros ->. exact (H Hx). Qed.
Lemma neq_shown (s x : string) : s <> x -> (s =s x) = false.
Proof. intros H. now apply String.eqb_neq. Qed.

Lemma unknown_AlignmentType : unknown_reads_as show_AlignmentType [] read_AlignmentType (Some AlignmentType_Left).
Proof.
  intros s Hv Ha. unfold read_AlignmentType.
  rewrite (neq_shown s "left" (Hv AlignmentType_Left)).
  rewrite (neq_shown s "right" (Hv AlignmentType_Right)).
  rewrite (neq_shown s "distribute" (Hv AlignmentType_Distribute)).
  rewrite (neq_shown s "center" (Hv AlignmentType_Center)).
  rewrite (neq_shown s "both" (Hv AlignmentType_Both)).
  rewrite (neq_shown s "start" (Hv AlignmentType_Start)).
  rewrite (neq_shown s "end" (Hv AlignmentType_End)).
  rewrite (neq_shown s "justified" (Hv AlignmentType_Justified)).
  reflexivity.
Qed.

Lemma unknown_BorderType : unknown_reads_as show_BorderType [] read_BorderType (Some BorderType_Single).
Proof.
  intros s Hv Ha. unfold read_BorderType.
  rewrite (neq_shown s "nil" (Hv BorderType_Nil)).
  rewrite (neq_shown s "none" (Hv BorderType_None)).
  rewrite (neq_shown s "single" (Hv BorderType_Single)).
  rewrite (neq_shown s "thick" (Hv BorderType_Thick)).
  rewrite (neq_shown s "double" (Hv BorderType_Double)).
  rewrite (neq_shown s "dotted" (Hv BorderType_Dotted)).
  rewrite (neq_shown s "dashed" (Hv BorderType_Dashed)).
  rewrite (neq_shown s "dotDash" (Hv BorderType_DotDash)).
  rewrite (neq_shown s "dotDotDash" (Hv BorderType_DotDotDash)).
  rewrite (neq_shown s "triple" (Hv BorderType_Triple)).
  rewrite (neq_shown s "thinThickSmallGap" (Hv BorderType_ThinThickSmallGap)).
  rewrite (neq_shown s "thickThinSmallGap" (Hv BorderType_ThickThinSmallGap)).
  rewrite (neq_shown s "thinThickThinSmallGap" (Hv BorderType_ThinThickThinSmallGap)).
  rewrite (neq_shown s "thinThickMediumGap" (Hv BorderType_ThinThickMediumGap)).
  rewrite (neq_shown s "thickThinMediumGap" (Hv BorderType_ThickThinMediumGap)).
  rewrite (neq_shown s "thinThickThinMediumGap" (Hv BorderType_ThinThickThinMediumGap)).
  rewrite (neq_shown s "thinThickLargeGap" (Hv BorderType_ThinThickLargeGap)).
  rewrite (neq_shown s "thickThinLargeGap" (Hv BorderType_ThickThinLargeGap)).
  rewrite (neq_shown s "thinThickThinLargeGap" (Hv BorderType_ThinThickThinLargeGap)).
  rewrite (neq_shown s "wave" (Hv BorderType_Wave)).
  rewrite (neq_shown s "doubleWave" (Hv BorderType_DoubleWave)).
  rewrite (neq_shown s "dashSmallGap" (Hv BorderType_DashSmallGap)).
  rewrite (neq_shown s "dashDotStroked" (Hv BorderType_DashDotStroked)).
  rewrite (neq_shown s "threeDEmboss" (Hv BorderType_ThreeDEmboss)).
  rewrite (neq_shown s "threeDEngrave" (Hv BorderType_ThreeDEngrave)).
  rewrite (neq_shown s "outset" (Hv BorderType_Outset)).
  rewrite (neq_shown s "inset" (Hv BorderType_Inset)).
  rewrite (neq_shown s "apples" (Hv BorderType_Apples)).
  rewrite (neq_shown s "archedScallops" (Hv BorderType_ArchedScallops)).
  rewrite (neq_shown s "babyPacifier" (Hv BorderType_BabyPacifier)).
  rewrite (neq_shown s "babyRattle" (Hv BorderType_BabyRattle)).
  reflexivity.
Qed.

Lemma unknown_BreakType : unknown_reads_as show_BreakType [] read_BreakType (Some BreakType_Unsupported).
Proof.
  intros s Hv Ha. unfold read_BreakType.
  rewrite (neq_shown s "page" (Hv BreakType_Page)).
  rewrite (neq_shown s "column" (Hv BreakType_Column)).
  rewrite (neq_shown s "textWrapping" (Hv BreakType_TextWrapping)).
  reflexivity.
Qed.

Lemma unknown_CharacterSpacingValues : unknown_reads_as show_CharacterSpacingValues [] read_CharacterSpacingValues None.
Proof.
  intros s Hv Ha. unfold read_CharacterSpacingValues.
  rewrite (neq_shown s "doNotCompress" (Hv CharacterSpacingValues_DoNotCompress)).
  rewrite (neq_shown s "compressPunctuation" (Hv CharacterSpacingValues_CompressPunctuation)).
  rewrite (neq_shown s "compressPunctuationAndJapaneseKana" (Hv CharacterSpacingValues_CompressPunctuationAndJapaneseKana)).
  reflexivity.
Qed.

Lemma unknown_DocGridType : unknown_reads_as show_DocGridType [] read_DocGridType None.
Proof.
  intros s Hv Ha. unfold read_DocGridType.
  rewrite (neq_shown s "default" (Hv DocGridType_Default)).
  rewrite (neq_shown s "lines" (Hv DocGridType_Lines)).
  rewrite (neq_shown s "linesAndChars" (Hv DocGridType_LinesAndChars)).
  rewrite (neq_shown s "snapToChars" (Hv DocGridType_SnapToChars)).
  reflexivity.
Qed.

Lemma unknown_FieldCharType : unknown_reads_as show_FieldCharType [] read_FieldCharType (Some FieldCharType_Unsupported).
Proof.
  intros s Hv Ha. unfold read_FieldCharType.
  rewrite (neq_shown s "begin" (Hv FieldCharType_Begin)).
  rewrite (neq_shown s "separate" (Hv FieldCharType_Separate)).
  rewrite (neq_shown s "end" (Hv FieldCharType_End)).
  reflexivity.
Qed.

Lemma unknown_HeightRule : unknown_reads_as show_HeightRule [] read_HeightRule (Some HeightRule_AtLeast).
Proof.
  intros s Hv Ha. unfold read_HeightRule.
  rewrite (neq_shown s "auto" (Hv HeightRule_Auto)).
  rewrite (neq_shown s "atLeast" (Hv HeightRule_AtLeast)).
  rewrite (neq_shown s "exact" (Hv HeightRule_Exact)).
  reflexivity.
Qed.

Lemma unknown_HyperlinkType : unknown_reads_as show_HyperlinkType [] read_HyperlinkType (Some HyperlinkType_Anchor).
Proof.
  intros s Hv Ha. unfold read_HyperlinkType.
  rewrite (neq_shown s "anchor" (Hv HyperlinkType_Anchor)).
  rewrite (neq_shown s "external" (Hv HyperlinkType_External)).
  reflexivity.
Qed.

Lemma unknown_LevelSuffixType : unknown_reads_as show_LevelSuffixType [] read_LevelSuffixType (Some LevelSuffixType_Tab).
Proof.
  intros s Hv Ha. unfold read_LevelSuffixType.
  rewrite (neq_shown s "nothing" (Hv LevelSuffixType_Nothing)).
  rewrite (neq_shown s "space" (Hv LevelSuffixType_Space)).
  rewrite (neq_shown s "tab" (Hv LevelSuffixType_Tab)).
  reflexivity.
Qed.

Lemma unknown_PageOrientationType : unknown_reads_as show_PageOrientationType [] read_PageOrientationType (Some PageOrientationType_Portrait).
Proof.
  intros s Hv Ha. unfold read_PageOrientationType.
  rewrite (neq_shown s "landscape" (Hv PageOrientationType_Landscape)).
  rewrite (neq_shown s "portrait" (Hv PageOrientationType_Portrait)).
  reflexivity.
Qed.

Lemma unknown_PositionalTabAlignmentType : unknown_reads_as show_PositionalTabAlignmentType [] read_PositionalTabAlignmentType None.
Proof.
  intros s Hv Ha. unfold read_PositionalTabAlignmentType.
  rewrite (neq_shown s "center" (Hv PositionalTabAlignmentType_Center)).
  rewrite (neq_shown s "right" (Hv PositionalTabAlignmentType_Right)).
  rewrite (neq_shown s "left" (Hv PositionalTabAlignmentType_Left)).
  reflexivity.
Qed.

Lemma unknown_PositionalTabRelativeTo : unknown_reads_as show_PositionalTabRelativeTo [] read_PositionalTabRelativeTo None.
Proof.
  intros s Hv Ha. unfold read_PositionalTabRelativeTo.
  rewrite (neq_shown s "indent" (Hv PositionalTabRelativeTo_Indent)).
  rewrite (neq_shown s "margin" (Hv PositionalTabRelativeTo_Margin)).
  reflexivity.
Qed.

Lemma unknown_RelativeFromHType : unknown_reads_as show_RelativeFromHType [] read_RelativeFromHType (Some RelativeFromHType_Margin).
Proof.
  intros s Hv Ha. unfold read_RelativeFromHType.
  rewrite (neq_shown s "character" (Hv RelativeFromHType_Character)).
  rewrite (neq_shown s "column" (Hv RelativeFromHType_Column)).
  rewrite (neq_shown s "insideMargin" (Hv RelativeFromHType_InsideMargin)).
  rewrite (neq_shown s "leftMargin" (Hv RelativeFromHType_LeftMargin)).
  rewrite (neq_shown s "margin" (Hv RelativeFromHType_Margin)).
  rewrite (neq_shown s "outsizeMargin" (Hv RelativeFromHType_OutsizeMargin)).
  rewrite (neq_shown s "page" (Hv RelativeFromHType_Page)).
  rewrite (neq_shown s "rightMargin" (Hv RelativeFromHType_RightMargin)).
  reflexivity.
Qed.

Lemma unknown_RelativeFromVType : unknown_reads_as show_RelativeFromVType ["outsizeMargin"] read_RelativeFromVType (Some RelativeFromVType_Margin).
Proof.
  intros s Hv Ha. unfold read_RelativeFromVType.
  rewrite (neq_shown s "bottomMargin" (Hv RelativeFromVType_BottomMargin)).
  rewrite (neq_shown s "insideMargin" (Hv RelativeFromVType_InsideMargin)).
  rewrite (neq_shown s "line" (Hv RelativeFromVType_Line)).
  rewrite (neq_shown s "margin" (Hv RelativeFromVType_Margin)).
  rewrite (neq_alias s _ Ha "outsizeMargin" ltac:(cbn [In]; tauto)).
  rewrite (neq_shown s "page" (Hv RelativeFromVType_Page)).
  rewrite (neq_shown s "paragraph" (Hv RelativeFromVType_Paragraph)).
  rewrite (neq_shown s "topMargin" (Hv RelativeFromVType_TopMargin)).
  reflexivity.
Qed.

Lemma unknown_SectionType : unknown_reads_as show_SectionType [] read_SectionType (Some SectionType_Continuous).
Proof.
  intros s Hv Ha. unfold read_SectionType.
  rewrite (neq_shown s "nextPage" (Hv SectionType_NextPage)).
  rewrite (neq_shown s "nextColumn" (Hv SectionType_NextColumn)).
  rewrite (neq_shown s "continuous" (Hv SectionType_Continuous)).
  rewrite (neq_shown s "evenPage" (Hv SectionType_EvenPage)).
  rewrite (neq_shown s "oddPage" (Hv SectionType_OddPage)).
  reflexivity.
Qed.

Lemma unknown_ShdType : unknown_reads_as show_ShdType [] read_ShdType None.
Proof.
  intros s Hv Ha. unfold read_ShdType.
  rewrite (neq_shown s "nil" (Hv ShdType_Nil)).
  rewrite (neq_shown s "clear" (Hv ShdType_Clear)).
  rewrite (neq_shown s "solid" (Hv ShdType_Solid)).
  rewrite (neq_shown s "horzStripe" (Hv ShdType_HorzStripe)).
  rewrite (neq_shown s "vertStripe" (Hv ShdType_VertStripe)).
  rewrite (neq_shown s "reverseDiagStripe" (Hv ShdType_ReverseDiagStripe)).
  rewrite (neq_shown s "diagStripe" (Hv ShdType_DiagStripe)).
  rewrite (neq_shown s "horzCross" (Hv ShdType_HorzCross)).
  rewrite (neq_shown s "diagCross" (Hv ShdType_DiagCross)).
  rewrite (neq_shown s "thinHorzStripe" (Hv ShdType_ThinHorzStripe)).
  rewrite (neq_shown s "thinVertStripe" (Hv ShdType_ThinVertStripe)).
  rewrite (neq_shown s "thinReverseDiagStripe" (Hv ShdType_ThinReverseDiagStripe)).
  rewrite (neq_shown s "thinDiagStripe" (Hv ShdType_ThinDiagStripe)).
  rewrite (neq_shown s "thinHorzCross" (Hv ShdType_ThinHorzCross)).
  rewrite (neq_shown s "thinDiagCross" (Hv ShdType_ThinDiagCross)).
  rewrite (neq_shown s "pct5" (Hv ShdType_Pct5)).
  rewrite (neq_shown s "pct10" (Hv ShdType_Pct10)).
  rewrite (neq_shown s "pct12" (Hv ShdType_Pct12)).
  rewrite (neq_shown s "pct15" (Hv ShdType_Pct15)).
  rewrite (neq_shown s "pct20" (Hv ShdType_Pct20)).
  rewrite (neq_shown s "pct25" (Hv ShdType_Pct25)).
  rewrite (neq_shown s "pct30" (Hv ShdType_Pct30)).
  rewrite (neq_shown s "pct35" (Hv ShdType_Pct35)).
  rewrite (neq_shown s "pct37" (Hv ShdType_Pct37)).
  rewrite (neq_shown s "pct40" (Hv ShdType_Pct40)).
  rewrite (neq_shown s "pct45" (Hv ShdType_Pct45)).
  rewrite (neq_shown s "pct50" (Hv ShdType_Pct50)).
  rewrite (neq_shown s "pct55" (Hv ShdType_Pct55)).
  rewrite (neq_shown s "pct60" (Hv ShdType_Pct60)).
  rewrite (neq_shown s "pct62" (Hv ShdType_Pct62)).
  rewrite (neq_shown s "pct65" (Hv ShdType_Pct65)).
  rewrite (neq_shown s "pct70" (Hv ShdType_Pct70)).
  rewrite (neq_shown s "pct75" (Hv ShdType_Pct75)).
  rewrite (neq_shown s "pct80" (Hv ShdType_Pct80)).
  rewrite (neq_shown s "pct85" (Hv ShdType_Pct85)).
  rewrite (neq_shown s "pct87" (Hv ShdType_Pct87)).
  rewrite (neq_shown s "pct90" (Hv ShdType_Pct90)).
  rewrite (neq_shown s "pct95" (Hv ShdType_Pct95)).
  reflexivity.
Qed.

Lemma unknown_StyleType : unknown_reads_as show_StyleType [] read_StyleType (Some StyleType_Unsupported).
Proof.
  intros s Hv Ha. unfold read_StyleType.
  rewrite (neq_shown s "paragraph" (Hv StyleType_Paragraph)).
  rewrite (neq_shown s "character" (Hv StyleType_Character)).
  rewrite (neq_shown s "numbering" (Hv StyleType_Numbering)).
  rewrite (neq_shown s "table" (Hv StyleType_Table)).
  reflexivity.
Qed.

Lemma unknown_TabLeaderType : unknown_reads_as show_TabLeaderType [] read_TabLeaderType None.
Proof.
  intros s Hv Ha. unfold read_TabLeaderType.
  rewrite (neq_shown s "dot" (Hv TabLeaderType_Dot)).
  rewrite (neq_shown s "heavy" (Hv TabLeaderType_Heavy)).
  rewrite (neq_shown s "hyphen" (Hv TabLeaderType_Hyphen)).
  rewrite (neq_shown s "middleDot" (Hv TabLeaderType_MiddleDot)).
  rewrite (neq_shown s "none" (Hv TabLeaderType_None)).
  rewrite (neq_shown s "underscore" (Hv TabLeaderType_Underscore)).
  reflexivity.
Qed.

Lemma unknown_TabValueType : unknown_reads_as show_TabValueType [] read_TabValueType None.
Proof.
  intros s Hv Ha. unfold read_TabValueType.
  rewrite (neq_shown s "bar" (Hv TabValueType_Bar)).
  rewrite (neq_shown s "center" (Hv TabValueType_Center)).
  rewrite (neq_shown s "clear" (Hv TabValueType_Clear)).
  rewrite (neq_shown s "decimal" (Hv TabValueType_Decimal)).
  rewrite (neq_shown s "end" (Hv TabValueType_End)).
  rewrite (neq_shown s "right" (Hv TabValueType_Right)).
  rewrite (neq_shown s "num" (Hv TabValueType_Num)).
  rewrite (neq_shown s "start" (Hv TabValueType_Start)).
  rewrite (neq_shown s "left" (Hv TabValueType_Left)).
  reflexivity.
Qed.

Lemma unknown_TableAlignmentType : unknown_reads_as show_TableAlignmentType ["start"; "end"] read_TableAlignmentType (Some TableAlignmentType_Left).
Proof.
  intros s Hv Ha. unfold read_TableAlignmentType.
  rewrite (neq_alias s _ Ha "start" ltac:(cbn [In]; tauto)).
  rewrite (neq_shown s "left" (Hv TableAlignmentType_Left)).
  rewrite (neq_shown s "right" (Hv TableAlignmentType_Right)).
  rewrite (neq_alias s _ Ha "end" ltac:(cbn [In]; tauto)).
  rewrite (neq_shown s "center" (Hv TableAlignmentType_Center)).
  reflexivity.
Qed.

Lemma unknown_TableLayoutType : unknown_reads_as show_TableLayoutType [] read_TableLayoutType (Some TableLayoutType_Autofit).
Proof.
  intros s Hv Ha. unfold read_TableLayoutType.
  rewrite (neq_shown s "fixed" (Hv TableLayoutType_Fixed)).
  reflexivity.
Qed.

Lemma unknown_TextAlignmentType : unknown_reads_as show_TextAlignmentType [] read_TextAlignmentType None.
Proof.
  intros s Hv Ha. unfold read_TextAlignmentType.
  rewrite (neq_shown s "auto" (Hv TextAlignmentType_Auto)).
  rewrite (neq_shown s "baseline" (Hv TextAlignmentType_Baseline)).
  rewrite (neq_shown s "bottom" (Hv TextAlignmentType_Bottom)).
  rewrite (neq_shown s "center" (Hv TextAlignmentType_Center)).
  rewrite (neq_shown s "top" (Hv TextAlignmentType_Top)).
  reflexivity.
Qed.

Lemma unknown_TextDirectionType : unknown_reads_as show_TextDirectionType [] read_TextDirectionType None.
Proof.
  intros s Hv Ha. unfold read_TextDirectionType.
  rewrite (neq_shown s "lr" (Hv TextDirectionType_Lr)).
  rewrite (neq_shown s "lrV" (Hv TextDirectionType_LrV)).
  rewrite (neq_shown s "rl" (Hv TextDirectionType_Rl)).
  rewrite (neq_shown s "rlV" (Hv TextDirectionType_RlV)).
  rewrite (neq_shown s "tb" (Hv TextDirectionType_Tb)).
  rewrite (neq_shown s "tbV" (Hv TextDirectionType_TbV)).
  rewrite (neq_shown s "tbRlV" (Hv TextDirectionType_TbRlV)).
  rewrite (neq_shown s "tbRl" (Hv TextDirectionType_TbRl)).
  rewrite (neq_shown s "btLr" (Hv TextDirectionType_BtLr)).
  rewrite (neq_shown s "lrTbV" (Hv TextDirectionType_LrTbV)).
  reflexivity.
Qed.

Lemma unknown_ThemeColor : unknown_reads_as show_ThemeColor [] read_ThemeColor (Some ThemeColor_Unsupported).
Proof.
  intros s Hv Ha. unfold read_ThemeColor.
  rewrite (neq_shown s "dark1" (Hv ThemeColor_Dark1)).
  rewrite (neq_shown s "light1" (Hv ThemeColor_Light1)).
  rewrite (neq_shown s "dark2" (Hv ThemeColor_Dark2)).
  rewrite (neq_shown s "light2" (Hv ThemeColor_Light2)).
  rewrite (neq_shown s "accent1" (Hv ThemeColor_Accent1)).
  rewrite (neq_shown s "accent2" (Hv ThemeColor_Accent2)).
  rewrite (neq_shown s "accent3" (Hv ThemeColor_Accent3)).
  rewrite (neq_shown s "accent4" (Hv ThemeColor_Accent4)).
  rewrite (neq_shown s "accent5" (Hv ThemeColor_Accent5)).
  rewrite (neq_shown s "accent6" (Hv ThemeColor_Accent6)).
  rewrite (neq_shown s "hyperlink" (Hv ThemeColor_Hyperlink)).
  rewrite (neq_shown s "followedHyperlink" (Hv ThemeColor_FollowedHyperlink)).
  rewrite (neq_shown s "none" (Hv ThemeColor_None)).
  rewrite (neq_shown s "background1" (Hv ThemeColor_Background1)).
  rewrite (neq_shown s "text1" (Hv ThemeColor_Text1)).
  rewrite (neq_shown s "background2" (Hv ThemeColor_Background2)).
  rewrite (neq_shown s "text2" (Hv ThemeColor_Text2)).
  reflexivity.
Qed.

Lemma unknown_VertAlignType : unknown_reads_as show_VertAlignType [] read_VertAlignType (Some VertAlignType_Unsupported).
Proof.
  intros s Hv Ha. unfold read_VertAlignType.
  rewrite (neq_shown s "subscript" (Hv VertAlignType_SubScript)).
  rewrite (neq_shown s "superscript" (Hv VertAlignType_SuperScript)).
  rewrite (neq_shown s "baseline" (Hv VertAlignType_Baseline)).
  reflexivity.
Qed.

Lemma unknown_VAlignType : unknown_reads_as show_VAlignType [] read_VAlignType (Some VAlignType_Unsupported).
Proof.
  intros s Hv Ha. unfold read_VAlignType.
  rewrite (neq_shown s "top" (Hv VAlignType_Top)).
  rewrite (neq_shown s "center" (Hv VAlignType_Center)).
  rewrite (neq_shown s "bottom" (Hv VAlignType_Bottom)).
  reflexivity.
Qed.

Lemma unknown_VMergeType : unknown_reads_as show_VMergeType [] read_VMergeType (Some VMergeType_Unsupported).
Proof.
  intros s Hv Ha. unfold read_VMergeType.
  rewrite (neq_shown s "continue" (Hv VMergeType_Continue)).
  rewrite (neq_shown s "restart" (Hv VMergeType_Restart)).
  reflexivity.
Qed.

Lemma unknown_WidthType : unknown_reads_as show_WidthType ["DXA"; "Auto"; "Pct"; "Nil"] read_WidthType (Some WidthType_Unsupported).
Proof.
  intros s Hv Ha. unfold read_WidthType.
  rewrite (neq_alias s _ Ha "DXA" ltac:(cbn [In]; tauto)).
  rewrite (neq_shown s "dxa" (Hv WidthType_Dxa)).
  rewrite (neq_alias s _ Ha "Auto" ltac:(cbn [In]; tauto)).
  rewrite (neq_shown s "auto" (Hv WidthType_Auto)).
  rewrite (neq_alias s _ Ha "Pct" ltac:(cbn [In]; tauto)).
  rewrite (neq_shown s "pct" (Hv WidthType_Pct)).
  rewrite (neq_alias s _ Ha "Nil" ltac:(cbn [In]; tauto)).
  rewrite (neq_shown s "nil" (Hv WidthType_Nil)).
  reflexivity.
Qed.

Lemma all_unknown :
  unknown_reads_as show_AlignmentType [] read_AlignmentType (Some AlignmentType_Left)
  /\ unknown_reads_as show_BorderType [] read_BorderType (Some BorderType_Single)
  /\ unknown_reads_as show_BreakType [] read_BreakType (Some BreakType_Unsupported)
  /\ unknown_reads_as show_CharacterSpacingValues [] read_CharacterSpacingValues None
  /\ unknown_reads_as show_DocGridType [] read_DocGridType None
  /\ unknown_reads_as show_FieldCharType [] read_FieldCharType (Some FieldCharType_Unsupported)
  /\ unknown_reads_as show_HeightRule [] read_HeightRule (Some HeightRule_AtLeast)
  /\ unknown_reads_as show_HyperlinkType [] read_HyperlinkType (Some HyperlinkType_Anchor)
  /\ unknown_reads_as show_LevelSuffixType [] read_LevelSuffixType (Some LevelSuffixType_Tab)
  /\ unknown_reads_as show_PageOrientationType [] read_PageOrientationType (Some PageOrientationType_Portrait)
  /\ unknown_reads_as show_PositionalTabAlignmentType [] read_PositionalTabAlignmentType None
  /\ unknown_reads_as show_PositionalTabRelativeTo [] read_PositionalTabRelativeTo None
  /\ unknown_reads_as show_RelativeFromHType [] read_RelativeFromHType (Some RelativeFromHType_Margin)
  /\ unknown_reads_as show_RelativeFromVType ["outsizeMargin"] read_RelativeFromVType (Some RelativeFromVType_Margin)
  /\ unknown_reads_as show_SectionType [] read_SectionType (Some SectionType_Continuous)
  /\ unknown_reads_as show_ShdType [] read_ShdType None
  /\ unknown_reads_as show_StyleType [] read_StyleType (Some StyleType_Unsupported)
  /\ unknown_reads_as show_TabLeaderType [] read_TabLeaderType None
  /\ unknown_reads_as show_TabValueType [] read_TabValueType None
  /\ unknown_reads_as show_TableAlignmentType ["start"; "end"] read_TableAlignmentType (Some TableAlignmentType_Left)
  /\ unknown_reads_as show_TableLayoutType [] read_TableLayoutType (Some TableLayoutType_Autofit)
  /\ unknown_reads_as show_TextAlignmentType [] read_TextAlignmentType None
  /\ unknown_reads_as show_TextDirectionType [] read_TextDirectionType None
  /\ unknown_reads_as show_ThemeColor [] read_ThemeColor (Some ThemeColor_Unsupported)
  /\ unknown_reads_as show_VertAlignType [] read_VertAlignType (Some VertAlignType_Unsupported)
  /\ unknown_reads_as show_VAlignType [] read_VAlignType (Some VAlignType_Unsupported)
  /\ unknown_reads_as show_VMergeType [] read_VMergeType (Some VMergeType_Unsupported)
  /\ unknown_reads_as show_WidthType ["DXA"; "Auto"; "Pct"; "Nil"] read_WidthType (Some WidthType_Unsupported).
Proof.
  repeat split; auto using unknown_AlignmentType, unknown_BorderType, unknown_BreakType, unknown_CharacterSpacingValues, unknown_DocGridType, unknown_FieldCharType, unknown_HeightRule, unknown_HyperlinkType, unknown_LevelSuffixType, unknown_PageOrientationType, unknown_PositionalTabAlignmentType, unknown_PositionalTabRelativeTo, unknown_RelativeFromHType, unknown_RelativeFromVType, unknown_SectionType, unknown_ShdType, unknown_StyleType, unknown_TabLeaderType, unknown_TabValueType, unknown_TableAlignmentType, unknown_TableLayoutType, unknown_TextAlignmentType, unknown_TextDirectionType, unknown_ThemeColor, unknown_VertAlignType, unknown_VAlignType, unknown_VMergeType, unknown_WidthType.
Qed.

Lemma aliases_read :
  read_TableAlignmentType "start" = Some TableAlignmentType_Left
  /\ read_TableAlignmentType "end" = Some TableAlignmentType_Right
  /\ (forall s v, In (s, v) [("DXA", WidthType_Dxa); ("Auto", WidthType_Auto); ("Pct", WidthType_Pct); ("Nil", WidthType_Nil)] -> read_WidthType s = Some v)
  /\ read_RelativeFromVType "outsizeMargin" = Some RelativeFromVType_OutsizeMargin.
Proof.
  repeat split; try reflexivity.
  intros s v H. cbn [In] in H. repeat (destruct H as [H|H]; [injection H as <- <-; reflexivity|]). destruct H.
Qed.

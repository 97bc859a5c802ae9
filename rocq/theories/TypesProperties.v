(** Properties C14, C15. *)
From Verif Require Import Str TypesModel TypesSpec TypesProofs.

(** C14 *)
Theorem enums_survive :
  survives show_AlignmentType read_AlignmentType
  /\ survives show_BorderType read_BorderType
  /\ survives show_BreakType read_BreakType
  /\ survives show_DocGridType read_DocGridType
  /\ survives show_FieldCharType read_FieldCharType
  /\ survives show_HeightRule read_HeightRule
  /\ survives show_HyperlinkType read_HyperlinkType
  /\ survives show_LevelSuffixType read_LevelSuffixType
  /\ survives show_PageOrientationType read_PageOrientationType
  /\ survives show_PositionalTabAlignmentType read_PositionalTabAlignmentType
  /\ survives show_PositionalTabRelativeTo read_PositionalTabRelativeTo
  /\ survives show_RelativeFromHType read_RelativeFromHType
  /\ survives show_SectionType read_SectionType
  /\ survives show_ShdType read_ShdType
  /\ survives show_StyleType read_StyleType
  /\ survives show_TabLeaderType read_TabLeaderType
  /\ survives show_TabValueType read_TabValueType
  /\ survives show_TableAlignmentType read_TableAlignmentType
  /\ survives show_TableLayoutType read_TableLayoutType
  /\ survives show_TextAlignmentType read_TextAlignmentType
  /\ survives show_TextDirectionType read_TextDirectionType
  /\ survives show_ThemeColor read_ThemeColor
  /\ survives show_VertAlignType read_VertAlignType
  /\ survives show_VAlignType read_VAlignType
  /\ survives show_VMergeType read_VMergeType
  /\ survives show_WidthType read_WidthType.
Proof. exact all_survive. Qed.
Print Assumptions enums_survive.

Theorem relative_from_v_survives_iff : forall v,
  read_RelativeFromVType (show_RelativeFromVType v) = Some v <-> v <> RelativeFromVType_OutsizeMargin.
Proof. exact relative_from_v_iff. Qed.
Print Assumptions relative_from_v_survives_iff.

Theorem relative_from_v_refuted : exists v,
  read_RelativeFromVType (show_RelativeFromVType v) <> Some v.
Proof. exact relative_from_v_bad. Qed.
Print Assumptions relative_from_v_refuted.

Theorem character_spacing_survives_iff : forall v,
  read_CharacterSpacingValues (show_CharacterSpacingValues v) = Some v <-> v <> CharacterSpacingValues_Unsupported.
Proof. exact character_spacing_iff. Qed.
Print Assumptions character_spacing_survives_iff.

(** C15 *)
Theorem unknown_enum_values :
  unknown_reads_as show_AlignmentType [] read_AlignmentType (Some AlignmentType_Left)
  /\ unknown_reads_as show_BorderType [] read_BorderType (Some BorderType_Single)
  /\ unknown_reads_as show_BreakType [] read_BreakType (Some BreakType_Unsupported)
  /\ unknown_reads_as show_CharacterSpacingValues [] read_CharacterSpacingValues None
  /\ unknown_reads_as show_DocGridType [] read_DocGridType None
  /\ unknown_reads_as show_FieldCharType [] read_FieldCharType (Some FieldCharType_Unsupported)
  /\ unknown_reads_as show_HeightRule [] read_HeightRule (Some HeightRule_AtLeast)
  /\ unknown_reads_as show_HyperlinkType [] read_HyperlinkType (Some HyperlinkType_Anchor)
  /\ unknown_reads_as show_LevelSuffixType [] read_LevelSuffixType (Some LevelSuffixType_Tab)
  /\ unknown_reads_as show_PageOrientationType [] read_PageOrientationType (Some PageOrientationType_Portrait)
  /\ unknown_reads_as show_PositionalTabAlignmentType [] read_PositionalTabAlignmentType None
  /\ unknown_reads_as show_PositionalTabRelativeTo [] read_PositionalTabRelativeTo None
  /\ unknown_reads_as show_RelativeFromHType [] read_RelativeFromHType (Some RelativeFromHType_Margin)
  /\ unknown_reads_as show_RelativeFromVType ["outsizeMargin"] read_RelativeFromVType (Some RelativeFromVType_Margin)
  /\ unknown_reads_as show_SectionType [] read_SectionType (Some SectionType_Continuous)
  /\ unknown_reads_as show_ShdType [] read_ShdType None
  /\ unknown_reads_as show_StyleType [] read_StyleType (Some StyleType_Unsupported)
  /\ unknown_reads_as show_TabLeaderType [] read_TabLeaderType None
  /\ unknown_reads_as show_TabValueType [] read_TabValueType None
  /\ unknown_reads_as show_TableAlignmentType ["start"; "end"] read_TableAlignmentType (Some TableAlignmentType_Left)
  /\ unknown_reads_as show_TableLayoutType [] read_TableLayoutType (Some TableLayoutType_Autofit)
  /\ unknown_reads_as show_TextAlignmentType [] read_TextAlignmentType None
  /\ unknown_reads_as show_TextDirectionType [] read_TextDirectionType None
  /\ unknown_reads_as show_ThemeColor [] read_ThemeColor (Some ThemeColor_Unsupported)
  /\ unknown_reads_as show_VertAlignType [] read_VertAlignType (Some VertAlignType_Unsupported)
  /\ unknown_reads_as show_VAlignType [] read_VAlignType (Some VAlignType_Unsupported)
  /\ unknown_reads_as show_VMergeType [] read_VMergeType (Some VMergeType_Unsupported)
  /\ unknown_reads_as show_WidthType ["DXA"; "Auto"; "Pct"; "Nil"] read_WidthType (Some WidthType_Unsupported).
Proof. exact all_unknown. Qed.
Print Assumptions unknown_enum_values.

Theorem enum_aliases :
  read_TableAlignmentType "start" = Some TableAlignmentType_Left
  /\ read_TableAlignmentType "end" = Some TableAlignmentType_Right
  /\ (forall s v, In (s, v) [("DXA", WidthType_Dxa); ("Auto", WidthType_Auto); ("Pct", WidthType_Pct); ("Nil", WidthType_Nil)] -> read_WidthType s = Some v)
  /\ read_RelativeFromVType "outsizeMargin" = Some RelativeFromVType_OutsizeMargin.
Proof. exact aliases_read. Qed.
Print Assumptions enum_aliases.

Example enum_cases :
  read_AlignmentType "middle" = Some AlignmentType_Left /\ (forall v, "middle" <> show_AlignmentType v)
  /\ read_ShdType "pct99" = None /\ (forall v, "pct99" <> show_ShdType v).
Proof. repeat split; try (destruct v; discriminate). Qed.

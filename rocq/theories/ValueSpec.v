(** What each setter of sections, pages, pictures, borders and other values says, in the words of [CallSpec]. *)
From Coq Require Import NArith ZArith List Bool.
From Verif Require Import Str TypesModel Props Ast JsonModel TsSpec CallModel CallSpec EntrySpec ValueModel.
Import ListNotations.
Open Scope list_scope.

Definition word (s : string) : json := JStr s.
Definition size_says (c : size_call) : list change :=
  match c with
  | ZSize w h => [Put ["w"] (number w); Put ["h"] (number h)] | ZWidth w => [Put ["w"] (number w)] | ZHeight h => [Put ["h"] (number h)]
  | ZOrient PageOrientationType_Landscape => [Put ["orient"] (word "landscape")]
  | ZOrient PageOrientationType_Portrait => [Put ["orient"] (word "portrait")]
  end.
Definition margin_says (c : margin_call) : list change :=
  match c with
  | MTop z => [Put ["top"] (JNum z)] | MLeft z => [Put ["left"] (JNum z)] | MBottom z => [Put ["bottom"] (JNum z)] | MRight z => [Put ["right"] (JNum z)]
  | MHeader z => [Put ["header"] (JNum z)] | MFooter z => [Put ["footer"] (JNum z)] | MGutter z => [Put ["gutter"] (JNum z)]
  end.
Definition grid_says (c : grid_call) : list change :=
  match c with
  | DType t => [Put ["gridType"] (word (ser_DocGridType t))] | DLinePitch n => [Put ["linePitch"] (number n)] | DCharSpace z => [Put ["charSpace"] (JNum z)]
  end.
Definition page_num_says (c : page_num_call) : list change :=
  match c with QStart n => [Put ["start"] (number n)] | QChapStyle s => [Put ["chapStyle"] (word s)] end.
(** The names of a slot, of the reference to it and of the type in that reference *)
Definition part_name (x : slot) : string :=
  match x with
  | HDefault => "header" | HFirst => "firstHeader" | HEven => "evenHeader" | FDefault => "footer" | FFirst => "firstFooter" | FEven => "evenFooter"
  end.
Definition ref_name (x : slot) : string := part_name x +++ "Reference".
Definition reference (x : slot) (rid : string) : json :=
  match x with
  | HDefault => JObj [("headerType", word "default"); ("id", word rid)] | HFirst => JObj [("headerType", word "first"); ("id", word rid)]
  | HEven => JObj [("headerType", word "even"); ("id", word rid)]
  | FDefault => JObj [("footerType", word "default"); ("id", word rid)] | FFirst => JObj [("footerType", word "first"); ("id", word rid)]
  | FEven => JObj [("footerType", word "even"); ("id", word rid)]
  end.
Definition carries (x : slot) (part : json) (rid : string) : list change :=
  [Put [ref_name x] (reference x rid); Put [part_name x] (JArr [word rid; part])].
(** The page size is left to [tells] below. *)
Definition section_says (c : section_call) : list change :=
  match c with
  | KPageMargin v => [Put ["pageMargin"] (j_margin v)]
  | KDocGrid v => [Put ["docGrid"] (j_grid v)]
  | KTextDirection s => [Put ["textDirection"] (word s)]
  | KTitlePg => [Put ["titlePg"] yes]
  | KPart x h rid => carries x h rid ++ match x with HFirst | FFirst => [Put ["titlePg"] yes] | _ => [] end
  | KFirstHeaderOnly h rid => carries HFirst h rid
  | KFirstFooterOnly h rid => carries FFirst h rid
  | KPageNumType v => [Put ["pageNumType"] (j_page_num v)]
  | KPageSize _ | KPageOrient _ => []
  end.
Definition orient_of (c : section_call) : option size_call := match c with KPageOrient o => Some (ZOrient o) | _ => None end.
Definition whole_size (c : section_call) : bool := match c with KPageSize _ => true | _ => false end.
(** All that calls, one after the other, say, and nothing else changed: [tells_outside] no members. *)
Definition tells_all {C} (says : C -> list change) (cs : list C) (before after : view) : Prop :=
  forall k path, after (k :: path) = said says cs before (k :: path).
Record section_setters (cs : list section_call) (before after : view) : Prop := {
  section_itself : tells_outside ["pageSize"] section_says cs before after;
  (* the orientation is that of the page size; a page size given as a whole replaces it, and later calls turn it *)
  section_orient : existsb whole_size cs = false -> tells_all size_says (only orient_of cs) (inside ["pageSize"] before) (inside ["pageSize"] after);
  section_size : forall bs v ds, cs = bs ++ KPageSize v :: ds -> existsb whole_size ds = false ->
    tells_all size_says (only orient_of ds) (seen (j_size v)) (inside ["pageSize"] after) }.
Definition pic_says (c : pic_call) : list change :=
  match c with
  | XId s => [Put ["id"] (word s)] | XSize w h => [Put ["size"] (JArr [number w; number h])] | XRotate n => [Put ["rot"] (number n)]
  | XFloating => [Put ["positionType"] (word "anchor")] | XOverlapping => [Put ["allowOverlap"] yes]
  | XOffsetX z => [Put ["positionH"] (JObj [("offset", JNum z)])] | XOffsetY z => [Put ["positionV"] (JObj [("offset", JNum z)])]
  | XPositionH (Offset z) => [Put ["positionH"] (JObj [("offset", JNum z)])] | XPositionV (Offset z) => [Put ["positionV"] (JObj [("offset", JNum z)])]
  | XPositionH (Align a) => [Put ["positionH"] (JObj [("align", word (ser_PicAlign a))])]
  | XPositionV (Align a) => [Put ["positionV"] (JObj [("align", word (ser_PicAlign a))])]
  | XFromH t => [Put ["relativeFromH"] (word (ser_RelativeFromHType t))] | XFromV t => [Put ["relativeFromV"] (word (ser_RelativeFromVType t))]
  | XDistT z => [Put ["distT"] (JNum z)] | XDistB z => [Put ["distB"] (JNum z)] | XDistL z => [Put ["distL"] (JNum z)] | XDistR z => [Put ["distR"] (JNum z)]
  | XSimplePos v => [Put ["simplePos"] (JBool v)] | XRelativeHeight n => [Put ["relativeHeight"] (number n)]
  end.
Definition position_says (c : position_call) : list change :=
  match c with
  | OLeftFromText z => [Put ["leftFromText"] (JNum z)] | ORightFromText z => [Put ["rightFromText"] (JNum z)]
  | OVerticalAnchor s => [Put ["verticalAnchor"] (word s)] | OHorizontalAnchor s => [Put ["horizontalAnchor"] (word s)]
  | OXAlignment s => [Put ["positionXAlignment"] (word s)] | OYAlignment s => [Put ["positionYAlignment"] (word s)]
  | OX z => [Put ["positionX"] (JNum z)] | OY z => [Put ["positionY"] (JNum z)]
  end.
Definition tab_says (c : tab_call) : list change :=
  match c with
  | BVal t => [Put ["val"] (word (ser_TabValueType t))] | BLeader t => [Put ["leader"] (word (ser_TabLeaderType t))] | BPos n => [Put ["pos"] (number n)]
  end.
Definition ptab_says (c : ptab_call) : list change :=
  match c with
  | JRelativeTo t => [Put ["relativeTo"] (word (ser_PositionalTabRelativeTo t))] | JLeader t => [Put ["leader"] (word (ser_TabLeaderType t))]
  | JAlignment t => [Put ["alignment"] (word (ser_PositionalTabAlignmentType t))]
  end.
Definition shading_says (c : shading_call) : list change :=
  match c with HColor s => [Put ["color"] (word s)] | HFill s => [Put ["fill"] (word s)] | HType t => [Put ["shdType"] (word (ser_ShdType t))] end.
(** [type] is the name of the member for the type. *)
Definition line_says (type : string) (c : line_call) : list change :=
  match c with EColor s => [Put ["color"] (word s)] | ESize n => [Put ["size"] (number n)] | EType t => [Put [type] (word (ser_BorderType t))] end.
Definition spaced_says (type : string) (c : spaced_call) : list change :=
  match c with ELine c => line_says type c | ESpace n => [Put ["space"] (number n)] end.
Definition numpr_says (c : numpr_call) : list change :=
  match c with NumId n => [Put ["id"] (number n)] | NumAdd id level => [Put ["id"] (number id); Put ["level"] (number level)] end.
Definition binding_says (c : binding_call) : list change :=
  match c with
  | BindXpath s => [Put ["xpath"] (word s)] | BindPrefix s => [Put ["prefix_mappings"] (word s)] | BindStore s => [Put ["store_item_id"] (word s)]
  end.
Definition tag_says (c : tag_call) : list change :=
  match c with TagBinding d => [Put ["dataBinding"] (j_binding d)] | TagAlias s => [Put ["alias"] (word s)] end.

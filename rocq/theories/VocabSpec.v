(** The vocabulary of the written parts: every element the library writes, with the
    attributes it may carry in the order in which they are written.  An element that
    is written in two ways is listed twice. *)
From Coq Require Import List Bool.
From Verif Require Import Str BuildModel BuildSpec.
Import ListNotations.

Definition vocabulary : list (string * list string) := [
  (* run properties *)
  ("w:rPr", []); ("w:sz", ["w:val"]); ("w:szCs", ["w:val"]);
  ("w:color", ["w:val"; "w:themeColor"; "w:themeShade"; "w:themeTint"]);
  ("w:b", ["w:val"]); ("w:bCs", []); ("w:caps", ["w:val"]); ("w:i", ["w:val"]); ("w:iCs", []);
  ("w:strike", ["w:val"]); ("w:dstrike", ["w:val"]); ("w:highlight", ["w:val"]); ("w:u", ["w:val"]);
  ("w:vanish", []); ("w:specVanish", []);
  ("w:rFonts", ["w:ascii"; "w:hAnsi"; "w:cs"; "w:eastAsia"; "w:asciiTheme"; "w:hAnsiTheme"; "w:cstheme"; "w:eastAsiaTheme"; "w:hint"]);
  ("w:bdr", ["w:val"; "w:sz"; "w:space"; "w:color"]);
  ("w:vertAlign", ["w:val"]); ("w:spacing", ["w:val"]); ("w:fitText", ["w:val"; "w:id"]); ("w:w", ["w:val"]);
  ("w:rStyle", ["w:val"]); ("w:ptab", ["w:alignment"; "w:relativeTo"; "w:leader"]); ("w:shd", ["w:val"; "w:color"; "w:fill"]);
  (* section properties *)
  ("w:sectPr", []); ("w:pgSz", ["w:w"; "w:h"; "w:orient"]);
  ("w:pgMar", ["w:top"; "w:right"; "w:bottom"; "w:left"; "w:header"; "w:footer"; "w:gutter"]);
  ("w:cols", ["w:space"; "w:num"]); ("w:docGrid", ["w:type"; "w:linePitch"; "w:charSpace"]);
  ("w:headerReference", ["w:type"; "r:id"]); ("w:footerReference", ["w:type"; "r:id"]);
  ("w:pgNumType", ["w:start"; "w:chapStyle"]); ("w:textDirection", ["w:val"]); ("w:type", ["w:val"]); ("w:titlePg", []);
  (* paragraph properties *)
  ("w:pPr", []); ("w:pStyle", ["w:val"]); ("w:numPr", []); ("w:numId", ["w:val"]); ("w:ilvl", ["w:val"]);
  ("w:framePr", ["w:wrap"; "w:hRule"; "w:hAnchor"; "w:vAnchor"; "w:xAlign"; "w:yAlign"; "w:x"; "w:y"; "w:h_space"; "w:v_space"; "w:w"; "w:h"]);
  ("w:jc", ["w:val"]); ("w:ind", ["w:left"; "w:right"; "w:leftChars"; "w:firstLine"; "w:hanging"]);
  ("w:spacing", ["w:before"; "w:after"; "w:beforeLines"; "w:afterLines"; "w:line"; "w:lineRule"]); ("w:outlineLvl", ["w:val"]);
  ("w:pPrChange", ["w:id"; "w:author"; "w:date"]);
  ("w:pBdr", []); ("w:left", ["w:val"; "w:space"; "w:sz"; "w:color"]); ("w:right", ["w:val"; "w:space"; "w:sz"; "w:color"]);
  ("w:top", ["w:val"; "w:space"; "w:sz"; "w:color"]); ("w:bottom", ["w:val"; "w:space"; "w:sz"; "w:color"]);
  ("w:between", ["w:val"; "w:space"; "w:sz"; "w:color"]); ("w:bar", ["w:val"; "w:space"; "w:sz"; "w:color"]);
  ("w:textAlignment", ["w:val"]); ("w:adjustRightInd", ["w:val"]); ("w:snapToGrid", ["w:val"]); ("w:keepNext", []);
  ("w:keepLines", []); ("w:pageBreakBefore", []); ("w:bidi", []); ("w:widowControl", ["w:val"]);
  ("w:tabs", []); ("w:tab", ["w:val"; "w:leader"; "w:pos"]);
  (* tables *)
  ("w:tbl", []); ("w:tblPr", []); ("w:tblW", ["w:w"; "w:type"]); ("w:tblBorders", []);
  ("w:top", ["w:val"; "w:sz"; "w:space"; "w:color"]); ("w:left", ["w:val"; "w:sz"; "w:space"; "w:color"]);
  ("w:bottom", ["w:val"; "w:sz"; "w:space"; "w:color"]); ("w:right", ["w:val"; "w:sz"; "w:space"; "w:color"]);
  ("w:insideH", ["w:val"; "w:sz"; "w:space"; "w:color"]); ("w:insideV", ["w:val"; "w:sz"; "w:space"; "w:color"]);
  ("w:tl2br", ["w:val"; "w:sz"; "w:space"; "w:color"]); ("w:tr2bl", ["w:val"; "w:sz"; "w:space"; "w:color"]);
  ("w:tblCellMar", []); ("w:top", ["w:w"; "w:type"]); ("w:left", ["w:w"; "w:type"]); ("w:bottom", ["w:w"; "w:type"]); ("w:right", ["w:w"; "w:type"]);
  ("w:tblInd", ["w:w"; "w:type"]); ("w:tblStyle", ["w:val"]); ("w:tblLayout", ["w:type"]);
  ("w:tblpPr", ["w:leftFromText"; "w:rightFromText"; "w:vertAnchor"; "w:horzAnchor"; "w:tblpXSpec"; "w:tblpYSpec"; "w:tblpX"; "w:tblpY"]);
  ("w:tblGrid", []); ("w:gridCol", ["w:w"; "w:type"]);
  ("w:tr", []); ("w:trPr", []); ("w:cantSplit", []); ("w:trHeight", ["w:val"; "w:hRule"]);
  ("w:tc", []); ("w:tcPr", []); ("w:tcW", ["w:w"; "w:type"]); ("w:tcBorders", []); ("w:gridSpan", ["w:val"]); ("w:vMerge", ["w:val"]);
  ("w:vAlign", ["w:val"]); ("w:tcMar", []);
  (* content *)
  ("w:p", ["w14:paraId"]); ("w:r", []); ("w:t", ["xml:space"]); ("w:delText", ["xml:space"]); ("w:sym", ["w:font"; "w:char"]);
  ("w:br", ["w:type"]); ("w:cr", []); ("w:fldChar", ["w:fldCharType"; "w:dirty"]); ("w:instrText", ["xml:space"]); ("w:delInstrText", []);
  ("w:footnoteReference", ["w:id"]); ("w:commentRangeStart", ["w:id"]); ("w:commentRangeEnd", ["w:id"]); ("w:commentReference", ["w:id"]);
  ("w:bookmarkStart", ["w:id"; "w:name"]); ("w:bookmarkEnd", ["w:id"]);
  ("w:ins", ["w:id"; "w:author"; "w:date"]); ("w:del", ["w:id"; "w:author"; "w:date"]);
  ("w:moveFrom", ["w:id"; "w:author"; "w:date"]); ("w:moveTo", ["w:id"; "w:author"; "w:date"]);
  ("w:hyperlink", ["r:id"; "w:anchor"; "w:history"]);
  ("w:sdt", []); ("w:sdtPr", []); ("w:sdtContent", []); ("w:alias", ["w:val"]); ("w:dataBinding", ["w:xpath"; "w:prefixMappings"; "w:storeItemID"]);
  (* pictures *)
  ("w:drawing", []);
  ("wp:anchor", ["distT"; "distB"; "distL"; "distR"; "simplePos"; "allowOverlap"; "behindDoc"; "locked"; "layoutInCell"; "relativeHeight"]);
  ("wp:inline", ["distT"; "distB"; "distL"; "distR"]); ("wp:simplePos", ["x"; "y"]);
  ("wp:positionH", ["relativeFrom"]); ("wp:positionV", ["relativeFrom"]); ("wp:posOffset", []); ("wp:align", []);
  ("wp:extent", ["cx"; "cy"]); ("wp:effectExtent", ["b"; "l"; "r"; "t"]); ("wp:wrapNone", []); ("wp:wrapSquare", ["wrapText"]);
  ("wp:docPr", ["id"; "name"]); ("wp:cNvGraphicFramePr", []); ("a:graphicFrameLocks", ["xmlns:a"; "noChangeAspect"]);
  ("a:graphic", ["xmlns:a"]); ("a:graphicData", ["uri"]);
  ("pic:pic", ["xmlns:pic"]); ("pic:nvPicPr", []); ("pic:cNvPr", ["id"; "name"]); ("pic:cNvPicPr", []);
  ("a:picLocks", ["noChangeAspect"; "noChangeArrowheads"]); ("pic:blipFill", []); ("a:blip", ["r:embed"]); ("a:srcRect", []);
  ("a:stretch", []); ("a:fillRect", []); ("pic:spPr", ["bwMode"]); ("a:xfrm", ["rot"]); ("a:off", ["x"; "y"]); ("a:ext", ["cx"; "cy"]);
  ("a:prstGeom", ["prst"]); ("a:avLst", []);
  (* parts *)
  ("w:body", []); ("w:comment", ["w:id"; "w:author"; "w:date"; "w:initials"]); ("w:footnote", ["w:id"]) ].

Definition allowed (n : string) : list (list string) := flat_map (fun e => if n =s fst e then [snd e] else []) vocabulary.
(** [l] is [m] with some members left out. *)
Inductive sub {A} : list A -> list A -> Prop :=
| sub_nil m : sub [] m
| sub_keep x l m : sub l m -> sub (x :: l) (x :: m)
| sub_skip x l m : sub l m -> sub l (x :: m).
(** An element with a known name and, in their order, known attributes. *)
Definition known (x : xml) : Prop := exists ks, In ks (allowed (xname x)) /\ sub (map fst (xattrs x)) ks.

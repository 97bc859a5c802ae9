(** Types of JSON values: the part of TypeScript that the declarations of the JSON
    (docx-wasm/js/json) use, and these declarations. *)
From Coq Require Import NArith ZArith List Bool.
From Verif Require Import Str TypesModel Props Ast JsonModel.
Import ListNotations.

Inductive ts :=
| TStr | TNum | TBool | TNull | TAny
| TLit (s : string)
| TArr (t : ts)
| TTuple (l : list ts)
| TObj (l : list (string * bool * ts))     (* name, optional, type *)
| TUnion (l : list ts)
| TRef (name : string).
Definition req (k : string) (t : ts) : string * bool * ts := (k, false, t).
Definition opt (k : string) (t : ts) : string * bool * ts := (k, true, t).

(** The declarations that those of documents ([DocumentJSON]) and comments
    ([CommentJSON]) lead to, transcribed by a program from the files named, and from [StyleType]
    on those that styles, numberings, settings, web settings and themes lead to. *)
Definition declarations : list (string * ts) := [
  (* docx-wasm/js/json/bindings/AlignmentType.ts:3 *)
  ("AlignmentType",
   TUnion [TLit "both"; TLit "center"; TLit "distribute"; TLit "start"; TLit "end"; TLit "left"; TLit "right"; TLit "justified"]);
  (* docx-wasm/js/json/paragraph.ts:147 *)
  ("BookmarkEndJSON",
   TObj [req "type" (TLit "bookmarkEnd");
     req "data" (TObj [req "id" TNum])]);
  (* docx-wasm/js/json/paragraph.ts:139 *)
  ("BookmarkStartJSON",
   TObj [req "type" (TLit "bookmarkStart");
     req "data" (TObj [req "id" TNum;
     req "name" TStr])]);
  (* docx-wasm/js/json/border.ts:1 *)
  ("BorderJSON",
   TObj [req "position" TStr;
     req "borderType" TStr;
     req "size" TNum;
     req "space" TNum;
     req "color" TStr]);
  (* docx-wasm/js/json/bindings/BorderType.ts:3 *)
  ("BorderType",
   TUnion [TLit "nil"; TLit "none"; TLit "single"; TLit "thick"; TLit "double"; TLit "dotted"; TLit "dashed"; TLit "dotDash"; TLit "dotDotDash"; TLit "triple"; TLit "thinThickSmallGap"; TLit "thickThinSmallGap"; TLit "thinThickThinSmallGap"; TLit "thinThickMediumGap"; TLit "thickThinMediumGap";
     TLit "thinThickThinMediumGap"; TLit "thinThickLargeGap"; TLit "thickThinLargeGap"; TLit "thinThickThinLargeGap"; TLit "wave"; TLit "doubleWave";
     TLit "dashSmallGap"; TLit "dashDotStroked"; TLit "threeDEmboss"; TLit "threeDEngrave"; TLit "outset"; TLit "inset"; TLit "apples"; TLit "archedScallops"; TLit "babyPacifier"; TLit "babyRattle"]);
  (* docx-wasm/js/json/run.ts:125 *)
  ("BreakJSON",
   TObj [req "type" (TLit "break");
     req "data" (TObj [req "breakType" (TUnion [TLit "page"; TLit "column"; TLit "textWrapping"])])]);
  (* docx-wasm/js/json/run.ts:121 *)
  ("CarriageReturnJSON",
   TObj [req "type" (TLit "carriageReturn")]);
  (* docx-wasm/js/json/table.ts:75 *)
  ("CellMarginsJSON",
   TObj [req "top" (TRef "TableCellMarginJSON");
     req "left" (TRef "TableCellMarginJSON");
     req "bottom" (TRef "TableCellMarginJSON");
     req "right" (TRef "TableCellMarginJSON")]);
  (* docx-wasm/js/json/comment.ts:3 *)
  ("CommentChildJSON",
   TUnion [TRef "ParagraphJSON"; TRef "TableJSON"]);
  (* docx-wasm/js/json/comment.ts:5 *)
  ("CommentJSON",
   TObj [req "id" TNum;
     req "author" TStr;
     req "date" TStr;
     req "children" (TArr (TRef "CommentChildJSON"));
     req "parentCommentId" (TUnion [TNum; TNull])]);
  (* docx-wasm/js/json/comment.ts:21 *)
  ("CommentRangeEndJSON",
   TObj [req "type" (TLit "commentRangeEnd");
     req "data" (TObj [req "id" TNum])]);
  (* docx-wasm/js/json/comment.ts:13 *)
  ("CommentRangeStartJSON",
   TObj [req "type" (TLit "commentRangeStart");
     req "data" (TObj [req "id" TNum;
     req "comment" (TRef "CommentJSON")])]);
  (* docx-wasm/js/json/paragraph.ts:45 *)
  ("CustomTabStopJSON",
   TObj [req "val" (TUnion [TRef "CustomTabStopType"; TNull]);
     req "leader" (TUnion [TStr; TNull]);
     req "pos" (TUnion [TNum; TNull])]);
  (* docx-wasm/js/json/paragraph.ts:34 *)
  ("CustomTabStopType",
   TUnion [TLit "bar"; TLit "center"; TLit "clear"; TLit "decimal"; TLit "end"; TLit "right"; TLit "num"; TLit "start"; TLit "left"]);
  (* docx-wasm/js/json/paragraph.ts:134 *)
  ("DeleteChildJSON",
   TUnion [TRef "RunJSON"; TRef "CommentRangeStartJSON"; TRef "CommentRangeEndJSON"]);
  (* docx-wasm/js/json/paragraph.ts:107 *)
  ("DeleteJSON",
   TObj [req "type" (TLit "delete");
     req "data" (TRef "DeleteJSONData")]);
  (* docx-wasm/js/json/paragraph.ts:107 *)
  ("DeleteJSONData",
   TObj [req "children" (TArr (TRef "DeleteChildJSON"));
     req "author" TStr;
     req "date" TStr]);
  (* docx-wasm/js/json/run.ts:109 *)
  ("DeleteTextJSON",
   TObj [req "type" (TLit "deleteText");
     req "data" (TObj [req "preserveSpace" TBool;
     req "text" TStr])]);
  (* docx-wasm/js/json/section-property.ts:16 *)
  ("DocGridJSON",
   TObj [req "gridType" (TRef "DocGridType");
     req "linePitch" (TUnion [TNum; TNull]);
     req "charSpace" (TUnion [TNum; TNull])]);
  (* docx-wasm/js/json/section-property.ts:7 *)
  ("DocGridType",
   TUnion [TLit "default"; TLit "lines"; TLit "linesAndChars"; TLit "snapToChars"]);
  (* docx-wasm/js/json/document.ts:7 *)
  ("DocumentChildJSON",
   TUnion [TRef "ParagraphJSON"; TRef "TableJSON"; TRef "CommentRangeStartJSON"; TRef "CommentRangeEndJSON"; TRef "BookmarkStartJSON"; TRef
     "BookmarkEndJSON"; TRef "StructuredTagJSON"]);
  (* docx-wasm/js/json/document.ts:16 *)
  ("DocumentJSON",
   TObj [req "children" (TArr (TRef "DocumentChildJSON"));
     req "sectionProperty" (TRef "SectionPropertyJSON");
     req "hasNumbering" TBool]);
  (* docx-wasm/js/json/drawing.ts:9 *)
  ("DrawingJSON",
   TObj [req "type" (TLit "drawing");
     req "data" (TUnion [TObj [req "type" (TLit "pic");
     req "data" (TRef "DrawingPic")]; TObj [req "type" (TLit "textBox");
     req "data" (TObj [req "children" (TArr (TUnion [TRef "ParagraphJSON"; TRef "TableJSON"]))])]])]);
  (* docx-wasm/js/json/drawing.ts:5 *)
  ("DrawingPic",
   TObj [req "id" TStr;
     req "image" TStr;
     req "size" (TTuple [TNum; TNum]);
     req "positionType" (TRef "DrawingPositionType");
     req "simplePos" TBool;
     req "simplePosX" TNum;
     req "simplePosY" TNum;
     req "layoutInCell" TBool;
     req "relativeHeight" TNum;
     req "allowOverlap" TBool;
     req "positionH" (TRef "DrawingPosition");
     req "positionV" (TRef "DrawingPosition");
     req "relativeFromH" (TRef "RelativeFromHType");
     req "relativeFromV" (TRef "RelativeFromVType");
     req "distT" TNum;
     req "distB" TNum;
     req "distL" TNum;
     req "distR" TNum;
     req "rot" TNum]);
  (* docx-wasm/js/json/bindings/DrawingPosition.ts:4 *)
  ("DrawingPosition",
   TUnion [TObj [req "offset" TNum]; TObj [req "align" (TRef "PicAlign")]]);
  (* docx-wasm/js/json/bindings/DrawingPositionType.ts:3 *)
  ("DrawingPositionType",
   TUnion [TLit "anchor"; TLit "inline"]);
  (* docx-wasm/js/json/bindings/FieldChar.ts:4 *)
  ("FieldChar",
   TObj [req "fieldCharType" (TRef "FieldCharType");
     req "dirty" TBool]);
  (* docx-wasm/js/json/run.ts:140 *)
  ("FieldCharJSON",
   TObj [req "type" (TLit "fieldChar");
     req "data" (TRef "FieldChar")]);
  (* docx-wasm/js/json/bindings/FieldCharType.ts:3 *)
  ("FieldCharType",
   TUnion [TLit "begin"; TLit "separate"; TLit "end"; TLit "unsupported"]);
  (* docx-wasm/js/json/run.ts:38 *)
  ("FitTextJSON",
   TObj [req "val" TNum;
     opt "id" TNum]);
  (* docx-wasm/js/json/footer.ts:5 *)
  ("FooterJSON",
   TTuple [TStr; TObj [req "children" (TArr (TUnion [TRef "ParagraphJSON"; TRef "TableJSON"; TRef "StructuredTagJSON"]))]]);
  (* docx-wasm/js/json/footer.ts:12 *)
  ("FooterReferenceJSON",
   TObj [req "footerType" TStr;
     req "id" TStr]);
  (* docx-wasm/js/json/bindings/FrameProperty.ts:3 *)
  ("FrameProperty",
   TObj [req "h" (TUnion [TNum; TNull]);
     req "hRule" (TUnion [TStr; TNull]);
     req "hAnchor" (TUnion [TStr; TNull]);
     req "hSpace" (TUnion [TNum; TNull]);
     req "vAnchor" (TUnion [TStr; TNull]);
     req "vSpace" (TUnion [TNum; TNull]);
     req "w" (TUnion [TNum; TNull]);
     req "wrap" (TUnion [TStr; TNull]);
     req "x" (TUnion [TNum; TNull]);
     req "xAlign" (TUnion [TStr; TNull]);
     req "y" (TUnion [TNum; TNull]);
     req "yAlign" (TUnion [TStr; TNull])]);
  (* docx-wasm/js/json/header.ts:5 *)
  ("HeaderJSON",
   TTuple [TStr; TObj [req "children" (TArr (TUnion [TRef "ParagraphJSON"; TRef "TableJSON"; TRef "StructuredTagJSON"]))]]);
  (* docx-wasm/js/json/header.ts:10 *)
  ("HeaderReferenceJSON",
   TObj [req "headerType" TStr;
     req "id" TStr]);
  (* docx-wasm/js/table-row.ts:3 *)
  ("HeightRule",
   TUnion [TLit "auto"; TLit "atLeast"; TLit "exact"]);
  (* docx-wasm/js/json/paragraph.ts:25 *)
  ("HyperlinkChildJSON",
   TUnion [TRef "RunJSON"; TRef "InsertJSON"; TRef "DeleteJSON"; TRef "CommentRangeStartJSON"; TRef "CommentRangeEndJSON"; TRef "BookmarkStartJSON"; TRef
     "BookmarkEndJSON"]);
  (* docx-wasm/js/json/paragraph.ts:118 *)
  ("HyperlinkJSON",
   TObj [req "type" (TLit "hyperlink");
     req "data" (TUnion [TObj [req "type" (TLit "external");
     req "rid" TStr;
     req "children" (TArr (TRef "HyperlinkChildJSON"));
     req "history" (TUnion [TNum; TNull])]; TObj [req "type" (TLit "anchor");
     req "anchor" TStr;
     req "children" (TArr (TRef "HyperlinkChildJSON"))]])]);
  (* docx-wasm/js/json/bindings/ImageData.ts:3 *)
  ("ImageData",
   TObj [req "id" TStr]);
  (* docx-wasm/js/json/indent.ts:1 *)
  ("IndentJSON",
   TObj [req "start" (TUnion [TNum; TNull]);
     req "end" (TUnion [TNum; TNull]);
     req "specialIndent" (TUnion [TObj [req "type" (TUnion [TLit "firstLine"; TLit "hanging"]);
     req "val" TNum]; TNull]);
     req "startChars" (TUnion [TNum; TNull]);
     req "hangingChars" (TUnion [TNum; TNull]);
     req "firstLineChars" (TUnion [TNum; TNull])]);
  (* docx-wasm/js/json/paragraph.ts:91 *)
  ("InsertJSON",
   TObj [req "type" (TLit "insert");
     req "data" (TRef "InsertJSONData")]);
  (* docx-wasm/js/json/paragraph.ts:91 *)
  ("InsertJSONData",
   TObj [req "children" (TArr (TUnion [TRef "DeleteJSON"; TRef "RunJSON"; TRef "CommentRangeStartJSON"; TRef "CommentRangeEndJSON"]));
     req "author" TStr;
     req "date" TStr]);
  (* docx-wasm/js/json/run.ts:158 *)
  ("InstrTextStringJSON",
   TObj [req "type" (TLit "instrTextString");
     req "data" TStr]);
  (* docx-wasm/js/json/line_spacing.ts:1 *)
  ("LineSpacingJSON",
   TObj [opt "before" (TUnion [TNum; TNull]);
     opt "after" (TUnion [TNum; TNull]);
     opt "beforeLines" (TUnion [TNum; TNull]);
     opt "afterLines" (TUnion [TNum; TNull]);
     opt "line" (TUnion [TNum; TNull]);
     opt "lineRule" (TUnion [TLit "atLeast"; TLit "auto"; TLit "exact"; TNull])]);
  (* docx-wasm/js/json/paragraph.ts:51 *)
  ("NumberingPropertyJSON",
   TObj [req "id" (TUnion [TNum; TNull]);
     req "level" (TUnion [TNum; TNull])]);
  (* docx-wasm/js/json/bindings/PageNumType.ts:3 *)
  ("PageNumType",
   TObj [req "start" (TUnion [TNum; TNull]);
     req "chapStyle" (TUnion [TStr; TNull])]);
  (* docx-wasm/js/json/paragraph.ts:15 *)
  ("ParagraphChildJSON",
   TUnion [TRef "RunJSON"; TRef "InsertJSON"; TRef "DeleteJSON"; TRef "HyperlinkJSON"; TRef "CommentRangeStartJSON"; TRef "CommentRangeEndJSON"; TRef
     "BookmarkStartJSON"; TRef "BookmarkEndJSON"]);
  (* docx-wasm/js/json/paragraph.ts:82 *)
  ("ParagraphJSON",
   TObj [req "type" (TLit "paragraph");
     req "data" (TObj [req "id" TStr;
     req "property" (TRef "ParagraphPropertyJSON");
     req "children" (TArr (TRef "ParagraphChildJSON"))])]);
  (* docx-wasm/js/json/paragraph.ts:56 *)
  ("ParagraphPropertyJSON",
   TObj [req "runProperty" (TRef "RunPropertyJSON");
     opt "style" (TUnion [TStr; TNull]);
     opt "numberingProperty" (TUnion [TRef "NumberingPropertyJSON"; TNull]);
     opt "alignment" (TRef "AlignmentType");
     opt "textAlignment" (TRef "TextAlignmentType");
     opt "adjustRightInd" TNum;
     opt "indent" (TUnion [TRef "IndentJSON"; TNull]);
     opt "lineSpacing" (TUnion [TRef "LineSpacingJSON"; TNull]);
     opt "divId" (TUnion [TStr; TNull]);
     opt "keepNext" TBool;
     opt "keepLines" TBool;
     opt "snapToGrid" TBool;
     opt "pageBreakBefore" TBool;
     opt "widowControl" TBool;
     opt "outlineLvl" (TUnion [TNum; TNull]);
     opt "paragraphPropertyChange" (TObj [req "author" TStr;
     req "date" TStr;
     req "property" (TRef "ParagraphPropertyJSON")]);
     opt "sectionProperty" (TRef "SectionPropertyJSON");
     req "tabs" (TArr (TRef "CustomTabStopJSON"));
     opt "frameProperty" (TRef "FrameProperty")]);
  (* docx-wasm/js/json/bindings/PicAlign.ts:3 *)
  ("PicAlign",
   TUnion [TLit "left"; TLit "right"; TLit "center"; TLit "bottom"; TLit "top"]);
  (* docx-wasm/js/json/bindings/PositionalTabAlignmentType.ts:3 *)
  ("PositionalTabAlignmentType",
   TUnion [TLit "center"; TLit "left"; TLit "right"]);
  (* docx-wasm/js/json/bindings/PositionalTabRelativeTo.ts:3 *)
  ("PositionalTabRelativeTo",
   TUnion [TLit "indent"; TLit "margin"]);
  (* docx-wasm/js/json/run.ts:92 *)
  ("PtabJSON",
   TObj [req "type" (TLit "ptab");
     req "data" (TObj [req "alignment" (TRef "PositionalTabAlignmentType");
     req "relativeTo" (TRef "PositionalTabRelativeTo");
     req "leader" (TRef "TabLeaderType")])]);
  (* docx-wasm/js/json/bindings/RelativeFromHType.ts:3 *)
  ("RelativeFromHType",
   TUnion [TLit "character"; TLit "column"; TLit "insideMargin"; TLit "leftMargin"; TLit "margin"; TLit "outsizeMargin"; TLit "page"; TLit "rightMargin"]);
  (* docx-wasm/js/json/bindings/RelativeFromVType.ts:3 *)
  ("RelativeFromVType",
   TUnion [TLit "bottomMargin"; TLit "insideMargin"; TLit "line"; TLit "margin"; TLit "outsizeMargin"; TLit "page"; TLit "paragraph"; TLit "topMargin"]);
  (* docx-wasm/js/json/run.ts:69 *)
  ("RunChildJSON",
   TUnion [TRef "TextJSON"; TRef "SymJSON"; TRef "DeleteTextJSON"; TRef "TabJSON"; TRef "CarriageReturnJSON"; TRef "BreakJSON"; TRef "DrawingJSON"; TRef
     "PtabJSON"; TRef "ShapeJSON"; TRef "CommentRangeStartJSON"; TRef "CommentRangeEndJSON"; TRef "FieldCharJSON"; TRef "InstrTextStringJSON"]);
  (* docx-wasm/js/json/run.ts:26 *)
  ("RunFontsJSON",
   TObj [opt "ascii" TStr;
     opt "hiAnsi" TStr;
     opt "eastAsia" TStr;
     opt "cs" TStr;
     opt "asciiTheme" TStr;
     opt "hiAnsiTheme" TStr;
     opt "eastAsiaTheme" TStr;
     opt "csTheme" TStr;
     opt "hint" TStr]);
  (* docx-wasm/js/json/run.ts:132 *)
  ("RunJSON",
   TObj [req "type" (TLit "run");
     req "data" (TObj [req "runProperty" (TRef "RunPropertyJSON");
     req "children" (TArr (TRef "RunChildJSON"))])]);
  (* docx-wasm/js/json/run.ts:43 *)
  ("RunPropertyJSON",
   TObj [opt "style" (TUnion [TStr; TNull]);
     opt "sz" (TUnion [TNum; TNull]);
     opt "szCs" (TUnion [TNum; TNull]);
     opt "fonts" (TUnion [TRef "RunFontsJSON"; TNull]);
     opt "color" (TUnion [TStr; TNull]);
     opt "highlight" (TUnion [TStr; TNull]);
     opt "vertAlign" (TUnion [TRef "VertAlignType"; TNull]);
     opt "underline" (TUnion [TStr; TNull]);
     opt "bold" (TUnion [TBool; TNull]);
     opt "boldCs" (TUnion [TBool; TNull]);
     opt "caps" (TUnion [TBool; TNull]);
     opt "italic" (TUnion [TBool; TNull]);
     opt "italicCs" (TUnion [TBool; TNull]);
     opt "vanish" (TUnion [TBool; TNull]);
     opt "specVanish" (TUnion [TBool; TNull]);
     opt "characterSpacing" (TUnion [TNum; TNull]);
     opt "fitText" (TUnion [TRef "FitTextJSON"; TNull]);
     opt "textBorder" (TUnion [TRef "TextBorderJSON"; TNull]);
     opt "ins" (TUnion [TRef "InsertJSONData"; TNull]);
     opt "del" (TUnion [TRef "DeleteJSONData"; TNull]);
     opt "strike" TBool;
     opt "dstrike" TBool;
     opt "shading" (TUnion [TRef "ShadingJSON"; TNull])]);
  (* docx-wasm/js/json/section-property.ts:22 *)
  ("SectionPropertyJSON",
   TObj [req "pageSize" (TObj [req "w" TNum;
     req "h" TNum]);
     req "pageMargin" (TObj [req "top" TNum;
     req "left" TNum;
     req "bottom" TNum;
     req "right" TNum;
     req "header" TNum;
     req "footer" TNum;
     req "gutter" TNum]);
     req "columns" TNum;
     opt "docGrid" (TRef "DocGridJSON");
     opt "sectionType" (TRef "SectionType");
     opt "titlePg" TBool;
     opt "headerReference" (TRef "HeaderReferenceJSON");
     opt "header" (TRef "HeaderJSON");
     opt "firstHeaderReference" (TRef "HeaderReferenceJSON");
     opt "firstHeader" (TRef "HeaderJSON");
     opt "evenHeaderReference" (TRef "HeaderReferenceJSON");
     opt "evenHeader" (TRef "HeaderJSON");
     opt "footerReference" (TRef "FooterReferenceJSON");
     opt "footer" (TRef "FooterJSON");
     opt "firstFooterReference" (TRef "FooterReferenceJSON");
     opt "firstFooter" (TRef "FooterJSON");
     opt "evenFooterReference" (TRef "FooterReferenceJSON");
     opt "evenFooter" (TRef "FooterJSON");
     opt "pageNumType" (TRef "PageNumType")]);
  (* docx-wasm/js/json/section-property.ts:9 *)
  ("SectionType",
   TUnion [TLit "nextPage"; TLit "nextColumn"; TLit "continuous"; TLit "evenPage"; TLit "oddPage"]);
  (* docx-wasm/js/json/shading.ts:1 *)
  ("ShadingJSON",
   TObj [req "shdType" TStr;
     req "color" TStr;
     req "fill" TStr]);
  (* docx-wasm/js/json/bindings/Shape.ts:4 *)
  ("Shape",
   TObj [req "style" (TUnion [TStr; TNull]);
     req "imageData" (TUnion [TRef "ImageData"; TNull])]);
  (* docx-wasm/js/json/shape.ts:3 *)
  ("ShapeJSON",
   TObj [req "type" (TLit "shape");
     req "data" (TRef "Shape")]);
  (* docx-wasm/js/json/structured-data-tag.ts:17 *)
  ("StructuredDataTagChildJSON",
   TUnion [TRef "ParagraphJSON"; TRef "TableJSON"; TRef "CommentRangeStartJSON"; TRef "CommentRangeEndJSON"; TRef "BookmarkStartJSON"; TRef
     "BookmarkEndJSON"]);
  (* docx-wasm/js/json/structured-data-tag.ts:10 *)
  ("StructuredTagJSON",
   TObj [req "type" (TLit "structuredDataTag");
     req "data" (TObj [req "children" (TArr (TRef "StructuredDataTagChildJSON"))])]);
  (* docx-wasm/js/json/run.ts:101 *)
  ("SymJSON",
   TObj [req "type" (TLit "sym");
     req "data" (TObj [req "font" TStr;
     req "char" TStr])]);
  (* docx-wasm/js/json/run.ts:117 *)
  ("TabJSON",
   TObj [req "type" (TLit "tab")]);
  (* docx-wasm/js/json/bindings/TabLeaderType.ts:3 *)
  ("TabLeaderType",
   TUnion [TLit "dot"; TLit "heavy"; TLit "hyphen"; TLit "middleDot"; TLit "none"; TLit "underscore"]);
  (* docx-wasm/js/json/bindings/TableCellBorder.ts:5 *)
  ("TableCellBorder",
   TObj [req "borderType" (TRef "BorderType");
     req "size" TNum;
     req "color" TStr;
     req "position" (TRef "TableCellBorderPosition");
     req "space" TNum]);
  (* docx-wasm/js/json/bindings/TableCellBorderPosition.ts:3 *)
  ("TableCellBorderPosition",
   TUnion [TLit "left"; TLit "right"; TLit "top"; TLit "bottom"; TLit "insideH"; TLit "insideV"; TLit "tl2br"; TLit "tr2bl"]);
  (* docx-wasm/js/json/bindings/TableCellBorders.ts:4 *)
  ("TableCellBorders",
   TObj [req "top" (TUnion [TRef "TableCellBorder"; TNull]);
     req "left" (TUnion [TRef "TableCellBorder"; TNull]);
     req "bottom" (TUnion [TRef "TableCellBorder"; TNull]);
     req "right" (TUnion [TRef "TableCellBorder"; TNull]);
     req "insideH" (TUnion [TRef "TableCellBorder"; TNull]);
     req "insideV" (TUnion [TRef "TableCellBorder"; TNull]);
     req "tr2bl" (TUnion [TRef "TableCellBorder"; TNull]);
     req "tl2br" (TUnion [TRef "TableCellBorder"; TNull])]);
  (* docx-wasm/js/json/table.ts:17 *)
  ("TableCellChildJSON",
   TUnion [TRef "ParagraphJSON"; TRef "TableJSON"; TRef "StructuredTagJSON"]);
  (* docx-wasm/js/json/table.ts:50 *)
  ("TableCellJSON",
   TObj [req "type" (TLit "tableCell");
     req "data" (TObj [req "children" (TArr (TRef "TableCellChildJSON"));
     req "property" (TRef "TableCellPropertyJSON")])]);
  (* docx-wasm/js/json/table.ts:66 *)
  ("TableCellMarginJSON",
   TObj [req "val" TNum;
     req "widthType" (TRef "WidthType")]);
  (* docx-wasm/js/json/table.ts:68 *)
  ("TableCellMarginsJSON",
   TObj [req "top" (TRef "TableCellMarginJSON");
     req "left" (TRef "TableCellMarginJSON");
     req "bottom" (TRef "TableCellMarginJSON");
     req "right" (TRef "TableCellMarginJSON")]);
  (* docx-wasm/js/json/table.ts:25 *)
  ("TableCellPropertyJSON",
   TObj [req "width" (TUnion [TObj [req "width" TNum;
     req "widthType" (TRef "WidthType")]; TNull]);
     req "borders" (TUnion [TRef "TableCellBorders"; TNull]);
     req "gridSpan" (TUnion [TNum; TNull]);
     req "verticalMerge" (TUnion [TLit "restart"; TLit "continue"; TNull]);
     req "verticalAlign" (TUnion [TLit "top"; TLit "center"; TLit "bottom"; TNull]);
     req "textDirection" (TUnion [TRef "TextDirectionType"; TNull]);
     req "shading" (TUnion [TRef "ShadingJSON"; TNull]);
     opt "margins" (TRef "CellMarginsJSON")]);
  (* docx-wasm/js/json/table.ts:106 *)
  ("TableJSON",
   TObj [req "type" (TLit "table");
     req "data" (TObj [req "rows" (TArr (TRef "TableRowJSON"));
     req "grid" (TArr TNum);
     req "hasNumbering" TBool;
     req "property" (TRef "TablePropertyJSON")])]);
  (* docx-wasm/js/table.ts:11 *)
  ("TableLayoutType",
   TUnion [TLit "fixed"; TLit "autofit"]);
  (* docx-wasm/js/json/bindings/TablePositionProperty.ts:6 *)
  ("TablePositionProperty",
   TObj [req "leftFromText" (TUnion [TNum; TNull]);
     req "rightFromText" (TUnion [TNum; TNull]);
     req "verticalAnchor" (TUnion [TStr; TNull]);
     req "horizontalAnchor" (TUnion [TStr; TNull]);
     req "positionXAlignment" (TUnion [TStr; TNull]);
     req "positionYAlignment" (TUnion [TStr; TNull]);
     req "positionX" (TUnion [TNum; TNull]);
     req "positionY" (TUnion [TNum; TNull])]);
  (* docx-wasm/js/json/table.ts:82 *)
  ("TablePropertyJSON",
   TObj [req "width" (TUnion [TObj [req "width" TNum;
     req "widthType" (TRef "WidthType")]; TNull]);
     req "justification" (TUnion [TLit "left"; TLit "center"; TLit "right"]);
     opt "borders" (TUnion [TObj [opt "top" (TUnion [TRef "BorderJSON"; TNull]);
     opt "left" (TUnion [TRef "BorderJSON"; TNull]);
     opt "bottom" (TUnion [TRef "BorderJSON"; TNull]);
     opt "right" (TUnion [TRef "BorderJSON"; TNull]);
     opt "insideH" (TUnion [TRef "BorderJSON"; TNull]);
     opt "insideV" (TUnion [TRef "BorderJSON"; TNull])]; TNull]);
     opt "margins" (TUnion [TRef "TableCellMarginsJSON"; TNull]);
     opt "indent" (TUnion [TObj [req "width" TNum;
     req "widthType" (TRef "WidthType")]; TNull]);
     opt "style" (TUnion [TStr; TNull]);
     opt "layout" (TUnion [TRef "TableLayoutType"; TNull]);
     opt "position" (TRef "TablePositionProperty")]);
  (* docx-wasm/js/json/table.ts:58 *)
  ("TableRowJSON",
   TObj [req "type" (TLit "tableRow");
     req "data" (TObj [req "cells" (TArr (TRef "TableCellJSON"));
     req "property" (TRef "TableRowPropertyJSON")])]);
  (* docx-wasm/js/json/table.ts:39 *)
  ("TableRowPropertyJSON",
   TObj [req "gridAfter" (TUnion [TNum; TNull]);
     req "gridBefore" (TUnion [TNum; TNull]);
     req "rowHeight" (TUnion [TNum; TNull]);
     req "heightRule" (TUnion [TRef "HeightRule"; TNull]);
     req "widthAfter" (TUnion [TNum; TNull]);
     req "widthBefore" (TUnion [TNum; TNull]);
     opt "del" (TRef "DeleteJSONData");
     opt "ins" (TRef "InsertJSONData")]);
  (* docx-wasm/js/json/bindings/TextAlignmentType.ts:3 *)
  ("TextAlignmentType",
   TUnion [TLit "auto"; TLit "baseline"; TLit "bottom"; TLit "center"; TLit "top"]);
  (* docx-wasm/js/json/run.ts:19 *)
  ("TextBorderJSON",
   TObj [req "borderType" (TRef "BorderType");
     req "size" TNum;
     req "space" TNum;
     req "color" TStr]);
  (* docx-wasm/js/table-cell.ts:16 *)
  ("TextDirectionType",
   TUnion [TLit "lr"; TLit "lrV"; TLit "rl"; TLit "rlV"; TLit "tb"; TLit "tbV"; TLit "tbRlV"; TLit "tbRl"; TLit "btLr"; TLit "lrTbV"]);
  (* docx-wasm/js/json/run.ts:84 *)
  ("TextJSON",
   TObj [req "type" (TLit "text");
     req "data" (TObj [req "preserveSpace" TBool;
     req "text" TStr])]);
  (* docx-wasm/js/run-property.ts:18 *)
  ("VertAlignType",
   TUnion [TLit "baseline"; TLit "superscript"; TLit "subscript"]);
  (* docx-wasm/js/json/table.ts:19 *)
  ("WidthType",
   TUnion [TLit "dxa"; TLit "auto"; TLit "pct"; TLit "nil"]);
  (* docx-wasm/js/style.ts:28 *)
  ("StyleType",
   TUnion [TLit "paragraph"; TLit "character"; TLit "numbering"; TLit "table"]);
  (* docx-wasm/js/json/styles.ts:7 *)
  ("StyleJSON",
   TObj [req "styleId" TStr;
     req "name" TStr;
     req "styleType" (TRef "StyleType");
     req "runProperty" (TRef "RunPropertyJSON");
     req "paragraphProperty" (TRef "ParagraphPropertyJSON");
     req "tableProperty" (TRef "TablePropertyJSON");
     req "tableCellProperty" (TRef "TableCellPropertyJSON");
     req "basedOn" (TUnion [TStr; TNull]);
     opt "link" (TUnion [TStr; TNull]);
     opt "next" (TUnion [TStr; TNull])]);
  (* docx-wasm/js/json/styles.ts:20 *)
  ("StylesJSON",
   TObj [req "docDefaults" (TObj [req "runPropertyDefault" (TObj [req "runProperty" (TRef "RunPropertyJSON")]);
     req "paragraphPropertyDefault" (TObj [req "paragraphProperty" (TRef "ParagraphPropertyJSON")])]);
     req "styles" (TArr (TRef "StyleJSON"))]);
  (* docx-wasm/js/json/numbering.ts:4 *)
  ("LevelJSON",
   TObj [req "level" TNum;
     req "start" TNum;
     req "format" TStr;
     req "text" TStr;
     req "jc" TStr;
     req "suffix" (TUnion [TLit "tab"; TLit "nothing"; TLit "space"]);
     req "paragraphProperty" (TRef "ParagraphPropertyJSON");
     req "runProperty" (TRef "RunPropertyJSON");
     req "pstyle" (TUnion [TStr; TNull]);
     req "levelRestart" (TUnion [TNum; TNull]);
     opt "isLgl" (TUnion [TBool; TNull])]);
  (* docx-wasm/js/json/numbering.ts:18 *)
  ("AbstractNumberingJSON",
   TObj [req "id" TNum;
     req "levels" (TArr (TRef "LevelJSON"));
     req "numStyleLink" (TUnion [TStr; TNull]);
     req "styleLink" (TUnion [TStr; TNull])]);
  (* docx-wasm/js/json/numbering.ts:25 *)
  ("NumberingJSON",
   TObj [req "id" TNum;
     req "abstractNumId" TNum;
     req "levelOverrides" (TArr (TRef "LevelOverrideJSON"))]);
  (* docx-wasm/js/json/numbering.ts:31 *)
  ("LevelOverrideJSON",
   TObj [req "level" TNum;
     req "overrideStart" (TUnion [TNum; TNull]);
     req "overrideLevel" (TUnion [TRef "LevelJSON"; TNull])]);
  (* docx-wasm/js/json/numbering.ts:37 *)
  ("NumberingsJSON",
   TObj [req "abstractNums" (TArr (TRef "AbstractNumberingJSON"));
     req "numberings" (TArr (TRef "NumberingJSON"))]);
  (* docx-wasm/js/settings.ts:6 *)
  ("CharacterSpacingValues",
   TUnion [TLit "doNotCompress"; TLit "compressPunctuation"; TLit "compressPunctuationAndJapaneseKana"]);
  (* docx-wasm/js/json/index.ts:65 *)
  ("SettingsJSON",
   TObj [req "docId" (TUnion [TStr; TNull]);
     req "defaultTabStop" TNum;
     req "adjustLineHeightInTable" TBool;
     opt "characterSpacingControl" (TUnion [TRef "CharacterSpacingValues"; TNull]);
     req "evenAndOddHeaders" TBool;
     req "zoom" TNum;
     req "docVars" (TArr (TObj [req "name" TStr; req "val" TStr]))]);
  (* docx-wasm/js/json/web-settings.ts:1 *)
  ("WebSettingsJSON",
   TObj [req "divs" (TArr (TRef "DivJSON"))]);
  (* docx-wasm/js/json/web-settings.ts:5 *)
  ("DivJSON",
   TObj [req "id" TStr;
     req "marginLeft" TNum;
     req "marginRight" TNum;
     req "marginTop" TNum;
     req "marginBottom" TNum;
     req "divsChild" (TArr (TRef "DivJSON"))]);
  (* docx-wasm/js/json/bindings/FontSchemeFont.ts:3 *)
  ("FontSchemeFont",
   TObj [req "script" TStr;
     req "typeface" TStr]);
  (* docx-wasm/js/json/bindings/FontGroup.ts:4 *)
  ("FontGroup",
   TObj [req "latin" TStr;
     req "ea" TStr;
     req "cs" TStr;
     req "fonts" (TArr (TRef "FontSchemeFont"))]);
  (* docx-wasm/js/json/bindings/FontScheme.ts:4 *)
  ("FontScheme",
   TObj [req "majorFont" (TRef "FontGroup");
     req "minorFont" (TRef "FontGroup")]);
  (* docx-wasm/js/json/bindings/Theme.ts:4 *)
  ("Theme",
   TObj [req "fontSchema" (TRef "FontScheme")])].
Fixpoint declaration (name : string) (l : list (string * ts)) : option ts :=
  match l with [] => None | (k, t) :: l => if k =s name then Some t else declaration name l end.

(** The member of an object with a name. *)
Fixpoint member_of (k : string) (l : list (string * json)) : option json :=
  match l with [] => None | (a, v) :: l => if a =s k then Some v else member_of k l end.
(** A type that [null] has. *)
Definition nullable (t : ts) : bool :=
  match t with
  | TNull | TAny => true
  | TUnion l => existsb (fun t => match t with TNull => true | _ => false end) l
  | _ => false
  end.
(** [has_type strict v t]: the value [v] has the type [t].  Objects may have further members.  A
    member that is not declared optional has to be there; if not [strict], one that may be
    [null] may be missing as well (most programs do not tell these apart). *)
Inductive has_type (strict : bool) : json -> ts -> Prop :=
| is_str s : has_type strict (JStr s) TStr
| is_num z : has_type strict (JNum z) TNum
| is_whole n : has_type strict (JWhole n) TNum
| is_bool b : has_type strict (JBool b) TBool
| is_null : has_type strict JNull TNull
| is_any v : has_type strict v TAny
| is_lit s : has_type strict (JStr s) (TLit s)
| is_arr l t : (forall v, In v l -> has_type strict v t) -> has_type strict (JArr l) (TArr t)
| is_tuple l ts : length l = length ts -> (forall v t, In (v, t) (combine l ts) -> has_type strict v t) -> has_type strict (JArr l) (TTuple ts)
| is_obj l fs :
    (forall k o t, In (k, o, t) fs -> member_of k l = None -> o || (negb strict && nullable t) = true) ->
    (forall k o t v, In (k, o, t) fs -> member_of k l = Some v -> has_type strict v t) -> has_type strict (JObj l) (TObj fs)
| is_union v t l : In t l -> has_type strict v t -> has_type strict v (TUnion l)
| is_ref v x t : declaration x declarations = Some t -> has_type strict v t -> has_type strict v (TRef x).

(** ** The documents whose JSON is as declared *)
(** Kinds of values and of children that are not in the declarations. *)
Definition width_ok (w : WidthType) : bool := match w with WidthType_Unsupported => false | _ => true end.
Definition all_set (strict : bool) (l : list bool) : bool := negb strict || forallb (fun b => b) l.
Definition set_ {A} (o : option A) : bool := match o with Some _ => true | None => false end.
Definition opt_ok {A} (f : A -> bool) (o : option A) : bool := match o with Some a => f a | None => true end.
Definition rpr_ok (p : rpr) : bool := opt_ok (fun v => match v with VertAlignType_Unsupported => false | _ => true end) (r_vert p).
Definition alignments : list string := ["both"; "center"; "distribute"; "start"; "end"; "left"; "right"; "justified"]%string.
Definition frame_ok (strict : bool) (f : framepr) : bool :=
  all_set strict [set_ (fr_h f); set_ (fr_h_rule f); set_ (fr_h_anchor f); set_ (fr_h_space f); set_ (fr_v_anchor f); set_ (fr_v_space f);
                  set_ (fr_w f); set_ (fr_wrap f); set_ (fr_x f); set_ (fr_x_align f); set_ (fr_y f); set_ (fr_y_align f)].
Definition sectpr_ok (strict : bool) (s : sectpr) : bool :=
  opt_ok (fun n => all_set strict [set_ (pn_start n); set_ (pn_chap_style n)]) (sp_page_num s).
Definition base_ok (strict : bool) (b : ppr_base) : bool :=
  rpr_ok (p_rpr b) && opt_ok (fun a => existsb (String.eqb a) alignments) (p_alignment b) && opt_ok (frame_ok strict) (p_frame b) &&
  opt_ok (sectpr_ok strict) (p_section b).
Fixpoint ppr_ok (strict : bool) (p : ppr) : bool :=
  match p with
  | PPr b None => base_ok strict b
  | PPr b (Some c) => base_ok strict b && change_ok strict c
  end
with change_ok (strict : bool) (c : ppr_change) : bool := match c with PChange _ _ q => ppr_ok strict q end.
Definition tmargins_ok (m : tmargins) : bool :=
  width_ok (snd (tm_top m)) && width_ok (snd (tm_left m)) && width_ok (snd (tm_bottom m)) && width_ok (snd (tm_right m)).
Definition tposition_ok (strict : bool) (p : tposition) : bool :=
  all_set strict [set_ (tp_left p); set_ (tp_right p); set_ (tp_vert_anchor p); set_ (tp_horz_anchor p); set_ (tp_x_spec p); set_ (tp_y_spec p);
                  set_ (tp_x p); set_ (tp_y p)].
Definition tblpr_ok (strict : bool) (p : tblpr) : bool :=
  width_ok (snd (tpr_width p)) && existsb (String.eqb (tpr_jc p)) ["left"; "center"; "right"]%string && opt_ok tmargins_ok (tpr_margins p) &&
  opt_ok (fun i : Z * WidthType => width_ok (snd i)) (tpr_indent p) && opt_ok (tposition_ok strict) (tpr_position p).
Definition trpr_ok (strict : bool) (p : trpr) : bool := all_set strict [set_ (tr_height p); set_ (tr_rule p)].
Definition side_ok (o : option width) : bool := match o with Some w => width_ok (snd w) | None => false end.
Definition tcpr_ok (p : tcpr) : bool :=
  opt_ok (fun w : width => width_ok (snd w)) (tc_width p) &&
  opt_ok (fun v => match v with VMergeType_Unsupported => false | _ => true end) (tc_vmerge p) &&
  opt_ok (fun v => match v with VAlignType_Unsupported => false | _ => true end) (tc_valign p) &&
  opt_ok (fun m => side_ok (cm_top m) && side_ok (cm_left m) && side_ok (cm_bottom m) && side_ok (cm_right m)) (tc_margins p).
(** Where a node stands, and what may stand there. *)
Inductive spot := AtDocument | AtPara | AtLink | AtIns | AtDel | AtRun | AtTag | AtCell | AtRow | AtTable | AtBlock.
Definition allowed (s : spot) (n : node) : bool :=
  match s, n with
  | AtDocument, (NPara _ _ _ _ | NTable _ _ _ _ | NCommentStart _ _ | NCommentEnd _ | NBookmarkStart _ _ | NBookmarkEnd _ | NSdt _ _ _) => true
  | AtPara, (NRun _ _ | NIns _ _ | NDel _ _ | NLink _ _ _ | NCommentStart _ _ | NCommentEnd _ | NBookmarkStart _ _ | NBookmarkEnd _) => true
  | AtLink, (NRun _ _ | NIns _ _ | NDel _ _ | NCommentStart _ _ | NCommentEnd _ | NBookmarkStart _ _ | NBookmarkEnd _) => true
  | AtIns, (NDel _ _ | NRun _ _ | NCommentStart _ _ | NCommentEnd _) => true
  | AtDel, (NRun _ _ | NCommentStart _ _ | NCommentEnd _) => true
  | AtRun, (NText _ | NSym _ _ | NDelText _ | NTab | NCr | NBreak _ | NTextBox _ | NPTab _ | NCommentStart _ _ | NCommentEnd _ | NFieldChar _ _
           | NInstrString _) => true
  | AtTag, (NPara _ _ _ _ | NTable _ _ _ _ | NCommentStart _ _ | NCommentEnd _ | NBookmarkStart _ _ | NBookmarkEnd _) => true
  | AtCell, (NPara _ _ _ _ | NTable _ _ _ _ | NSdt _ _ _) => true
  | AtRow, NCell _ _ _ => true
  | AtTable, NRow _ _ _ => true
  | AtBlock, (NPara _ _ _ _ | NTable _ _ _ _) => true
  | _, _ => false
  end.
Fixpoint as_declared (strict : bool) (s : spot) (n : node) : bool :=
  allowed s n &&
  match n with
  | NRun p ch => rpr_ok p && forallb (as_declared strict AtRun) ch
  | NBreak t => match t with BreakType_Unsupported => false | _ => true end
  | NTextBox ch | NCommentStart _ ch => forallb (as_declared strict AtBlock) ch
  | NIns _ ch => forallb (as_declared strict AtIns) ch
  | NDel _ ch => forallb (as_declared strict AtDel) ch
  | NLink _ _ ch => forallb (as_declared strict AtLink) ch
  | NSdt _ _ ch => forallb (as_declared strict AtTag) ch
  | NPara _ p _ ch => ppr_ok strict p && forallb (as_declared strict AtPara) ch
  | NTable p _ _ ch => tblpr_ok strict p && forallb (as_declared strict AtTable) ch
  | NRow p _ ch => trpr_ok strict p && forallb (as_declared strict AtRow) ch
  | NCell p _ ch => tcpr_ok p && forallb (as_declared strict AtCell) ch
  | _ => true
  end.
Definition part_as_declared (strict : bool) (n : node) : bool :=
  match n with NPart _ _ _ ch => forallb (as_declared strict AtCell) ch | _ => true end.

(** Model of the public calls that take a string and store it in the document, a
    header, a footer or a comment: what is stored, and where it is written.  Setters
    of [Run], [Paragraph], [Table] and [Section] that only hand the string on to one
    listed here are not listed again. *)
From Coq Require Import List Bool.
From Verif Require Import Str TypesModel Props Ast EscapeModel InstrModel WellSpec.
Import ListNotations.

(** [Run::add_text] run.rs:166-170 with [Text::new] text.rs:17-22, [Run::add_delete_text]
    run.rs:179-184 with [DeleteText::new] delete_text.rs:16-21 *)
Definition text_new (s : string) : node := NText (escape_owned s).
Definition delete_text_new (s : string) : node := NDelText (escape_owned s).
Definition add_text (s : string) (n : node) : node :=
  match n with NRun r ch => NRun r (ch ++ [text_new (one_line s)]) | _ => n end.
Definition add_delete_text (s : string) (n : node) : node :=
  match n with NRun r ch => NRun r (ch ++ [delete_text_new (one_line s)]) | _ => n end.
(** [Run::add_text_without_escape] and [Run::add_delete_text_without_escape] run.rs:172-177, 186-192:
    only used while reading. *)
Definition add_text_without_escape (s : string) (n : node) : node :=
  match n with NRun r ch => NRun r (ch ++ [NText (one_line s)]) | _ => n end.

Inductive setter :=
| Run_add_text | Run_add_delete_text                                  (* run.rs:166, 179 *)
| Insert_author | Delete_author | MoveFrom_author | MoveTo_author     (* insert.rs:133, delete.rs:87, move_from.rs:86, move_to.rs:126 *)
| ParagraphPropertyChange_author | TableOfContents_delete_author      (* paragraph_property_change.rs:38, table_of_contents.rs:106 *)
| RunStyle_new | ParagraphStyle_new                                   (* run_style.rs:22, paragraph_style.rs:28 *)
| RunFonts_any                                                        (* run_fonts.rs:44-87, nine setters *)
| InstrTC_new                                                         (* instr_tc.rs:21 *)
| Insert_date | Delete_date | MoveFrom_date | MoveTo_date             (* insert.rs:138, delete.rs:92, move_from.rs:91, move_to.rs:131 *)
| ParagraphPropertyChange_date | TableOfContents_delete_date          (* paragraph_property_change.rs:43, table_of_contents.rs:106 *)
| Paragraph_id | BookmarkStart_new | Hyperlink_new_anchor             (* paragraph.rs:163, bookmark_start.rs:14, hyperlink.rs:35 *)
| Color_new | Color_theme_shade | Color_theme_tint                    (* color.rs:40, 59, 65 *)
| Highlight_new | Underline_new | TextBorder_color                    (* highlight.rs:13, underline.rs:13, text_border.rs:22 *)
| Shading_color | Shading_fill | Sym_font | Sym_char                  (* shading.rs:32, 37, sym.rs:16 *)
| Justification_new | ParagraphBorder_color                           (* justification.rs:21, paragraph_borders.rs:53 *)
| FrameProperty_wrap | FrameProperty_v_anchor | FrameProperty_h_anchor (* frame_property.rs:62, 67, 72 *)
| FrameProperty_h_rule | FrameProperty_x_align | FrameProperty_y_align (* frame_property.rs:77, 82, 87 *)
| PageNumType_chap_style                                              (* page_num_type.rs:29 *)
| TableStyle_new | TableBorder_color | TableCellBorder_color          (* table_style.rs:13, table_borders.rs:41, table_cell_borders.rs:43 *)
| TablePosition_vertical_anchor | TablePosition_horizontal_anchor     (* table_position_property.rs:45, 50 *)
| TablePosition_x_alignment | TablePosition_y_alignment               (* table_position_property.rs:55, 60 *)
| StructuredDataTag_alias | TableOfContents_alias                     (* structured_data_tag_property.rs:37, table_of_contents.rs:101 *)
| DataBinding_xpath | DataBinding_prefix_mappings | DataBinding_store_item_id (* data_binding.rs:19, 24, 29 *)
| Pic_id | Comment_author | Comment_date                              (* pic.rs:128, comment.rs:66, 71 *)
| InstrTC_item_type_identifier | InstrPAGEREF_new                     (* instr_tc.rs:38, instr_pageref.rs:17 *)
| TableOfContentsItem_toc_key.                                        (* table_of_contents_item.rs:41 *)

(** The string as it stands in the part.  A field instruction is written whole. *)
Definition piece_of (c : setter) (s : string) : piece :=
  match c with
  | Run_add_text | Run_add_delete_text => Content (escape_owned (one_line s))
  | Insert_author | Delete_author | MoveFrom_author | MoveTo_author | ParagraphPropertyChange_author
  | TableOfContents_delete_author | RunStyle_new | ParagraphStyle_new | RunFonts_any => Value (escape_owned s)
  | InstrTC_new => Content (print_tc (tc_new s))
  | InstrTC_item_type_identifier =>
      Content (print_tc {| tc_text := ""; tc_omit := false; tc_level := None; tc_item := Some s |})
  | InstrPAGEREF_new | TableOfContentsItem_toc_key => Content (print_pageref s false false)
  | _ => Value s
  end.

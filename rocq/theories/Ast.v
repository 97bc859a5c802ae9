(** The document tree.  The Rust structs are merged into one type [node] whose
    only nesting is [list node]; which kinds may occur below which is fixed in
    Rust by the child enums and stated here by [well_formed]. *)
From Coq Require Import NArith ZArith List Bool.
From Verif Require Import Str TypesModel Props.
Import ListNotations.

(** Slot of a header or footer in a section property
    (elements/section_property.rs:22-45). *)
Inductive slot := HDefault | HFirst | HEven | FDefault | FFirst | FEven.

Inductive node :=
(* run and its children, elements/run.rs:12-15, 28-47 *)
| NRun (p : rpr) (ch : list node)
| NText (s : string)                       (* elements/text.rs:10-13, stored text *)
| NDelText (s : string)                    (* elements/delete_text.rs *)
| NSym (font char : string)
| NTab
| NPTab (t : ptab)
| NBreak (t : BreakType)
| NCr
| NPic (p : pic)                           (* Drawing with DrawingData::Pic, drawing.rs:16-19 *)
| NTextBox (ch : list node)                (* Drawing with DrawingData::TextBox, text_box.rs:8-42; geometry not modelled *)
| NNoDrawing                               (* Drawing without data *)
| NShape                                   (* elements/shape.rs, contents not modelled *)
| NFieldChar (t : FieldCharType) (dirty : bool)
| NInstr (i : instr)
| NDelInstr (i : instr)
| NInstrString (s : string)
| NFootRef (id : N) (style : string) (content : list node)  (* footnote_reference.rs *)
| NShading (s : shading)
(* ranges and tracked changes *)
| NCommentStart (c : comment_data) (ch : list node)         (* comment_range_start.rs, comment.rs:10-16 *)
| NCommentEnd (id : N)
| NBookmarkStart (id : N) (name : string)
| NBookmarkEnd (id : N)
| NIns (a : mark) (ch : list node)
| NDel (a : mark) (ch : list node)
| NMoveFrom (a : mark) (ch : list node)
| NMoveTo (a : mark) (ch : list node)
| NLink (l : link) (history : option N) (ch : list node)    (* hyperlink.rs:27-32 *)
| NSdt (p : sdtpr) (numbering : bool) (ch : list node)      (* structured_data_tag.rs:12-16 *)
| NPageNum
| NNumPages
(* blocks *)
| NPara (id : string) (p : ppr) (numbering : bool) (ch : list node)   (* paragraph.rs:12-17 *)
| NTable (p : tblpr) (grid : list N) (numbering : bool) (rows : list node)  (* table.rs:12-17 *)
| NRow (p : trpr) (numbering : bool) (cells : list node)    (* table_row.rs:11-15 *)
| NCell (p : tcpr) (numbering : bool) (ch : list node)      (* table_cell.rs:12-16 *)
| NToc (d : toc_data) (before after : list node)            (* table_of_contents.rs:42-66 *)
| NSection (p : sectpr) (parts : list node) (numbering : bool) (ch : list node) (* section.rs:102-112 *)
| NPart (s : slot) (rid : string) (numbering : bool) (ch : list node).  (* header.rs, footer.rs, with the rid of section_property.rs:24,36 *)

(** Direct sub-nodes, whatever their kind. *)
Definition children (n : node) : list node :=
  match n with
  | NRun _ ch | NTextBox ch | NFootRef _ _ ch | NCommentStart _ ch | NIns _ ch | NDel _ ch
  | NMoveFrom _ ch | NMoveTo _ ch | NLink _ _ ch | NSdt _ _ ch | NPara _ _ _ ch | NTable _ _ _ ch
  | NRow _ _ ch | NCell _ _ ch | NPart _ _ _ ch => ch
  | NToc _ b a => b ++ a
  | NSection _ parts _ ch => ch ++ parts
  | _ => []
  end.

(** Induction over the tree with one case. *)
Lemma node_tree_ind (P : node -> Prop)
  (H : forall n, Forall P (children n) -> P n) : forall n, P n.
Proof.
  fix F 1. intros n. apply H.
  destruct n; cbn [children]; try apply Forall_nil; try (apply Forall_app; split);
    refine ((fix G l : Forall P l :=
       match l with [] => Forall_nil _ | x :: l => Forall_cons _ (F x) (G l) end) _).
Defined.

(** Every node of the tree, the root first, then left to right. *)
Fixpoint all_nodes (n : node) : list node :=
  n :: match n with
       | NRun _ ch | NTextBox ch | NFootRef _ _ ch | NCommentStart _ ch | NIns _ ch | NDel _ ch
       | NMoveFrom _ ch | NMoveTo _ ch | NLink _ _ ch | NSdt _ _ ch | NPara _ _ _ ch | NTable _ _ _ ch
       | NRow _ _ ch | NCell _ _ ch | NPart _ _ _ ch => flat_map all_nodes ch
       | NToc _ b a => flat_map all_nodes b ++ flat_map all_nodes a
       | NSection _ parts _ ch => flat_map all_nodes ch ++ flat_map all_nodes parts
       | _ => []
       end.

(** Which kinds of children the Rust child enums admit. *)
Definition run_child (n : node) : bool :=        (* RunChild, run.rs:28-47 *)
  match n with
  | NText _ | NSym _ _ | NDelText _ | NTab | NPTab _ | NBreak _ | NCr | NPic _ | NTextBox _ | NNoDrawing
  | NShape | NCommentStart _ _ | NCommentEnd _ | NFieldChar _ _ | NInstr _ | NDelInstr _ | NInstrString _
  | NFootRef _ _ _ | NShading _ => true
  | _ => false
  end.
Definition para_child (n : node) : bool :=       (* ParagraphChild, paragraph.rs:31-45 *)
  match n with
  | NRun _ _ | NIns _ _ | NDel _ _ | NMoveFrom _ _ | NMoveTo _ _ | NBookmarkStart _ _ | NLink _ _ _
  | NBookmarkEnd _ | NCommentStart _ _ | NCommentEnd _ | NSdt _ _ _ | NPageNum | NNumPages => true
  | _ => false
  end.
Definition ins_child (n : node) : bool :=        (* InsertChild, insert.rs; MoveToChild, move_to.rs *)
  match n with NRun _ _ | NDel _ _ | NCommentStart _ _ | NCommentEnd _ => true | _ => false end.
Definition del_child (n : node) : bool :=        (* DeleteChild, delete.rs; MoveFromChild, move_from.rs:16-20 *)
  match n with NRun _ _ | NCommentStart _ _ | NCommentEnd _ => true | _ => false end.
Definition sdt_child (n : node) : bool :=        (* StructuredDataTagChild, structured_data_tag.rs:28-37 *)
  match n with
  | NRun _ _ | NPara _ _ _ _ | NTable _ _ _ _ | NBookmarkStart _ _ | NBookmarkEnd _ | NCommentStart _ _
  | NCommentEnd _ | NSdt _ _ _ => true
  | _ => false
  end.
Definition cell_child (n : node) : bool :=       (* TableCellContent, table_cell.rs:18-24 *)
  match n with NPara _ _ _ _ | NTable _ _ _ _ | NSdt _ _ _ | NToc _ _ _ => true | _ => false end.
Definition part_child (n : node) : bool :=       (* HeaderChild / FooterChild *)
  match n with NPara _ _ _ _ | NTable _ _ _ _ | NSdt _ _ _ => true | _ => false end.
Definition plain_block (n : node) : bool :=      (* CommentChild, TocContent, TextBoxContentChild *)
  match n with NPara _ _ _ _ | NTable _ _ _ _ => true | _ => false end.
Definition is_para (n : node) : bool := match n with NPara _ _ _ _ => true | _ => false end.
Definition is_row (n : node) : bool := match n with NRow _ _ _ => true | _ => false end.
Definition is_cell (n : node) : bool := match n with NCell _ _ _ => true | _ => false end.
Definition is_part (n : node) : bool := match n with NPart _ _ _ _ => true | _ => false end.
Definition section_child (n : node) : bool :=    (* SectionChild, section.rs:11-21 *)
  match n with
  | NPara _ _ _ _ | NTable _ _ _ _ | NBookmarkStart _ _ | NBookmarkEnd _ | NCommentStart _ _ | NCommentEnd _
  | NSdt _ _ _ | NToc _ _ _ => true
  | _ => false
  end.
Definition doc_child (n : node) : bool :=        (* DocumentChild, document.rs:23-35 *)
  match n with NSection _ _ _ _ => true | _ => section_child n end.

(** The children of [n] are of the kinds Rust's types admit. *)
Definition local_ok (n : node) : bool :=
  match n with
  | NRun _ ch => forallb run_child ch
  | NTextBox ch | NCommentStart _ ch => forallb plain_block ch
  | NFootRef _ _ ch => forallb is_para ch
  | NIns _ ch | NMoveTo _ ch => forallb ins_child ch
  | NDel _ ch | NMoveFrom _ ch => forallb del_child ch
  | NLink _ _ ch | NPara _ _ _ ch => forallb para_child ch
  | NSdt _ _ ch => forallb sdt_child ch
  | NTable _ _ _ ch => forallb is_row ch
  | NRow _ _ ch => forallb is_cell ch
  | NCell _ _ ch => forallb cell_child ch
  | NToc _ b a => forallb plain_block b && forallb plain_block a
  | NSection _ parts _ ch => forallb is_part parts && forallb section_child ch
  | NPart _ _ _ ch => forallb part_child ch
  | _ => true
  end.

(** A tree every node of which is typed as in Rust. *)
Definition well_formed (n : node) : Prop := Forall (fun m => local_ok m = true) (all_nodes n).

(** The whole document: documents/mod.rs:124-160 and document.rs:11-20.  Only the
    parts that carry tree content; the relationship and content type records are
    modelled where packaging is. *)
Record docx := {
  d_body : list node;                          (* document.children *)
  d_sect : sectpr;                             (* document.section_property, fields *)
  d_parts : list node;                         (* document.section_property, headers and footers *)
  d_comments : list (comment_data * list node);   (* comments.comments *)
  d_footnotes : list (N * list node) }.        (* footnotes.footnotes: id and content *)

Definition doc_roots (d : docx) : list node :=
  d_body d ++ d_parts d ++ flat_map snd (d_comments d) ++ flat_map snd (d_footnotes d).
Definition doc_well_formed (d : docx) : Prop :=
  forallb doc_child (d_body d) = true /\ forallb is_part (d_parts d) = true /\
  Forall (fun c => forallb plain_block (snd c) = true) (d_comments d) /\
  Forall (fun f => forallb is_para (snd f) = true) (d_footnotes d) /\
  Forall well_formed (doc_roots d).

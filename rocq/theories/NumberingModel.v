(** The methods with which elements are put together, as far as the record that an
    element uses a numbering ([has_numbering]) is concerned. *)
From Coq Require Import NArith List Bool.
From Verif Require Import Str Props Ast PackModel.
Import ListNotations.

(** elements/paragraph.rs:22-29 *)
Definition para_new : node := NPara "" ppr_empty false [].
(** paragraph.rs:172-249: the methods that push a child; [add_structured_data_tag]
    (200-204) does not look at the flag of the content control. *)
Definition para_push (c p : node) : node :=
  match p with NPara id pr nb ch => NPara id pr nb (ch ++ [c]) | _ => p end.
Definition with_numbering (v : numpr) (p : ppr) : ppr :=
  match p with PPr b c =>
    PPr {| p_rpr := p_rpr b; p_style := p_style b; p_numbering := Some v; p_alignment := p_alignment b; p_indent := p_indent b;
           p_spacing := p_spacing b; p_keep_next := p_keep_next b; p_keep_lines := p_keep_lines b; p_bidi := p_bidi b;
           p_page_break_before := p_page_break_before b; p_widow_control := p_widow_control b; p_outline := p_outline b;
           p_section := p_section b; p_tabs := p_tabs b; p_borders := p_borders b; p_frame := p_frame b;
           p_text_alignment := p_text_alignment b; p_adjust_right_ind := p_adjust_right_ind b; p_snap_to_grid := p_snap_to_grid b;
           p_shading := p_shading b; p_div_id := p_div_id b |} c
  end.
(** paragraph.rs:329-333, paragraph_property.rs:89-92 *)
Definition para_numbering (id level : N) (p : node) : node :=
  match p with NPara i pr _ ch => NPara i (with_numbering {| n_id := Some id; n_level := Some level |} pr) true ch | _ => p end.

(** elements/hyperlink.rs:54-98 *)
Definition link_push (c n : node) : node := match n with NLink l h ch => NLink l h (ch ++ [c]) | _ => n end.

(** elements/table_row.rs:34-43 *)
Definition row_new (cells : list node) : node := NRow trpr_empty (existsb flag cells) cells.
(** elements/table.rs:36-60: [new] and [without_borders] *)
Definition table_new (p : tblpr) (rows : list node) : node := NTable p [] (existsb flag rows) rows.
(** table.rs:62-65: the flag of the row is not looked at *)
Definition table_add_row (row t : node) : node := match t with NTable p g nb rows => NTable p g nb (rows ++ [row]) | _ => t end.

(** elements/table_cell.rs:146-154 *)
Definition cell_new : node := NCell tcpr_empty false [].
(** table_cell.rs:65-71, 85-91: [add_paragraph] and [add_table] *)
Definition cell_add (c n : node) : node := match n with NCell p nb ch => NCell p (nb || flag c) (ch ++ [c]) | _ => n end.
(** table_cell.rs:73-83: [add_table_of_contents] and [add_structured_data_tag] *)
Definition cell_push (c n : node) : node := match n with NCell p nb ch => NCell p nb (ch ++ [c]) | _ => n end.

(** elements/structured_data_tag.rs:127-143: [add_paragraph] and [add_table] *)
Definition sdt_add (c n : node) : node := match n with NSdt p nb ch => NSdt p (nb || flag c) (ch ++ [c]) | _ => n end.
(** structured_data_tag.rs:121-125 *)
Definition sdt_push (c n : node) : node := match n with NSdt p nb ch => NSdt p nb (ch ++ [c]) | _ => n end.

(** elements/table_of_contents.rs:134-153 *)
Definition toc_add_before (c n : node) : node := match n with NToc d b a => NToc d (b ++ [c]) a | _ => n end.
Definition toc_add_after (c n : node) : node := match n with NToc d b a => NToc d b (a ++ [c]) | _ => n end.

(** documents/header.rs:21-35, footer.rs:21-35 *)
Definition part_new : content := (false, []).
Definition part_add (c : node) (p : content) : content := (fst p || flag c, snd p ++ [c]).

(** elements/section.rs:115-117, 142-181 *)
Definition section_new : section_arg := {| sa_prop := sectpr_default; sa_numbering := false; sa_children := []; sa_pending := fun _ => None |}.
Definition section_add (c : node) (s : section_arg) : section_arg :=
  {| sa_prop := sa_prop s; sa_numbering := sa_numbering s || flag c; sa_children := sa_children s ++ [c]; sa_pending := sa_pending s |}.
(** section.rs:183-211 *)
Definition section_part (x : slot) (c : content) (s : section_arg) : section_arg :=
  {| sa_prop := sa_prop s; sa_numbering := sa_numbering s; sa_children := sa_children s;
     sa_pending := fun y => if N.eqb (rank x) (rank y) then Some c else sa_pending s y |}.

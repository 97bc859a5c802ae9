(** What a tree that came from reading can hold. *)
From Verif Require Import Str TypesModel Props Ast.

(** The kinds of nodes reading gives: no typed field instruction, no footnote reference,
    no table of contents, no section, no page number; a picture without its bytes, a
    link without its address. *)
Definition as_read (n : node) : bool :=
  match n with
  | NPic p => pic_image p =s ""
  | NLink (External _ path) _ _ => path =s ""
  | NInstr _ | NDelInstr _ | NFootRef _ _ _ | NShading _ | NPageNum | NNumPages | NToc _ _ _ | NSection _ _ _ _ => false
  | _ => true
  end.
(** Every node of the tree is of such a kind and has children as its type admits. *)
Definition came_from_reading (n : node) : Prop := Forall (fun m => local_ok m = true /\ as_read m = true) (all_nodes n).

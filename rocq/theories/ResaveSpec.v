(** An archive that is opened and saved again. *)
From Coq Require Import NArith List Bool.
From Verif Require Import Str TypesModel Props Ast IdsModel TreeModel DepsModel PackModel PackSpec PrepareModel ReadBase ReadModel ZipNameModel OpenModel.
Import ListNotations.
Open Scope list_scope.

(** [a]: the entries of any archive that can be opened, [op] what it is opened as.  Nothing
    is called in between; [k] is the package that is saved, [c] what is collected from it. *)
Definition opened_and_saved (a : archive) (op : opened) (k : pkg) (c : collected) : Prop :=
  (exists png preview m st, read_docx png preview a m = Val op st) /\
  exists crc styles ext n ext', prepare_package crc styles ext n (op_pkg op) = Some (k, c, ext').
(** How many headers (or footers) of the document come before that of [x]. *)
Definition filled_before (d : docx) (x : slot) : nat :=
  length (filter (fun y => eqb (is_head y) (is_head x) && Nat.ltb (slot_order y) (slot_order x) && match part_at d 0 y with Some _ => true | None => false end) all_slots).
(** The id under which saving lists it. *)
Definition listed_id (d : docx) (x : slot) : string :=
  (if is_head x then "rIdHeader" else "rIdFooter") +++ show_N (1 + N.of_nat (filled_before d x)).
(** A step that writes a custom XML item or a web extension. *)
Definition is_extra (s : step) : bool :=
  match s with
  | SXml _ (PFixed XTaskpanes) | SXml _ (PFixed XPaneRels) | SXml _ (PWeb _) | SXml _ (PItem _) | SXml _ (PItemProps _) | SXml _ (PItemRels _) => true
  | _ => false
  end.

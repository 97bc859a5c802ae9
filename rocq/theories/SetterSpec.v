(** Which setters store any string safely. *)
From Coq Require Import List Bool.
From Verif Require Import SetterModel.

Definition escapes (c : setter) : bool :=
  match c with
  | Run_add_text | Run_add_delete_text | Insert_author | Delete_author | MoveFrom_author | MoveTo_author
  | ParagraphPropertyChange_author | TableOfContents_delete_author | RunStyle_new | ParagraphStyle_new | RunFonts_any | InstrTC_new => true
  | _ => false
  end.

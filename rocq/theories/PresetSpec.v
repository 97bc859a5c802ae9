(** Which styles a document has after saving, if it has a table of contents. *)
From Coq Require Import NArith ZArith List Bool.
From Verif Require Import Str Ast StyleModel JsonModel SheetModel TsSpec CallSpec.
Import ListNotations.
Open Scope list_scope.

(** The names of the styles of entries of a table of contents *)
Definition toc_names : list string := ["toc 1"; "toc 2"; "toc 3"; "toc 4"; "toc 5"; "toc 6"; "toc 7"; "toc 8"; "toc 9"]%string.
Definition has_style (n : string) (t : styles) : bool := existsb (fun y => sty_name y =s n) (ss_list t).
(** A table of contents stands in the body itself. *)
Definition lists_contents (body : list node) : Prop := exists d before after, In (NToc d before after) body.
(** What is told of a style made for entries of one level, counted from 0 *)
Definition made_for (level : nat) (y : style) : Prop :=
  let told path := at_ path (j_style y) in
  told ["styleId"%string] = Some (JStr (nth level ["ToC1"; "ToC2"; "ToC3"; "ToC4"; "ToC5"; "ToC6"; "ToC7"; "ToC8"; "ToC9"] "")%string) /\
  told ["name"%string] = Some (JStr (nth level toc_names ""%string)) /\ told ["styleType"%string] = Some (JStr "paragraph") /\
  told ["paragraphProperty"%string; "alignment"%string] = Some (JStr "both") /\
  told ["paragraphProperty"%string; "snapToGrid"%string] = Some (JBool false) /\
  told ["paragraphProperty"%string; "indent"%string; "start"%string] = Some (JNum (200 * Z.of_nat level)) /\
  told ["paragraphProperty"%string; "indent"%string; "startChars"%string] = Some (JNum (100 * Z.of_nat level)) /\
  told ["paragraphProperty"%string; "lineSpacing"%string; "after"%string] = Some (JNum 100).
(** The styles after are those before, followed by one made for each level whose name no style had. *)
Record presets_added (before after : styles) : Prop := {
  defaults_kept : ss_rpr after = ss_rpr before /\ ss_ppr after = ss_ppr before;
  only_missing_added : exists added, ss_list after = ss_list before ++ added /\
    Forall2 (fun level y => made_for level y) (filter (fun level => negb (has_style (nth level toc_names ""%string) before)) (seq 0 9)) added }.

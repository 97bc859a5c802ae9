(** The styles that saving adds for tables of contents. *)
From Coq Require Import NArith ZArith List Bool.
From Verif Require Import Str TypesModel Props EscapeModel Ast StyleModel CallModel EntryModel TocModel.
Import ListNotations.
Open Scope list_scope.

(** preset_styles/toc.rs:4-12, with LineSpacing::new().after(100), elements/line_spacing.rs:26-28, 40-43 *)
Definition preset_toc (level : Z) : style :=
  let spacing := {| ls_rule := None; ls_before := None; ls_after := Some 100%N; ls_before_lines := None; ls_after_lines := None; ls_line := None |} in
  calls on_style
    [YName ("toc " +++ show_Z level); YAlign AlignmentType_Both; YSnapToGrid false;
     YIndent (Some ((level - 1) * 200)%Z) None None (Some ((level - 1) * 100)%Z); YLineSpacing spacing]
    (style_new ("ToC" +++ show_Z level) StyleType_Paragraph).
(** One round of the loop, documents/mod.rs:880-888; Name::new, elements/name.rs:15-19 *)
Definition add_preset (t : styles) (level : Z) : styles :=
  if existsb (fun y => sty_name y =s escape_owned ("toc " +++ show_Z level)) (ss_list t) then t
  else on_styles (YsAdd (preset_toc level)) t.
(** documents/mod.rs:878-890 *)
Definition add_presets (has_toc : bool) (t : styles) : styles :=
  if has_toc then fold_left add_preset [1; 2; 3; 4; 5; 6; 7; 8; 9]%Z t else t.
(** What prepare_package, documents/mod.rs:835-897, does to the styles.  Simplification: only a panic of
    the expansion of tables of contents is kept; other steps see no styles. *)
Definition prepare_styles (body : list node) (k : counters) (t : styles) : option styles :=
  match expand_auto_tocs (map (fun y => (sty_id y, sty_name y)) (ss_list t)) body k with
  | None => None
  | Some (_, has_toc) => Some (add_presets has_toc t)
  end.

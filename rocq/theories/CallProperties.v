(** Theorems about histories of setter calls (C76). *)
From Coq Require Import NArith ZArith List Bool.
From Verif Require Import Str StrFacts EscapeModel TypesModel Props PropsSet JsonModel TsSpec CallModel CallSpec CallProofs.
Import ListNotations.
Open Scope list_scope.

(** Whatever setters were called, in whatever order and however often, the JSON shows for each
    member what these calls, read one after the other, say about it, and nothing else changed. *)
Theorem run_setters_do_what_they_say : does_what_it_says on_run j_rpr run_says.
Proof. exact run_calls. Qed.
Theorem font_setters_do_what_they_say : does_what_it_says on_fonts j_fonts font_says.
Proof. exact font_calls. Qed.
Theorem spacing_setters_do_what_they_say : does_what_it_says on_spacing j_spacing spacing_says.
Proof. exact spacing_calls. Qed.
Theorem paragraph_setters_do_what_they_say : does_what_it_says on_para j_ppr para_says.
Proof. exact para_calls. Qed.
Theorem table_setters_do_what_they_say : does_what_it_says on_table j_tblpr table_says.
Proof. exact table_calls. Qed.
Theorem row_setters_do_what_they_say : does_what_it_says on_row j_trpr row_says.
Proof. exact row_calls. Qed.
Theorem cell_setters_do_what_they_say : does_what_it_says on_cell j_tcpr cell_says.
Proof. exact cell_calls. Qed.

(** So the last call that sets a member wins, and members that no call names are kept. *)
Theorem last_setter_wins :
  last_call_wins on_run j_rpr run_says /\ last_call_wins on_fonts j_fonts font_says /\ last_call_wins on_spacing j_spacing spacing_says /\
  last_call_wins on_para j_ppr para_says /\ last_call_wins on_table j_tblpr table_says /\ last_call_wins on_row j_trpr row_says /\
  last_call_wins on_cell j_tcpr cell_says.
Proof.
  repeat split; intros;
    first [apply (last_wins on_run j_rpr run_says) | apply (unnamed_kept on_run j_rpr run_says)
         | apply (last_wins on_fonts j_fonts font_says) | apply (unnamed_kept on_fonts j_fonts font_says)
         | apply (last_wins on_spacing j_spacing spacing_says) | apply (unnamed_kept on_spacing j_spacing spacing_says)
         | apply (last_wins on_para j_ppr para_says) | apply (unnamed_kept on_para j_ppr para_says)
         | apply (last_wins on_table j_tblpr table_says) | apply (unnamed_kept on_table j_tblpr table_says)
         | apply (last_wins on_row j_trpr row_says) | apply (unnamed_kept on_row j_trpr row_says)
         | apply (last_wins on_cell j_tcpr cell_says) | apply (unnamed_kept on_cell j_tcpr cell_says)];
    auto using run_calls, font_calls, spacing_calls, para_calls, table_calls, row_calls, cell_calls.
  all: intros x; destruct x; try reflexivity.
  all: try match goal with id : option N |- _ => destruct id; reflexivity end.
  all: try match goal with c : run_call |- _ => destruct c; try reflexivity; destruct id; reflexivity end.
  all: match goal with c : frame_call |- _ => destruct c; reflexivity end.
Qed.

(** Setting or clearing one border of a paragraph or a cell does not only change that border:
    if none were set, the other ones become single lines. *)
Theorem one_paragraph_border_changes_alone_refuted : forall s, exists p t, s <> t /\
  at_ ["borders"%string; pside_name t] (j_ppr p) = None /\
  at_ ["borders"%string; pside_name t] (j_ppr (on_para (PClearBorder s) p)) = Some (line_at t "single").
Proof. intros s. exists ppr_empty. destruct s; [exists PTop | exists PTop | exists PLeft | exists PTop | exists PTop | exists PTop]; repeat split; discriminate. Qed.
Theorem one_cell_border_changes_alone_refuted : forall s, exists p t, s <> t /\
  at_ ["borders"%string; cside_name t] (j_tcpr p) = None /\
  at_ ["borders"%string; cside_name t] (j_tcpr (on_cell (CClearBorder s) p)) = Some (table_line (cside_name t) "single").
Proof. intros s. exists tcpr_empty. destruct s; [exists CTop | exists CTop | exists CLeft | exists CTop | exists CTop | exists CTop | exists CTop | exists CTop]; repeat split; discriminate. Qed.
(** Striking once and twice exclude each other, but switching one of them off leaves the other
    alone; so the order of these calls matters. *)
Theorem strike_calls_commute_refuted :
  j_rpr (calls on_run [RStrike; RNoDstrike] rpr_empty) <> j_rpr (calls on_run [RNoDstrike; RStrike] rpr_empty).
Proof. discriminate. Qed.
(** Theme colors are not in the JSON at all. *)
Theorem theme_color_in_json_refuted : forall p s t, j_rpr (on_run (RThemeColor s) p) = j_rpr (on_run (RThemeColor t) p).
Proof. intros p s t. reflexivity. Qed.
(** Names of styles of runs and paragraphs are shown escaped, those of tables as given. *)
Theorem style_shown_as_given_refuted :
  at_ ["style"%string] (j_rpr (on_run (RStyle "a&b") rpr_empty)) = Some (JStr "a&amp;b") /\
  at_ ["style"%string] (j_tblpr (on_table (TStyle "a&b") tblpr_default)) = Some (JStr "a&b").
Proof. split; reflexivity. Qed.

(** Cases *)
Example run_case : let p := calls on_run [RBold; RSize 20; RColor "ff0000"; RStrike; RNoBold; RDstrike; RThemeTint "80"; RSize 24] rpr_empty in
  j_rpr p = JObj [("sz", JNum 24); ("szCs", JNum 24); ("color", JStr "ff0000"); ("bold", JBool false); ("boldCs", JBool false); ("dstrike", JBool true)]%string%Z.
Proof. reflexivity. Qed.
Example paragraph_case : let p := calls on_para [PSetBorder PBar (pborder_of BorderType_Double); PFrame (FX 3%Z); PRun RItalic; PHangingChars 5%Z;
     PIndent (Some 10%Z) None None None; PFirstLineChars 7%Z; PClearBorder PTop; POutline 12] ppr_empty in
  at_ ["borders"%string; "top"%string] (j_ppr p) = Some (line_at PTop "nil") /\ at_ ["borders"%string; "left"%string] (j_ppr p) = Some (line_at PLeft "single") /\
  at_ ["borders"%string; "bar"%string] (j_ppr p) = Some (line_at PBar "double") /\ at_ ["frameProperty"%string; "x"%string] (j_ppr p) = Some (JNum 3) /\
  at_ ["runProperty"%string; "italic"%string] (j_ppr p) = Some (JBool true) /\ at_ ["indent"%string; "hangingChars"%string] (j_ppr p) = Some JNull /\
  at_ ["indent"%string; "firstLineChars"%string] (j_ppr p) = Some (JNum 7) /\ at_ ["outlineLvl"%string] (j_ppr p) = Some (JNum 9).
Proof. repeat split. Qed.
(** The hypotheses of [last_setter_wins] are met: the size that was set last before the color and
    the font is shown. *)
Example last_case : at_ ["sz"%string] (j_rpr (calls on_run ([RSize 10; RBold] ++ RSize 30 :: [RColor "00ff00"; RNoBold]) rpr_empty)) = Some (JNum 30).
Proof. exact (proj1 (proj1 last_setter_wins) [RSize 10; RBold] (RSize 30) [RColor "00ff00"; RNoBold] rpr_empty "sz"%string [] (JNum 30) eq_refl eq_refl eq_refl). Qed.
Example kept_case : at_ ["indent"%string; "end"%string] (j_ppr (calls on_para [PBidi true; PAlign AlignmentType_Center] (on_para (PIndent None None (Some 4%Z) None) ppr_empty)))
  = Some (JNum 4).
Proof.
  rewrite (proj2 (proj1 (proj2 (proj2 (proj2 last_setter_wins)))) [PBidi true; PAlign AlignmentType_Center] _ "indent"%string ["end"%string] eq_refl eq_refl). reflexivity.
Qed.
Definition all_proved :=
  conj run_setters_do_what_they_say (conj font_setters_do_what_they_say (conj spacing_setters_do_what_they_say (conj paragraph_setters_do_what_they_say
  (conj table_setters_do_what_they_say (conj row_setters_do_what_they_say (conj cell_setters_do_what_they_say (conj last_setter_wins
  (conj one_paragraph_border_changes_alone_refuted (conj one_cell_border_changes_alone_refuted (conj strike_calls_commute_refuted
  (conj theme_color_in_json_refuted style_shown_as_given_refuted))))))))))).
Print Assumptions all_proved.

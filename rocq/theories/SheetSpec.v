(** Which places of the JSON of styles, numberings and settings and of their files tell the
    same (C78).  Places are those of TellSpec.v: a path of names in the JSON, a path of
    elements, and an attribute. *)
From Coq Require Import NArith ZArith List Bool.
From Verif Require Import Str TypesModel Props BuildModel JsonModel JsonSpec TellSpec StyleModel.
Import ListNotations.
Open Scope list_scope.

(** ** Lists *)
(** The entries of an array in the JSON, and the children of a name of an element. *)
Definition entries (k : string) (v : json) : list json :=
  match v with JObj l => match member k l with Some (JArr a) => a | _ => [] end | _ => [] end.
Definition named (n : string) (x : xml) : bool := match x with E m _ _ => m =s n | L m _ _ => m =s n end.
Definition children (x : xml) : list xml := match x with E _ _ ch => ch | L _ _ _ => [] end.
Definition elements (n : string) (x : xml) : list xml := filter (named n) (children x).
(** As many of one as of the other, and each tells what the one in the same place tells. *)
Definition one_by_one (P : json -> xml -> Prop) (l : list json) (xs : list xml) : Prop := Forall2 P l xs.
Definition same_at (ps : list place) (v : json) (x : xml) : Prop := Forall (tell_alike [x] v) ps.
(** A switch that is always in the JSON, but in the file only if it is on. *)
Definition switched_on (j : string) (p : place) (v : json) (x : xml) : Prop :=
  at_json [j] v = Some match at_xml p [x] with Some s => s | None => "false" end%string.

(** ** Styles *)
Definition defaults_places (depth : nat) : list place :=
  under ["docDefaults"; "runPropertyDefault"; "runProperty"] ["w:styles"; "w:docDefaults"; "w:rPrDefault"; "w:rPr"] run_places ++
  under ["docDefaults"; "paragraphPropertyDefault"; "paragraphProperty"] ["w:styles"; "w:docDefaults"; "w:pPrDefault"; "w:pPr"] (paragraph_places depth).
Definition own_style_places : list place :=
  [at_ ["styleId"] ["w:style"] "w:styleId"; at_ ["styleType"] ["w:style"] "w:type"] ++
  under [] ["w:style"] [val "name" "w:name"; val "basedOn" "w:basedOn"; val "next" "w:next"; val "link" "w:link"; val "uiPriority" "w:uiPriority";
                        switch "semiHidden" "w:semiHidden"; switch "unhideWhenUsed" "w:unhideWhenUsed"].
Definition style_places (depth : nat) : list place :=
  own_style_places ++ under ["runProperty"] ["w:style"; "w:rPr"] run_places ++ under ["paragraphProperty"] ["w:style"; "w:pPr"] (paragraph_places depth).
(** Properties of tables and cells are written for styles of tables only. *)
Definition table_style_places : list place :=
  under ["tableProperty"] ["w:style"; "w:tblPr"] table_places ++ under ["tableCellProperty"] ["w:style"; "w:tcPr"] cell_places.
Definition q_format : place := {| jpath := ["qFormat"]; xpath := ["w:style"; "w:qFormat"]; value := "w:val"; is_switch := true |}.
Record style_told (depth : nat) (v : json) (x : xml) : Prop := {
  told_properties : same_at (style_places depth) v x;
  told_of_tables : at_json ["styleType"] v = Some "table"%string -> same_at table_style_places v x;
  (** The JSON says it only if it is off, the file only if it is on. *)
  told_q_format : (at_json ["qFormat"] v = None /\ at_xml q_format [x] = Some "true"%string) \/ (at_json ["qFormat"] v = Some "false"%string /\ at_xml q_format [x] = None) }.
Definition uncut_style (s : style) : Prop :=
  uncut_run (sty_rpr s) /\ uncut_paragraph (sty_ppr s) /\
  (sty_type s = StyleType_Table ->
    uncut_width (Some (tpr_width (sty_tblpr s))) /\ match tpr_margins (sty_tblpr s) with Some m => uncut_tmargins m | None => True end /\
    uncut_width (tc_width (sty_tcpr s)) /\ at_most u32 (tc_grid_span (sty_tcpr s)) /\ match tc_margins (sty_tcpr s) with Some m => uncut_cmargins m | None => True end).
Definition uncut_styles (t : styles) : Prop := uncut_run (ss_rpr t) /\ uncut_paragraph (ss_ppr t) /\ Forall uncut_style (ss_list t).

(** ** Numberings *)
Definition own_level_places : list place :=
  at_ ["level"] ["w:lvl"] "w:ilvl" ::
  under [] ["w:lvl"] [val "start" "w:start"; val "format" "w:numFmt"; val "text" "w:lvlText"; val "jc" "w:lvlJc"; val "pstyle" "w:pStyle";
                      val "levelRestart" "w:lvlRestart"; switch "isLgl" "w:isLgl"].
Definition level_places (depth : nat) : list place :=
  own_level_places ++ under ["runProperty"] ["w:lvl"; "w:rPr"] run_places ++ under ["paragraphProperty"] ["w:lvl"; "w:pPr"] (paragraph_places depth).
(** After a number stands a tab if nothing else is said. *)
Definition suffix : place := at_ ["suffix"] ["w:lvl"; "w:suff"] "w:val".
Definition suffix_told (v : json) (x : xml) : Prop := at_json ["suffix"] v = Some match at_xml suffix [x] with Some s => s | None => "tab" end%string.
Definition level_told (depth : nat) (v : json) (x : xml) : Prop := same_at (level_places depth) v x /\ suffix_told v x.
Definition abstract_places : list place := [at_ ["id"] ["w:abstractNum"] "w:abstractNumId"; at_ ["multiLevelType"] ["w:abstractNum"; "w:multiLevelType"] "w:val"].
Definition abstract_told (depth : nat) (v : json) (x : xml) : Prop :=
  same_at abstract_places v x /\ one_by_one (level_told depth) (entries "levels" v) (elements "w:lvl" x).
Definition override_places (depth : nat) : list place :=
  at_ ["level"] ["w:lvlOverride"] "w:ilvl" :: at_ ["overrideStart"] ["w:lvlOverride"; "w:startOverride"] "w:val" ::
  under ["overrideLevel"] ["w:lvlOverride"] (level_places depth).
Definition num_places : list place := [at_ ["id"] ["w:num"] "w:numId"; at_ ["abstractNumId"] ["w:num"; "w:abstractNumId"] "w:val"].
Definition num_told (depth : nat) (v : json) (x : xml) : Prop :=
  same_at num_places v x /\ one_by_one (same_at (override_places depth)) (entries "levelOverrides" v) (elements "w:lvlOverride" x).
Definition uncut_level (l : level) : Prop := (lv_start l < u32)%N /\ uncut_run (lv_rpr l) /\ uncut_paragraph (lv_ppr l).
Definition uncut_numberings (t : numberings) : Prop :=
  Forall (fun a => Forall uncut_level (an_levels a)) (ns_abstracts t) /\
  Forall (fun n => Forall (fun o => match ov_replace o with Some l => uncut_level l | None => True end) (nm_overrides n)) (ns_nums t).

(** ** Settings *)
Definition settings_places : list place :=
  under [] ["w:settings"] [val "defaultTabStop" "w:defaultTabStop"; at_ ["zoom"] ["w:zoom"] "w:percent";
                           at_ ["characterSpacingControl"] ["w:compat"; "w:characterSpacingControl"] "w:val"].
Definition var_places : list place := [at_ ["name"] ["w:docVar"] "w:name"; at_ ["val"] ["w:docVar"] "w:val"].
Definition doc_id : place := at_ ["docId"] ["w:settings"; "w15:docId"] "w15:val".
Definition even_odd : place := {| jpath := ["evenAndOddHeaders"]; xpath := ["w:settings"; "w:evenAndOddHeaders"]; value := "w:val"; is_switch := true |}.
Definition adjust : place :=
  {| jpath := ["adjustLineHeightInTable"]; xpath := ["w:settings"; "w:compat"; "w:adjustLineHeightInTable"]; value := "w:val"; is_switch := true |}.
Record settings_told (v : json) (x : xml) : Prop := {
  told_settings : same_at settings_places v x;
  told_even_odd : switched_on "evenAndOddHeaders" even_odd v x;
  told_adjust : switched_on "adjustLineHeightInTable" adjust v x;
  (** The file puts the id in braces. *)
  told_doc_id : at_xml doc_id [x] = option_map (fun s => "{" +++ s +++ "}")%string (at_json ["docId"] v);
  told_vars : one_by_one (same_at var_places) (entries "docVars" v) (flat_map (elements "w:docVar") (elements "w:docVars" x)) }.

(** ** Comments *)
Definition comment_places : list place := map (fun d => at_ [fst d] ["w:comment"] (snd d)) [("id", "w:id"); ("author", "w:author"); ("date", "w:date")]%string.
Definition comment_told (v : json) (x : xml) : Prop := named "w:comment" x = true /\ same_at comment_places v x /\ things_in_json v = things_in_xml x.

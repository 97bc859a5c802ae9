(** Theorems: the JSON of styles, numberings and settings tells what their files tell (C78). *)
From Coq Require Import NArith ZArith List Bool Lia.
From Verif Require Import Str StrFacts TypesModel Props Ast BuildModel BuildSpec JsonModel JsonSpec JsonText CallModel TellSpec StyleModel SheetModel SheetSpec SheetProofs.
From Verif Require BuildProperties PropsSet.
Import ListNotations.
Import BuildProperties (start, me).
Open Scope list_scope.

(** The default properties are told alike; the file has a style "Normal" first, which the
    JSON does not have, and after it the styles of the JSON in the same order, told alike. *)
Theorem styles_alike : forall depth t s x s', uncut_styles t -> b_styles t s = Some (x, s') ->
  exists v, json_of (pretty 0 (j_styles t)) = Some v /\ same_at (defaults_places depth) v x /\
    exists normal l, elements "w:style" x = normal :: l /\ at_xml (at_ [] ["w:style"] "w:styleId") [normal] = Some "Normal"%string /\
      one_by_one (style_told depth) (entries "styles" v) l.
Proof. intros depth t s x s' U H. eexists. split; [apply text_back|]. exact (styles_all depth t s x s' U H). Qed.
(** The file has the default numbering first, which the JSON does not have, and then the
    abstract numberings and the numberings of the JSON in the same order, with their levels
    and overrides told alike. *)
Theorem numberings_alike : forall depth t s x s', uncut_numberings t -> b_numberings t s = Some (x, s') ->
  exists v, json_of (pretty 0 (j_numberings t)) = Some v /\
    exists a0 la n0 ln, elements "w:abstractNum" x = a0 :: la /\ elements "w:num" x = n0 :: ln /\
      at_xml (at_ [] ["w:abstractNum"] "w:abstractNumId") [a0] = Some "1"%string /\ at_xml (at_ [] ["w:num"] "w:numId") [n0] = Some "1"%string /\
      one_by_one (abstract_told depth) (entries "abstractNums" v) la /\ one_by_one (num_told depth) (entries "numberings" v) ln.
Proof. intros depth t s x s' U H. eexists. split; [apply text_back|]. exact (numberings_all depth t s x s' U H). Qed.
Theorem settings_alike : forall c, exists v, json_of (pretty 0 (j_settings c)) = Some v /\ settings_told v (x_settings c).
Proof. intros c. eexists. split; [apply text_back | apply settings_all]. Qed.
(** The comments of the JSON are those of the comments file in the same order, with the same
    ids, authors and dates, and the same things in them. *)
Theorem comments_alike : forall l s x s', Forall (fun c => forallb all_alike (snd c) = true) l -> b_comments l s = Some (x, s') ->
  exists v, json_of (pretty 0 (j_comments (map (fun c => NCommentStart (fst c) (snd c)) l))) = Some v /\
    one_by_one comment_told (entries "comments" v) (children x).
Proof. intros l s x s' A H. eexists. split; [apply text_back|]. exact (comments_all l s x s' A H). Qed.

(** ** Cases that meet the hypotheses *)
Definition titled : style := {|
  sty_id := "T"; sty_name := "Title"; sty_type := StyleType_Table; sty_rpr := calls on_run [RSize 24; RBold] rpr_empty;
  sty_ppr := PPr (PropsSet.set_p_style (Some "P"%string) ppr_base_empty) (Some (PChange "me" "2020" ppr_empty)); sty_tblpr := tblpr_default; sty_tcpr := tcpr_empty;
  sty_based_on := Some "Normal"%string; sty_next := None; sty_link := Some "L"%string; sty_q_format := false; sty_ui_priority := Some 9%N;
  sty_semi_hidden := true; sty_unhide := false |}.
Definition sheet : styles := {| ss_rpr := calls on_run [RSize 21] rpr_empty; ss_ppr := ppr_empty; ss_list := [titled; style_new "S" StyleType_Character] |}.
Example sheet_meets : uncut_styles sheet /\ exists x s', b_styles sheet start = Some (x, s').
Proof. split; [|eexists _, _; vm_compute; reflexivity]. repeat split; cbn; repeat constructor. all: intros; discriminate. Qed.
Example titled_says : map (fun p => (jpath p, at_json (jpath p) (j_style titled))) own_style_places =
  [(["styleId"], Some "T"); (["styleType"], Some "table"); (["name"], Some "Title"); (["basedOn"], Some "Normal"); (["next"], None); (["link"], Some "L");
   (["uiPriority"], Some "9"); (["semiHidden"], Some "true"); (["unhideWhenUsed"], None)]%string.
Proof. vm_compute. reflexivity. Qed.
Definition lettered : level := {|
  lv_level := 0; lv_start := 3; lv_format := "upperLetter"; lv_text := "%1)"; lv_jc := "left"; lv_ppr := ppr_empty; lv_rpr := calls on_run [RItalic] rpr_empty;
  lv_suffix := LevelSuffixType_Space; lv_pstyle := Some "T"%string; lv_restart := Some 0%N; lv_lgl := true |}.
Definition numbers : numberings := {|
  ns_abstracts := [{| an_id := 2; an_style_link := None; an_num_style_link := None; an_levels := [lettered; level_new 1 1 "decimal" "%2." "left"]; an_multi := Some "multilevel"%string |}];
  ns_nums := [{| nm_id := 2; nm_abstract := 2; nm_overrides := [{| ov_level := 0; ov_start := Some 5%N; ov_replace := Some lettered |}; {| ov_level := 1; ov_start := None; ov_replace := None |}] |}] |}.
Example numbers_meet : uncut_numberings numbers /\ exists x s', b_numberings numbers start = Some (x, s').
Proof. split; [|eexists _, _; vm_compute; reflexivity]. repeat split; cbn; repeat constructor. Qed.
Example lettered_says : map (fun p => (jpath p, at_json (jpath p) (j_level lettered))) own_level_places =
  [(["level"], Some "0"); (["start"], Some "3"); (["format"], Some "upperLetter"); (["text"], Some "%1)"); (["jc"], Some "left"); (["pstyle"], Some "T");
   (["levelRestart"], Some "0"); (["isLgl"], Some "true")]%string.
Proof. vm_compute. reflexivity. Qed.
Definition config : settings := {|
  cfg_tab := 709; cfg_doc_id := Some "AB"%string; cfg_vars := [("a", "b"); ("c", "d")]%string; cfg_even_odd := true; cfg_adjust := false;
  cfg_spacing := Some CharacterSpacingValues_DoNotCompress |}.
Example config_says : map (fun p => at_xml p [x_settings config]) settings_places = [Some "709"; Some "100"; Some "doNotCompress"]%string /\
  at_xml doc_id [x_settings config] = Some "{AB}"%string /\
  map (fun y => map (fun p => at_xml p [y]) var_places) (flat_map (elements "w:docVar") (elements "w:docVars" (x_settings config))) = [[Some "a"; Some "b"]; [Some "c"; Some "d"]]%string.
Proof. vm_compute. repeat split. Qed.
Definition remarks : list (comment_data * list node) :=
  [({| cd_id := 1; cd_author := "a"; cd_date := "d"; cd_parent := None |}%string, [NPara "0000000C" ppr_empty false [NRun rpr_empty [NText "hi"]]]);
   ({| cd_id := 2; cd_author := "b"; cd_date := "e"; cd_parent := Some 1%N |}%string, [])].
Example remarks_meet : Forall (fun c => forallb all_alike (snd c) = true) remarks /\ exists x s', b_comments remarks start = Some (x, s') /\
  flat_map things_in_xml (children x) = [Opened "w:p" [Some "0000000C"]; Found "w:t" [Some "hi"]; Closed "w:p"]%string.
Proof. split; [repeat constructor|]. eexists _, _. split; vm_compute; reflexivity. Qed.

(** ** Where they differ *)
(** For styles that are not of tables the JSON has table properties all the same, and the
    file has none. *)
Theorem table_property_alike_refuted : exists l s', b_style (style_new "S" StyleType_Paragraph) start = Some (l, s') /\
  let p := at_ ["tableProperty"; "justification"]%string ["w:style"; "w:tblPr"; "w:jc"]%string "w:val" in
  at_json (jpath p) (j_style (style_new "S" StyleType_Paragraph)) = Some "left"%string /\ at_xml p l = None.
Proof. eexists _, _. split; [vm_compute; reflexivity|]. split; vm_compute; reflexivity. Qed.
(** The links of abstract numberings to styles are in the JSON only. *)
Definition linked : abstract_num := {| an_id := 2; an_style_link := Some "S"%string; an_num_style_link := Some "N"%string; an_levels := []; an_multi := None |}.
Theorem style_link_alike_refuted : exists x s', b_abstract linked start = Some ([x], s') /\ children x = [] /\
  at_json ["styleLink"%string] (j_abstract linked) = Some "S"%string /\ at_json ["numStyleLink"%string] (j_abstract linked) = Some "N"%string.
Proof. eexists _, _. split; [vm_compute; reflexivity|]. repeat split. Qed.
(** Starts from 2^32 on lose their upper bits in the JSON only. *)
Definition far : level := level_new 0 4294967299 "decimal" "%1" "left".
Theorem start_alike_refuted : exists l s', b_level far start = Some (l, s') /\
  let p := at_ ["start"]%string ["w:lvl"; "w:start"]%string "w:val" in at_json (jpath p) (j_level far) = Some "3"%string /\ at_xml p l = Some "4294967299"%string.
Proof. eexists _, _. split; [vm_compute; reflexivity|]. split; vm_compute; reflexivity. Qed.

Definition all_proved := conj styles_alike (conj numberings_alike (conj settings_alike (conj comments_alike (conj table_property_alike_refuted (conj style_link_alike_refuted start_alike_refuted))))).
Print Assumptions all_proved.

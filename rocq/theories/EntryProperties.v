(** Theorems about histories of setter calls on styles, numberings and settings (C79). *)
From Coq Require Import NArith ZArith List Bool.
From Verif Require Import Str StrFacts EscapeModel TypesModel Props PropsSet JsonModel TsSpec StyleModel SheetModel CallModel CallSpec EntryModel EntrySpec EntryProofs.
Import ListNotations.
Open Scope list_scope.

(** Whatever setters of a style were called, in whatever order and however often, each part of its JSON
    shows what the calls about that part, one after the other, say, and nothing else changed. *)
Theorem style_setters_do_what_they_say : forall cs s, style_setters cs (seen (j_style s)) (seen (j_style (calls on_style cs s))).
Proof. exact style_history. Qed.
(** So for the styles and the defaults *)
Theorem styles_setters_do_what_they_say : forall cs t, styles_setters cs (seen (j_styles t)) (seen (j_styles (calls on_styles cs t))).
Proof. exact styles_history. Qed.
(** So for the levels of numberings *)
Theorem level_setters_do_what_they_say : forall cs l, level_setters cs (seen (j_level l)) (seen (j_level (calls on_level cs l))).
Proof. exact level_history. Qed.
(** Abstract numberings, numberings, overrides and settings show exactly what the calls say. *)
Theorem numbering_setters_do_what_they_say :
  (forall cs a, tells_outside [] abstract_says cs (seen (j_abstract a)) (seen (j_abstract (calls on_abstract cs a)))) /\
  (forall cs o, tells_outside [] override_says cs (seen (j_override o)) (seen (j_override (calls on_override cs o)))) /\
  (forall cs n, tells_outside [] num_says cs (seen (j_num n)) (seen (j_num (calls on_num cs n)))) /\
  (forall cs t, tells_outside [] numberings_says cs (seen (j_numberings t)) (seen (j_numberings (calls on_numberings cs t)))).
Proof. repeat split; [apply abstract_history | apply override_history | apply num_history | apply numberings_history]. Qed.
Theorem settings_setters_do_what_they_say : forall cs x, tells_outside [] settings_says cs (seen (j_settings x)) (seen (j_settings (calls on_settings cs x))).
Proof. exact settings_history. Qed.

(** So the last call that sets a member wins, and what no call names is kept. *)
Theorem last_style_setter_wins : forall k path, ~ In k ["runProperty"; "paragraphProperty"; "tableProperty"]%string ->
  (forall bs c ds s v, filter (fun x => place_of x =s k) (style_says c) = [Put [k] v] -> forallb (fun d => negb (names k (style_says d))) ds = true ->
     at_ (k :: path) (j_style (calls on_style (bs ++ c :: ds) s)) = at_ path v) /\
  (forall cs s, forallb (fun c => negb (names k (style_says c))) cs = true ->
     at_ (k :: path) (j_style (calls on_style cs s)) = at_ (k :: path) (j_style s)).
Proof.
  intros k path N. assert (P : forall c, forallb placed (style_says c) = true) by (intros []; try reflexivity; destruct b; reflexivity). split.
  - intros bs c ds s v F D. etransitivity; [exact (style_itself _ _ _ (style_history _ s) k path N)|]. now apply said_last.
  - intros cs s D. etransitivity; [exact (style_itself _ _ _ (style_history cs s) k path N)|]. now apply said_elsewhere.
Qed.
Theorem last_settings_setter_wins : forall k path,
  (forall bs c ds x v, filter (fun y => place_of y =s k) (settings_says c) = [Put [k] v] -> forallb (fun d => negb (names k (settings_says d))) ds = true ->
     at_ (k :: path) (j_settings (calls on_settings (bs ++ c :: ds) x)) = at_ path v) /\
  (forall cs x, forallb (fun c => negb (names k (settings_says c))) cs = true ->
     at_ (k :: path) (j_settings (calls on_settings cs x)) = at_ (k :: path) (j_settings x)).
Proof.
  intros k path. assert (P : forall c, forallb placed (settings_says c) = true) by (intros []; reflexivity). split.
  - intros bs c ds s v F D. etransitivity; [exact (settings_history _ s k path (fun i => i))|]. now apply said_last.
  - intros cs s D. etransitivity; [exact (settings_history cs s k path (fun i => i))|]. now apply said_elsewhere.
Qed.

(** What is added comes after what was there, in the order of the calls, whatever else is called. *)
Theorem added_in_order :
  (forall cs t, grows "styles" added_style j_style cs (seen (j_styles t)) (seen (j_styles (calls on_styles cs t)))) /\
  (forall cs a, grows "levels" added_level j_level cs (seen (j_abstract a)) (seen (j_abstract (calls on_abstract cs a)))) /\
  (forall cs t, grows "abstractNums" added_abstract j_abstract cs (seen (j_numberings t)) (seen (j_numberings (calls on_numberings cs t)))) /\
  (forall cs t, grows "numberings" added_num j_num cs (seen (j_numberings t)) (seen (j_numberings (calls on_numberings cs t)))) /\
  (forall cs x, grows "docVars" added_var j_var cs (seen (j_settings x)) (seen (j_settings (calls on_settings cs x)))).
Proof.
  repeat split; intros cs t.
  - exists (map j_style (ss_list t)). split; [reflexivity|]. change (Some (JArr (map j_style (ss_list (calls on_styles cs t)))) = Some (JArr (map j_style (ss_list t) ++ map j_style (only added_style cs)))).
    rewrite (grown on_styles added_style ss_list) by now intros []. now rewrite map_app.
  - exists (map j_level (an_levels t)). split; [reflexivity|]. change (Some (JArr (map j_level (an_levels (calls on_abstract cs t)))) = Some (JArr (map j_level (an_levels t) ++ map j_level (only added_level cs)))).
    rewrite (grown on_abstract added_level an_levels) by now intros []. now rewrite map_app.
  - exists (map j_abstract (ns_abstracts t)). split; [reflexivity|].
    change (Some (JArr (map j_abstract (ns_abstracts (calls on_numberings cs t)))) = Some (JArr (map j_abstract (ns_abstracts t) ++ map j_abstract (only added_abstract cs)))).
    rewrite (grown on_numberings added_abstract ns_abstracts) by now intros []. now rewrite map_app.
  - exists (map j_num (ns_nums t)). split; [reflexivity|].
    change (Some (JArr (map j_num (ns_nums (calls on_numberings cs t)))) = Some (JArr (map j_num (ns_nums t) ++ map j_num (only added_num cs)))).
    rewrite (grown on_numberings added_num ns_nums) by now intros []. now rewrite map_app.
  - exists (map j_var (cfg_vars t)). split; [reflexivity|].
    change (Some (JArr (map j_var (cfg_vars (calls on_settings cs t)))) = Some (JArr (map j_var (cfg_vars t) ++ map j_var (only added_var cs)))).
    rewrite (grown on_settings added_var cfg_vars) by now intros []. now rewrite map_app.
Qed.

(** The name of the style that follows is shown as given, the other names of styles escaped. *)
Theorem next_like_other_links_refuted : forall s,
  at_ ["next"%string] (j_style (on_style (YNext "a&b") s)) = Some (JStr "a&b") /\
  at_ ["basedOn"%string] (j_style (on_style (YBasedOn "a&b") s)) = Some (JStr "a&amp;b") /\
  at_ ["name"%string] (j_style (on_style (YName "a&b") s)) = Some (JStr "a&amp;b").
Proof. intros s. repeat split. Qed.
(** A style can be added twice: nothing is replaced, and two styles have the same id. *)
Theorem added_style_replaces_refuted : forall s t,
  at_ ["styles"%string] (j_styles (calls on_styles [YsAdd s; YsAdd s] t)) = Some (JArr (map j_style (ss_list t) ++ [j_style s; j_style s])).
Proof.
  intros s t. destruct (proj1 added_in_order [YsAdd s; YsAdd s] t) as (l & B & A). unfold seen in B, A. rewrite A. do 2 f_equal.
  change (Some (JArr (map j_style (ss_list t))) = Some (JArr l)) in B. now injection B as <-.
Qed.

(** Cases *)
Definition title : style := calls on_style
  [YSize 30; YName "Title"; YBold; YTableIndent 5; YNext "Body"; YTableProperty tblpr_default; YQFormat false; YWidth 100 WidthType_Pct; YFrame (FX 3%Z);
   YName "Big & Bold"; YQFormat true; YSemiHidden; YSize 40; YOutline 2] (style_new "T" StyleType_Table).
Example style_case :
  at_ ["styleId"%string] (j_style title) = Some (JStr "T") /\ at_ ["name"%string] (j_style title) = Some (JStr "Big &amp; Bold") /\
  at_ ["runProperty"%string; "sz"%string] (j_style title) = Some (JNum 40) /\ at_ ["runProperty"%string; "bold"%string] (j_style title) = Some (JBool true) /\
  at_ ["tableProperty"%string; "width"%string; "width"%string] (j_style title) = Some (JNum 100) /\
  at_ ["tableProperty"%string; "indent"%string] (j_style title) = None /\ at_ ["qFormat"%string] (j_style title) = None /\
  at_ ["semiHidden"%string] (j_style title) = Some (JBool true) /\ at_ ["paragraphProperty"%string; "frameProperty"%string; "x"%string] (j_style title) = Some (JNum 3) /\
  at_ ["paragraphProperty"%string; "outlineLvl"%string] (j_style title) = Some (JNum 2).
Proof. repeat split. Qed.
(** The hypotheses are met: the last name wins; later table calls change the table property given as a whole. *)
Example last_name_case : at_ ["name"%string] (j_style (calls on_style ([YName "A"; YBold] ++ YName "B" :: [YItalic; YNext "N"]) (style_new "T" StyleType_Paragraph))) = Some (JStr "B").
Proof. now apply (proj1 (last_style_setter_wins "name" [] ltac:(cbn; intuition discriminate)) [YName "A"; YBold] (YName "B") [YItalic; YNext "N"]). Qed.
Example whole_table_case : tells table_says [TWidth 7 WidthType_Dxa] (seen (j_tblpr tblpr_default))
  (inside ["tableProperty"%string] (seen (j_style (calls on_style [YTableIndent 4; YTableProperty tblpr_default; YWidth 7 WidthType_Dxa] (style_new "T" StyleType_Table))))).
Proof. exact (style_whole_table _ _ _ (style_history _ _) [YTableIndent 4] tblpr_default [YWidth 7 WidthType_Dxa] eq_refl eq_refl). Qed.
Example level_case : let l := calls on_level [LBold; LSuffix LevelSuffixType_Space; LIndent (Some 10%Z) None None None; LNoBold; LRestart 3; LSuffix LevelSuffixType_Nothing] (level_new 0 1 "decimal" "%1." "left") in
  at_ ["suffix"%string] (j_level l) = Some (JStr "nothing") /\ at_ ["runProperty"%string; "bold"%string] (j_level l) = Some (JBool false) /\
  at_ ["paragraphProperty"%string; "indent"%string; "start"%string] (j_level l) = Some (JNum 10) /\ at_ ["levelRestart"%string] (j_level l) = Some (JNum 3) /\
  at_ ["isLgl"%string] (j_level l) = None.
Proof. repeat split. Qed.
Example settings_case : let x := calls on_settings [GDocVar "a" "1"; GTabStop 10; GDocVar "a" "2"; GTabStop 20; GEvenAndOdd] settings_default in
  at_ ["defaultTabStop"%string] (j_settings x) = Some (JNum 20) /\
  at_ ["docVars"%string] (j_settings x) = Some (JArr [JObj [("name", JStr "a"); ("val", JStr "1")]; JObj [("name", JStr "a"); ("val", JStr "2")]])%string /\
  at_ ["evenAndOddHeaders"%string] (j_settings x) = Some (JBool true).
Proof. repeat split. Qed.
Definition all_proved :=
  conj style_setters_do_what_they_say (conj styles_setters_do_what_they_say (conj level_setters_do_what_they_say (conj numbering_setters_do_what_they_say
  (conj settings_setters_do_what_they_say (conj last_style_setter_wins (conj last_settings_setter_wins (conj added_in_order
  (conj next_like_other_links_refuted added_style_replaces_refuted)))))))).
Print Assumptions all_proved.

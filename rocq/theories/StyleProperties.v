(** Theorems about styles, numberings and settings (C51 - C56). *)
From Coq Require Import NArith ZArith List Bool Lia.
From Verif Require Import Str StrFacts TypesModel Props EscapeModel WriterModel XmlParser XmlSpec ReadBase ReadProps ReadModel ReadSpec ReadProofs
  ReadPartProofs RoundSpec SurviveSpec SurviveProofs WellSpec WellPartProofs StyleModel StyleRead StyleSpec StyleOut StyleSurvive.
From Verif Require Import ReadTextProofs.
From Verif Require BuildModel BuildProperties ReadProperties RoundParts RoundStyle WellStyle RoundProperties PropsSet.
Import ListNotations.
Import BuildModel (part_calls, xcalls).
Import RoundProperties (written_as, ids_left).
Import BuildProperties (start).
Import ReadProperties (from_text, from_text_reads).

(** The text of a part that has no declaration. *)
Definition bare_as (x : BuildModel.xml) (t : string) : Prop := exists w, w_run w_init (xcalls x) = WOk w /\ WriterModel.out w = t.

(** ** C51: styles *)
Theorem styles_read_back : forall t s x s',
  b_styles t s = Some (x, s') -> Forall readable (in_styles t) -> fits_styles t ->
  exists txt, bare_as x txt /\ forall r, reads_from txt r -> ids_left r 0 -> exists r', read_styles r = Val (reread_styles t) r'.
Proof.
  intros t s x s' H Hr Hf. apply (proj1 (WellStyle.styles_well _ _ _ _ H)) in Hr as (evs & He).
  destruct (RoundStyle.styles_read_back _ _ _ _ _ H He Hf) as (w & Hw & Hd). exists (WriterModel.out w). split; [exists w; split; [exact Hw | reflexivity] | intros r H1 H2; destruct (Hd r H1 H2) as (r' & Hr' & _); now exists r'].
Qed.
Print Assumptions styles_read_back.
(** A style of which everything survives comes back as it was; for styles that are not
    for tables no other does. *)
Theorem style_comes_back : forall y, style_survives y -> reread_style y = y.
Proof. exact survives_style. Qed.
Print Assumptions style_comes_back.
Theorem style_comes_back_iff : forall y, sty_type y <> StyleType_Table -> (reread_style y = y <-> style_survives y).
Proof. intros y H. apply style_survives_iff. now destruct (sty_type y). Qed.
Print Assumptions style_comes_back_iff.
(** The style that is found under an id other than [Normal] is found under it again. *)
Theorem style_found_again : forall t id, Forall (fun y => stored_survives (sty_id y)) (ss_list t) -> id <> "Normal"%string ->
  find_style id (reread_styles t) = option_map reread_style (find_style id t).
Proof.
  intros t id H Hn. unfold find_style. cbn [reread_styles ss_list find].
  destruct (String.eqb_spec (sty_id style_normal) id) as [X|_]; [exfalso; apply Hn; rewrite <- X; reflexivity|]. now apply find_reread.
Qed.
Print Assumptions style_found_again.
(** Under [Normal] the one that is always written first is found, not that of the user. *)
Theorem own_normal_found_refuted : forall t, find_style "Normal" (reread_styles t) = Some style_normal.
Proof. intros t. reflexivity. Qed.
Print Assumptions own_normal_found_refuted.
(** Nor are the styles the same: each time there is one more. *)
Theorem styles_stay_same_refuted : forall n t, ss_list (times n reread_styles t) = repeat style_normal n ++ map (times n reread_style) (ss_list t).
Proof. exact styles_cycles. Qed.
Print Assumptions styles_stay_same_refuted.

(** *** Cases *)
Definition heading : style := {|
  sty_id := escape "Heading&1"; sty_name := "heading 1"; sty_type := StyleType_Paragraph; sty_rpr := RoundProperties.rp0;
  sty_ppr := PPr (PropsSet.set_p_keep_next (Some true) (PropsSet.set_p_outline (Some 0%N) ppr_base_empty)) None;
  sty_tblpr := tblpr_default; sty_tcpr := tcpr_empty; sty_based_on := Some "Base"%string; sty_next := None; sty_link := None;
  sty_q_format := true; sty_ui_priority := None; sty_semi_hidden := false; sty_unhide := false |}.
Definition own_normal : style := style_named "mine" (style_new "Normal" StyleType_Paragraph).
Definition grid : style := {|
  sty_id := "Grid"; sty_name := "Table Grid"; sty_type := StyleType_Table; sty_rpr := rpr_empty; sty_ppr := ppr_empty;
  sty_tblpr := RoundProperties.tp0; sty_tcpr := tcpr_empty; sty_based_on := None; sty_next := None; sty_link := None;
  sty_q_format := true; sty_ui_priority := Some 39%N; sty_semi_hidden := false; sty_unhide := false |}.
Definition some_styles : styles := {| ss_rpr := RoundProperties.rp0; ss_ppr := ppr_empty; ss_list := [heading; own_normal; grid] |}.
Example some_styles_build : exists x s', b_styles some_styles start = Some (x, s').
Proof. eexists _, _. vm_compute. reflexivity. Qed.
Example some_styles_readable : Forall readable (in_styles some_styles).
Proof. apply all_readable. vm_compute. reflexivity. Qed.
Example some_styles_fit : fits_styles some_styles.
Proof.
  assert (R : fits_rpr RoundProperties.rp0) by RoundProperties.in_range.
  assert (R0 : fits_rpr rpr_empty) by RoundProperties.in_range.
  assert (P : fits_ppr ppr_empty) by (cbn [fits_ppr ppr_empty]; RoundProperties.in_range).
  assert (H : fits_ppr (sty_ppr heading)) by (cbn [fits_ppr sty_ppr heading]; RoundProperties.in_range).
  split; [exact R|]. split; [exact P|]. repeat apply Forall_cons; [| | |apply Forall_nil]; (split; [assumption|]; split; [assumption|]); try discriminate.
  intros _. split; RoundProperties.in_range.
Qed.
Example heading_survives : style_survives heading.
Proof. unfold style_survives. cbn [ppr_survives sty_ppr heading]. RoundProperties.surviving. Qed.
Example heading_found : find_style (escape "Heading&1") (reread_styles some_styles) = Some heading.
Proof. vm_compute. reflexivity. Qed.
(** The priority of a style is lost; the [Normal] of the user is not the one that is found. *)
Theorem style_priority_lost_refuted : exists t x s' txt, b_styles t start = Some (x, s') /\ bare_as x txt /\
  exists t2 r', read_styles (from_text txt) = Val t2 r' /\
    option_map sty_ui_priority (find_style "Grid" t) = Some (Some 39%N) /\ option_map sty_ui_priority (find_style "Grid" t2) = Some None /\
    option_map sty_name (find_style "Normal" t) = Some "mine"%string /\ option_map sty_name (find_style "Normal" t2) = Some "Normal"%string.
Proof.
  destruct some_styles_build as (x & s' & H). destruct (styles_read_back _ _ _ _ H some_styles_readable some_styles_fit) as (txt & Ht & Hd).
  destruct (Hd _ (from_text_reads txt) eq_refl) as [r' Hr]. exists some_styles, x, s', txt. split; [exact H|]. split; [exact Ht|].
  exists (reread_styles some_styles), r'. split; [exact Hr|]. repeat split.
Qed.
Print Assumptions style_priority_lost_refuted.

(** ** C52: numberings *)
Theorem numberings_read_back : forall t s x s',
  b_numberings t s = Some (x, s') -> Forall readable (in_numberings t) -> fits_numberings t ->
  exists txt, written_as x txt /\ forall r, reads_from txt r -> ids_left r 0 -> exists r', read_numberings r = Val (reread_numberings t) r'.
Proof.
  intros t s x s' H Hr Hf. apply (proj1 (WellStyle.numberings_well _ _ _ _ H)) in Hr as (evs & He).
  destruct (RoundStyle.numberings_read_back _ _ _ _ _ H He Hf) as (w & Hw & Hd). exists (WriterModel.out w). split; [exists w; split; [exact Hw | reflexivity] | intros r H1 H2; destruct (Hd r H1 H2) as (r' & Hr' & _); now exists r'].
Qed.
Print Assumptions numberings_read_back.
Theorem abstract_comes_back_iff : forall a, reread_abstract a = a <-> abstract_survives a.
Proof. exact survives_abstract. Qed.
Print Assumptions abstract_comes_back_iff.
Theorem num_comes_back_iff : forall n, reread_num n = n <-> num_survives n.
Proof. exact survives_num. Qed.
Print Assumptions num_comes_back_iff.
(** Which abstract numbering a numbering refers to, where its levels start and which
    level is replaced is always kept. *)
Theorem numbering_refers_same : forall n, nm_id (reread_num n) = nm_id n /\ nm_abstract (reread_num n) = nm_abstract n /\
  map (fun o => (ov_level o, ov_start o)) (nm_overrides (reread_num n)) = map (fun o => (ov_level o, ov_start o)) (nm_overrides n).
Proof. intros n. repeat split. cbn [reread_num nm_overrides]. rewrite map_map. reflexivity. Qed.
Print Assumptions numbering_refers_same.
(** The numberings are not the same: each time there is one more. *)
Theorem numberings_stay_same_refuted : forall n t,
  ns_abstracts (times n reread_numberings t) = repeat (reread_abstract default_abstract) n ++ map (times n reread_abstract) (ns_abstracts t) /\
  ns_nums (times n reread_numberings t) = repeat default_num n ++ map (times n reread_num) (ns_nums t).
Proof. exact numberings_cycles. Qed.
Print Assumptions numberings_stay_same_refuted.

(** *** Cases *)
Definition level0 : level := {|
  lv_level := 0; lv_start := 3; lv_format := "upperRoman"; lv_text := "%1)"; lv_jc := "left"; lv_ppr := ppr_empty; lv_rpr := RoundProperties.rp0;
  lv_suffix := LevelSuffixType_Space; lv_pstyle := Some (escape "Heading&1"); lv_restart := Some 0%N; lv_lgl := true |}.
Definition list2 : abstract_num := {| an_id := 2; an_style_link := None; an_num_style_link := None; an_levels := [level0]; an_multi := None |}.
Definition linked : abstract_num :=
  {| an_id := 3; an_style_link := Some "L"%string; an_num_style_link := None; an_levels := []; an_multi := Some "hybridMultilevel"%string |}.
Definition num2 : num := {| nm_id := 2; nm_abstract := 2; nm_overrides := [{| ov_level := 0; ov_start := Some 5%N; ov_replace := Some level0 |}] |}.
Definition some_numberings : numberings := {| ns_abstracts := [list2; linked]; ns_nums := [num2] |}.
Example some_numberings_build : exists x s', b_numberings some_numberings start = Some (x, s').
Proof. eexists _, _. vm_compute. reflexivity. Qed.
Example some_numberings_readable : Forall readable (in_numberings some_numberings).
Proof. apply all_readable. vm_compute. reflexivity. Qed.
Example some_numberings_fit : fits_numberings some_numberings.
Proof.
  assert (Lv : fits_level level0).
  { split; [cbv; discriminate|]. split; [cbv; discriminate|]. split; [cbv; trivial; discriminate|].
    split; [cbn [fits_ppr lv_ppr level0 ppr_empty]; RoundProperties.in_range | RoundProperties.in_range]. }
  split.
  - repeat apply Forall_cons; [| |apply Forall_nil]; (split; [cbv; discriminate|]); cbn [an_levels list2 linked]; auto.
  - apply Forall_cons; [|apply Forall_nil]. split; [cbv; discriminate|]. split; [cbv; discriminate|]. cbn [nm_overrides num2].
    apply Forall_cons; [|apply Forall_nil]. split; [cbv; discriminate|]. split; [cbv; discriminate | exact Lv].
Qed.
Example list2_survives : abstract_survives list2 /\ num_survives num2.
Proof.
  assert (Lv : level_survives level0) by (unfold level_survives; cbn [ppr_survives lv_ppr level0 ppr_empty]; RoundProperties.surviving).
  split; [repeat split; cbn [an_levels list2]; auto | unfold num_survives; cbn [nm_overrides num2]; auto].
Qed.
(** The links to styles and the kind of list are lost. *)
Theorem list_kind_lost_refuted : exists t x s' txt, b_numberings t start = Some (x, s') /\ written_as x txt /\
  exists t2 r', read_numberings (from_text txt) = Val t2 r' /\ In linked (ns_abstracts t) /\
    In {| an_id := 3; an_style_link := None; an_num_style_link := None; an_levels := []; an_multi := None |} (ns_abstracts t2) /\ ~ In linked (ns_abstracts t2).
Proof.
  destruct some_numberings_build as (x & s' & H).
  destruct (numberings_read_back _ _ _ _ H some_numberings_readable some_numberings_fit) as (txt & Ht & Hd).
  destruct (Hd _ (from_text_reads txt) eq_refl) as [r' Hr]. exists some_numberings, x, s', txt. split; [exact H|]. split; [exact Ht|].
  exists (reread_numberings some_numberings), r'. split; [exact Hr|]. cbn. split; [tauto|]. split; [tauto|]. intros [X|[X|[X|X]]]; try discriminate X; exact X.
Qed.
Print Assumptions list_kind_lost_refuted.

(** ** C53: ids *)
Theorem style_ids_declared : forall t s x s', b_styles t s = Some (x, s') ->
  declared "w:style" "w:styleId" x = "Normal"%string :: map sty_id (ss_list t).
Proof. exact styles_declare. Qed.
Print Assumptions style_ids_declared.
Theorem style_ids_unique_iff : forall t s x s', b_styles t s = Some (x, s') ->
  (NoDup (declared "w:style" "w:styleId" x) <-> NoDup (map sty_id (ss_list t)) /\ ~ In "Normal"%string (map sty_id (ss_list t))).
Proof.
  intros t s x s' H. rewrite (styles_declare _ _ _ _ H). split.
  - intros X. inversion X; auto.
  - intros [X Y]. now constructor.
Qed.
Print Assumptions style_ids_unique_iff.
Theorem numbering_ids_declared : forall t s x s', b_numberings t s = Some (x, s') ->
  declared "w:abstractNum" "w:abstractNumId" x = map show_N (1%N :: map an_id (ns_abstracts t)) /\
  declared "w:num" "w:numId" x = map show_N (1%N :: map nm_id (ns_nums t)).
Proof. exact numberings_declare. Qed.
Print Assumptions numbering_ids_declared.
Theorem numbering_ids_unique_iff : forall t s x s', b_numberings t s = Some (x, s') ->
  (NoDup (declared "w:abstractNum" "w:abstractNumId" x) <-> NoDup (map an_id (ns_abstracts t)) /\ ~ In 1%N (map an_id (ns_abstracts t))) /\
  (NoDup (declared "w:num" "w:numId" x) <-> NoDup (map nm_id (ns_nums t)) /\ ~ In 1%N (map nm_id (ns_nums t))).
Proof.
  intros t s x s' H. destruct (numberings_declare _ _ _ _ H) as [-> ->]. rewrite !NoDup_shown.
  split; (split; [intros X; inversion X; auto | intros [X Y]; now constructor]).
Qed.
Print Assumptions numbering_ids_unique_iff.
(** The abstract numberings referred to: the default numbering has its own, and the
    others are declared exactly if the user declared them or means the default one. *)
Theorem numbering_refs_declared_iff : forall t s x s', b_numberings t s = Some (x, s') ->
  (incl (referred "w:num" "w:abstractNumId" "w:val" x) (declared "w:abstractNum" "w:abstractNumId" x) <->
   Forall (fun n => nm_abstract n = 1%N \/ In (nm_abstract n) (map an_id (ns_abstracts t))) (ns_nums t)).
Proof.
  intros t s x s' H. rewrite (numberings_refer _ _ _ _ H). destruct (numberings_declare _ _ _ _ H) as [-> _]. rewrite Forall_forall. split.
  - intros X n Hn. specialize (X (show_N (nm_abstract n))). rewrite !In_shown in X. cbn [In] in X.
    destruct X as [X|X]; [right; now apply in_map | left; now symmetry | now right].
  - intros X a Ha. apply in_map_iff in Ha as (m & <- & Ha). apply In_shown. destruct Ha as [<-|Ha]; [now left|].
    apply in_map_iff in Ha as (n & <- & Ha). destruct (X n Ha) as [->|Y]; [now left | now right].
Qed.
Print Assumptions numbering_refs_declared_iff.
Example refs_case : Forall (fun n => nm_abstract n = 1%N \/ In (nm_abstract n) (map an_id (ns_abstracts some_numberings))) (ns_nums some_numberings).
Proof. constructor; [right; left; reflexivity | constructor]. Qed.
(** So what was read of a part and is written again declares ids twice. *)
Theorem ids_unique_after_reading_refuted : forall t s x s',
  (b_styles (reread_styles t) s = Some (x, s') -> ~ NoDup (declared "w:style" "w:styleId" x)) /\
  forall n, (b_numberings (reread_numberings n) s = Some (x, s') ->
     ~ NoDup (declared "w:abstractNum" "w:abstractNumId" x) /\ ~ NoDup (declared "w:num" "w:numId" x)).
Proof.
  intros t s x s'. split.
  - intros H. rewrite (style_ids_unique_iff _ _ _ _ H). intros [_ X]. apply X. left. reflexivity.
  - intros n H. destruct (numbering_ids_unique_iff _ _ _ _ H) as [-> ->]. split; intros [_ X]; apply X; left; reflexivity.
Qed.
Print Assumptions ids_unique_after_reading_refuted.
Example unique_case : NoDup (map sty_id [heading; grid]) /\ ~ In "Normal"%string (map sty_id [heading; grid]) /\
  NoDup (map an_id (ns_abstracts some_numberings)) /\ ~ In 1%N (map an_id (ns_abstracts some_numberings)).
Proof.
  split; [repeat constructor; vm_compute; intuition discriminate|]. split; [vm_compute; intuition discriminate|].
  split; [repeat constructor; vm_compute; intuition discriminate | vm_compute; intuition discriminate].
Qed.
Example doubled_case : exists x s', b_styles (reread_styles some_styles) start = Some (x, s').
Proof. eexists _, _. vm_compute. reflexivity. Qed.
Example doubled_numberings : exists x s', b_numberings (reread_numberings some_numberings) start = Some (x, s').
Proof. eexists _, _. vm_compute. reflexivity. Qed.

(** ** C54: settings *)
Theorem settings_read_back : forall c, Forall readable (in_settings c) -> fits_settings c ->
  exists txt, written_as (x_settings c) txt /\ forall r, reads_from txt r -> ids_left r 0 -> exists r', read_settings r = Val (reread_settings c) r'.
Proof.
  intros c Hr Hf. apply (proj1 (WellStyle.settings_well c)) in Hr as (evs & He).
  destruct (RoundStyle.settings_read_back _ _ He Hf) as (w & Hw & Hd). exists (WriterModel.out w). split; [exists w; split; [exact Hw | reflexivity] | intros r H1 H2; destruct (Hd r H1 H2) as (r' & Hr' & _); now exists r'].
Qed.
Print Assumptions settings_read_back.
Theorem settings_come_back_iff : forall c, reread_settings c = c <-> settings_survive c.
Proof. exact survives_settings. Qed.
Print Assumptions settings_come_back_iff.
Definition some_settings : settings := {|
  cfg_tab := 720; cfg_doc_id := Some "50DF2DA7-0000-4000-8000-000000000001"%string; cfg_vars := [("who", "me"); ("why", "x")]%string;
  cfg_even_odd := true; cfg_adjust := true; cfg_spacing := Some CharacterSpacingValues_CompressPunctuation |}.
Example some_settings_ok : Forall readable (in_settings some_settings) /\ fits_settings some_settings /\ settings_survive some_settings.
Proof.
  split; [apply all_readable; vm_compute; reflexivity|]. split; [vm_compute; discriminate|].
  split; [vm_compute; reflexivity|]. split; [|discriminate]. repeat apply Forall_cons; try apply Forall_nil; split; vm_compute; reflexivity.
Qed.
(** A document id with braces comes back without them. *)
Theorem doc_id_braces_lost_refuted : exists c txt c2 r', written_as (x_settings c) txt /\ read_settings (from_text txt) = Val c2 r' /\
  cfg_doc_id c = Some "{A}"%string /\ cfg_doc_id c2 = Some "A"%string.
Proof.
  set (c := {| cfg_tab := 840; cfg_doc_id := Some "{A}"%string; cfg_vars := []; cfg_even_odd := false; cfg_adjust := false; cfg_spacing := None |}).
  destruct (settings_read_back c) as (txt & Ht & Hd); [apply all_readable; vm_compute; reflexivity | vm_compute; discriminate|].
  destruct (Hd _ (from_text_reads txt) eq_refl) as [r' Hr]. exists c, txt, (reread_settings c), r'. repeat split; auto.
Qed.
Print Assumptions doc_id_braces_lost_refuted.

(** ** C55: what reading ends in *)
(** Reading settings always ends, with an error only if the XML reader reports one. *)
Theorem settings_read_ends : forall r,
  (exists c r', read_settings r = Val c r') \/ ((exists r', read_settings r = Err r') /\ In EErr (rs_events r)).
Proof.
  intros r. destruct (settings_out r) as [H|[r' H]]; [now left | right]. split; [now exists r' | now apply settings_error in H].
Qed.
Print Assumptions settings_read_ends.
(** Reading the numberings of a complete text ends. *)
Theorem numberings_read_returns : forall s r, reads_from s r -> complete_text s -> returns (read_numberings r).
Proof. intros s r H1 H2. apply numberings_return, closing_complete, (text_complete s); assumption. Qed.
Print Assumptions numberings_read_returns.
(** Reading the styles of a complete text whose root is [styles] gives styles, or panics. *)
Theorem styles_read_returns : forall s r, reads_from s r -> complete_text s -> root_named "styles" s ->
  (exists t r', read_styles r = Val t r') \/ read_styles r = Panic.
Proof.
  intros s r H1 H2 H3. destruct (root_first s r _ H1 H3) as (q & atts & rest & Hf & Hq).
  apply (styles_return r q atts rest); auto. apply closing_complete, (text_complete s); assumption.
Qed.
Print Assumptions styles_read_returns.
(** Without an end tag of that name they are never read ... *)
Theorem styles_without_end : forall r, never_closed "styles" (rs_events r) -> ~ In EErr (rs_events r) ->
  read_styles r = Hang \/ read_styles r = Panic.
Proof. intros r H1 H2. destruct (styles_unclosed r H1) as [H|[[r' [_ H]]|H]]; auto. contradiction. Qed.
Print Assumptions styles_without_end.
Theorem unclosed_styles_not_accepted : forall r, never_closed "styles" (rs_events r) -> forall t r', read_styles r <> Val t r'.
Proof. intros r H t r' X. destruct (styles_unclosed r H) as [H1|[[r2 [H1 _]]|H1]]; rewrite H1 in X; discriminate. Qed.
Print Assumptions unclosed_styles_not_accepted.
(** ... so a complete text with another root is read for ever. *)
Theorem other_root_reported_refuted : exists s, complete_text s /\ reads_from s (from_text s) /\ read_styles (from_text s) = Hang.
Proof.
  exists "<w:numbering></w:numbering>"%string. split; [|split; [apply from_text_reads | reflexivity]].
  apply ReadProperties.complete_by_events; [reflexivity|]. intros H. vm_compute in H. repeat (destruct H as [H|H]; [discriminate|]). exact H.
Qed.
Print Assumptions other_root_reported_refuted.
(** Malformed XML is not always reported either. *)
Theorem malformed_numbering_reported_refuted : exists s, reads_from s (from_text s) /\
  (exists n, nth_request n (reader_of s) = EErr) /\ read_numberings (from_text s) = Hang.
Proof.
  exists "<w:numbering><w:abstractNum></w:numbering>"%string. split; [apply from_text_reads|]. split; [exists 2%nat; reflexivity | reflexivity].
Qed.
Print Assumptions malformed_numbering_reported_refuted.
Theorem malformed_styles_reported_refuted : exists s, reads_from s (from_text s) /\
  (exists n, nth_request n (reader_of s) = EErr) /\ read_styles (from_text s) = Hang.
Proof.
  exists "<w:styles><w:style></w:styles>"%string. split; [apply from_text_reads|]. split; [exists 2%nat; reflexivity | reflexivity].
Qed.
Print Assumptions malformed_styles_reported_refuted.
(** There is no panic when no start tag lacks anything ... *)
Theorem styles_read_no_panic : forall r, Forall (sound_for style_needs) (rs_events r) -> ids_suffice r -> read_styles r <> Panic.
Proof. exact styles_calm. Qed.
Print Assumptions styles_read_no_panic.
Theorem numberings_read_no_panic : forall r, Forall (sound_for numbering_needs) (rs_events r) -> ids_suffice r -> read_numberings r <> Panic.
Proof. exact numberings_calm. Qed.
Print Assumptions numberings_read_no_panic.
(** ... and there is one on each of the elements that needs an attribute and has none. *)
Import ReadProperties (starts, w).
Theorem style_name_panics_refuted : forall name rest, In name style_needs ->
  read_styles {| rs_events := EStart (w "style") [] :: EStart (w name) [] :: rest; rs_para := 1 |} = Panic.
Proof. intros name rest [<-|[]]. reflexivity. Qed.
Print Assumptions style_name_panics_refuted.
Theorem numbering_panics_refuted : forall name rest, In name numbering_needs ->
  exists around, read_numberings {| rs_events := starts around ++ EStart (w name) [] :: rest; rs_para := 1 |} = Panic.
Proof.
  intros name rest H. cbn [numbering_needs In] in H.
  repeat (destruct H as [H|H]; [subst name|]); [..|easy];
    first [ exists [("abstractNum", [])]%string; reflexivity
          | exists [("num", [])]%string; reflexivity
          | exists [("num", []); ("lvlOverride", [(w "ilvl", "0"%string)])]%string; reflexivity
          | exists [("abstractNum", []); ("lvl", [])]%string; reflexivity ].
Qed.
Print Assumptions numbering_panics_refuted.

(** *** Cases *)
Definition styles_text : string := "<w:styles><w:style w:styleId='A'><w:name w:val='a'/><w:rPr><w:b/></w:rPr></w:style></w:styles>".
Example styles_text_ok : complete_text styles_text /\ root_named "styles" styles_text /\
  Forall (sound_for style_needs) (rs_events (from_text styles_text)) /\ ids_suffice (from_text styles_text).
Proof.
  split; [apply ReadProperties.complete_by_events; [reflexivity | intros H; vm_compute in H; repeat (destruct H as [H|H]; [discriminate|]); exact H]|].
  split; [exists 0%nat; do 2 eexists; split; [reflexivity|]; split; [reflexivity | intros m q a X; inversion X]|].
  split; [|vm_compute; reflexivity].
  unfold from_text. cbn [rs_events].
  match goal with |- Forall _ ?l => let v := eval vm_compute in l in change l with v end.
  repeat (apply Forall_cons; [unfold sound_for, sound_event, sound_tag, needs_attribute, needs_width, has_points, style_needs, numbering_needs; cbn [q_local In]; repeat split; intros; intuition (try discriminate; try congruence)|]).
  apply Forall_nil.
Qed.
Definition numbering_text : string :=
  "<w:numbering><w:abstractNum w:abstractNumId='2'><w:lvl w:ilvl='0'><w:start w:val='1'/></w:lvl></w:abstractNum><w:num w:numId='2'><w:abstractNumId w:val='2'/></w:num></w:numbering>".
Example numbering_text_ok : complete_text numbering_text /\
  Forall (sound_for numbering_needs) (rs_events (from_text numbering_text)) /\ ids_suffice (from_text numbering_text).
Proof.
  split; [apply ReadProperties.complete_by_events; [reflexivity | intros H; vm_compute in H; repeat (destruct H as [H|H]; [discriminate|]); exact H]|].
  split; [|vm_compute; reflexivity].
  unfold from_text. cbn [rs_events].
  match goal with |- Forall _ ?l => let v := eval vm_compute in l in change l with v end.
  repeat (apply Forall_cons; [unfold sound_for, sound_event, sound_tag, needs_attribute, needs_width, has_points, style_needs, numbering_needs; cbn [q_local In]; repeat split; intros; intuition (try discriminate; try congruence)|]).
  apply Forall_nil.
Qed.
Example unclosed_case : never_closed "styles" (rs_events (from_text "<w:numbering></w:numbering>")) /\ ~ In EErr (rs_events (from_text "<w:numbering></w:numbering>")).
Proof.
  split.
  - intros q H. vm_compute in H. destruct H as [H|[H|[]]]; [discriminate H | injection H as <-; discriminate].
  - intros H. vm_compute in H. repeat (destruct H as [H|H]; [discriminate|]). exact H.
Qed.

(** ** C56: when the parts are XML *)
Theorem styles_well_formed_iff : forall t s x s', b_styles t s = Some (x, s') ->
  (well_formed_xml x <-> Forall legal (in_styles t)) /\ ((exists evs, doc_reported (xcalls x) = Some evs) <-> Forall readable (in_styles t)).
Proof. intros t s x s' H. apply and_comm. exact (WellStyle.styles_well t s x s' H). Qed.
Print Assumptions styles_well_formed_iff.
Theorem numberings_well_formed_iff : forall t s x s', b_numberings t s = Some (x, s') ->
  (well_formed_xml x <-> Forall legal (in_numberings t)) /\ ((exists evs, doc_reported (part_calls x) = Some evs) <-> Forall readable (in_numberings t)).
Proof. intros t s x s' H. apply and_comm. exact (WellStyle.numberings_well t s x s' H). Qed.
Print Assumptions numberings_well_formed_iff.
Theorem settings_well_formed_iff : forall c,
  (well_formed_xml (x_settings c) <-> Forall legal (in_settings c)) /\ ((exists evs, doc_reported (part_calls (x_settings c)) = Some evs) <-> Forall readable (in_settings c)).
Proof. intros c. apply and_comm. exact (WellStyle.settings_well c). Qed.
Print Assumptions settings_well_formed_iff.
(** The claim that the parts are XML is false: neither the text of a level nor a document
    variable is escaped. *)
Theorem level_text_breaks_part_refuted : exists t x s' txt r', b_numberings t start = Some (x, s') /\ ~ well_formed_xml x /\ written_as x txt /\
  read_numberings (from_text txt) = r' /\ (forall v r, r' <> Val v r).
Proof.
  set (t := {| ns_abstracts := [{| an_id := 2; an_style_link := None; an_num_style_link := None; an_multi := None;
                                   an_levels := [level_new 0 1 "decimal" "%1 & %2" "left"] |}]; ns_nums := [] |}).
  assert (B : exists x s' w r', b_numberings t start = Some (x, s') /\ w_run w_init (part_calls x) = WOk w /\
    read_numberings (from_text (WriterModel.out w)) = r' /\ (forall v r, r' <> Val v r)).
  { eexists _, _, _, _. split; [vm_compute; reflexivity|]. split; [vm_compute; reflexivity|]. split; [vm_compute; reflexivity | discriminate]. }
  destruct B as (x & s' & w & r' & H1 & H2 & H3 & H4). exists t, x, s', (WriterModel.out w), r'. split; [exact H1|].
  split; [rewrite (proj1 (numberings_well_formed_iff _ _ _ _ H1)), <- all_legal; vm_compute; discriminate|]. split; [now exists w|]. auto.
Qed.
Print Assumptions level_text_breaks_part_refuted.
Theorem doc_var_breaks_part_refuted : exists c, ~ well_formed_xml (x_settings c).
Proof.
  exists {| cfg_tab := 840; cfg_doc_id := None; cfg_vars := [("a", "b & c")]%string; cfg_even_odd := false; cfg_adjust := false; cfg_spacing := None |}.
  rewrite (proj1 (settings_well_formed_iff _)), <- all_legal. vm_compute. discriminate.
Qed.
Print Assumptions doc_var_breaks_part_refuted.
Example some_styles_legal : Forall legal (in_styles some_styles) /\ Forall legal (in_numberings some_numberings) /\ Forall legal (in_settings some_settings).
Proof. repeat split; apply all_legal; vm_compute; reflexivity. Qed.

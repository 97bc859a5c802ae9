(** Theorems about the declared types of the JSON besides the document (C83). *)
From Coq Require Import NArith ZArith List Bool.
From Verif Require Import Str TypesModel Props JsonModel JsonSpec JsonProperties TsSpec StyleModel SheetModel OpenModel GleanModel PackModel RenderModel
  ShapeModel ShapeSpec ShapeProofs.
From Verif Require StyleProperties CallSpec.
Import ListNotations.
Open Scope list_scope.

(** The JSON text, read as JSON, of styles, numberings and settings has the type declared for it if
    all values in it are declared. *)
Theorem styles_json_has_declared_type : forall strict t, styles_ok strict t = true ->
  exists v, json_of (pretty 0 (j_styles t)) = Some v /\ has_type strict v (TRef "StylesJSON").
Proof. intros. eexists. split; [apply json_text_reads_back | now apply styles_typed]. Qed.
Theorem numberings_json_has_declared_type : forall strict t, numberings_ok strict t = true ->
  exists v, json_of (pretty 0 (j_numberings t)) = Some v /\ has_type strict v (TRef "NumberingsJSON").
Proof. intros. eexists. split; [apply json_text_reads_back | now apply numberings_typed]. Qed.
Theorem settings_json_has_declared_type : forall strict c, settings_ok c = true ->
  exists v, json_of (pretty 0 (j_settings c)) = Some v /\ has_type strict v (TRef "SettingsJSON").
Proof. intros. eexists. split; [apply json_text_reads_back | now apply settings_typed]. Qed.
(** That of web settings, themes, images, hyperlinks and relationships of the body always has it. *)
Theorem opened_json_has_declared_type : forall strict op r,
  has_type strict (j_web_settings (op_web op)) (TRef "WebSettingsJSON") /\ has_type strict (JArr (map j_theme (op_themes op))) (TArr (TRef "Theme")) /\
  has_type strict (JArr (map j_image (op_images op))) images_type /\ has_type strict (JArr (map j_link (op_links op))) hyperlinks_type /\
  has_type strict (j_document_rels r) document_rels_type.
Proof.
  intros strict op r. split; [apply web_typed|]. split; [apply TsProofs.map_ok; intros; apply theme_typed|].
  split; [apply TsProofs.map_ok; intros; apply image_typed|]. split; [apply TsProofs.map_ok; intros; apply link_typed | apply document_rels_typed].
Qed.
(** That of the properties of the document has it exactly if they have no revision: a revision is a number, declared is a text. *)
Theorem core_json_has_declared_type_iff : forall strict c, has_type strict (j_core c) core_type <-> co_revision c = None.
Proof.
  intros strict c. split; [|apply core_typed]. intros H. destruct (co_revision c) eqn:E; [|reflexivity]. exfalso. exact (core_not strict c n E H).
Qed.
(** The relationships of the package never have it: they are in a member of an object, declared is an array. *)
Theorem rels_json_declared_refuted : forall strict l, ~ has_type strict (j_rels l) rels_type.
Proof. exact rels_not. Qed.
(** Nor has a style of an unsupported type. *)
Theorem unsupported_style_declared_refuted : forall strict s, sty_type s = StyleType_Unsupported -> ~ has_type strict (j_style s) (TRef "StyleJSON").
Proof.
  intros strict s E H. apply TsProofs.ref_inv in H. destruct H as (t & D & H). vm_compute in D. injection D as <-.
  eapply (TsProofs.obj_inv _ _ _ "styleType") in H; [|do 2 right; left; reflexivity]. cbn in H. rewrite E in H.
  apply TsProofs.ref_inv in H. destruct H as (t & D & H). vm_compute in D. injection D as <-.
  apply TsProofs.union_inv in H. destruct H as (t & I & H). cbn in I. intuition (subst; inversion H).
Qed.

(** The JSON texts of relationships, properties and content types are the same exactly if these are the same. *)
Theorem rels_json_same_iff : forall a b, pretty 0 (j_rels a) = pretty 0 (j_rels b) <-> a = b.
Proof. intros a b. split; [|now intros ->]. intros H. now apply same_text, rels_inj in H. Qed.
Theorem document_rels_json_same_iff : forall a b, pretty 0 (j_document_rels a) = pretty 0 (j_document_rels b) <-> a = b.
Proof. intros a b. split; [|now intros ->]. intros H. now apply same_text, document_rels_inj in H. Qed.
Theorem core_json_same_iff : forall a b, pretty 0 (j_core a) = pretty 0 (j_core b) <-> a = b.
Proof. intros a b. split; [|now intros ->]. intros H. now apply same_text, core_inj in H. Qed.
Theorem content_types_json_same_iff : forall a b, pretty 0 (j_types a) = pretty 0 (j_types b) <-> a = b.
Proof. intros a b. split; [|now intros ->]. intros H. now apply same_text, types_inj in H. Qed.
(** These texts, read as JSON, tell each of them under its name, and of the content types the type of every part under its path. *)
Theorem package_json_tells : forall rels r c t,
  (exists v, json_of (pretty 0 (j_rels rels)) = Some v /\ rels_told v rels) /\ (exists v, json_of (pretty 0 (j_document_rels r)) = Some v /\ document_rels_told v r) /\
  (exists v, json_of (pretty 0 (j_core c)) = Some v /\ core_told v c) /\ (exists v, json_of (pretty 0 (j_types t)) = Some v /\ types_told v t).
Proof.
  intros. repeat apply conj; (eexists; split; [apply json_text_reads_back|]); [apply rels_tells | apply document_rels_tells | apply core_tells | apply types_tells].
Qed.

(** Cases *)
Example styles_case : styles_ok true {| ss_rpr := rpr_empty; ss_ppr := ppr_empty; ss_list := [StyleProperties.heading; style_normal] |} = true.
Proof. reflexivity. Qed.
Example numberings_case : numberings_ok true {| ns_abstracts := [{| an_id := 1; an_style_link := None; an_num_style_link := None; an_levels := [level_new 0 1 "decimal" "%1." "left"]; an_multi := None |}];
  ns_nums := [{| nm_id := 1; nm_abstract := 1; nm_overrides := [{| ov_level := 0; ov_start := Some 3%N; ov_replace := Some (level_new 0 3 "bullet" "-" "left") |}] |}] |} = true.
Proof. reflexivity. Qed.
Example settings_case : settings_ok settings_default = true /\ ~ has_type false (j_settings settings_default) (TRef "StylesJSON").
Proof.
  split; [reflexivity|]. intros H. apply TsProofs.ref_inv in H. destruct H as (t & D & H). vm_compute in D. injection D as <-.
  eapply (TsProofs.obj_inv _ _ _ "styles") in H; [|right; left; reflexivity]. cbn in H. discriminate H.
Qed.
Example types_case : pretty 0 (j_types (add_header types_default)) <> pretty 0 (j_types (add_footer types_default)).
Proof. intros H. apply content_types_json_same_iff in H. discriminate H. Qed.
Example core_case : forall c, co_revision c = Some 1%N -> ~ has_type false (j_core c) core_type.
Proof. intros c H T. apply core_json_has_declared_type_iff in T. rewrite H in T. discriminate T. Qed.
Definition all_proved :=
  conj styles_json_has_declared_type (conj numberings_json_has_declared_type (conj settings_json_has_declared_type (conj opened_json_has_declared_type
  (conj core_json_has_declared_type_iff (conj rels_json_declared_refuted (conj unsupported_style_declared_refuted
  (conj rels_json_same_iff (conj document_rels_json_same_iff (conj core_json_same_iff (conj content_types_json_same_iff package_json_tells)))))))))).
Print Assumptions all_proved.

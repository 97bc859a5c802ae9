(** Proofs for [ShapeProperties]. *)
From Coq Require Import NArith ZArith List Bool Lia.
From Verif Require JsonText.
From Verif Require Import Str StrFacts TypesModel Props Ast JsonModel JsonSpec JsonProofs TsSpec TsProofs StyleModel SheetModel OpenModel GleanModel GleanProofs PackModel RenderModel
  ShapeModel ShapeSpec.
Import ListNotations.
Open Scope list_scope.

Section Strict.
Variable strict : bool.
Notation "v ∈ t" := (has_type strict v t) (at level 70).
Ltac look := unfold field_ok; cbv [lookup app JsonModel.has JsonModel.may JsonModel.flag TsSpec.req TsSpec.opt String.eqb Ascii.eqb Bool.eqb].
Ltac ty :=
  intros;
  tryif assumption then idtac else
  lazymatch goal with
  | |- (JStr _) ∈ TStr => apply is_str
  | |- (JNum _) ∈ TNum => apply is_num
  | |- (jn _) ∈ TNum => apply is_num
  | |- (jn32 _) ∈ TNum => apply is_num
  | |- (JBool _) ∈ TBool => apply is_bool
  | |- (JArr (map _ _)) ∈ (TArr _) => apply map_ok; ty
  | |- (j_opt _ _) ∈ (TUnion _) => apply opt_null; [reflexivity|]; ty
  | |- (JStr _) ∈ (TUnion (TLit _ :: _)) => first [match goal with |- JStr (_ ?x) ∈ _ => apply lit_ok; destruct x; solve [reflexivity | congruence] end | idtac]
  | |- _ ∈ (TUnion (_ :: _)) => apply first_type; ty
  | |- _ ∈ (TRef "RunPropertyJSON") => apply rpr_typed
  | |- _ ∈ (TRef "ParagraphPropertyJSON") => apply ppr_typed
  | |- _ ∈ (TRef "TablePropertyJSON") => apply tblpr_typed
  | |- _ ∈ (TRef "TableCellPropertyJSON") => apply tcpr_typed
  | |- _ ∈ (TRef "LevelJSON") => idtac
  | |- _ ∈ (TRef "StyleJSON") => idtac
  | |- _ ∈ (TRef "DivJSON") => idtac
  | |- _ ∈ (TRef _) => eapply is_ref; [reflexivity|]; ty
  | |- _ ∈ (TObj _) => apply obj_ok; [reflexivity | repeat apply Forall_cons; try apply Forall_nil; look; ty]
  | |- match option_map _ _ with Some _ => _ | None => _ end => apply may_ok; ty
  | |- match (if _ then Some _ else None) with Some _ => _ | None => _ end => apply flag_ok; ty
  | |- (true || _)%bool = true => reflexivity
  | |- _ => idtac
  end.
Ltac both := repeat match goal with H : (_ && _)%bool = true |- _ => apply andb_prop in H; destruct H end.
Ltac each := match goal with H : forallb _ ?l = true, I : In _ ?l |- _ => rewrite forallb_forall in H; specialize (H _ I); cbv beta in H end.
Lemma style_typed s : style_ok strict s = true -> j_style s ∈ TRef "StyleJSON".
Proof.
  unfold style_ok. intros H. both. eapply is_ref; [reflexivity|]. unfold j_style. ty; try assumption.
  all: try (apply lit_ok; destruct (sty_type s); solve [reflexivity | discriminate]).
Qed.
Lemma styles_typed t : styles_ok strict t = true -> j_styles t ∈ TRef "StylesJSON".
Proof. unfold styles_ok. intros H. both. unfold j_styles, j_doc_defaults. ty; try assumption. each. now apply style_typed. Qed.
Lemma level_typed l : level_ok strict l = true -> j_level l ∈ TRef "LevelJSON".
Proof. unfold level_ok. intros H. both. eapply is_ref; [reflexivity|]. unfold j_level. ty; assumption. Qed.
Lemma numberings_typed t : numberings_ok strict t = true -> j_numberings t ∈ TRef "NumberingsJSON".
Proof.
  unfold numberings_ok. intros H. both. unfold j_numberings, j_abstract, j_num, j_override. ty.
  - each. each. now apply level_typed.
  - each. each. apply level_typed. match goal with E : ov_replace _ = Some _, X : opt_ok _ _ = true |- _ => rewrite E in X; exact X end.
Qed.
Lemma settings_typed c : settings_ok c = true -> j_settings c ∈ TRef "SettingsJSON".
Proof.
  unfold settings_ok. intros H. unfold j_settings, j_var. ty.
  apply lit_ok. match goal with E : cfg_spacing c = Some ?a |- _ => rewrite E in H; destruct a; solve [reflexivity | discriminate] end.
Qed.
Lemma div_typed_upto n : forall d, (div_size d <= n)%nat -> j_div d ∈ TRef "DivJSON".
Proof.
  induction n as [|n IH]; intros [i l r t b ch] H; cbn [div_size] in H; [lia|]. eapply is_ref; [reflexivity|]. cbn [j_div]. ty.
  apply IH. match goal with I : In _ ch |- _ => apply div_in in I end. lia.
Qed.
Lemma web_typed l : j_web_settings l ∈ TRef "WebSettingsJSON".
Proof. unfold j_web_settings. ty. apply div_typed_upto with (n := div_size a), le_n. Qed.
Lemma theme_typed t : j_theme t ∈ TRef "Theme".
Proof. unfold j_theme, j_font_group, j_scheme_font. ty. Qed.
Lemma tuple_ok l ts : Forall2 (has_type strict) l ts -> JArr l ∈ TTuple ts.
Proof.
  intros H. apply is_tuple; [induction H; cbn; congruence|]. induction H as [|v t l ts V _ IH]; cbn; intros w u []; [congruence | now apply IH].
Qed.
Lemma image_typed i : j_image i ∈ TTuple [TStr; TStr; TStr; TStr].
Proof. apply tuple_ok. repeat constructor. Qed.
Lemma link_typed l : j_link l ∈ TTuple [TStr; TStr; TStr].
Proof. apply tuple_ok. repeat constructor. Qed.
Lemma document_rels_typed r : j_document_rels r ∈ document_rels_type.
Proof. unfold document_rels_type, j_document_rels. ty. Qed.
Lemma core_typed c : co_revision c = None -> j_core c ∈ core_type.
Proof. intros H. unfold core_type, j_core. cbv zeta. ty. all: congruence. Qed.
End Strict.
Lemma rels_not strict l : ~ has_type strict (j_rels l) rels_type.
Proof. intros H. inversion H. Qed.
Lemma core_not strict c n : co_revision c = Some n -> ~ has_type strict (j_core c) core_type.
Proof.
  intros E H. eapply (obj_inv _ _ _ "config") in H; [|left; reflexivity]. cbn in H. eapply (obj_inv _ _ _ "revision") in H; [|do 5 right; left; reflexivity].
  cbn in H. rewrite E in H. cbn in H. apply union_inv in H. destruct H as (t & [<-|[<-|[]]] & H); inversion H.
Qed.
(** ** The JSON tells all *)
Lemma same_text v w : pretty 0 v = pretty 0 w -> v = w.
Proof. intros H. apply (f_equal json_of) in H. rewrite !JsonText.text_back in H. now injection H. Qed.
Lemma triple_inj : inj (fun r : string * string * string => JArr [JStr (fst (fst r)); JStr (snd (fst r)); JStr (snd r)]).
Proof. intros [[a b] c] [[d e] f] H. cbn in H. congruence. Qed.
Lemma pair_inj : inj (fun r : string * string => JArr [JStr (fst r); JStr (snd r)]).
Proof. intros [a b] [c d] H. cbn in H. congruence. Qed.
Lemma entry_inj : inj (fun e : string * string => (fst e, JStr (snd e))).
Proof. intros [a b] [c d] H. cbn in H. congruence. Qed.
Lemma text_opt a b : j_opt JStr a = j_opt JStr b -> a = b.
Proof. destruct a, b; cbn; congruence. Qed.
Lemma number_opt a b : j_opt jn a = j_opt jn b -> a = b.
Proof. destruct a, b; cbn [j_opt]; intros H; [apply jn_inj in H; congruence | discriminate H.. | reflexivity]. Qed.
Lemma rels_inj : inj j_rels.
Proof. intros a b H. unfold j_rels, obj in H. cbn [present flat_map app has] in H. injection H as H. exact (map_inj _ _ _ triple_inj H). Qed.
Lemma document_rels_inj : inj j_document_rels.
Proof.
  intros [a b c d e f g h] [a' b' c' d' e' f' g' h'] H. unfold j_document_rels, obj in H.
  cbn [present flat_map app has r_comments r_numberings r_footnotes r_images r_links r_custom r_headers r_footers] in H.
  injection H as -> -> -> H1 H2 H3 H4 H5. apply (map_inj _ _ _ pair_inj) in H1. apply (map_inj _ _ _ triple_inj) in H2.
  apply N2Z.inj in H3, H4, H5. congruence.
Qed.
Lemma core_inj : inj j_core.
Proof.
  intros [a b c d e f g h i] [a' b' c' d' e' f' g' h' i'] H. unfold j_core, obj in H.
  cbn [present flat_map app has co_created co_creator co_description co_language co_modified_by co_modified co_revision co_subject co_title] in H.
  injection H as H1 H2 H3 H4 H5 H6 H7 H8 H9. apply text_opt in H1, H2, H3, H4, H5, H6, H8, H9. apply number_opt in H7. congruence.
Qed.
Lemma types_inj : inj j_types.
Proof.
  intros [a b c d e] [a' b' c' d' e'] H. unfold j_types, obj in H. cbn [present flat_map app has t_map t_web t_custom t_header t_footer] in H.
  injection H as H1 H2 H3 H4 H5. apply (map_inj _ _ _ entry_inj) in H1. apply N2Z.inj in H2, H3, H4, H5. congruence.
Qed.
Lemma every_told {A} (P : json -> A -> Prop) f l : (forall a, P (f a) a) -> Forall2 P (map f l) l.
Proof. intros H. induction l; cbn; constructor; auto. Qed.
Lemma rels_tells l : rels_told (j_rels l) l.
Proof. eexists. split; [reflexivity|]. apply every_told. now intros [[a b] c]. Qed.
Lemma core_tells c : core_told (j_core c) c.
Proof. repeat split. Qed.
Lemma document_rels_tells r : document_rels_told (j_document_rels r) r.
Proof.
  repeat split; (eexists; split; [reflexivity|]; apply every_told; first [now intros [a b] | now intros [[a b] c]]).
Qed.
Lemma types_tells t : types_told (j_types t) t.
Proof.
  split; [|repeat split]. eexists. split; [reflexivity|]. intros path type. rewrite in_map_iff. split.
  - intros I. now exists (path, type).
  - intros ([k x] & E & I). cbn in E. injection E as -> ->. exact I.
Qed.

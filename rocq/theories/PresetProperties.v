(** Theorems about the styles that saving adds for tables of contents (C81). *)
From Coq Require Import NArith ZArith List Bool Lia.
From Verif Require Import Str StrFacts TypesModel Props Ast IdsModel JsonModel TsSpec StyleModel StyleSpec SheetModel CallModel CallSpec EntryModel TocModel
  PresetModel PresetSpec.
Import ListNotations.
Open Scope list_scope.

Definition levels : list nat := seq 0 9.
Definition nth_level (n : nat) : Z := Z.of_nat (S n).
Definition missing_level (t : styles) (n : nat) : bool := negb (has_style (nth n toc_names ""%string) t).
Lemma level_name n : In n levels -> EscapeModel.escape_owned ("toc " +++ show_Z (nth_level n)) = nth n toc_names ""%string.
Proof. cbn. intuition (subst; reflexivity). Qed.
Lemma preset_name n : In n levels -> sty_name (preset_toc (nth_level n)) = nth n toc_names ""%string.
Proof. cbn. intuition (subst; reflexivity). Qed.
Lemma preset_made n : In n levels -> made_for n (preset_toc (nth_level n)).
Proof. cbn. intros H. repeat destruct H as [<-|H]; try contradiction; repeat split. Qed.
Lemma other_name a b : In a levels -> In b levels -> a <> b -> nth a toc_names ""%string <> nth b toc_names ""%string.
Proof. cbn. intros A B N. repeat destruct A as [<-|A]; try contradiction; repeat destruct B as [<-|B]; try contradiction; try (now elim N); discriminate. Qed.
Lemma add_preset_exact n t : In n levels ->
  add_preset t (nth_level n) = if missing_level t n then on_styles (YsAdd (preset_toc (nth_level n))) t else t.
Proof. intros I. unfold add_preset, missing_level, has_style. rewrite (level_name n I). now destruct (existsb _ _). Qed.
Lemma on_styles_add y t : on_styles (YsAdd y) t = {| ss_rpr := ss_rpr t; ss_ppr := ss_ppr t; ss_list := ss_list t ++ [y] |}.
Proof. reflexivity. Qed.
Lemma fold_exact l : NoDup l -> incl l levels -> forall t,
  fold_left add_preset (map nth_level l) t =
  {| ss_rpr := ss_rpr t; ss_ppr := ss_ppr t; ss_list := ss_list t ++ map (fun n => preset_toc (nth_level n)) (filter (missing_level t) l) |}.
Proof.
  induction 1 as [|n l N D IH]; intros I t; cbn [map filter fold_left].
  - rewrite app_nil_r. now destruct t.
  - assert (In n levels) as In_n by (apply I; now left). assert (incl l levels) as I' by (intros x Hx; apply I; now right).
    rewrite (add_preset_exact n t In_n), (IH I').
    destruct (missing_level t n) eqn:M; [|reflexivity]. rewrite on_styles_add. cbn [ss_rpr ss_ppr ss_list map]. rewrite <- app_assoc. f_equal. f_equal. cbn [app]. f_equal. f_equal.
    apply filter_ext_in. intros m Hm. unfold missing_level, has_style. cbn [ss_list]. rewrite existsb_app. cbn [existsb].
    rewrite (preset_name n In_n). replace (_ =s _) with false; [now rewrite !orb_false_r|]. symmetry. apply String.eqb_neq.
    apply other_name; [exact In_n | now apply I' | intros ->; contradiction].
Qed.
Lemma presets_exact t : add_presets true t =
  {| ss_rpr := ss_rpr t; ss_ppr := ss_ppr t; ss_list := ss_list t ++ map (fun n => preset_toc (nth_level n)) (filter (missing_level t) levels) |}.
Proof. exact (fold_exact levels (seq_NoDup 9 0) (incl_refl levels) t). Qed.

(** If the body has a table of contents, saving keeps all styles as they are and where they are, and
    adds one style for each of the nine levels no style is named for; otherwise it changes no style. *)
Theorem toc_styles_added : forall body k t t', prepare_styles body k t = Some t' ->
  (lists_contents body -> presets_added t t') /\ (~ lists_contents body -> t' = t).
Proof.
  intros body k t t'. unfold prepare_styles, expand_auto_tocs. destruct (expand_all _ _ _); [|discriminate]. cbn [option_map]. intros [= <-].
  destruct (existsb _ body) eqn:X.
  - apply existsb_exists in X. destruct X as (n & I & Hn). destruct n; try discriminate. split; [|intros Z; elim Z; now exists d, before, after]. intros _.
    rewrite presets_exact. split; [split; reflexivity|]. eexists; split; [reflexivity|].
    change (fun level => negb (has_style (nth level toc_names ""%string) t)) with (missing_level t).
    assert (incl (filter (missing_level t) (seq 0 9)) levels) as I' by (intros x Hx; now apply filter_In in Hx as [? _]).
    change (seq 0 9) with levels in *. induction (filter (missing_level t) levels) as [|n l IH]; constructor; [apply preset_made, I'; now left|].
    apply IH. intros x Hx. apply I'. now right.
  - split; [|reflexivity]. intros (d & b & a & I). exfalso. assert (existsb (fun n => match n with NToc _ _ _ => true | _ => false end) body = true) as Y
      by (apply existsb_exists; now exists (NToc d b a)). congruence.
Qed.
Lemma all_named t n : In n levels -> has_style (nth n toc_names ""%string) (add_presets true t) = true.
Proof.
  intros I. rewrite presets_exact. unfold has_style. cbn [ss_list]. rewrite existsb_app. apply orb_true_iff.
  destruct (existsb (fun y => sty_name y =s nth n toc_names ""%string) (ss_list t)) eqn:X; [now left | right].
  apply existsb_exists. exists (preset_toc (nth_level n)). split; [|rewrite (preset_name n I); apply String.eqb_refl].
  apply in_map_iff. exists n. split; [reflexivity|]. apply filter_In. split; [exact I|]. unfold missing_level, has_style. now rewrite X.
Qed.
Lemma named_kept t : (forall n, In n levels -> has_style (nth n toc_names ""%string) t = true) -> add_presets true t = t.
Proof.
  intros H. rewrite presets_exact. replace (filter (missing_level t) levels) with (@nil nat); [cbn [map]; rewrite app_nil_r; now destruct t|].
  symmetry. assert (forall l, incl l levels -> filter (missing_level t) l = []) as G; [|apply G, incl_refl].
  induction l as [|n l IH]; intros I; [reflexivity|]. cbn [filter]. unfold missing_level at 1. rewrite H by (apply I; now left). cbn [negb].
  apply IH. intros x Hx. apply I. now right.
Qed.
(** Then each of the nine names has a style. *)
Theorem toc_levels_have_styles : forall body k t t' n, prepare_styles body k t = Some t' -> lists_contents body -> In n toc_names ->
  exists y, In y (ss_list t') /\ sty_name y = n.
Proof.
  intros body k t t' n P L I. unfold prepare_styles, expand_auto_tocs in P. destruct (expand_all _ _ _); [|discriminate]. cbn [option_map] in P. injection P as <-.
  destruct L as (d & b & a & L). replace (existsb _ body) with true by (symmetry; apply existsb_exists; now exists (NToc d b a)).
  apply (In_nth _ _ ""%string) in I. destruct I as (i & Hi & <-). assert (In i levels) as Ii by (apply in_seq; cbn in Hi |- *; lia).
  assert (A := all_named t i Ii). apply existsb_exists in A. destruct A as (y & Hy & E). exists y. split; [exact Hy | now apply String.eqb_eq].
Qed.
(** Saving again adds nothing, whatever the body has become, and neither does saving after opening the
    saved styles. *)
Theorem toc_styles_added_once : forall body k t t' body' k' t'', prepare_styles body k t = Some t' -> lists_contents body ->
  (prepare_styles body' k' t' = Some t'' -> t'' = t') /\
  (prepare_styles body' k' (reread_styles t') = Some t'' -> t'' = reread_styles t').
Proof.
  intros body k t t' body' k' t'' P L. assert (forall n, In n levels -> exists y, In y (ss_list t') /\ sty_name y = nth n toc_names ""%string) as A.
  { intros n I. apply (toc_levels_have_styles body k t t'); try assumption. apply nth_In. apply in_seq in I. cbn in *. lia. }
  assert (forall u, (forall n, In n levels -> has_style (nth n toc_names ""%string) u = true) -> prepare_styles body' k' u = Some t'' -> t'' = u) as G.
  { intros u H. unfold prepare_styles. destruct (expand_auto_tocs _ _ _) as [[? []]|]; intros [= <-]; [now apply named_kept | reflexivity]. }
  split; apply G; intros n I; destruct (A n I) as (y & Hy & E); apply existsb_exists.
  - exists y. split; [exact Hy | now apply String.eqb_eq].
  - exists (reread_style y). split; [right; now apply in_map|]. cbn [reread_style sty_name]. rewrite E. apply String.eqb_eq. clear - I. cbn in I. intuition (subst; reflexivity).
Qed.
(** The styles added come back from their file as they are, but for an end indent of 0 that they did not have. *)
Theorem toc_style_comes_back : forall level, (1 <= level <= 9)%Z ->
  reread_style (preset_toc level) = on_style (YIndent (Some (200 * (level - 1))%Z) None (Some 0%Z) (Some (100 * (level - 1))%Z)) (preset_toc level) /\
  reread_style (reread_style (preset_toc level)) = reread_style (preset_toc level).
Proof.
  intros level H. assert (level = 1 \/ level = 2 \/ level = 3 \/ level = 4 \/ level = 5 \/ level = 6 \/ level = 7 \/ level = 8 \/ level = 9)%Z as C by lia.
  clear H. repeat destruct C as [C|C]; subst; split; vm_compute; reflexivity.
Qed.

(** Styles are compared by name only: one may be added with an id another has. *)
Theorem toc_style_ids_distinct_refuted : exists body k t t', prepare_styles body k t = Some t' /\ NoDup (map sty_id (ss_list t)) /\ ~ NoDup (map sty_id (ss_list t')).
Proof.
  exists [toc_default], {| k_toc := 0; k_bookmark := 1 |}, {| ss_rpr := rpr_empty; ss_ppr := ppr_empty; ss_list := [style_named "Contents 1" (style_new "ToC1" StyleType_Paragraph)] |}.
  eexists. split; [reflexivity|]. split; [repeat constructor; intuition|]. vm_compute. intros D. inversion D as [|? ? N]; subst. apply N. now left.
Qed.
(** A table of contents in a cell of a table gets no styles. *)
Theorem toc_in_cell_gets_styles_refuted : forall k t,
  prepare_styles [NTable tblpr_default [] false [NRow trpr_empty false [NCell tcpr_empty false [toc_default]]]] k t = Some t.
Proof. reflexivity. Qed.

(** Cases *)
Definition own_styles : styles := {| ss_rpr := rpr_empty; ss_ppr := ppr_empty;
  ss_list := [style_named "toc 3" (style_new "Mine" StyleType_Paragraph); style_named "TOC 1" (style_new "T" StyleType_Paragraph)] |}.
Definition own_body : list node := [NPara "00000001" ppr_empty false [NRun rpr_empty [NText "x"]]; toc_default].
Definition own_saved : option styles := prepare_styles own_body {| k_toc := 0; k_bookmark := 1 |} own_styles.
Example own_case : option_map (fun t => map (fun y => (sty_id y, sty_name y)) (ss_list t)) own_saved =
  Some [("Mine", "toc 3"); ("T", "TOC 1"); ("ToC1", "toc 1"); ("ToC2", "toc 2"); ("ToC4", "toc 4"); ("ToC5", "toc 5"); ("ToC6", "toc 6"); ("ToC7", "toc 7");
        ("ToC8", "toc 8"); ("ToC9", "toc 9")]%string.
Proof. reflexivity. Qed.
Example own_lists : lists_contents own_body.
Proof. do 3 eexists. right. now left. Qed.
Example own_added : exists t', own_saved = Some t' /\ presets_added own_styles t'.
Proof. eexists. split; [reflexivity|]. apply (proj1 (toc_styles_added own_body {| k_toc := 0; k_bookmark := 1 |} own_styles _ eq_refl) own_lists). Qed.
Definition all_proved := conj toc_styles_added (conj toc_levels_have_styles (conj toc_styles_added_once (conj toc_style_comes_back
  (conj toc_style_ids_distinct_refuted toc_in_cell_gets_styles_refuted)))).
Print Assumptions all_proved.

(** What survives, by the function that says what becomes of everything. *)
From Coq Require Import NArith ZArith List Bool Lia.
From Verif Require Import Str StrFacts TypesModel Props Ast EscapeModel EscapeSpec EscapeProofs XmlParser XmlSpec RoundSpec SurviveSpec.
From Verif Require XmlTreeProofs.
Import ListNotations.

Lemma survives_opt A (f : A -> A) P : (forall a, f a = a <-> P a) -> forall o, option_map f o = o <-> all_of P o.
Proof. intros H [a|]; cbn; [rewrite <- H; split; congruence | tauto]. Qed.
Lemma survives_value : forall s, seen s = s <-> value_survives s.
Proof. reflexivity. Qed.
Lemma survives_stored : forall s, stored s = s <-> stored_survives s.
Proof. intros s. unfold stored. rewrite escape_owned_escape. reflexivity. Qed.
Lemma survives_mark m : reread_mark m = m <-> mark_survives m.
Proof.
  unfold mark_survives. rewrite <- survives_stored. destruct m as [a d]. unfold reread_mark, value_survives. cbn. split; [intros H; injection H; auto | intros [H1 H2]; congruence].
Qed.
Lemma survives_shading s : reread_shading s = s <-> shading_survives s.
Proof. destruct s. unfold reread_shading, shading_survives, value_survives. cbn. split; [intros H; injection H; auto | intros [H1 H2]; congruence]. Qed.
Lemma survives_color c : reread_color c = c <-> color_survives c.
Proof.
  unfold color_survives. rewrite <- !(survives_opt _ seen _ survives_value).
  assert (T : (match c_theme c with Some t => option_map show_ThemeColor (read_ThemeColor (seen t)) | None => None end = c_theme c) <->
              all_of (fun t => option_map show_ThemeColor (read_ThemeColor (seen t)) = Some t) (c_theme c)) by (destruct (c_theme c); cbn; tauto).
  rewrite <- T. clear T. destruct c as [v t h i]. unfold reread_color, value_survives. cbn [c_val c_theme c_shade c_tint].
  split; [intros H; injection H; auto | intros (H1 & H2 & H3 & H4); congruence].
Qed.
Lemma survives_fonts f : reread_fonts f = f <-> fonts_survive f.
Proof.
  unfold fonts_survive. rewrite <- !(survives_opt _ stored _ survives_stored).
  destruct f. unfold reread_fonts. cbn. split; [intros H; injection H; intuition | intros H; intuition congruence].
Qed.
Lemma survives_ptab t : reread_ptab t = t <-> pt_relative t = PositionalTabRelativeTo_Margin.
Proof. destruct t. unfold reread_ptab. cbn. split; [intros H; injection H; auto | congruence]. Qed.
Lemma survives_text_border b : reread_text_border b = b <-> tb_space b = 0%N /\ value_survives (tb_color b).
Proof. destruct b. unfold reread_text_border, value_survives. cbn. split; [intros H; injection H; auto | intros [H1 H2]; congruence]. Qed.
Lemma survives_strike (d s : option bool) : match d with Some true => None | _ => s end = s <-> (d = Some true -> s = None).
Proof. destruct d as [[]|]; intuition congruence. Qed.
Lemma survives_rpr r : reread_rpr r = r <-> rpr_survives r.
Proof.
  unfold rpr_survives.
  rewrite <- !(survives_opt _ seen _ survives_value). rewrite <- (survives_opt _ stored _ survives_stored).
  rewrite <- !(survives_opt _ _ _ survives_mark), <- (survives_opt _ _ _ survives_shading), <- (survives_opt _ _ _ survives_color),
    <- (survives_opt _ _ _ survives_fonts), <- (survives_opt _ _ _ survives_ptab), <- (survives_opt _ _ _ survives_text_border), <- survives_strike.
  split.
  - intros H.
    pose proof (f_equal r_sz_cs H). pose proof (f_equal r_bold_cs H). pose proof (f_equal r_italic_cs H). pose proof (f_equal r_stretch H).
    pose proof (f_equal r_strike H). pose proof (f_equal r_ptab H). pose proof (f_equal r_border H). pose proof (f_equal r_style H).
    pose proof (f_equal r_color H). pose proof (f_equal r_highlight H). pose proof (f_equal r_underline H). pose proof (f_equal r_fonts H).
    pose proof (f_equal r_del H). pose proof (f_equal r_ins H). pose proof (f_equal r_shading H). clear H. cbn in *. repeat split; first [assumption | symmetry; assumption].
  - intros (H1 & H2 & H3 & H4 & H5 & H6 & H7 & H8 & H9 & H10 & H11 & H12 & H13 & H14 & H15). destruct r. unfold reread_rpr. cbn in *. rewrite H5, H6, H7, H8, H9, H10, H11, H12, H13, H14, H15. subst. reflexivity.
Qed.
Lemma survives_ref r : reread_ref r = r <-> ref_survives r.
Proof. destruct r. unfold reread_ref, ref_survives, value_survives. cbn. split; [intros H; injection H; auto | congruence]. Qed.
Lemma survives_page_num n : {| pn_start := pn_start n; pn_chap_style := option_map seen (pn_chap_style n) |} = n <-> all_of value_survives (pn_chap_style n).
Proof.
  rewrite <- (survives_opt _ seen _ survives_value). destruct n. cbn. split; [intros H; injection H; auto | congruence].
Qed.
Lemma survives_sectpr p : reread_sectpr p = p <-> sectpr_survives p.
Proof.
  unfold sectpr_survives. rewrite <- !(survives_opt _ _ _ survives_ref), <- (survives_opt _ _ _ survives_page_num). split.
  - intros H. pose proof (f_equal (fun p => pg_orient (sp_size p)) H). pose proof (f_equal sp_columns H). pose proof (f_equal sp_space H).
    pose proof (f_equal sp_text_direction H). pose proof (f_equal sp_header H). pose proof (f_equal sp_first_header H). pose proof (f_equal sp_even_header H).
    pose proof (f_equal sp_footer H). pose proof (f_equal sp_first_footer H). pose proof (f_equal sp_even_footer H). pose proof (f_equal sp_page_num H).
    clear H. cbn in *. repeat split; first [assumption | symmetry; assumption].
  - intros (H1 & H2 & H3 & H4 & H5 & H6 & H7 & H8 & H9 & H10 & H11). destruct p as [z]. destruct z. unfold reread_sectpr. cbn in *. rewrite H5, H6, H7, H8, H9, H10, H11. subst. reflexivity.
Qed.
Lemma survives_pborder b : reread_pborder b = b <-> value_survives (pb_color b).
Proof. destruct b. unfold reread_pborder, value_survives. cbn. split; [intros H; injection H; auto | congruence]. Qed.
Lemma survives_pborders b : reread_pborders b = b <-> pborders_survive b.
Proof.
  unfold pborders_survive. cbv zeta. rewrite <- !(survives_opt _ _ _ survives_pborder). destruct b. unfold reread_pborders. cbn.
  split; [intros H; injection H; intuition | intros H; intuition congruence].
Qed.
Lemma survives_frame f : reread_frame f = f <-> frame_survives f.
Proof.
  unfold frame_survives. rewrite <- !(survives_opt _ seen _ survives_value). destruct f. unfold reread_frame. cbn.
  split; [intros H; injection H; intuition | intros H; intuition congruence].
Qed.
Lemma survives_indent i : reread_indent i = i <-> indent_survives i.
Proof.
  destruct i as [a b ? ? ? ?]. unfold reread_indent, indent_survives. cbn. split.
  - intros H. injection H. intros. repeat split; congruence.
  - intros (H1 & H2 & H3 & H4). destruct a, b; congruence.
Qed.
Lemma survives_only_on o : only_on o = o <-> not_off o.
Proof. unfold only_on, not_off. destruct o as [[]|]; intuition congruence. Qed.
Lemma survives_outline n : (if (10 <=? n)%N then 9%N else n) = n <-> (n < 10)%N.
Proof. destruct (N.leb_spec 10 n); lia. Qed.
Lemma survives_base b : reread_base b = b <-> base_survives b.
Proof.
  unfold base_survives.
  assert (T : (match p_alignment b with Some a => option_map show_AlignmentType (read_AlignmentType (seen a)) | None => None end = p_alignment b) <->
              all_of (fun a => option_map show_AlignmentType (read_AlignmentType (seen a)) = Some a) (p_alignment b)) by (destruct (p_alignment b); cbn; tauto).
  rewrite <- T. clear T.
  rewrite <- (survives_opt _ stored _ survives_stored). rewrite <- !survives_only_on, <- (survives_opt _ _ _ survives_outline).
  rewrite <- (survives_opt _ _ _ survives_indent), <- (survives_opt _ _ _ survives_sectpr), <- (survives_opt _ _ _ survives_pborders),
    <- (survives_opt _ _ _ survives_frame), <- (survives_opt _ _ _ survives_shading), <- survives_rpr.
  split.
  - intros H. pose proof (f_equal p_rpr H). pose proof (f_equal p_style H). pose proof (f_equal p_alignment H). pose proof (f_equal p_indent H).
    pose proof (f_equal p_keep_next H). pose proof (f_equal p_keep_lines H). pose proof (f_equal p_page_break_before H). pose proof (f_equal p_widow_control H).
    pose proof (f_equal p_bidi H). pose proof (f_equal p_div_id H). pose proof (f_equal p_outline H). pose proof (f_equal p_section H).
    pose proof (f_equal p_borders H). pose proof (f_equal p_frame H). pose proof (f_equal p_shading H). clear H.
    cbn [p_rpr p_style p_alignment p_indent p_keep_next p_keep_lines p_page_break_before p_widow_control p_bidi p_div_id p_outline p_section p_borders p_frame p_shading reread_base] in *.
    repeat split; first [assumption | symmetry; assumption].
  - intros (H1 & H2 & H3 & H4 & H5 & H6 & H7 & H8 & H9 & H10 & H11 & H12 & H13 & H14 & H15). destruct b as [b1 b2 b3 b4 b5 b6 b7 b8 b9 b10 b11 b12 b13 b14 b15 b16 b17 b18 b19 b20 b21]. unfold reread_base. cbn [p_rpr p_style p_alignment p_indent p_keep_next p_keep_lines p_page_break_before p_widow_control p_bidi p_div_id p_outline p_section p_borders p_frame p_shading p_numbering p_spacing p_tabs p_text_alignment p_adjust_right_ind p_snap_to_grid] in *. rewrite H1, H2, H3, H4, H5, H6, H7, H8, H11, H12, H13, H14, H15. subst. reflexivity.
Qed.
Lemma survives_ppr : forall p, reread_ppr p = p <-> ppr_survives p.
Proof.
  fix F 1. intros [b c]. cbn [reread_ppr ppr_survives]. destruct c as [[au da q]|].
  - specialize (F q). rewrite <- F, <- survives_base, <- survives_stored. unfold value_survives. split.
    + intros H. injection H. auto.
    + intros (H1 & H2 & H3 & H4). congruence.
  - clear F. rewrite <- survives_base. split; [intros H; injection H; auto | intros [H _]; congruence].
Qed.

(** ** Tables *)
Lemma survives_border b : reread_border b = b <-> border_survives b.
Proof. destruct b. unfold reread_border, border_survives, value_survives. cbn. split; [intros H; injection H; auto | intros [H1 H2]; congruence]. Qed.
Lemma survives_tposition t : reread_tposition t = t <->
  all_of value_survives (tp_vert_anchor t) /\ all_of value_survives (tp_horz_anchor t) /\ all_of value_survives (tp_x_spec t) /\ all_of value_survives (tp_y_spec t).
Proof.
  rewrite <- !(survives_opt _ seen _ survives_value). destruct t. unfold reread_tposition. cbn.
  split; [intros H; injection H; intuition | intros H; intuition congruence].
Qed.
Lemma survives_tblpr p : tblpr_survives p -> reread_tblpr p = p.
Proof.
  unfold tblpr_survives. cbv zeta. rewrite <- !(survives_opt _ _ _ survives_border), <- (survives_opt _ seen _ survives_value).
  rewrite <- (survives_opt _ _ _ survives_tposition). intros (H1 & (B1 & B2 & B3 & B4 & B5 & B6) & H2 & H3 & H4 & H5).
  destruct p as [w jc bo ma ind sty lay pos]. unfold reread_tblpr. cbn [tpr_width tpr_jc tpr_borders tpr_margins tpr_indent tpr_style tpr_layout tpr_position] in *.
  f_equal; try congruence.
  - destruct (read_TableAlignmentType (seen jc)); [|discriminate H1]. now injection H1.
  - destruct bo. unfold reread_tborders. cbn in *. congruence.
  - destruct ind as [[z u]|]; [|reflexivity]. cbn in H2. destruct H2 as [H2 ->]. destruct (Z.eqb_spec z 0); [contradiction | reflexivity].
Qed.
Lemma survives_trpr p : trpr_survives p -> reread_trpr p = p.
Proof.
  unfold trpr_survives. rewrite <- !(survives_opt _ _ _ survives_mark). intros (H1 & H2 & H3 & H4 & H5 & H6 & H7 & H8).
  destruct p as [a b c d h ru de ins cs]. unfold reread_trpr. cbn in *. f_equal; try congruence.
  destruct h; [|symmetry; now apply H5]. destruct ru; [reflexivity|]. destruct H5 as [_ H5]. now specialize (H5 eq_refl).
Qed.
Lemma survives_tcpr p : tcpr_survives p -> reread_tcpr p = p.
Proof.
  unfold tcpr_survives. rewrite <- (survives_opt _ _ _ survives_shading). intros (H1 & H2).
  destruct p as [w bo g v va td sh ma]. unfold reread_tcpr. cbn in *. f_equal; try congruence.
  destruct bo as [bo|]; [|reflexivity]. cbn in *. f_equal. revert H1. rewrite <- !(survives_opt _ _ _ survives_border). destruct bo. unfold reread_cborders. cbn. intuition congruence.
Qed.
Lemma survives_pic p : pic_survives p -> reread_pic p = p.
Proof.
  unfold pic_survives. intros (H1 & H2 & H3 & H4 & H5). unfold value_survives in H1. unfold reread_pic. destruct p. cbn in *.
  assert (O : forall d, offset_survives d -> reread_position d = d).
  { intros [z|]; [|contradiction]. cbn. intros H. destruct (Z.ltb_spec z 0); [lia | reflexivity]. }
  rewrite H1. destruct pic_anchor.
  - destruct H5 as (-> & H6 & H7 & H8). rewrite (O _ H6), (O _ H7). subst. destruct pic_from_v; try reflexivity. contradiction.
  - destruct H5 as (-> & -> & -> & -> & -> & -> & -> & -> & ->). subst. reflexivity.
Qed.

(** ** The tree *)
Lemma survives_child n : child_survives n -> reread_in_run n = [n].
Proof.
  assert (T : forall f s, text_survives s -> reread_text f s = [f s]).
  { intros f s [H1 H2]. unfold reread_text. destruct s; [contradiction | now rewrite H2]. }
  destruct n; cbn [child_survives reread_in_run]; try contradiction; try reflexivity; intros H; try now apply T.
  - destruct H as [-> ->]. reflexivity.
  - f_equal. f_equal. now apply survives_ptab.
  - f_equal. f_equal. now apply survives_pic.
  - unfold text_seen. rewrite XmlTreeProofs.text_meaning_escape. f_equal. f_equal. unfold without_cr. apply filter_str_all.
    clear -H. induction s as [|c s IH]; [reflexivity|]. cbn in H |- *. apply orb_false_iff in H as [H1 H2]. unfold not_cr at 1. rewrite H1. cbn. auto.
Qed.
Lemma each_same A (f : A -> list A) l : Forall (fun a => f a = [a]) l -> flat_map f l = l.
Proof. induction 1 as [|a l H _ IH]; [reflexivity|]. cbn [flat_map]. now rewrite H, IH. Qed.
Lemma survives_all p ch : Forall (fun n => forall p, survives p n -> reread p n = [n]) ch ->
  fold_right (fun c q => survives p c /\ q) True ch -> flat_map (reread p) ch = ch.
Proof. induction 1 as [|c ch H _ IH]; cbn [fold_right flat_map]; [reflexivity|]. intros [H1 H2]. now rewrite (H p H1), IH. Qed.
Lemma survives_node : forall n p, survives p n -> reread p n = [n].
Proof.
  induction n as [n IH] using node_tree_ind. intros p.
  assert (IH' : Forall (fun n => forall p, survives p n -> reread p n = [n]) (children n)) by exact IH. clear IH.
  destruct n; cbn [children] in IH'; cbn [survives reread]; cbv zeta; try contradiction; try reflexivity;
    try (pose proof (fun q => survives_all q _ IH') as A).
  - intros [H1 H2]. apply survives_rpr in H1. rewrite H1, (each_same _ reread_in_run); [reflexivity|].
    eapply Forall_impl; [|exact H2]. apply survives_child.
  - intros [H1 ->]. now rewrite <- H1.
  - intros ->. reflexivity.
  - intros ->. reflexivity.
  - intros [H1 H2]. apply survives_mark in H1. now rewrite H1, (A _ H2).
  - intros [H1 H2]. apply survives_mark in H1. now rewrite H1, (A _ H2).
  - intros (H0 & H1 & H2). apply survives_mark in H1. rewrite H1, (A _ H2). destruct p; congruence.
  - intros (H0 & H1 & H2). apply survives_mark in H1. rewrite H1, (A _ H2). destruct p; congruence.
  - intros (H0 & H1 & H2). rewrite (A _ H2). destruct history; [|contradiction]. destruct l; cbn in *; [destruct H0 as [-> ->] | rewrite H0]; reflexivity.
  - intros (H0 & H1 & -> & -> & H2). rewrite (A _ H2). destruct p; congruence.
  - intros (-> & H1 & H2 & H3). apply survives_ppr in H1. rewrite H1, (A _ H3). f_equal. f_equal.
    destruct (p_numbering (base_of p0)); destruct numbering; try reflexivity; exfalso; [|now apply (proj1 H2)].
    assert (false = true) by (apply H2; discriminate). discriminate.
  - intros (H1 & -> & H2). apply survives_tblpr in H1. now rewrite H1, (A _ H2).
  - intros (H1 & H2 & H3). apply survives_trpr in H1. rewrite H1, (A _ H3). now rewrite H2.
  - intros (H1 & H2 & H3). apply survives_tcpr in H1. rewrite H1, (A _ H3). now rewrite H2.
Qed.
Lemma survives_nodes p l : Forall (survives p) l -> flat_map (reread p) l = l.
Proof. intros H. apply each_same. eapply Forall_impl; [|exact H]. intros n. apply survives_node. Qed.

(** Reading what was read: the property records. *)
From Coq Require Import NArith ZArith List Bool Lia.
From Verif Require Import Str StrFacts TypesModel TypesProperties Props Ast IdsModel EscapeModel EscapeSpec EscapeProofs XmlParser XmlSpec
  RoundSpec SurviveSpec SurviveProofs WellSpec RoundTextProofs CycleSpec.
From Verif Require XmlTreeProofs.
Import ListNotations.
Open Scope list_scope.

(** ** Strings *)
Lemma decode_unmarked s : all_char unmarked s = true -> decode_attr None s = Some s.
Proof.
  induction s as [|c s IH]; [reflexivity|]. cbn [all_char]. intros H. apply andb_true_iff in H as [H1 H2]. specialize (IH H2).
  cbn [decode_attr]. rewrite IH. destruct c as [[] [] [] [] [] [] [] []]; vm_compute in H1; try discriminate H1; reflexivity.
Qed.
Lemma seen_unmarked s : all_char unmarked s = true -> seen s = s.
Proof. intros H. unfold seen. now rewrite decode_unmarked. Qed.
Lemma escape_unmarked s : all_char unmarked s = true -> escape s = s.
Proof.
  intros H. apply escape_plain. induction s as [|c s IH]; [reflexivity|]. cbn [all_char any_char] in *. apply andb_true_iff in H as [H1 H2].
  rewrite IH by exact H2. rewrite orb_false_r. destruct c as [[] [] [] [] [] [] [] []]; vm_compute in H1 |- *; congruence.
Qed.
Lemma stored_unmarked s : all_char unmarked s = true -> stored s = s.
Proof. intros H. unfold stored. rewrite escape_owned_escape, seen_unmarked by exact H. now apply escape_unmarked. Qed.
Lemma unmarked_no_quote s : all_char unmarked s = true -> has_char ch_quot s = false.
Proof.
  induction s as [|c s IH]; [reflexivity|]. cbn [all_char has_char]. intros H. apply andb_true_iff in H as [H1 H2]. rewrite IH by exact H2.
  rewrite orb_false_r. destruct c as [[] [] [] [] [] [] [] []]; vm_compute in H1 |- *; congruence.
Qed.
Lemma plain_readable p : plain_piece p -> readable p.
Proof.
  destruct p as [s|s]; cbn [plain_piece readable].
  - intros H. split; [now apply unmarked_no_quote|]. exists s. now apply decode_unmarked.
  - intros (H1 & H2 & H3 & H4). exists s. apply meaning_same. auto.
Qed.
Lemma plain_text_back s : plain_piece (Content s) -> one_line (replace_escaped (text_seen s)) = s.
Proof.
  intros (H1 & H2 & H3 & H4). assert (M : text_meaning None s = Some s) by (apply meaning_same; auto).
  destruct s as [|c s]; [reflexivity|].
  assert (B : back (String c s) = [String c s]) by (apply back_same; [now exists (String c s) | repeat split; try assumption; discriminate]).
  unfold back in B. now injection B.
Qed.

(** ** Records *)
(** [f] is what becomes of a record with the strings [g]. *)
Definition settled {A} (f : A -> A) (g : A -> list piece) (a : A) : Prop := f (f a) = f a /\ Forall plain_piece (g (f a)).
Definition settles {A} (f : A -> A) (g : A -> list piece) : Prop := forall a, Forall plain_piece (g a) -> settled f g a.
Lemma settles_opt A (f : A -> A) g : settles f g -> settles (option_map f) (if_set g).
Proof. intros H [a|] Ha; cbn in *; [destruct (H a Ha) as [H1 H2]; split; [cbn; now rewrite H1 | exact H2] | split; [reflexivity | apply Forall_nil]]. Qed.
Lemma value_settles : settles seen (fun s => [Value s]).
Proof. intros s H. apply Forall_inv in H as H'. unfold settled. cbn in H'. rewrite !(seen_unmarked s H'). auto. Qed.
Lemma stored_settles : settles stored (fun s => [Value s]).
Proof. intros s H. apply Forall_inv in H as H'. unfold settled. cbn in H'. rewrite !(stored_unmarked s H'). auto. Qed.
Ltac take_apart H :=
  match type of H with
  | Forall _ (_ ++ _) => let H1 := fresh H in let H2 := fresh H in apply Forall_app in H as [H1 H2]; take_apart H1; take_apart H2
  | Forall _ (?a :: ?l) => let H1 := fresh H in let H2 := fresh H in
      match l with
      | [] => idtac
      | _ => change (Forall plain_piece ([a] ++ l)) in H; apply Forall_app in H as [H1 H2]; take_apart H2
      end
  | _ => idtac
  end.
Ltac gather :=
  repeat match goal with
         | |- Forall _ (_ ++ _) => apply Forall_app; split
         | |- Forall _ [] => apply Forall_nil
         | |- Forall _ (?a :: ?l) => match l with [] => fail 1 | _ => change (Forall plain_piece ([a] ++ l)); apply Forall_app; split end
         end.
(** By its fields. *)
Ltac again := repeat match goal with H : ?a = _ |- context [?a] => rewrite H; clear H end.
Tactic Notation "field" constr(L) constr(x) := let A := fresh "A" in let B := fresh "B" in destruct (L x) as [A B]; [assumption|].
Ltac fields := split; [cbn in *; f_equal; assumption | cbn in *; gather; assumption].
Lemma mark_settles : settles reread_mark in_mark.
Proof. intros [a d] H. unfold in_mark in H. cbn in H. take_apart H. field stored_settles a. field value_settles d. unfold settled, reread_mark, in_mark. fields. Qed.
Lemma shading_settles : settles reread_shading in_shading.
Proof. intros [t a d] H. unfold in_shading in H. cbn in H. take_apart H. field value_settles a. field value_settles d. unfold settled, reread_shading, in_shading. fields. Qed.
(** Names of a list of known ones. *)
Lemma known_settles A (show : A -> string) read : (forall a, all_char unmarked (show a) = true) -> (forall a, read (show a) = Some a) ->
  forall o : option string, settled (fun o => match o with Some t => option_map show (read (seen t)) | None => None end) value_of o.
Proof.
  intros H1 H2 o. unfold settled. destruct o as [t|]; [|split; [reflexivity | apply Forall_nil]].
  destruct (read (seen t)) as [a|]; cbn; [|split; [reflexivity | apply Forall_nil]]. rewrite seen_unmarked, H2 by apply H1. split; [reflexivity|].
  constructor; [apply H1 | apply Forall_nil].
Qed.
Lemma theme_settles o : settled (fun o => match o with Some t => option_map show_ThemeColor (read_ThemeColor (seen t)) | None => None end) value_of o.
Proof. apply known_settles; intros []; reflexivity. Qed.
Lemma alignment_settles o : settled (fun o => match o with Some t => option_map show_AlignmentType (read_AlignmentType (seen t)) | None => None end) value_of o.
Proof. apply known_settles; intros []; reflexivity. Qed.
Definition opt_value := settles_opt _ _ _ value_settles.
Definition opt_stored := settles_opt _ _ _ stored_settles.
Lemma color_settles : settles reread_color in_color.
Proof.
  intros [v t h i] H. unfold in_color in H. cbn [c_val c_theme c_shade c_tint] in H. take_apart H.
  field value_settles v. destruct (theme_settles t) as [T1 T2]. field opt_value h. field opt_value i.
  unfold settled, reread_color, in_color. cbn [c_val c_theme c_shade c_tint]. split; [f_equal; assumption | gather; assumption].
Qed.
Lemma fonts_settle : settles reread_fonts in_fonts.
Proof.
  intros [a b c d e f g h i] H. unfold in_fonts in H. cbn [f_ascii f_hi_ansi f_east_asia f_cs f_ascii_theme f_hi_ansi_theme f_east_asia_theme f_cs_theme f_hint] in H. take_apart H.
  field opt_stored a. field opt_stored b. field opt_stored c. field opt_stored d. field opt_stored e. field opt_stored f. field opt_stored g. field opt_stored h. field opt_stored i.
  unfold settled, reread_fonts, in_fonts. cbn [f_ascii f_hi_ansi f_east_asia f_cs f_ascii_theme f_hi_ansi_theme f_east_asia_theme f_cs_theme f_hint].
  split; [f_equal; assumption | gather; assumption].
Qed.
Lemma text_border_settles : settles reread_text_border (fun b => [Value (tb_color b)]).
Proof. intros [t z c p] H. cbn in H. field value_settles c. unfold settled, reread_text_border. cbn [tb_type tb_size tb_color tb_space]. split; [f_equal; assumption | assumption]. Qed.
Definition opt_mark := settles_opt _ _ _ mark_settles.
Definition opt_shading := settles_opt _ _ _ shading_settles.
Lemma rpr_settles : settles reread_rpr in_rpr.
Proof.
  intros r H. unfold in_rpr in H. take_apart H.
  field opt_stored (r_style r). field (settles_opt _ _ _ color_settles) (r_color r). field opt_value (r_highlight r). field opt_value (r_underline r).
  field (settles_opt _ _ _ fonts_settle) (r_fonts r). field (settles_opt _ _ _ text_border_settles) (r_border r). field opt_mark (r_del r). field opt_mark (r_ins r).
  field opt_shading (r_shading r).
  unfold settled. split.
  - unfold reread_rpr. cbn [r_style r_sz r_color r_highlight r_vert r_underline r_bold r_caps r_italic r_vanish r_spec_vanish r_spacing r_fit r_fonts r_border r_del r_ins r_strike r_dstrike r_ptab r_shading].
    again. destruct (r_dstrike r) as [[]|]; destruct (r_ptab r); reflexivity.
  - unfold in_rpr. cbn [r_style r_color r_highlight r_underline r_fonts r_border r_del r_ins r_shading reread_rpr]. gather; assumption.
Qed.
Lemma ref_settles : settles reread_ref in_ref.
Proof. intros [t i] H. unfold in_ref in H. cbn in H. take_apart H. field value_settles i. unfold settled, reread_ref, in_ref. cbn [pr_type pr_id]. split; [f_equal; assumption | gather; assumption]. Qed.
Definition opt_ref := settles_opt _ _ _ ref_settles.
Lemma page_num_settles : settles (fun n => {| pn_start := pn_start n; pn_chap_style := option_map seen (pn_chap_style n) |}) (fun n => value_of (pn_chap_style n)).
Proof. intros [s c] H. cbn [pn_chap_style] in H. field opt_value c. unfold settled. cbn [pn_start pn_chap_style]. split; [f_equal; assumption | assumption]. Qed.
Lemma sectpr_settles : settles reread_sectpr in_sectpr.
Proof.
  intros p H. unfold in_sectpr in H. take_apart H.
  field opt_ref (sp_header p). field opt_ref (sp_first_header p). field opt_ref (sp_even_header p).
  field opt_ref (sp_footer p). field opt_ref (sp_first_footer p). field opt_ref (sp_even_footer p). field (settles_opt _ _ _ page_num_settles) (sp_page_num p).
  unfold settled. split.
  - unfold reread_sectpr. cbn [sp_size sp_margin sp_title_pg sp_doc_grid sp_header sp_first_header sp_even_header sp_footer sp_first_footer sp_even_footer sp_type sp_page_num pg_w pg_h].
    again. reflexivity.
  - unfold in_sectpr. cbn [sp_header sp_first_header sp_even_header sp_footer sp_first_footer sp_even_footer sp_page_num sp_text_direction reread_sectpr]. gather; try assumption.
    constructor; [reflexivity | apply Forall_nil].
Qed.
Lemma pborder_settles : settles reread_pborder (fun b => [Value (pb_color b)]).
Proof. intros [t z c p] H. cbn in H. field value_settles p. unfold settled, reread_pborder. cbn [pb_val pb_size pb_color pb_space]. split; [f_equal; assumption | assumption]. Qed.
Definition opt_pborder := settles_opt _ _ _ pborder_settles.
Lemma pborders_settle : settles reread_pborders in_pborders.
Proof.
  intros b H. unfold in_pborders in H. cbv zeta in H. take_apart H.
  field opt_pborder (pb_left b). field opt_pborder (pb_right b). field opt_pborder (pb_top b). field opt_pborder (pb_bottom b). field opt_pborder (pb_between b). field opt_pborder (pb_bar b).
  unfold settled, reread_pborders, in_pborders. cbn [pb_left pb_right pb_top pb_bottom pb_between pb_bar]. cbv zeta. split; [f_equal; assumption | gather; assumption].
Qed.
Lemma frame_settles : settles reread_frame in_frame.
Proof.
  intros f H. unfold in_frame in H. take_apart H.
  field opt_value (fr_wrap f). field opt_value (fr_h_rule f). field opt_value (fr_h_anchor f). field opt_value (fr_v_anchor f). field opt_value (fr_x_align f). field opt_value (fr_y_align f).
  unfold settled, reread_frame, in_frame. cbn [fr_h fr_h_rule fr_h_anchor fr_h_space fr_v_anchor fr_v_space fr_w fr_wrap fr_x fr_x_align fr_y fr_y_align].
  split; [f_equal; assumption | gather; assumption].
Qed.
Lemma indent_settles i : reread_indent (reread_indent i) = reread_indent i.
Proof. reflexivity. Qed.
Lemma base_settles : settles reread_base in_base.
Proof.
  intros b H. unfold in_base in H. take_apart H.
  field rpr_settles (p_rpr b). field opt_stored (p_style b). field (settles_opt _ _ _ frame_settles) (p_frame b). destruct (alignment_settles (p_alignment b)) as [T1 T2].
  field (settles_opt _ _ _ pborders_settle) (p_borders b). field opt_shading (p_shading b). field (settles_opt _ _ _ sectpr_settles) (p_section b).
  unfold settled. split.
  - unfold reread_base. cbn [p_rpr p_style p_numbering p_alignment p_indent p_spacing p_keep_next p_keep_lines p_bidi p_page_break_before p_widow_control p_outline p_section p_tabs
      p_borders p_frame p_text_alignment p_adjust_right_ind p_snap_to_grid p_shading p_div_id].
    again.
    assert (O : forall o, only_on (only_on o) = only_on o) by (intros [[]|]; reflexivity). rewrite !O. clear O.
    destruct (p_indent b); (destruct (p_outline b) as [n|]; [cbn [option_map]; destruct (N.leb_spec 10 n); [reflexivity|]; destruct (N.leb_spec 10 n); [lia | reflexivity] | reflexivity]).
  - unfold in_base. cbn [p_rpr p_style p_frame p_alignment p_borders p_shading p_section reread_base]. gather; assumption.
Qed.
Lemma ppr_settles : settles reread_ppr in_ppr.
Proof.
  unfold settles. fix F 1. intros [b [[au da q]|]] H; cbn [in_ppr] in H; unfold settled; cbn [reread_ppr in_ppr].
  - take_apart H. destruct (F q) as [Q1 Q2]; [assumption|]. field base_settles b. field stored_settles au. field value_settles da.
    split; [congruence | gather; assumption].
  - field base_settles b. split; [congruence | assumption].
Qed.
Lemma border_settles : settles reread_border (fun b => [Value (b_color b)]).
Proof. intros [t z c p] H. cbn in H. field value_settles c. unfold settled, reread_border. cbn [b_type b_size b_color b_space]. split; [f_equal; assumption | assumption]. Qed.
Definition opt_border := settles_opt _ _ _ border_settles.
Lemma tposition_settles : settles reread_tposition (fun q => value_of (tp_vert_anchor q) ++ value_of (tp_horz_anchor q) ++ value_of (tp_x_spec q) ++ value_of (tp_y_spec q)).
Proof.
  intros t H. take_apart H. field opt_value (tp_vert_anchor t). field opt_value (tp_horz_anchor t). field opt_value (tp_x_spec t). field opt_value (tp_y_spec t).
  unfold settled, reread_tposition. cbn [tp_left tp_right tp_vert_anchor tp_horz_anchor tp_x_spec tp_y_spec tp_x tp_y]. split; [again; reflexivity | gather; assumption].
Qed.
Lemma jc_settles t : let f t := match read_TableAlignmentType (seen t) with Some a => show_TableAlignmentType a | None => "left"%string end in
  f (f t) = f t /\ plain_piece (Value (f t)).
Proof. cbv beta zeta. destruct (read_TableAlignmentType (seen t)) as [[]|]; split; reflexivity. Qed.
Lemma tblpr_settles : settles reread_tblpr in_tblpr.
Proof.
  intros p H. unfold in_tblpr, in_box in H. cbv zeta in H. take_apart H. pose proof (jc_settles (tpr_jc p)) as T. cbv beta zeta in T. destruct T as [T1 T2].
  field opt_border (tbs_top (tpr_borders p)). field opt_border (tbs_left (tpr_borders p)). field opt_border (tbs_bottom (tpr_borders p)). field opt_border (tbs_right (tpr_borders p)).
  field opt_border (tbs_inside_h (tpr_borders p)). field opt_border (tbs_inside_v (tpr_borders p)). field opt_value (tpr_style p).
  field (settles_opt _ _ _ tposition_settles) (tpr_position p). unfold settled. split.
  - unfold reread_tblpr, reread_tborders. cbn [tpr_width tpr_jc tpr_borders tpr_margins tpr_indent tpr_style tpr_layout tpr_position tbs_top tbs_left tbs_bottom tbs_right tbs_inside_h tbs_inside_v].
    again. f_equal. destruct (tpr_indent p) as [[z w]|]; [|reflexivity]. destruct (Z.eqb_spec z 0); [reflexivity|]. destruct (Z.eqb_spec z 0); [contradiction | reflexivity].
  - unfold in_tblpr, in_box, reread_tblpr, reread_tborders. cbv zeta.
    cbn [tpr_width tpr_jc tpr_borders tpr_margins tpr_indent tpr_style tpr_layout tpr_position tbs_top tbs_left tbs_bottom tbs_right tbs_inside_h tbs_inside_v].
    constructor; [exact T2|]. gather; assumption.
Qed.
Lemma trpr_settles : settles reread_trpr in_trpr.
Proof.
  intros p H. unfold in_trpr in H. take_apart H. field opt_mark (tr_del p). field opt_mark (tr_ins p). unfold settled. split.
  - unfold reread_trpr. cbn [tr_grid_after tr_width_after tr_grid_before tr_width_before tr_height tr_rule tr_del tr_ins tr_cant_split]. again.
    destruct (tr_height p); reflexivity.
  - unfold in_trpr. cbn [tr_del tr_ins reread_trpr]. gather; assumption.
Qed.
Lemma cborders_settle : settles reread_cborders (fun b => in_box (cb_top b) ++ in_box (cb_left b) ++ in_box (cb_bottom b) ++ in_box (cb_right b) ++
                   in_box (cb_inside_h b) ++ in_box (cb_inside_v b) ++ in_box (cb_tl2br b) ++ in_box (cb_tr2bl b)).
Proof.
  intros b H. unfold in_box in H. take_apart H. field opt_border (cb_top b). field opt_border (cb_left b). field opt_border (cb_bottom b). field opt_border (cb_right b).
  field opt_border (cb_inside_h b). field opt_border (cb_inside_v b). field opt_border (cb_tr2bl b). field opt_border (cb_tl2br b).
  unfold settled, reread_cborders, in_box. cbn [cb_top cb_left cb_bottom cb_right cb_inside_h cb_inside_v cb_tr2bl cb_tl2br]. split; [again; reflexivity | gather; assumption].
Qed.
Lemma tcpr_settles : settles reread_tcpr in_tcpr.
Proof.
  intros p H. unfold in_tcpr in H. take_apart H. field (settles_opt _ _ _ cborders_settle) (tc_borders p). field opt_shading (tc_shading p). unfold settled. split.
  - unfold reread_tcpr. cbn [tc_width tc_borders tc_grid_span tc_vmerge tc_valign tc_text_direction tc_shading tc_margins]. again. reflexivity.
  - unfold in_tcpr. cbn [tc_borders tc_shading reread_tcpr]. gather; assumption.
Qed.
(** A picture settles unless it is marked for a simple position. *)
Lemma pic_settles p : plain_piece (Value (pic_id p)) -> pic_anchor p && pic_simple_pos p = false -> reread_pic (reread_pic p) = reread_pic p.
Proof.
  cbn [plain_piece]. intros H1 H2. unfold reread_pic.
  cbn [pic_id pic_image pic_size pic_anchor pic_simple_pos pic_simple_x pic_simple_y pic_layout_in_cell pic_relative_height pic_overlap pic_h pic_v pic_from_h pic_from_v pic_dist_t pic_dist_b pic_dist_l pic_dist_r pic_rot].
  rewrite !(seen_unmarked _ H1). destruct (pic_anchor p); [|reflexivity]. cbn [andb] in H2. rewrite H2.
  assert (R : forall d, reread_position (reread_position d) = reread_position d).
  { intros [z|t]; cbn; [|reflexivity]. destruct (Z.ltb_spec z 0); [reflexivity|]. destruct (Z.ltb_spec z 0); [lia | reflexivity]. }
  rewrite !R. destruct (pic_from_v p); reflexivity.
Qed.
Lemma pic_strings p : plain_piece (Value (pic_id p)) -> plain_piece (Value (pic_id (reread_pic p))).
Proof. cbn [plain_piece pic_id reread_pic]. intros H. now rewrite seen_unmarked. Qed.

(** ** Numbers *)
Lemma all_map A (P : A -> Prop) f o : (forall a, P a -> P (f a)) -> all_of P o -> all_of P (option_map f o).
Proof. destruct o; cbn; auto. Qed.
Lemma rpr_fits r : fits_rpr r -> fits_rpr (reread_rpr r).
Proof.
  intros (H1 & H2 & H3 & H4). unfold fits_rpr. cbn [r_sz r_spacing r_fit r_border reread_rpr]. repeat split; try assumption.
  revert H4. apply all_map. intros b [B1 B2]. split; [exact B1 | cbn; discriminate].
Qed.
Lemma sectpr_fits p : fits_sectpr p -> fits_sectpr (reread_sectpr p).
Proof.
  intros (H1 & H2 & H3 & H4 & H5 & H6 & H7 & H8 & H9 & H10 & H11). unfold fits_sectpr.
  cbn [sp_size sp_margin sp_doc_grid sp_header sp_first_header sp_even_header sp_footer sp_first_footer sp_even_footer sp_page_num pg_w pg_h reread_sectpr].
  repeat split; try assumption; try (revert H5 || revert H6 || revert H7 || revert H8 || revert H9 || revert H10 || revert H11; apply all_map; intros; assumption);
  match goal with
  | H : all_of ?P ?o |- all_of _ (option_map _ ?o) => revert H; apply all_map; intros ? H; exact H
  | H : fits_margin _ |- _ => apply H
  end.
Qed.
Lemma indent_fits i : fits_indent i -> fits_indent (reread_indent i).
Proof.
  intros (H1 & H2 & H3 & H4). unfold fits_indent. cbn [i_start i_end i_special i_start_chars reread_indent]. repeat split; try assumption.
  - destruct (i_start i); [apply H1 | cbn; discriminate].
  - destruct (i_start i); [apply H1 | cbn; discriminate].
  - destruct (i_end i); [apply H2 | cbn; discriminate].
  - destruct (i_end i); [apply H2 | cbn; discriminate].
Qed.
Lemma base_fits b : fits_base b -> fits_base (reread_base b).
Proof.
  intros (H1 & H2 & H3 & H4 & H5 & H6 & H7 & H8 & H9 & H10). unfold fits_base.
  cbn [p_rpr p_numbering p_indent p_spacing p_outline p_section p_tabs p_borders p_frame p_adjust_right_ind reread_base].
  split; [now apply rpr_fits|]. split; [assumption|]. split; [revert H3; apply all_map, indent_fits|]. split; [assumption|].
  split; [revert H5; apply all_map; intros n Hn; destruct (10 <=? n)%N; [cbn; discriminate | exact Hn]|].
  split; [revert H6; apply all_map, sectpr_fits|]. split; [assumption|]. split; [|split; [revert H9; apply all_map; intros f Hf; exact Hf | assumption]].
  revert H8. apply all_map. intros q (B1 & B2 & B3 & B4 & B5 & B6). unfold fits_pborders. cbn [pb_left pb_right pb_top pb_bottom pb_between pb_bar reread_pborders].
  repeat split; match goal with H : all_of fits_pborder ?o |- all_of _ (option_map _ ?o) => revert H; apply all_map; intros ? H; exact H end.
Qed.
Lemma ppr_fits : forall p, fits_ppr p -> fits_ppr (reread_ppr p).
Proof.
  fix F 1. intros [b [[au da q]|]]; cbn [fits_ppr reread_ppr]; intros [H1 H2]; (split; [now apply base_fits|]); [now apply F | exact I].
Qed.
Lemma border_fits b : fits_border b -> fits_border (reread_border b).
Proof. intros [H1 H2]. split; [exact H1 | cbn; discriminate]. Qed.
Lemma tblpr_fits p : fits_tblpr p -> fits_tblpr (reread_tblpr p).
Proof.
  intros (H1 & (B1 & B2 & B3 & B4 & B5 & B6) & H3 & H4 & H5). unfold fits_tblpr, fits_tborders.
  cbn [tpr_width tpr_borders tpr_margins tpr_indent tpr_position reread_tblpr reread_tborders tbs_top tbs_left tbs_bottom tbs_right tbs_inside_h tbs_inside_v].
  split; [assumption|]. split; [repeat split; match goal with H : all_of fits_border ?o |- all_of _ (option_map _ ?o) => revert H; apply all_map, border_fits end|].
  split; [assumption|]. split; [|revert H5; apply all_map; intros t Ht; exact Ht].
  destruct (tpr_indent p) as [[z w]|]; [|exact I]. destruct (z =? 0)%Z; [exact I | exact H4].
Qed.
Lemma tcpr_fits p : fits_tcpr p -> fits_tcpr (reread_tcpr p).
Proof.
  intros (H1 & H2 & H3 & H4). unfold fits_tcpr. cbn [tc_width tc_borders tc_grid_span tc_margins reread_tcpr]. repeat (split; [assumption || idtac|]); try assumption.
  revert H2. apply all_map. intros b (B1 & B2 & B3 & B4 & B5 & B6 & B7 & B8). unfold fits_cborders. cbn [cb_top cb_left cb_bottom cb_right cb_inside_h cb_inside_v cb_tr2bl cb_tl2br reread_cborders].
  repeat split; match goal with H : all_of fits_border ?o |- all_of _ (option_map _ ?o) => revert H; apply all_map, border_fits end.
Qed.
Lemma position_fits d : fits_position d -> fits_position (reread_position d).
Proof. destruct d as [z|t]; cbn; [|intros _; unfold is_i32; unfold max_i32; lia]. intros [H1 H2]. destruct (Z.ltb_spec z 0); unfold is_i32, max_i32 in *; lia. Qed.
Lemma pic_fits p : fits_pic p -> fits_pic (reread_pic p).
Proof.
  intros (H1 & H2 & H3 & H4 & H5 & H6 & H7 & H8 & H9 & H10 & H11). unfold fits_pic.
  cbn [pic_size pic_simple_x pic_simple_y pic_relative_height pic_h pic_v pic_dist_t pic_dist_b pic_dist_l pic_dist_r reread_pic].
  assert (Z0 : is_i32 0) by (unfold is_i32, max_i32; lia).
  destruct (pic_anchor p); (split; [assumption|]; split; [assumption|]);
    (split; [assumption|]; split; [assumption|]; split; [assumption || (cbn; discriminate)|]; split; [|split; [|repeat split; (apply H8 || apply H9 || apply H10 || apply H11)]]);
    try (now apply position_fits); exact Z0.
Qed.

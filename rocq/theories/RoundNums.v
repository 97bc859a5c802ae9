(** Values written and read back, and tactics for the readers of properties. *)
From Coq Require Import NArith ZArith List Bool Lia.
From Verif Require Import Str StrFacts StrFind StrFindFacts TypesModel TypesProperties Props PropsSet Ast EscapeModel FloatModel FloatProofs XmlParser XmlSpec
  ReadBase ReadProps ReadModel ReadProg ReadProofs.
From Verif Require BuildModel.
From Verif Require Import RoundSpec RoundBase.
Import ListNotations.
Import BuildModel (xml, E, L, leaf, opt, on, valued, valued_n, valued_z, attr_s, attr_n, attr_z).

(** ** Strings that are reported as they are *)
Definition plain_char (c : ascii) : bool := negb ((c =c ch_amp) || (c =c ch_cr) || is_ws c).
Lemma seen_plain s : all_char plain_char s = true -> seen s = s.
Proof.
  unfold seen. intros H. replace (decode_attr None s) with (Some s); [reflexivity|].
  induction s as [|c s IH]; [reflexivity|]. cbn [all_char] in H. apply andb_true_iff in H as [Hc Hs].
  cbn [decode_attr]. unfold plain_char in Hc. apply negb_true_iff, orb_false_iff in Hc as [Hc Hw].
  apply orb_false_iff in Hc as [Ha Hr]. rewrite Ha, Hr, Hw, <- IH by exact Hs. reflexivity.
Qed.
Lemma plain_N n : all_char plain_char (show_N n) = true.
Proof.
  pose proof (show_N_digits n) as H. induction (show_N n) as [|c s IH]; [reflexivity|].
  cbn [all_char] in *. apply andb_true_iff in H as [Hc Hs]. rewrite IH by exact Hs.
  destruct c as [[] [] [] [] [] [] [] []]; vm_compute in Hc |- *; congruence.
Qed.
Lemma seen_N n : seen (show_N n) = show_N n.
Proof. apply seen_plain, plain_N. Qed.
Lemma seen_Z z : seen (show_Z z) = show_Z z.
Proof.
  apply seen_plain. destruct z as [|p|p]; [reflexivity| |].
  - change (Zpos p) with (Z.of_N (Npos p)). rewrite show_Z_of_N. apply plain_N.
  - apply (plain_N (Npos p)).
Qed.


(** ** Values that are read as they were *)
Ltac enum := let t := fresh in intros t; destruct t; reflexivity.
Lemma rt_border : forall t, read_BorderType (seen (show_BorderType t)) = Some t. Proof. enum. Qed.
Lemma rt_vert : forall t, read_VertAlignType (seen (show_VertAlignType t)) = Some t. Proof. enum. Qed.
Lemma rt_shd : forall t, read_ShdType (seen (show_ShdType t)) = Some t. Proof. enum. Qed.
Lemma rt_ptab_align : forall t, read_PositionalTabAlignmentType (seen (show_PositionalTabAlignmentType t)) = Some t. Proof. enum. Qed.
Lemma rt_ptab_relative : forall t, read_PositionalTabRelativeTo (seen (show_PositionalTabAlignmentType t)) = None. Proof. enum. Qed.
Lemma rt_leader : forall t, read_TabLeaderType (seen (show_TabLeaderType t)) = Some t. Proof. enum. Qed.
Lemma rt_tab : forall t, read_TabValueType (seen (show_TabValueType t)) = Some t. Proof. enum. Qed.
Lemma rt_grid : forall t, read_DocGridType (seen (show_DocGridType t)) = Some t. Proof. enum. Qed.
Lemma rt_section : forall t, read_SectionType (seen (show_SectionType t)) = Some t. Proof. enum. Qed.
Lemma rt_rule : forall t, read_LineSpacingType (seen (BuildModel.show_rule t)) = Some t. Proof. enum. Qed.
Lemma rt_text_align : forall t, read_TextAlignmentType (seen (show_TextAlignmentType t)) = Some t. Proof. enum. Qed.
Lemma rt_width : forall t, read_WidthType (seen (show_WidthType t)) = Some t. Proof. enum. Qed.
Lemma rt_height : forall t, read_HeightRule (seen (show_HeightRule t)) = Some t. Proof. enum. Qed.
Lemma rt_vmerge : forall t, read_VMergeType (seen (show_VMergeType t)) = Some t. Proof. enum. Qed.
Lemma rt_valign : forall t, read_VAlignType (seen (show_VAlignType t)) = Some t. Proof. enum. Qed.
Lemma rt_direction : forall t, read_TextDirectionType (seen (show_TextDirectionType t)) = Some t. Proof. enum. Qed.
Lemma rt_break : forall t, read_BreakType (seen (show_BreakType t)) = Some t. Proof. enum. Qed.
Lemma rt_field : forall t, read_FieldCharType (seen (show_FieldCharType t)) = Some t. Proof. enum. Qed.
Lemma rt_from_h : forall t, read_RelativeFromHType (seen (show_RelativeFromHType t)) = Some t. Proof. enum. Qed.

Ltac ranges := unfold exact64, exact32, is_u32, is_usize, is_i32, is_i64, small, max_u32, max_u64, max_i32, max_i64 in *.
Lemma cast_in lo hi z : (lo <= z <= hi)%Z -> cast lo hi (FNum z) = z.
Proof. unfold cast. lia. Qed.
Lemma f64_N n : (n <= 2 ^ 53)%N -> parse_f64 (seen (show_N n)) = Some (FNum (Z.of_N n)).
Proof. intros. rewrite seen_N. now apply parse_f64_show_N. Qed.
Lemma f64_u32 n : is_u32 n -> parse_f64 (seen (show_N n)) = Some (FNum (Z.of_N n)).
Proof. intros. apply f64_N. ranges. lia. Qed.
Lemma f64_i32 z : is_i32 z -> parse_f64 (seen (show_Z z)) = Some (FNum z).
Proof. intros. rewrite seen_Z. apply parse_f64_show_Z. ranges. lia. Qed.
Lemma f32_N n : exact32 n -> parse_f32 (seen (show_N n)) = Some (FNum (Z.of_N n)).
Proof. intros. rewrite seen_N. now apply parse_f32_show_N. Qed.
Lemma f32_Z z : (Z.abs z <= 2 ^ 24)%Z -> parse_f32 (seen (show_Z z)) = Some (FNum z).
Proof. intros. rewrite seen_Z. now apply parse_f32_show_Z. Qed.
Lemma as_usize_N n : (n <= max_u64)%N -> as_usizef (FNum (Z.of_N n)) = n.
Proof. intros. unfold as_usizef. rewrite cast_in by (ranges; lia). lia. Qed.
Lemma as_u32_N n : is_u32 n -> as_u32f (FNum (Z.of_N n)) = n.
Proof. intros. unfold as_u32f. rewrite cast_in by (ranges; lia). lia. Qed.
Lemma as_i32_Z z : is_i32 z -> as_i32f (FNum z) = z.
Proof. intros. unfold as_i32f. apply cast_in. ranges; lia. Qed.
Lemma as_isize_Z z : is_i64 z -> as_isizef (FNum z) = z.
Proof. intros. unfold as_isizef. apply cast_in. ranges; lia. Qed.
Lemma usize_N n : is_usize n -> parse_usize (seen (show_N n)) = Some n.
Proof. intros. rewrite seen_N. now apply parse_usize_show. Qed.
Lemma u32_N n : is_u32 n -> parse_u32 (seen (show_N n)) = Some n.
Proof. intros. rewrite seen_N. now apply parse_u32_show. Qed.
Lemma i32_Z z : is_i32 z -> parse_i32 (seen (show_Z z)) = Some z.
Proof. intros. rewrite seen_Z. now apply parse_i32_show. Qed.
Lemma i64_Z z : is_i64 z -> parse_signed max_i64 (seen (show_Z z)) = Some z.
Proof. intros. rewrite seen_Z. apply parse_signed_show; [ranges; lia | exact H]. Qed.

(** Numbers in decimal contain no letter. *)
Definition num_char (c : ascii) : bool := is_digit c || (c =c "-"%char).
Lemma num_N n : all_char num_char (show_N n) = true.
Proof. eapply all_char_impl; [|apply show_N_digits]. intros c H. unfold num_char. now rewrite H. Qed.
Lemma num_Z z : all_char num_char (show_Z z) = true.
Proof.
  destruct z as [|p|p]; [reflexivity| |].
  - change (Zpos p) with (Z.of_N (Npos p)). rewrite show_Z_of_N. apply num_N.
  - apply (num_N (Npos p)).
Qed.
Lemma all_char_substring f s : forall a b, all_char f s = true -> all_char f (substring a b s) = true.
Proof.
  induction s as [|c s IH]; intros a b H; [now destruct a, b|]. cbn [all_char] in H. apply andb_true_iff in H as [Hc Hs].
  destruct a as [|a].
  - destruct b as [|b]; [reflexivity|]. cbn [substring all_char]. rewrite Hc. now apply IH.
  - cbn [substring]. now apply IH.
Qed.
Lemma no_points s : all_char num_char s = true -> ends_with "pt" s = false.
Proof.
  intros H. unfold ends_with. destruct (Nat.leb _ _); [|reflexivity].
  destruct (String.eqb_spec (substring (String.length s - String.length "pt") (String.length "pt") s) "pt") as [E|]; [|reflexivity].
  apply (all_char_substring num_char s (String.length s - String.length "pt") (String.length "pt")) in H. rewrite E in H. discriminate.
Qed.
Lemma no_percent s : all_char num_char s = true -> replace "%" "" s = s.
Proof.
  intros H. apply replace_none; [discriminate|]. apply (find_missing "%"%char); [reflexivity|].
  eapply all_char_has; [exact H | reflexivity].
Qed.
Lemma dax_Z z : is_i32 z -> value_to_dax (seen (show_Z z)) = ret z.
Proof.
  intros H. unfold value_to_dax. rewrite (seen_Z z), (no_points _ (num_Z z)), <- (seen_Z z), (f64_i32 z H).
  cbn [or_fail]. unfold bind, ret. now rewrite (as_i32_Z z H).
Qed.
Lemma small_i32 n : small n -> is_i32 (Z.of_N n).
Proof. ranges. lia. Qed.
Lemma dax_N n : small n -> value_to_dax (seen (show_N n)) = ret (Z.of_N n).
Proof. intros H. rewrite <- show_Z_of_N. apply dax_Z. now apply small_i32. Qed.
Lemma wrap_u32_N n : small n -> wrap_u32 (Z.of_N n) = n.
Proof. intros H. unfold wrap_u32. rewrite Z.mod_small by (ranges; lia). lia. Qed.
Lemma wrap_usize_N n : small n -> wrap_usize (Z.of_N n) = n.
Proof. intros H. unfold wrap_usize. rewrite Z.mod_small by (ranges; lia). lia. Qed.
Lemma wrap_i32_Z z : is_i32 z -> wrap_i32 z = z.
Proof. intros H. unfold wrap_i32. rewrite Z.mod_small by (ranges; lia). lia. Qed.
Lemma as_i32_small n : small n -> BuildModel.as_i32 n = Z.of_N n.
Proof.
  intros H. unfold BuildModel.as_i32. rewrite Z.mod_small by (ranges; lia).
  destruct (Z.ltb_spec (Z.of_N n) 2147483648); [reflexivity | ranges; lia].
Qed.

(** ** Tactics *)
Definition atts_of (x : xml) : list (string * string) := match x with E _ a _ | L _ a _ => a end.
(** Carry out what a reader does with one element. *)
Ltac go := cbv [ignore_if meant map app split_qname span_until fst snd q_local q_prefix String.eqb Ascii.eqb Bool.eqb
  orb andb negb attr_first attr_val attr_get attr_parsed each_attr each_attr_m fold_left or_crash or_fail bind ret attempt upd
  attr_s attr_n attr_z opt on add_one add_if same
  atts_of leaf valued valued_n valued_z BuildModel.x_pborder BuildModel.x_border BuildModel.x_box BuildModel.x_ptab
  BuildModel.x_shading BuildModel.x_tab BuildModel.x_width BuildModel.x_uwidth].
Ltac nums :=
  repeat first
    [ rewrite rt_border | rewrite rt_vert | rewrite rt_shd | rewrite rt_ptab_align | rewrite rt_ptab_relative | rewrite rt_leader
    | rewrite rt_tab | rewrite rt_grid | rewrite rt_section | rewrite rt_rule | rewrite rt_text_align | rewrite rt_width
    | rewrite rt_height | rewrite rt_vmerge | rewrite rt_valign | rewrite rt_direction | rewrite rt_break | rewrite rt_field
    | rewrite rt_from_h
    | rewrite f64_u32 by assumption | rewrite f64_i32 by assumption | rewrite f64_N by assumption
    | rewrite f32_N by assumption | rewrite f32_Z by assumption
    | rewrite usize_N by assumption | rewrite u32_N by assumption | rewrite i32_Z by assumption | rewrite i64_Z by assumption
    | rewrite dax_Z by assumption | rewrite dax_N by assumption
    | rewrite as_u32_N by assumption | rewrite as_i32_Z by assumption | rewrite as_isize_Z by assumption
    | rewrite as_usize_N by (ranges; lia) | rewrite wrap_u32_N by assumption | rewrite wrap_usize_N by assumption
    | rewrite wrap_i32_Z by assumption ].
Ltac fin := repeat (go; progress nums); go; reflexivity.
(** Fields that an update leaves alone. *)
Lemma upd_other A B C (pr : A -> C) (o : option B) g x : (forall v x, pr (g v x) = pr x) -> pr (upd o g x) = pr x.
Proof. intros H. destruct o; [apply H | reflexivity]. Qed.
Lemma upd_none A B (g : B -> A -> A) x : upd None g x = x.
Proof. reflexivity. Qed.
Lemma upd_some A B (b : B) (g : B -> A -> A) x : upd (Some b) g x = g b x.
Proof. reflexivity. Qed.
Lemma fun_other A C (pr : A -> C) (f : A -> A) x : (forall x, pr (f x) = pr x) -> pr (f x) = pr x.
Proof. intros H. apply H. Qed.
Lemma eats_eq A B (F : nat -> A -> R B) k a ev b b' : eats F k a ev b -> b = b' -> eats F k a ev b'.
Proof. now intros H <-. Qed.
Lemma reads_eq A k (m : nat -> R A) ev v v' : reads k m ev v -> v = v' -> reads k m ev v'.
Proof. now intros H <-. Qed.

(** Records with equal fields are equal. *)
Lemma rpr_ext (a b : rpr) :
  r_style a = r_style b -> r_sz a = r_sz b -> r_sz_cs a = r_sz_cs b -> r_color a = r_color b ->
  r_highlight a = r_highlight b -> r_vert a = r_vert b -> r_underline a = r_underline b -> r_bold a = r_bold b ->
  r_bold_cs a = r_bold_cs b -> r_caps a = r_caps b -> r_italic a = r_italic b -> r_italic_cs a = r_italic_cs b ->
  r_vanish a = r_vanish b -> r_spec_vanish a = r_spec_vanish b -> r_spacing a = r_spacing b -> r_fit a = r_fit b ->
  r_stretch a = r_stretch b -> r_fonts a = r_fonts b -> r_border a = r_border b -> r_del a = r_del b ->
  r_ins a = r_ins b -> r_strike a = r_strike b -> r_dstrike a = r_dstrike b -> r_ptab a = r_ptab b ->
  r_shading a = r_shading b -> a = b.
Proof. destruct a, b; cbn; intros; subst; reflexivity. Qed.
Lemma sectpr_ext (a b : sectpr) :
  sp_size a = sp_size b -> sp_margin a = sp_margin b -> sp_columns a = sp_columns b -> sp_space a = sp_space b ->
  sp_title_pg a = sp_title_pg b -> sp_text_direction a = sp_text_direction b -> sp_doc_grid a = sp_doc_grid b -> sp_header a = sp_header b ->
  sp_first_header a = sp_first_header b -> sp_even_header a = sp_even_header b -> sp_footer a = sp_footer b -> sp_first_footer a = sp_first_footer b ->
  sp_even_footer a = sp_even_footer b -> sp_type a = sp_type b -> sp_page_num a = sp_page_num b -> a = b.
Proof. destruct a, b; cbn; intros; subst; reflexivity. Qed.
Lemma ppr_base_ext (a b : ppr_base) :
  p_rpr a = p_rpr b -> p_style a = p_style b -> p_numbering a = p_numbering b -> p_alignment a = p_alignment b ->
  p_indent a = p_indent b -> p_spacing a = p_spacing b -> p_keep_next a = p_keep_next b -> p_keep_lines a = p_keep_lines b ->
  p_bidi a = p_bidi b -> p_page_break_before a = p_page_break_before b -> p_widow_control a = p_widow_control b -> p_outline a = p_outline b ->
  p_section a = p_section b -> p_tabs a = p_tabs b -> p_borders a = p_borders b -> p_frame a = p_frame b ->
  p_text_alignment a = p_text_alignment b -> p_adjust_right_ind a = p_adjust_right_ind b -> p_snap_to_grid a = p_snap_to_grid b -> p_shading a = p_shading b ->
  p_div_id a = p_div_id b -> a = b.
Proof. destruct a, b; cbn; intros; subst; reflexivity. Qed.
Lemma framepr_ext (a b : framepr) :
  fr_h a = fr_h b -> fr_h_rule a = fr_h_rule b -> fr_h_anchor a = fr_h_anchor b -> fr_h_space a = fr_h_space b ->
  fr_v_anchor a = fr_v_anchor b -> fr_v_space a = fr_v_space b -> fr_w a = fr_w b -> fr_wrap a = fr_wrap b ->
  fr_x a = fr_x b -> fr_x_align a = fr_x_align b -> fr_y a = fr_y b -> fr_y_align a = fr_y_align b -> a = b.
Proof. destruct a, b; cbn; intros; subst; reflexivity. Qed.
Lemma fonts_ext (a b : fonts) :
  f_ascii a = f_ascii b -> f_hi_ansi a = f_hi_ansi b -> f_east_asia a = f_east_asia b -> f_cs a = f_cs b ->
  f_ascii_theme a = f_ascii_theme b -> f_hi_ansi_theme a = f_hi_ansi_theme b -> f_east_asia_theme a = f_east_asia_theme b -> f_cs_theme a = f_cs_theme b ->
  f_hint a = f_hint b -> a = b.
Proof. destruct a, b; cbn; intros; subst; reflexivity. Qed.
Lemma tposition_ext (a b : tposition) :
  tp_left a = tp_left b -> tp_right a = tp_right b -> tp_vert_anchor a = tp_vert_anchor b -> tp_horz_anchor a = tp_horz_anchor b ->
  tp_x_spec a = tp_x_spec b -> tp_y_spec a = tp_y_spec b -> tp_x a = tp_x b -> tp_y a = tp_y b -> a = b.
Proof. destruct a, b; cbn; intros; subst; reflexivity. Qed.
Lemma tblpr_ext (a b : tblpr) :
  tpr_width a = tpr_width b -> tpr_jc a = tpr_jc b -> tpr_borders a = tpr_borders b -> tpr_margins a = tpr_margins b ->
  tpr_indent a = tpr_indent b -> tpr_style a = tpr_style b -> tpr_layout a = tpr_layout b -> tpr_position a = tpr_position b -> a = b.
Proof. destruct a, b; cbn; intros; subst; reflexivity. Qed.
Lemma tcpr_ext (a b : tcpr) :
  tc_width a = tc_width b -> tc_borders a = tc_borders b -> tc_grid_span a = tc_grid_span b -> tc_vmerge a = tc_vmerge b ->
  tc_valign a = tc_valign b -> tc_text_direction a = tc_text_direction b -> tc_shading a = tc_shading b -> tc_margins a = tc_margins b -> a = b.
Proof. destruct a, b; cbn; intros; subst; reflexivity. Qed.
Lemma tborders_ext (a b : tborders) :
  tbs_top a = tbs_top b -> tbs_left a = tbs_left b -> tbs_bottom a = tbs_bottom b -> tbs_right a = tbs_right b ->
  tbs_inside_h a = tbs_inside_h b -> tbs_inside_v a = tbs_inside_v b -> a = b.
Proof. destruct a, b; cbn; intros; subst; reflexivity. Qed.
Lemma cborders_ext (a b : cborders) :
  cb_top a = cb_top b -> cb_left a = cb_left b -> cb_bottom a = cb_bottom b -> cb_right a = cb_right b ->
  cb_inside_h a = cb_inside_h b -> cb_inside_v a = cb_inside_v b -> cb_tr2bl a = cb_tr2bl b -> cb_tl2br a = cb_tl2br b -> a = b.
Proof. destruct a, b; cbn; intros; subst; reflexivity. Qed.
Lemma cmargins_ext (a b : cmargins) :
  cm_top a = cm_top b -> cm_left a = cm_left b -> cm_bottom a = cm_bottom b -> cm_right a = cm_right b -> a = b.
Proof. destruct a, b; cbn; intros; subst; reflexivity. Qed.
Lemma pborders_ext (a b : pborders) :
  pb_left a = pb_left b -> pb_right a = pb_right b -> pb_top a = pb_top b -> pb_bottom a = pb_bottom b ->
  pb_between a = pb_between b -> pb_bar a = pb_bar b -> a = b.
Proof. destruct a, b; cbn; intros; subst; reflexivity. Qed.
Lemma line_spacing_ext (a b : line_spacing) :
  ls_rule a = ls_rule b -> ls_before a = ls_before b -> ls_after a = ls_after b -> ls_before_lines a = ls_before_lines b ->
  ls_after_lines a = ls_after_lines b -> ls_line a = ls_line b -> a = b.
Proof. destruct a, b; cbn; intros; subst; reflexivity. Qed.
(** Field by field. *)
Ltac field := cbv beta;
  repeat match goal with
  | |- ?pr (upd ?o ?g ?x) = _ =>
      first [ rewrite (upd_other _ _ _ pr o g x) by
                (let v := fresh in intros v ?; first [reflexivity | destruct v; reflexivity])
            | match o with if ?b then _ else _ => destruct b | _ => destruct o end; rewrite ?upd_none, ?upd_some ]
  | |- ?pr (if ?b then _ else _) = _ => destruct b
  | |- ?pr (?f ?x) = ?rhs => rewrite (fun_other _ _ pr f x) by (intros; reflexivity)
  end; try reflexivity.
(** Numbers of a build. *)
Lemma b_mark_out n m s xs s' : BuildModel.b_mark n m s = Some (xs, s') ->
  exists i, xs = [leaf n [("w:id", i); ("w:author", m_author m); ("w:date", m_date m)]%string].
Proof.
  unfold BuildModel.b_mark, BuildModel.bind. destruct (BuildModel.take_hist s) as [[i s1]|]; [|discriminate].
  intros [= <- _]. now exists i.
Qed.
Lemma b_opt_mark_out n o s xs s' : BuildModel.b_opt_mark n o s = Some (xs, s') ->
  exists i, xs = opt (fun m => leaf n [("w:id", i); ("w:author", m_author m); ("w:date", m_date m)]%string) o.
Proof.
  destruct o as [m|]; [apply b_mark_out|]. intros [= <- _]. now exists ""%string.
Qed.

(** What the JSON of properties shows. *)
From Coq Require Import NArith ZArith List Bool Lia.
From Verif Require Import Str StrFacts TypesModel Props Ast JsonModel JsonSpec.
From Verif Require PropsSet.
Import ListNotations.
Open Scope list_scope.

(** ** Structs *)
Fixpoint distinct (l : list string) : bool :=
  match l with [] => true | k :: l => negb (existsb (String.eqb k) l) && distinct l end.
Lemma present_keys k v fs : In (k, v) (present fs) -> existsb (String.eqb k) (map fst fs) = true.
Proof.
  induction fs as [|[a o] fs IH]; [intros []|]. change (present ((a, o) :: fs)) with (match o with Some v => [(a, v)] | None => [] end ++ present fs).
  intros H. apply in_app_or in H. cbn [map fst existsb]. destruct H as [H|H]; [|rewrite (IH H); apply orb_true_r].
  destruct o as [w|]; [|destruct H]. destruct H as [H|[]]. injection H as -> _. now rewrite String.eqb_refl.
Qed.
Lemma present_inj fs : forall gs, map fst fs = map fst gs -> distinct (map fst fs) = true -> present fs = present gs -> fs = gs.
Proof.
  induction fs as [|[k o] fs IH]; intros [|[k2 o2] gs] K D P; [reflexivity | discriminate K | discriminate K |].
  cbn [map fst] in K. injection K as <- K. cbn [map fst distinct] in D. apply andb_prop in D. destruct D as [D1 D2]. apply negb_true_iff in D1.
  change (present ((k, o) :: fs)) with (match o with Some v => [(k, v)] | None => [] end ++ present fs) in P.
  change (present ((k, o2) :: gs)) with (match o2 with Some v => [(k, v)] | None => [] end ++ present gs) in P.
  destruct o as [v|], o2 as [w|]; cbn [app] in P.
  - injection P as -> P. now rewrite (IH gs K D2 P).
  - exfalso. pose proof (present_keys k v gs) as X. rewrite <- P, <- K, D1 in X. assert (false = true) by (apply X; now left). discriminate.
  - exfalso. pose proof (present_keys k w fs) as X. rewrite P, D1 in X. assert (false = true) by (apply X; now left). discriminate.
  - now rewrite (IH gs K D2 P).
Qed.
Lemma obj_inj fs gs : map fst fs = map fst gs -> distinct (map fst fs) = true -> obj fs = obj gs -> fs = gs.
Proof. intros K D H. injection H as H. now apply present_inj. Qed.
Lemma kind_inj t u v w : kind t v = kind u w -> t = u /\ v = w.
Proof. intros H. injection H as H1 H2. now split. Qed.

(** ** Options *)
Definition inj {A B} (f : A -> B) : Prop := forall x y, f x = f y -> x = y.
Definition live {A} (f : A -> json) : Prop := forall x, f x <> JNull.
Lemma omap_inj {A B} (f : A -> B) a b : inj f -> option_map f a = option_map f b -> a = b.
Proof. intros I. destruct a as [x|], b as [y|]; cbn; intros H; try discriminate H; [|reflexivity]. injection H as H. now rewrite (I _ _ H). Qed.
Lemma omap_sees {A B C} (f : A -> B) (g : A -> C) a b : (forall x y, f x = f y -> g x = g y) -> option_map f a = option_map f b -> option_map g a = option_map g b.
Proof. intros I. destruct a as [x|], b as [y|]; cbn; intros H; try discriminate H; [|reflexivity]. injection H as H. now rewrite (I _ _ H). Qed.
Lemma opt_inj {A} (f : A -> json) a b : inj f -> live f -> j_opt f a = j_opt f b -> a = b.
Proof.
  intros I L. destruct a as [x|], b as [y|]; cbn; intros H; [now rewrite (I _ _ H) | destruct (L _ H) | symmetry in H; destruct (L _ H) | reflexivity].
Qed.
Lemma opt_sees {A B} (f : A -> json) (g : A -> B) a b : (forall x y, f x = f y -> g x = g y) -> live f -> j_opt f a = j_opt f b -> option_map g a = option_map g b.
Proof.
  intros I L. destruct a as [x|], b as [y|]; cbn; intros H; [now rewrite (I _ _ H) | destruct (L _ H) | symmetry in H; destruct (L _ H) | reflexivity].
Qed.
Lemma flag_inj {A} (v : A) a b : (if a : bool then Some v else None) = (if b : bool then Some v else None) -> a = b.
Proof. destruct a, b; intros H; (reflexivity || discriminate H). Qed.
Lemma map_inj {A B} (f : A -> B) l m : inj f -> map f l = map f m -> l = m.
Proof. intros I. revert m. induction l as [|x l IH]; intros [|y m] H; try discriminate H; [reflexivity|]. cbn in H. injection H as H1 H2. now rewrite (I _ _ H1), (IH _ H2). Qed.

Create HintDb json discriminated.
#[export] Hint Constants Opaque : json.

(** ** Enumerations *)
Ltac each := intros x y H; destruct x, y; first [reflexivity | discriminate H].
Lemma ser_border : inj ser_BorderType. Proof. each. Qed.
Lemma ser_grid : inj ser_DocGridType. Proof. each. Qed.
Lemma ser_align : inj ser_PicAlign. Proof. each. Qed.
Lemma ser_field : inj ser_FieldCharType. Proof. each. Qed.
Lemma ser_height : inj ser_HeightRule. Proof. each. Qed.
Lemma ser_line : inj ser_LineSpacingType. Proof. each. Qed.
Lemma ser_orient : inj ser_PageOrientationType. Proof. each. Qed.
Lemma ser_ptalign : inj ser_PositionalTabAlignmentType. Proof. each. Qed.
Lemma ser_ptrel : inj ser_PositionalTabRelativeTo. Proof. each. Qed.
Lemma ser_fromh : inj ser_RelativeFromHType. Proof. each. Qed.
Lemma ser_fromv : inj ser_RelativeFromVType. Proof. each. Qed.
Lemma ser_sect : inj ser_SectionType. Proof. each. Qed.
Lemma ser_shd : inj ser_ShdType. Proof. each. Qed.
Lemma ser_leader : inj ser_TabLeaderType. Proof. each. Qed.
Lemma ser_tabval : inj ser_TabValueType. Proof. each. Qed.
Lemma ser_width : inj ser_WidthType. Proof. each. Qed.
Lemma show_vert : inj show_VertAlignType. Proof. each. Qed.
Lemma show_break : inj show_BreakType. Proof. each. Qed.
Lemma show_talign : inj show_TextAlignmentType. Proof. each. Qed.
Lemma show_layout : inj show_TableLayoutType. Proof. each. Qed.
Lemma show_vmerge : inj show_VMergeType. Proof. each. Qed.
Lemma show_valign : inj show_VAlignType. Proof. each. Qed.
Lemma show_direction : inj show_TextDirectionType. Proof. each. Qed.
Lemma str_inj : inj JStr. Proof. intros x y H. now injection H. Qed.
Lemma bool_inj : inj JBool. Proof. intros x y H. now injection H. Qed.
Lemma num_inj : inj JNum. Proof. intros x y H. now injection H. Qed.
Lemma whole_inj : inj JWhole. Proof. intros x y H. now injection H. Qed.
Lemma jn_inj : inj jn. Proof. intros x y H. injection H as H. now apply N2Z.inj. Qed.
Lemma str_of {A} (f : A -> string) : inj f -> inj (fun v => JStr (f v)). Proof. intros I x y H. injection H as H. now apply I. Qed.
Definition low32 (n : N) : N := (n mod 4294967296)%N.
Lemma jn32_sees x y : jn32 x = jn32 y -> low32 x = low32 y.
Proof. intros H. now apply jn_inj in H. Qed.
#[export] Hint Resolve ser_border ser_grid ser_align ser_field ser_height ser_line ser_orient ser_ptalign ser_ptrel ser_fromh ser_fromv ser_sect ser_shd ser_leader
  ser_tabval ser_width show_vert show_break show_talign show_layout show_vmerge show_valign show_direction str_inj bool_inj num_inj whole_inj jn_inj str_of : json.
Ltac alive := intros x; cbn; discriminate.

(** ** Records *)
(** From equal objects to equal fields, then to equal values. *)
Lemma pair_cons {A B} (k : A) (v w : B) l m : (k, v) :: l = (k, w) :: m -> v = w /\ l = m.
Proof. intros H. now injection H. Qed.
Lemma cons_eq {A} (v w : A) l m : v :: l = w :: m -> v = w /\ l = m. Proof. intros H. now injection H. Qed.
Lemma some_same {A} (v w : A) : Some v = Some w -> v = w. Proof. intros H. now injection H. Qed.
Lemma arr_inj : inj JArr. Proof. intros x y H. now injection H. Qed.
#[export] Hint Resolve arr_inj : json.
Ltac open_fields H :=
  apply obj_inj in H; [|reflexivity|reflexivity]; unfold has, may, flag in H;
  repeat (let X := fresh "F" in apply pair_cons in H; destruct H as [X H]; try apply some_same in X).
Ltac settle :=
  repeat match goal with
  | H : option_map ?f ?a = option_map ?f ?b |- _ => apply (omap_inj f) in H; [|solve [auto with json]]
  | H : j_opt ?f ?a = j_opt ?f ?b |- _ => apply (opt_inj f) in H; [|solve [auto with json]|solve [alive]]
  | H : (if ?a then Some ?v else None) = (if ?b then Some ?v else None) |- _ => apply flag_inj in H
  | H : Some ?a = Some ?b |- _ => apply some_same in H
  | H : jn ?a = jn ?b |- _ => apply jn_inj in H
  | H : Z.of_N ?a = Z.of_N ?b |- _ => apply N2Z.inj in H
  | H : map ?f ?a = map ?f ?b |- _ => apply (map_inj f) in H; [|solve [auto with json]]
  | H : ?f ?a = ?f ?b |- _ => let I := fresh in assert (I : inj f) by (solve [auto with json]); apply I in H; clear I
  end.
Ltac close_record := repeat match goal with x : ?T, y : ?T |- _ => destruct x, y end; cbn in *; subst; reflexivity.
Ltac record := intros x y H; open_fields H; settle; destruct x, y; cbn in *; subst; reflexivity.
Lemma ins_inj : inj j_ins. Proof. record. Qed.
Lemma del_inj : inj j_del. Proof. record. Qed.
Lemma review_inj : inj j_review. Proof. record. Qed.
Lemma fit_inj : inj j_fit. Proof. record. Qed.
Lemma fonts_inj : inj j_fonts. Proof. record. Qed.
Lemma text_border_inj : inj j_text_border. Proof. record. Qed.
Lemma ptab_inj : inj j_ptab. Proof. record. Qed.
Lemma shading_inj : inj j_shading. Proof. record. Qed.
#[export] Hint Resolve ins_inj del_inj review_inj fit_inj fonts_inj text_border_inj ptab_inj shading_inj : json.

Lemma special_inj : inj j_special. Proof. intros [a|a] [b|b] H; open_fields H; try discriminate; settle; subst; reflexivity. Qed.
#[export] Hint Resolve special_inj : json.
Lemma special_live : live j_special. Proof. intros [a|a]; discriminate. Qed.
#[export] Hint Resolve special_live : json.
Ltac alive ::= solve [auto with json] || (intros ?; cbn; discriminate).
Lemma indent_inj : inj j_indent. Proof. record. Qed.
Lemma spacing_inj : inj j_spacing. Proof. record. Qed.
Lemma numpr_inj : inj j_numpr. Proof. record. Qed.
Lemma tab_inj : inj j_tab. Proof. record. Qed.
Lemma pborder_inj a : inj (j_pborder a). Proof. record. Qed.
#[export] Hint Resolve indent_inj spacing_inj numpr_inj tab_inj pborder_inj : json.
Lemma pborders_inj : inj j_pborders. Proof. record. Qed.
Lemma frame_inj : inj j_frame. Proof. record. Qed.
Lemma size_inj : inj j_size. Proof. record. Qed.
Lemma margin_inj : inj j_margin. Proof. record. Qed.
Lemma grid_inj : inj j_grid. Proof. record. Qed.
Lemma page_num_inj : inj j_page_num. Proof. record. Qed.
Lemma header_ref_inj : inj j_header_ref. Proof. record. Qed.
Lemma footer_ref_inj : inj j_footer_ref. Proof. record. Qed.
#[export] Hint Resolve pborders_inj frame_inj size_inj margin_inj grid_inj page_num_inj header_ref_inj footer_ref_inj : json.
Lemma sectpr_inj ps qs s t : j_sectpr ps s = j_sectpr qs t -> s = t /\ forall x, ps x = qs x.
Proof.
  intros H. unfold j_sectpr, sectpr_fields in H. open_fields H. split; [|intros []; assumption].
  settle. destruct s, t; cbn in *; subst; reflexivity.
Qed.
Lemma plain_sect_inj : inj (j_sectpr no_parts).
Proof. intros x y H. now apply sectpr_inj in H. Qed.
#[export] Hint Resolve plain_sect_inj : json.
Definition bare_color (c : color) : color := {| c_val := c_val c; c_theme := None; c_shade := None; c_tint := None |}.
Lemma color_sees x y : j_color x = j_color y -> bare_color x = bare_color y.
Proof. intros H. apply str_inj in H. unfold bare_color. now rewrite H. Qed.
Lemma rpr_sees x y : j_rpr x = j_rpr y -> shown_rpr x = shown_rpr y.
Proof.
  intros H. unfold j_rpr, rpr_fields in H. open_fields H.
  repeat match goal with
  | H : option_map jn32 ?a = option_map jn32 ?b |- _ => apply (omap_sees jn32 low32 a b jn32_sees) in H
  | H : option_map j_color ?a = option_map j_color ?b |- _ => apply (omap_sees j_color bare_color a b color_sees) in H
  end.
  settle. unfold shown_rpr, PropsSet.set_r_sz, PropsSet.set_r_sz_cs, PropsSet.set_r_color. unfold low32, bare_color in *.
  cbn [r_style r_sz r_sz_cs r_color r_highlight r_vert r_underline r_bold r_bold_cs r_caps r_italic r_italic_cs r_vanish r_spec_vanish r_spacing r_fit r_stretch r_fonts r_border r_del r_ins r_strike r_dstrike r_ptab r_shading].
  repeat match goal with H : ?a = ?b |- _ => rewrite H; clear H end. reflexivity.
Qed.
Lemma base_sees x y c d : obj (ppr_fields x c) = obj (ppr_fields y d) -> shown_base x = shown_base y /\ c = d.
Proof.
  intros H. unfold ppr_fields in H. open_fields H.
  repeat match goal with
  | H : option_map jn32 ?a = option_map jn32 ?b |- _ => apply (omap_sees jn32 low32 a b jn32_sees) in H
  | H : j_rpr ?a = j_rpr ?b |- _ => apply rpr_sees in H
  end.
  settle. split; [|assumption]. unfold shown_base, PropsSet.set_p_rpr, PropsSet.set_p_outline. unfold low32 in *.
  cbn [p_rpr p_style p_numbering p_alignment p_indent p_spacing p_keep_next p_keep_lines p_bidi p_page_break_before p_widow_control p_outline p_section p_tabs p_borders p_frame p_text_alignment p_adjust_right_ind p_snap_to_grid p_shading p_div_id].
  repeat match goal with H : ?a = ?b |- _ => rewrite H; clear H end. reflexivity.
Qed.
Lemma ppr_sees : forall x y, j_ppr x = j_ppr y -> shown_ppr x = shown_ppr y.
Proof.
  fix F 1. intros [b [[a d q]|]] [b2 [[a2 d2 q2]|]] H; cbn [j_ppr shown_ppr] in *; apply base_sees in H; destruct H as [H1 H2]; try discriminate H2; rewrite H1;
    [|reflexivity].
  apply some_same in H2. cbn [j_change shown_change] in *. open_fields H2. apply F in F2. apply str_inj in F0, F1. now rewrite F0, F1, F2.
Qed.

Lemma border_inj a : inj (j_border a). Proof. record. Qed.
#[export] Hint Resolve border_inj : json.
Lemma tborders_inj : inj j_tborders. Proof. record. Qed.
Lemma cborders_inj : inj j_cborders. Proof. record. Qed.
Lemma width_inj : inj j_width. Proof. intros [a u] [b v] H. open_fields H. cbn [fst snd] in *. settle. now subst. Qed.
Lemma cmargin_inj : inj j_cmargin. Proof. intros [a u] [b v] H. open_fields H. cbn [fst snd] in *. settle. now subst. Qed.
Lemma tindent_inj : inj j_tindent. Proof. intros [a u] [b v] H. open_fields H. cbn [fst snd] in *. settle. now subst. Qed.
#[export] Hint Resolve tborders_inj cborders_inj width_inj cmargin_inj tindent_inj : json.
Lemma cmargins_inj : inj j_cmargins. Proof. record. Qed.
Lemma tmargins_inj : inj j_tmargins. Proof. record. Qed.
Lemma tposition_inj : inj j_tposition. Proof. record. Qed.
#[export] Hint Resolve cmargins_inj tmargins_inj tposition_inj : json.
Lemma tblpr_inj : inj j_tblpr. Proof. record. Qed.
Lemma trpr_inj : inj j_trpr. Proof. record. Qed.
#[export] Hint Resolve tblpr_inj trpr_inj : json.
Lemma jn32_live : live jn32. Proof. intros x. discriminate. Qed.
Lemma tcpr_sees x y : j_tcpr x = j_tcpr y -> shown_tcpr x = shown_tcpr y.
Proof.
  intros H. open_fields H. apply (opt_sees jn32 low32 _ _ jn32_sees jn32_live) in F1. settle.
  unfold shown_tcpr, PropsSet.set_tc_grid_span. change (fun n => (n mod 4294967296)%N) with low32. rewrite F1.
  destruct x, y; cbn in *; subst; reflexivity.
Qed.
Lemma binding_inj : inj j_binding. Proof. record. Qed.
#[export] Hint Resolve binding_inj : json.
Lemma sdtpr_sees x y : j_sdtpr x = j_sdtpr y -> shown_sdtpr x = shown_sdtpr y.
Proof. intros H. open_fields H. apply rpr_sees in F. settle. unfold shown_sdtpr. rewrite F, F0, F1. reflexivity. Qed.
Lemma range_inj : inj j_range. Proof. intros [a u] [b v] H. injection H as H1 H2. cbn [fst snd] in *. settle. now subst. Qed.
Lemma style_level_inj : inj j_style_level. Proof. intros [a u] [b v] H. injection H as H1 H2. cbn [fst snd] in *. settle. now subst. Qed.
Lemma opt_str_inj : inj (j_opt JStr). Proof. intros x y H. settle. exact H. Qed.
#[export] Hint Resolve range_inj style_level_inj opt_str_inj : json.
Lemma instr_toc_inj : inj j_instr_toc. Proof. record. Qed.
#[export] Hint Resolve instr_toc_inj : json.
Lemma instr_inj : inj j_instr.
Proof.
  intros x y H; destruct x, y; cbn [j_instr] in H; apply kind_inj in H; destruct H as [K H]; try discriminate K; clear K; try reflexivity;
    first [apply instr_toc_inj in H; now rewrite H | try (open_fields H); settle; subst; reflexivity].
Qed.
Lemma position_inj : inj j_position.
Proof. intros x y H; destruct x, y; try discriminate H; open_fields H; settle; subst; reflexivity. Qed.
#[export] Hint Resolve instr_inj position_inj : json.
Lemma bytes_inj : inj j_bytes.
Proof.
  intros x y H. apply arr_inj in H. apply map_inj in H.
  - rewrite <- (string_of_list_ascii_of_string x), <- (string_of_list_ascii_of_string y). now rewrite H.
  - intros a b E. apply jn_inj in E. rewrite <- (ascii_N_embedding a), <- (ascii_N_embedding b). now rewrite E.
Qed.
Lemma image_inj : inj (fun s : string => match s with EmptyString => None | String a r => Some (j_bytes (String a r)) end).
Proof. intros [|a x] [|b y] H; try discriminate H; [reflexivity|]. apply some_same in H. now apply bytes_inj in H. Qed.
Lemma pic_inj : inj j_pic.
Proof.
  intros x y H. unfold j_pic, pic_fields in H. open_fields H. apply (image_inj (pic_image x) (pic_image y)) in F0. settle.
  assert (A : pic_anchor x = pic_anchor y) by (destruct (pic_anchor x), (pic_anchor y); (reflexivity || discriminate)).
  destruct x, y; cbn in *; subst; reflexivity.
Qed.
Lemma toc_item_inj : inj j_toc_item. Proof. record. Qed.
#[export] Hint Resolve pic_inj toc_item_inj : json.
Lemma some_list_inj : inj some_list.
Proof. intros [|a x] [|b y] H; try discriminate H; [reflexivity|]. apply some_same in H. now apply arr_inj in H. Qed.
#[export] Hint Resolve some_list_inj : json.
Lemma comment_inj c d l m : j_comment c l = j_comment d m -> c = d /\ l = m.
Proof. intros H. open_fields H. settle. split; [destruct c, d; cbn in *; subst; reflexivity | assumption]. Qed.
Lemma part_inj r s a b l m : j_part r a l = j_part s b m -> r = s /\ a = b /\ l = m.
Proof. intros H. apply arr_inj in H. injection H as -> -> ->. now repeat split. Qed.
Lemma link_inj l m h k x y :
  obj (link_fields l ++ [has "history" (j_opt jn h); has "children" x]) = obj (link_fields m ++ [has "history" (j_opt jn k); has "children" y]) ->
  l = m /\ h = k /\ x = y.
Proof.
  intros H. destruct l as [rid path|a], m as [rid2 path2|a2]; try discriminate H; cbn [link_fields app] in H; open_fields H; settle.
  - assert (path = path2) by (destruct path, path2; try discriminate F1; [reflexivity | apply some_same in F1; now apply str_inj in F1]). now subst.
  - now subst.
Qed.

(** ** Headers and footers *)
Fixpoint find_part (s : slot) (l : list node) : option (string * bool * list node) :=
  match l with
  | [] => None
  | NPart t rid b ch :: l => if same_slot s t then Some (rid, b, ch) else find_part s l
  | _ :: l => find_part s l
  end.
Definition seen_parts (parts : list node) : list node := flat_map (fun q => match q with NPart s rid b l => [NPart s rid b (map shown l)] | _ => [] end) parts.
Lemma same_slot_eq s t : same_slot s t = true -> s = t. Proof. destruct s, t; intros H; (reflexivity || discriminate H). Qed.
Lemma same_slot_refl s : same_slot s s = true. Proof. now destruct s. Qed.
Lemma part_in_found s parts : part_in s (parts_json parts) = option_map (fun q => match q with (rid, b, l) => j_part rid b (map j_node l) end) (find_part s parts).
Proof.
  induction parts as [|n parts IH]; [reflexivity|]. unfold parts_json in *. cbn [flat_map find_part]. destruct n; cbn [app]; try exact IH.
  cbn [part_in]. rewrite IH. destruct s, s0; reflexivity.
Qed.
Lemma found_in s parts rid b l : find_part s parts = Some (rid, b, l) -> In (NPart s rid b l) parts.
Proof.
  induction parts as [|n parts IH]; [discriminate|]. cbn [find_part]. destruct n; try (intros H; right; now apply IH).
  destruct (same_slot s s0) eqn:S; [|intros H; right; now apply IH]. apply same_slot_eq in S as <-. intros H. injection H as -> -> ->. now left.
Qed.
Lemma find_seen s parts : find_part s (seen_parts parts) = option_map (fun q => match q with (rid, b, l) => (rid, b, map shown l) end) (find_part s parts).
Proof.
  induction parts as [|n parts IH]; [reflexivity|]. unfold seen_parts in *. cbn [flat_map find_part]. destruct n; cbn [app]; try exact IH.
  cbn [find_part]. rewrite IH. now destruct (same_slot s s0).
Qed.
Lemma first_found s parts : first_part s parts = match find_part s parts with Some (rid, b, l) => [NPart s rid b l] | None => [] end.
Proof.
  unfold first_part. induction parts as [|n parts IH]; [reflexivity|]. cbn [filter find_part]. destruct n; cbn [in_slot]; try exact IH.
  destruct (same_slot s s0) eqn:S; [|exact IH]. now apply same_slot_eq in S as <-.
Qed.
Lemma find_in_slots s parts : find_part s (in_slots parts) = find_part s parts.
Proof.
  unfold in_slots, slots. cbn [flat_map]. rewrite !first_found. 
  destruct s;
  destruct (find_part HDefault parts) as [[[? ?] ?]|]; destruct (find_part HFirst parts) as [[[? ?] ?]|]; destruct (find_part HEven parts) as [[[? ?] ?]|];
  destruct (find_part FDefault parts) as [[[? ?] ?]|]; destruct (find_part FFirst parts) as [[[? ?] ?]|]; destruct (find_part FEven parts) as [[[? ?] ?]|]; reflexivity.
Qed.
Lemma in_slots_of p q : (forall s, find_part s p = find_part s q) -> in_slots p = in_slots q.
Proof. intros H. unfold in_slots. apply flat_map_ext. intros s. now rewrite !first_found, H. Qed.

(** ** The tree, forwards *)
Definition sees (n : node) : Prop := forall m, j_node n = j_node m -> shown n = shown m.
Definition part_sees (n : node) : Prop := match n with NPart _ _ _ l => Forall sees l | _ => True end.
Lemma map_sees l : Forall sees l -> forall m, map j_node l = map j_node m -> map shown l = map shown m.
Proof.
  induction 1 as [|n l Hn Hl IH]; intros [|k m] H; try discriminate H; [reflexivity|]. cbn [map] in *. injection H as H1 H2. now rewrite (Hn _ H1), (IH _ H2).
Qed.
Lemma parts_see p : Forall part_sees p -> forall q, (forall s, part_in s (parts_json p) = part_in s (parts_json q)) -> in_slots (seen_parts p) = in_slots (seen_parts q).
Proof.
  intros Hp q H. apply in_slots_of. intros s. specialize (H s). rewrite !part_in_found in H. rewrite !find_seen.
  destruct (find_part s p) as [[[r b] l]|] eqn:E, (find_part s q) as [[[r2 b2] l2]|]; try discriminate H; [|reflexivity].
  cbn [option_map] in *. apply some_same in H. apply part_inj in H. destruct H as (-> & -> & H).
  apply found_in in E. apply (proj1 (Forall_forall _ _) Hp) in E. now rewrite (map_sees l E l2 H).
Qed.
Lemma section_eq p parts nb ch : shown (NSection p parts nb ch) = NSection p (in_slots (seen_parts parts)) nb (map shown ch).
Proof. reflexivity. Qed.
Lemma section_json p parts nb ch : j_node (NSection p parts nb ch) =
  kind "section"
        (obj [has "property" (j_sectpr (fun s => part_in s (parts_json parts)) p); has "children" (JArr (map j_node ch)); has "hasNumbering" (JBool nb);
              has "tempHeader" JNull; has "tempFirstHeader" JNull; has "tempEvenHeader" JNull; has "tempFooter" JNull;
              has "tempFirstFooter" JNull; has "tempEvenFooter" JNull]).
Proof. reflexivity. Qed.
Ltac same_kind H := apply kind_inj in H; destruct H as [_ H].
Ltac kids :=
  repeat match goal with
  | H : map j_node ?a = map j_node ?b |- _ => apply map_sees in H; [|assumption]
  | H : j_rpr ?a = j_rpr ?b |- _ => apply rpr_sees in H
  | H : j_ppr ?a = j_ppr ?b |- _ => apply ppr_sees in H
  | H : j_tcpr ?a = j_tcpr ?b |- _ => apply tcpr_sees in H
  | H : j_sdtpr ?a = j_sdtpr ?b |- _ => apply sdtpr_sees in H
  end.
Lemma node_sees n : sees n /\ part_sees n.
Proof.
  induction n as [n IH2] using node_tree_ind.
  assert (IH := Forall_impl _ (fun c H => proj1 H) IH2). assert (IP := Forall_impl _ (fun c H => proj2 H) IH2). clear IH2.
  split; [|destruct n; cbn [part_sees]; try exact I; exact IH].
  intros m H; destruct n, m; try discriminate H; try reflexivity; cbn [children] in IH, IP.
  all: try (rewrite !section_json in H); cbn [j_node] in H; same_kind H; try (same_kind H);
    try (first [apply link_inj in H; destruct H as (? & ? & H); apply arr_inj in H | open_fields H]; try (apply arr_inj in F); settle; kids; cbn [shown]; try congruence; fail).
  - apply ptab_inj in H. now rewrite H.
  - apply pic_inj in H. now rewrite H.
  - apply instr_inj in H. now rewrite H.
  - apply instr_inj in H. now rewrite H.
  - apply str_inj in H. now rewrite H.
  - apply shading_inj in H. now rewrite H.
  - open_fields H. apply comment_inj in F0. destruct F0 as [-> K]. kids. cbn [shown]. now rewrite K.
  - open_fields H. settle. kids. cbn [shown]. rewrite F. f_equal. destruct a, a0. cbn in *. now subst.
  - open_fields H. settle. kids. cbn [shown]. rewrite F1. f_equal. destruct a, a0. cbn in *. now subst.
  - open_fields H. settle. kids. cbn [shown]. rewrite F1. f_equal. destruct a, a0. cbn in *. now subst.
  - open_fields H. settle. kids. cbn [shown]. rewrite F. f_equal. destruct a, a0. cbn in *. now subst.
  - apply Forall_app in IH. destruct IH as [IB IA]. open_fields H. apply (omap_sees j_ppr shown_ppr _ _ ppr_sees) in F9.
    settle. apply (map_sees _ IB) in F6. apply (map_sees _ IA) in F7. cbn [shown]. unfold shown_toc. rewrite F6, F7. f_equal.
    destruct d, d0. cbn in *. subst. now rewrite F9.
  - apply Forall_app in IH. apply Forall_app in IP. destruct IH as [IH _], IP as [_ IP]. open_fields H. apply sectpr_inj in F. destruct F as [-> FP].
    settle. apply (map_sees _ IH) in F0. rewrite !section_eq, F0, F1. f_equal. now apply parts_see.
Qed.

(** ** The tree, backwards *)
Lemma jn32_low n : jn32 (n mod 4294967296)%N = jn32 n.
Proof. unfold jn32, as_u32. now rewrite N.mod_mod by discriminate. Qed.
Lemma may_low k o : may k jn32 (option_map (fun n => n mod 4294967296)%N o) = may k jn32 o.
Proof. destruct o as [n|]; [|reflexivity]. unfold may. cbn [option_map]. now rewrite jn32_low. Qed.
Lemma opt_low o : j_opt jn32 (option_map (fun n => n mod 4294967296)%N o) = j_opt jn32 o.
Proof. destruct o as [n|]; [|reflexivity]. cbn [j_opt option_map]. now rewrite jn32_low. Qed.
Lemma may_color k o : may k j_color (option_map (fun c => {| c_val := c_val c; c_theme := None; c_shade := None; c_tint := None |}) o) = may k j_color o.
Proof. now destruct o. Qed.
Lemma rpr_shown p : j_rpr (shown_rpr p) = j_rpr p.
Proof.
  unfold j_rpr. f_equal. unfold rpr_fields, shown_rpr, PropsSet.set_r_sz, PropsSet.set_r_sz_cs, PropsSet.set_r_color.
  cbn [r_style r_sz r_sz_cs r_color r_highlight r_vert r_underline r_bold r_bold_cs r_caps r_italic r_italic_cs r_vanish r_spec_vanish r_spacing r_fit r_stretch r_fonts r_border r_del r_ins r_strike r_dstrike r_ptab r_shading].
  now rewrite !may_low, may_color.
Qed.
Lemma base_shown b c : ppr_fields (shown_base b) c = ppr_fields b c.
Proof.
  unfold ppr_fields, shown_base, PropsSet.set_p_rpr, PropsSet.set_p_outline.
  cbn [p_rpr p_style p_numbering p_alignment p_indent p_spacing p_keep_next p_keep_lines p_bidi p_page_break_before p_widow_control p_outline p_section p_tabs p_borders p_frame p_text_alignment p_adjust_right_ind p_snap_to_grid p_shading p_div_id].
  now rewrite may_low, rpr_shown.
Qed.
Lemma ppr_shown : forall p, j_ppr (shown_ppr p) = j_ppr p.
Proof.
  fix F 1. intros [b [[a d q]|]]; cbn [shown_ppr j_ppr shown_change j_change]; rewrite base_shown; [|reflexivity]. now rewrite F.
Qed.
Lemma tcpr_shown p : j_tcpr (shown_tcpr p) = j_tcpr p.
Proof.
  unfold j_tcpr, shown_tcpr, PropsSet.set_tc_grid_span.
  cbn [tc_width tc_borders tc_grid_span tc_vmerge tc_valign tc_text_direction tc_shading tc_margins]. now rewrite opt_low.
Qed.
Lemma sdtpr_shown p : j_sdtpr (shown_sdtpr p) = j_sdtpr p.
Proof. unfold j_sdtpr, shown_sdtpr. cbn [sd_rpr sd_binding sd_alias]. now rewrite rpr_shown. Qed.
Definition says (n : node) : Prop := j_node (shown n) = j_node n.
Definition part_says (n : node) : Prop := match n with NPart _ _ _ l => Forall says l | _ => True end.
Lemma map_says l : Forall says l -> map j_node (map shown l) = map j_node l.
Proof. induction 1 as [|n l Hn Hl IH]; [reflexivity|]. cbn [map]. now rewrite Hn, IH. Qed.
Lemma parts_say p s : Forall part_says p -> part_in s (parts_json (in_slots (seen_parts p))) = part_in s (parts_json p).
Proof.
  intros Hp. rewrite !part_in_found, find_in_slots, find_seen.
  destruct (find_part s p) as [[[r b] l]|] eqn:E; [|reflexivity]. cbn [option_map].
  apply found_in in E. apply (proj1 (Forall_forall _ _) Hp) in E. now rewrite (map_says l E).
Qed.
Lemma sectpr_ext ps qs p : (forall s, ps s = qs s) -> j_sectpr ps p = j_sectpr qs p.
Proof. intros H. unfold j_sectpr, sectpr_fields. now rewrite !H. Qed.
Lemma node_says n : says n /\ part_says n.
Proof.
  induction n as [n IH2] using node_tree_ind.
  assert (IH := Forall_impl _ (fun c H => proj1 H) IH2). assert (IP := Forall_impl _ (fun c H => proj2 H) IH2). clear IH2.
  split; [|destruct n; cbn [part_says]; try exact I; exact IH].
  unfold says. destruct n; try reflexivity; cbn [children] in IH, IP;
    try (cbn [shown j_node]; rewrite (map_says _ IH), ?rpr_shown, ?ppr_shown, ?tcpr_shown, ?sdtpr_shown; reflexivity).
  - apply Forall_app in IH. destruct IH as [IB IA]. cbn [shown j_node]. rewrite (map_says _ IB), (map_says _ IA). unfold shown_toc. cbn [td_instr td_items td_auto td_dirty td_without_sdt td_alias td_page_placeholder td_delete td_ppr].
    replace (may "paragraph_property" j_ppr (option_map shown_ppr (td_ppr d))) with (may "paragraph_property" j_ppr (td_ppr d)); [reflexivity|].
    destruct (td_ppr d); [|reflexivity]. unfold may. cbn [option_map]. now rewrite ppr_shown.
  - apply Forall_app in IH. apply Forall_app in IP. destruct IH as [IH _], IP as [_ IP]. rewrite section_eq, !section_json, (map_says _ IH).
    rewrite (sectpr_ext _ (fun s => part_in s (parts_json parts)) p); [reflexivity|]. intros s. now apply parts_say.
Qed.
Lemma all_see l : Forall sees l. Proof. apply Forall_forall. intros n _. apply node_sees. Qed.
Lemma all_parts_see l : Forall part_sees l. Proof. apply Forall_forall. intros n _. apply node_sees. Qed.
Lemma all_say l : Forall says l. Proof. apply Forall_forall. intros n _. apply node_says. Qed.
Lemma all_parts_say l : Forall part_says l. Proof. apply Forall_forall. intros n _. apply node_says. Qed.

(** ** The document *)
Lemma document_same b1 s1 p1 n1 b2 s2 p2 n2 :
  j_document b1 s1 p1 n1 = j_document b2 s2 p2 n2 <-> map shown b1 = map shown b2 /\ s1 = s2 /\ shown_parts p1 = shown_parts p2 /\ n1 = n2.
Proof.
  split.
  - intros H. unfold j_document in H. open_fields H. apply sectpr_inj in F0. destruct F0 as [-> FP]. settle.
    apply (map_sees _ (all_see _)) in F. repeat split; try assumption. exact (parts_see _ (all_parts_see _) _ FP).
  - intros (Hb & -> & Hp & ->). unfold j_document. rewrite <- (map_says b1 (all_say _)), Hb, (map_says b2 (all_say _)).
    rewrite (sectpr_ext _ (fun s => part_in s (parts_json p2)) s2); [reflexivity|]. intros s.
    rewrite <- (parts_say p1 s (all_parts_say _)), <- (parts_say p2 s (all_parts_say _)). unfold shown_parts in Hp. unfold seen_parts. now rewrite Hp.
Qed.

(** ** The comments *)
Definition a_comment (n : node) : bool := match n with NCommentStart _ _ => true | _ => false end.
Lemma comments_same l m : forallb a_comment l = true -> forallb a_comment m = true -> (j_comments l = j_comments m <-> map shown l = map shown m).
Proof.
  intros Hl Hm. unfold j_comments. split.
  - intros H. open_fields H. apply arr_inj in F. revert m Hm F. induction l as [|n l IH]; intros [|k m] Hm F; try discriminate F; [reflexivity|].
    cbn [forallb] in Hl, Hm. apply andb_prop in Hl. apply andb_prop in Hm. destruct Hl as [A Hl], Hm as [B Hm].
    cbn [map] in *. apply cons_eq in F. destruct F as [F1 F2]. rewrite (IH Hl m Hm F2). f_equal.
    destruct n; try discriminate A. destruct k; try discriminate B. apply comment_inj in F1. destruct F1 as [-> F1]. apply (map_sees _ (all_see _)) in F1. cbn [shown]. now rewrite F1.
  - intros H. do 4 f_equal. revert m Hm H. induction l as [|n l IH]; intros [|k m] Hm H; try discriminate H; [reflexivity|].
    cbn [forallb] in Hl, Hm. apply andb_prop in Hl. apply andb_prop in Hm. destruct Hl as [A Hl], Hm as [B Hm].
    cbn [map] in *. apply cons_eq in H. destruct H as [H1 H2]. rewrite (IH Hl m Hm H2). f_equal.
    destruct n; try discriminate A. destruct k; try discriminate B. cbn [shown] in H1. injection H1 as -> H1.
    rewrite <- (map_says ch (all_say _)), H1. now rewrite (map_says _ (all_say _)).
Qed.

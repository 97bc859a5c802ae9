(** Section properties and attributes of paragraph properties: build and read. *)
From Coq Require Import NArith ZArith List Bool Lia.
From Verif Require Import Str StrFacts TypesModel Props PropsSet Ast EscapeModel FloatModel XmlParser XmlSpec
  ReadBase ReadProps ReadModel ReadProg ReadProofs.
From Verif Require BuildModel.
From Verif Require Import RoundSpec RoundBase RoundNums RoundRpr.
Import ListNotations.
Import BuildModel (xml, E, L, leaf, opt, on, valued, valued_n, valued_z, attr_s, attr_n, attr_z).

(** ** Section properties *)
Definition sect_start (s : subs) : sectpr -> qname -> list attribute -> R sectpr :=
  ltac:(let t := eval unfold read_sectpr in read_sectpr in match t with element _ ?f _ _ => exact f end).
Lemma sect_shape a q atts : Prog (q_local q) (fun s => sect_start s a q atts).
Proof. unfold sect_start. prog_tac. Qed.
Definition sectF : nat -> sectpr -> R sectpr := F "sectPr" sect_start (fun p => p).

Section Sect.
  Local Notation ea := (eats sectF 0).
  Ltac leaf1 := apply (eats_leaf "sectPr" sect_start (fun p => p) sect_shape); [reflexivity | intros d l c; unfold sect_start ].
  Ltac one g := apply (eats_opt _ _ _ _ _ _ g); intros x Hx; leaf1.
  Lemma sect_size z p : small (pg_w z) -> small (pg_h z) ->
    ea p (events_of_xml (BuildModel.x_page_size z)) (set_sp_size {| pg_w := pg_w z; pg_h := pg_h z; pg_orient := None |} p).
  Proof.
    intros H1 H2. leaf1. unfold read_page_size. destruct z as [w h [o|]]; cbn [pg_w pg_h pg_orient] in *; fin.
  Qed.
  Lemma sect_margin m p : fits_margin m -> ea p (events_of_xml (BuildModel.x_page_margin m)) (set_sp_margin m p).
  Proof.
    intros (H1 & H2 & H3 & H4 & H5 & H6 & H7). leaf1. unfold read_page_margin. destruct m; cbn in *. fin.
  Qed.
  Lemma sect_cols a p : ea p (events_of_xml (leaf "w:cols" a)) p.
  Proof. leaf1. reflexivity. Qed.
  Lemma sect_grid o p : all_of (fun g => all_of exact32 (dg_line_pitch g) /\ all_of (fun z => (Z.abs z <= 2 ^ 24)%Z) (dg_char_space g)) o ->
    ea p (xml_events (opt BuildModel.x_doc_grid o)) (upd o (fun g => set_sp_doc_grid (Some g)) p).
  Proof.
    intros H. one (fun g => set_sp_doc_grid (Some g)). subst o. unfold read_doc_grid.
    destruct x as [t [n|] [z|]]; cbn in H; destruct H as [H1 H2]; cbv [dg_type dg_line_pitch dg_char_space] in *;
      try (assert (is_i64 z) by (ranges; lia)); fin.
  Qed.
  Lemma sect_header o p : all_of (fun r => pr_type r = "default"%string) o ->
    ea p (xml_events (opt (BuildModel.x_ref "w:headerReference") o)) (upd o (fun r => set_sp_header (Some (reread_ref r))) p).
  Proof.
    intros H. one (fun r => set_sp_header (Some (reread_ref r))). subst o. destruct x as [t i]. cbn in H. subst t. reflexivity.
  Qed.
  Lemma sect_first_header o p : all_of (fun r => pr_type r = "first"%string) o ->
    ea p (xml_events (opt (BuildModel.x_ref "w:headerReference") o)) (upd o (fun r => set_sp_first_header (Some (reread_ref r))) p).
  Proof.
    intros H. one (fun r => set_sp_first_header (Some (reread_ref r))). subst o. destruct x as [t i]. cbn in H. subst t. reflexivity.
  Qed.
  Lemma sect_even_header o p : all_of (fun r => pr_type r = "even"%string) o ->
    ea p (xml_events (opt (BuildModel.x_ref "w:headerReference") o)) (upd o (fun r => set_sp_even_header (Some (reread_ref r))) p).
  Proof.
    intros H. one (fun r => set_sp_even_header (Some (reread_ref r))). subst o. destruct x as [t i]. cbn in H. subst t. reflexivity.
  Qed.
  Lemma sect_footer o p : all_of (fun r => pr_type r = "default"%string) o ->
    ea p (xml_events (opt (BuildModel.x_ref "w:footerReference") o)) (upd o (fun r => set_sp_footer (Some (reread_ref r))) p).
  Proof.
    intros H. one (fun r => set_sp_footer (Some (reread_ref r))). subst o. destruct x as [t i]. cbn in H. subst t. reflexivity.
  Qed.
  Lemma sect_first_footer o p : all_of (fun r => pr_type r = "first"%string) o ->
    ea p (xml_events (opt (BuildModel.x_ref "w:footerReference") o)) (upd o (fun r => set_sp_first_footer (Some (reread_ref r))) p).
  Proof.
    intros H. one (fun r => set_sp_first_footer (Some (reread_ref r))). subst o. destruct x as [t i]. cbn in H. subst t. reflexivity.
  Qed.
  Lemma sect_even_footer o p : all_of (fun r => pr_type r = "even"%string) o ->
    ea p (xml_events (opt (BuildModel.x_ref "w:footerReference") o)) (upd o (fun r => set_sp_even_footer (Some (reread_ref r))) p).
  Proof.
    intros H. one (fun r => set_sp_even_footer (Some (reread_ref r))). subst o. destruct x as [t i]. cbn in H. subst t. reflexivity.
  Qed.
  Definition reread_page_num (n : page_num_type) := {| pn_start := pn_start n; pn_chap_style := option_map seen (pn_chap_style n) |}.
  Lemma sect_page_num o p : all_of (fun n => all_of is_u32 (pn_start n)) o ->
    ea p (xml_events (opt BuildModel.x_page_num o)) (upd o (fun n => set_sp_page_num (Some (reread_page_num n))) p).
  Proof.
    intros H. one (fun n => set_sp_page_num (Some (reread_page_num n))). subst o. unfold read_page_num, reread_page_num.
    destruct x as [[n|] [s|]]; cbn in H; cbv [pn_start pn_chap_style]; fin.
  Qed.
  Lemma sect_direction b v p : ea p (xml_events (on b [valued "w:textDirection" v])) p.
  Proof. destruct b; [|apply eats_nil]. cbn [on xml_events flat_map]. rewrite app_nil_r. leaf1. reflexivity. Qed.
  Lemma sect_type o p : ea p (xml_events (opt (fun t => valued "w:type" (show_SectionType t)) o)) (upd o (fun t => set_sp_type (Some t)) p).
  Proof. one (fun t => set_sp_type (Some t)). fin. Qed.
  Lemma sect_title (b : bool) p : ea p (xml_events (on b [leaf "w:titlePg" []]))
    (upd (if b then Some tt else None) (fun _ => set_sp_title_pg true) p).
  Proof. destruct b; [|apply eats_nil]. cbn [on xml_events flat_map]. rewrite app_nil_r. leaf1. reflexivity. Qed.

  Definition ch_of (x : xml) : list xml := match x with E _ _ ch => ch | L _ _ _ => [] end.
  Theorem reads_sectpr p : fits_sectpr p ->
    reads 0 (fun _ => read_sectpr) (xml_events (ch_of (BuildModel.x_sectpr p)) ++ [EEnd (split_qname "w:sectPr")]) (reread_sectpr p).
  Proof.
    intros (H1 & H2 & H3 & H4 & H5 & H6 & H7 & H8 & H9 & H10 & H11).
    apply (reads_flat "sectPr" sect_start (fun p => p) sect_shape) with (a := sectpr_default); [reflexivity | reflexivity |].
    unfold BuildModel.x_sectpr, ch_of. eapply eats_eq.
    - rewrite !xml_events_app, !xml_events_cons. rewrite <- !app_assoc.
      repeat (eapply eats_app0;
        [first [ apply sect_size; assumption | apply sect_margin; assumption | apply sect_cols | apply eats_nil | apply sect_grid; assumption
               | apply sect_header; assumption | apply sect_first_header; assumption | apply sect_even_header; assumption
               | apply sect_footer; assumption | apply sect_first_footer; assumption | apply sect_even_footer; assumption
               | apply sect_page_num; assumption | apply sect_direction | apply sect_type ] |]).
      apply sect_title.
    - apply sectpr_ext; cbn [reread_sectpr sp_size sp_margin sp_columns sp_space sp_title_pg sp_text_direction sp_doc_grid sp_header
        sp_first_header sp_even_header sp_footer sp_first_footer sp_even_footer sp_type sp_page_num]; field.
  Qed.
End Sect.

(** ** Small elements below [pPr] *)
Definition num_start (s : subs) : numpr -> qname -> list attribute -> R numpr :=
  ltac:(let t := eval unfold read_numpr in read_numpr in match t with element _ ?f _ _ => exact f end).
Lemma num_shape a q atts : Prog (q_local q) (fun s => num_start s a q atts).
Proof. unfold num_start. prog_tac. Qed.
Lemma reads_numpr n : all_of is_usize (n_id n) /\ all_of is_usize (n_level n) ->
  reads 0 (fun _ => read_numpr) (xml_events (ch_of (BuildModel.x_numpr n)) ++ [EEnd (split_qname "w:numPr")]) n.
Proof.
  intros [H1 H2]. apply (reads_flat "numPr" num_start (fun p => p) num_shape) with (a := {| n_id := None; n_level := None |}); [reflexivity | reflexivity |].
  unfold BuildModel.x_numpr, ch_of. rewrite xml_events_app. eapply eats_eq.
  - eapply eats_app0.
    + apply (eats_opt _ _ _ _ _ _ (fun v n => {| n_id := Some v; n_level := n_level n |})). intros x Hx.
      apply (eats_leaf "numPr" num_start (fun p => p) num_shape); [reflexivity | intros d l c; unfold num_start].
      rewrite Hx in H1. cbn in H1. fin.
    + apply (eats_opt _ _ _ _ _ _ (fun v n => {| n_id := n_id n; n_level := Some v |})). intros x Hx.
      apply (eats_leaf "numPr" num_start (fun p => p) num_shape); [reflexivity | intros d l c; unfold num_start].
      rewrite Hx in H2. cbn in H2. fin.
  - destruct n as [[|] [|]]; reflexivity.
Qed.

Lemma each_attr_app A (f : A -> string -> string -> A) a x y :
  each_attr f a (meant (x ++ y)) = each_attr f (each_attr f a (meant x)) (meant y).
Proof. unfold each_attr, meant. now rewrite map_app, fold_left_app. Qed.
Lemma each_attr_s A (f : A -> string -> string -> A) a k o :
  each_attr f a (meant (attr_s k o)) = upd o (fun v a => f a (q_local (split_qname k)) (seen v)) a.
Proof. destruct o; reflexivity. Qed.
Lemma each_attr_n A (f : A -> string -> string -> A) a k o :
  each_attr f a (meant (attr_n k o)) = upd o (fun v a => f a (q_local (split_qname k)) (seen (show_N v))) a.
Proof. destruct o; reflexivity. Qed.
Lemma each_attr_z A (f : A -> string -> string -> A) a k o :
  each_attr f a (meant (attr_z k o)) = upd o (fun v a => f a (q_local (split_qname k)) (seen (show_Z v))) a.
Proof. destruct o; reflexivity. Qed.
Lemma upd_ext A B (o : option B) (g h : B -> A -> A) a : (forall b, o = Some b -> g b a = h b a) -> upd o g a = upd o h a.
Proof. destruct o; cbn; auto. Qed.

(** Field by field, for attributes. *)
Ltac attr_field :=
  repeat match goal with
  | |- ?pr (upd ?o ?g ?x) = _ =>
      first [ rewrite (upd_other _ _ _ pr o g x) by (intros; go; try destruct (parse_f64 _); try destruct (parse_i32 _); reflexivity)
            | destruct o; [rewrite upd_some; generalize x; intros ?; go; nums; reflexivity | rewrite upd_none] ]
  end; try reflexivity.
Lemma frame_meant f : fits_frame f -> read_frame (meant (atts_of (BuildModel.x_frame f))) = reread_frame f.
Proof.
  intros (H1 & H2 & H3 & H4). unfold read_frame, BuildModel.x_frame, atts_of, leaf.
  rewrite !each_attr_app, !each_attr_s, !each_attr_n, !each_attr_z.
  destruct f as [h hr ha hs va vs w wr x xa y ya]; cbn [fr_h fr_h_rule fr_h_anchor fr_h_space fr_v_anchor fr_v_space fr_w fr_wrap fr_x
    fr_x_align fr_y fr_y_align reread_frame] in *.
  apply framepr_ext; attr_field.
Qed.
Lemma indent_meant i s : fits_indent i -> read_indent (meant (atts_of (BuildModel.x_indent i))) s = Val (reread_indent i) s.
Proof.
  intros (H1 & H2 & H3 & H4). unfold read_indent, BuildModel.x_indent, atts_of, leaf, reread_indent.
  assert (Z0 : is_i32 0) by (ranges; lia).
  destruct i as [[a|] [b|] [[f|h]|] [ch|] x y]; cbn in H1, H2, H3, H4;
    cbv [i_start i_end i_special i_start_chars]; fin.
Qed.
Lemma spacing_meant i s : fits_spacing i -> read_line_spacing (meant (atts_of (BuildModel.x_spacing i))) s = Val i s.
Proof.
  intros (H1 & H2 & H3 & H4 & H5). unfold read_line_spacing, BuildModel.x_spacing, atts_of, leaf.
  destruct i as [[r|] [a|] [b|] [c|] [d|] [e|]]; cbn in H1, H2, H3, H4, H5;
    cbv [ls_rule ls_before ls_after ls_before_lines ls_after_lines ls_line]; fin.
Qed.

(** Properties of tables and cells: build and read. *)
From Coq Require Import NArith ZArith List Bool Lia.
From Verif Require Import Str StrFacts StrFind TypesModel Props PropsSet Ast EscapeModel FloatModel FloatProofs XmlParser XmlSpec
  ReadBase ReadProps ReadModel ReadProg ReadProofs.
From Verif Require BuildModel.
From Verif Require Import RoundSpec RoundBase RoundNums RoundRpr RoundSect RoundPpr.
Import ListNotations.
Import BuildModel (xml, E, L, leaf, opt, on, valued, valued_n, valued_z, attr_s, attr_n, attr_z).

(** A child with a reader of its own. *)
Ltac deep own start fn shape H :=
  apply (eats_sub own start fn shape);
  let d := fresh "d" in let l := fresh "l" in let c := fresh "c" in let Ld := fresh "Ld" in let Kd := fresh "Kd" in
  intros d l c Ld Kd; unfold start;
  let X := fresh "X" in pose proof (H d l c Ld Kd) as X;
  match type of X with _ ?s2 = _ => match goal with |- _ ?s1 = _ => change s1 with s2 end; revert X; generalize s2 end;
  let s0 := fresh "s0" in intros s0; go; intros X; rewrite X; clear X.

(** ** Borders and margins *)
Lemma box_meant n b s : fits_border b -> read_border (meant (atts_of (BuildModel.x_box n b))) s =
  Val {| ba_type := b_type b; ba_color := seen (b_color b); ba_size := b_size b; ba_space := b_space b |} s.
Proof. intros (H1 & H2). unfold read_border, BuildModel.x_box, BuildModel.x_border, atts_of, leaf. fin. Qed.
Lemma percent_Z z : is_i32 z -> parse_f64 (replace "%" "" (seen (show_Z z))) = Some (FNum z).
Proof. intros H. rewrite seen_Z, (no_percent _ (num_Z z)), <- (seen_Z z). now apply f64_i32. Qed.
Lemma i32_i64 z : is_i32 z -> is_i64 z.
Proof. ranges. lia. Qed.
Lemma width_meant n z t s : is_i32 z -> read_width (meant (atts_of (BuildModel.x_width n z t))) s = Val (z, t) s.
Proof.
  intros H. unfold read_width, BuildModel.x_width, atts_of, leaf. go. rewrite (percent_Z z H). go. rewrite rt_width. go.
  rewrite as_isize_Z by (now apply i32_i64). reflexivity.
Qed.
Lemma uwidth_meant n w s : fits_width w -> read_width (meant (atts_of (BuildModel.x_uwidth n w))) s = Val (Z.of_N (fst w), snd w) s.
Proof.
  intros H. unfold BuildModel.x_uwidth. rewrite as_i32_small by exact H. apply width_meant. now apply small_i32.
Qed.

Definition tb_start (s : subs) : tborders -> qname -> list attribute -> R tborders :=
  ltac:(let t := eval unfold read_tborders in read_tborders in match t with element _ ?f _ _ => exact f end).
Lemma tb_shape a q atts : Prog (q_local q) (fun s => tb_start s a q atts).
Proof. unfold tb_start. prog_tac. Qed.
Lemma tb_step n set o p : all_of fits_border o ->
  In (n, set) [("w:left"%string, set_tbs_left); ("w:right"%string, set_tbs_right); ("w:top"%string, set_tbs_top); ("w:bottom"%string, set_tbs_bottom);
               ("w:insideH"%string, set_tbs_inside_h); ("w:insideV"%string, set_tbs_inside_v)] ->
  eats (F "tblBorders" tb_start (fun p => p)) 0 p (xml_events (opt (BuildModel.x_box n) o)) (upd o (fun b => set (Some (reread_border b))) p).
Proof.
  intros H Hn. apply (eats_opt _ _ _ _ _ _ (fun b => set (Some (reread_border b)))). intros x Hx. subst o.
  cbn [In] in Hn. decompose [or] Hn; try contradiction;
    match goal with E : _ = (n, set) |- _ => injection E as <- <- end;
    (apply (eats_leaf "tblBorders" tb_start (fun p => p) tb_shape); [reflexivity |]; intros d l c; unfold tb_start;
     sub (box_meant "" x (st l c) H); reflexivity).
Qed.
Theorem reads_tborders b : fits_tborders b ->
  reads 0 (fun _ => read_tborders) (xml_events (ch_of (BuildModel.x_tborders b)) ++ [EEnd (split_qname "w:tblBorders")]) (reread_tborders b).
Proof.
  intros (H1 & H2 & H3 & H4 & H5 & H6).
  apply (reads_flat "tblBorders" tb_start (fun p => p) tb_shape) with (a := tborders_empty); [reflexivity | reflexivity |].
  unfold BuildModel.x_tborders, ch_of. destruct b as [t l b r h v]. cbn [tbs_top tbs_left tbs_bottom tbs_right tbs_inside_h tbs_inside_v] in *.
  rewrite !xml_events_app. eapply eats_eq.
  - repeat (eapply eats_app0; [apply tb_step; [assumption | cbn; tauto]|]). apply tb_step; [assumption | cbn; tauto].
  - apply tborders_ext; cbn [reread_tborders tbs_top tbs_left tbs_bottom tbs_right tbs_inside_h tbs_inside_v]; field.
Qed.

Definition cb_start (s : subs) : cborders -> qname -> list attribute -> R cborders :=
  ltac:(let t := eval unfold read_cborders in read_cborders in match t with element _ ?f _ _ => exact f end).
Lemma cb_shape a q atts : Prog (q_local q) (fun s => cb_start s a q atts).
Proof. unfold cb_start. prog_tac. Qed.
Lemma cb_step n set o p : all_of fits_border o ->
  In (n, set) [("w:left"%string, set_cb_left); ("w:right"%string, set_cb_right); ("w:top"%string, set_cb_top); ("w:bottom"%string, set_cb_bottom);
               ("w:insideH"%string, set_cb_inside_h); ("w:insideV"%string, set_cb_inside_v); ("w:tl2br"%string, set_cb_tl2br);
               ("w:tr2bl"%string, set_cb_tr2bl)] ->
  eats (F "tcBorders" cb_start (fun p => p)) 0 p (xml_events (opt (BuildModel.x_box n) o)) (upd o (fun b => set (Some (reread_border b))) p).
Proof.
  intros H Hn. apply (eats_opt _ _ _ _ _ _ (fun b => set (Some (reread_border b)))). intros x Hx. subst o.
  cbn [In] in Hn. decompose [or] Hn; try contradiction;
    match goal with E : _ = (n, set) |- _ => injection E as <- <- end;
    (apply (eats_leaf "tcBorders" cb_start (fun p => p) cb_shape); [reflexivity |]; intros d l c; unfold cb_start;
     sub (box_meant "" x (st l c) H); reflexivity).
Qed.
Theorem reads_cborders b : fits_cborders b ->
  reads 0 (fun _ => read_cborders) (xml_events (ch_of (BuildModel.x_cborders b)) ++ [EEnd (split_qname "w:tcBorders")]) (reread_cborders b).
Proof.
  intros (H1 & H2 & H3 & H4 & H5 & H6 & H7 & H8).
  apply (reads_flat "tcBorders" cb_start (fun p => p) cb_shape) with (a := cborders_empty); [reflexivity | reflexivity |].
  unfold BuildModel.x_cborders, ch_of. destruct b as [t l b r h v x y].
  cbn [cb_top cb_left cb_bottom cb_right cb_inside_h cb_inside_v cb_tr2bl cb_tl2br] in *.
  rewrite !xml_events_app. eapply eats_eq.
  - repeat (eapply eats_app0; [apply cb_step; [assumption | cbn; tauto]|]). apply cb_step; [assumption | cbn; tauto].
  - apply cborders_ext; cbn [reread_cborders cb_top cb_left cb_bottom cb_right cb_inside_h cb_inside_v cb_tr2bl cb_tl2br]; field.
Qed.

Lemma width_of_small w : fits_width w -> width_of (Z.of_N (fst w), snd w) = w.
Proof. intros H. unfold width_of. cbn [fst snd]. rewrite wrap_usize_N by exact H. now destruct w. Qed.
Definition tm_start (s : subs) : tmargins -> qname -> list attribute -> R tmargins :=
  ltac:(let t := eval unfold read_tmargins in read_tmargins in match t with element _ ?f _ _ => exact f end).
Lemma tm_shape a q atts : Prog (q_local q) (fun s => tm_start s a q atts).
Proof. unfold tm_start. prog_tac. Qed.
Lemma tm_step n set w p : fits_width w ->
  In (n, set) [("w:left"%string, set_tm_left); ("w:right"%string, set_tm_right); ("w:top"%string, set_tm_top); ("w:bottom"%string, set_tm_bottom)] ->
  eats (F "tblCellMar" tm_start (fun p => p)) 0 p (events_of_xml (BuildModel.x_uwidth n w)) (set w p).
Proof.
  intros H Hn. pose proof (width_of_small w H) as HW. destruct w as [wn wt]. cbn [fst snd] in HW.
  cbn [In] in Hn. decompose [or] Hn; try contradiction;
    match goal with E : _ = (n, set) |- _ => injection E as <- <- end;
    (apply (eats_leaf "tblCellMar" tm_start (fun p => p) tm_shape); [reflexivity |]; intros d l c; unfold tm_start;
     sub (uwidth_meant "" (wn, wt) (st l c) H); rewrite HW; reflexivity).
Qed.
Theorem reads_tmargins b : fits_tmargins b ->
  reads 0 (fun _ => read_tmargins) (xml_events (ch_of (BuildModel.x_tmargins b)) ++ [EEnd (split_qname "w:tblCellMar")]) b.
Proof.
  intros (H1 & H2 & H3 & H4).
  apply (reads_flat "tblCellMar" tm_start (fun p => p) tm_shape) with (a := tmargins_default); [reflexivity | reflexivity |].
  unfold BuildModel.x_tmargins, ch_of. destruct b as [t l b r]. cbn [tm_top tm_left tm_bottom tm_right] in *.
  rewrite !xml_events_cons. change (xml_events []) with (@nil event). rewrite app_nil_r. eapply eats_eq.
  - repeat (eapply eats_app0; [apply tm_step; [assumption | cbn; tauto]|]). apply tm_step; [assumption | cbn; tauto].
  - reflexivity.
Qed.
Definition cmargins_none : cmargins := {| cm_top := None; cm_left := None; cm_bottom := None; cm_right := None |}.
Definition cm_start (s : subs) : cmargins -> qname -> list attribute -> R cmargins :=
  ltac:(let t := eval unfold read_cmargins in read_cmargins in match t with element _ ?f _ _ => exact f end).
Lemma cm_shape a q atts : Prog (q_local q) (fun s => cm_start s a q atts).
Proof. unfold cm_start. prog_tac. Qed.
Lemma cm_step n set o p : all_of fits_width o ->
  In (n, set) [("w:left"%string, set_cm_left); ("w:right"%string, set_cm_right); ("w:top"%string, set_cm_top); ("w:bottom"%string, set_cm_bottom)] ->
  eats (F "tcMar" cm_start (fun p => p)) 0 p (xml_events (opt (BuildModel.x_uwidth n) o)) (upd o (fun w => set (Some w)) p).
Proof.
  intros H Hn. apply (eats_opt _ _ _ _ _ _ (fun w => set (Some w))). intros w Hx. subst o. pose proof (width_of_small w H) as HW. destruct w as [wn wt]. cbn [fst snd] in HW.
  cbn [In] in Hn. decompose [or] Hn; try contradiction;
    match goal with E : _ = (n, set) |- _ => injection E as <- <- end;
    (apply (eats_leaf "tcMar" cm_start (fun p => p) cm_shape); [reflexivity |]; intros d l c; unfold cm_start;
     sub (uwidth_meant "" (wn, wt) (st l c) H); rewrite HW; reflexivity).
Qed.
Theorem reads_cmargins b : fits_cmargins b ->
  reads 0 (fun _ => read_cmargins) (xml_events (ch_of (BuildModel.x_cmargins b)) ++ [EEnd (split_qname "w:tcMar")]) b.
Proof.
  intros (H1 & H2 & H3 & H4).
  apply (reads_flat "tcMar" cm_start (fun p => p) cm_shape) with (a := cmargins_none); [reflexivity | reflexivity |].
  unfold BuildModel.x_cmargins, ch_of. destruct b as [t l b r]. cbn [cm_top cm_left cm_bottom cm_right] in *.
  rewrite !xml_events_app. eapply eats_eq.
  - repeat (eapply eats_app0; [apply cm_step; [assumption | cbn; tauto]|]). apply cm_step; [assumption | cbn; tauto].
  - apply cmargins_ext; cbn [cm_top cm_left cm_bottom cm_right]; field.
Qed.
Lemma tposition_meant t : fits_tposition t -> read_tposition (meant (atts_of (BuildModel.x_tposition t))) = reread_tposition t.
Proof.
  intros (H1 & H2 & H3 & H4). unfold read_tposition, BuildModel.x_tposition, atts_of, leaf.
  rewrite !each_attr_app, !each_attr_s, !each_attr_z.
  destruct t as [l r va ha xs ys x y]; cbn [tp_left tp_right tp_vert_anchor tp_horz_anchor tp_x_spec tp_y_spec tp_x tp_y reread_tposition] in *.
  apply tposition_ext; attr_field.
Qed.

(** ** Table properties *)
Definition tp_start (s : subs) : tblpr -> qname -> list attribute -> R tblpr :=
  ltac:(let t := eval unfold read_tblpr in read_tblpr in match t with element _ ?f _ _ => exact f end).
Lemma tp_shape a q atts : Prog (q_local q) (fun s => tp_start s a q atts).
Proof. unfold tp_start. prog_tac. Qed.
Section Tblpr.
  Local Notation ea := (eats (F "tblPr" tp_start (fun p => p)) 0).
  Ltac leaf1 := apply (eats_leaf "tblPr" tp_start (fun p => p) tp_shape); [reflexivity | intros d l c; unfold tp_start ].
  Ltac one g := apply (eats_opt _ _ _ _ _ _ g); intros x Hx; leaf1.
  Lemma tp_width w p : fits_width w -> ea p (events_of_xml (BuildModel.x_uwidth "w:tblW" w)) (set_tpr_width w p).
  Proof.
    intros H. pose proof (width_of_small w H) as HW. destruct w as [wn wt]. cbn [fst snd] in HW. leaf1.
    sub (uwidth_meant "" (wn, wt) (st l c) H). rewrite HW. reflexivity.
  Qed.
  Lemma tp_jc v p : ea p (events_of_xml (valued "w:jc" v))
    (upd (read_TableAlignmentType (seen v)) (fun a => set_tpr_jc (show_TableAlignmentType a)) p).
  Proof. leaf1. go. reflexivity. Qed.
  Lemma tp_borders b p : fits_tborders b -> ea p (events_of_xml (BuildModel.x_tborders b)) (set_tpr_borders (reread_tborders b) p).
  Proof. intros H. deep "tblPr"%string tp_start (fun p : tblpr => p) tp_shape (reads_tborders b H). reflexivity. Qed.
  Lemma tp_margins o p : all_of fits_tmargins o ->
    ea p (xml_events (opt BuildModel.x_tmargins o)) (upd o (fun m => set_tpr_margins (Some m)) p).
  Proof.
    intros H. apply (eats_opt _ _ _ _ _ _ (fun m => set_tpr_margins (Some m))). intros x Hx. subst o.
    deep "tblPr"%string tp_start (fun p : tblpr => p) tp_shape (reads_tmargins x H). reflexivity.
  Qed.
  Lemma tp_indent o p : all_of (fun i => is_i32 (fst i)) o ->
    ea p (xml_events (opt (fun i => BuildModel.x_width "w:tblInd" (fst i) (snd i)) o))
       (upd o (fun i => if (fst i =? 0)%Z then fun t => t else set_tpr_indent (Some (fst i, WidthType_Dxa))) p).
  Proof.
    intros H. one (fun i : Z * WidthType => if (fst i =? 0)%Z then fun t => t else set_tpr_indent (Some (fst i, WidthType_Dxa))). subst o.
    destruct x as [z t]. cbn [all_of fst] in H. sub (width_meant "" z t (st l c) H). rewrite (wrap_i32_Z z H). reflexivity.
  Qed.
  Lemma tp_style o p : ea p (xml_events (opt (valued "w:tblStyle") o)) (upd o (fun v => set_tpr_style (Some (seen v))) p).
  Proof. one (fun v => set_tpr_style (Some (seen v))). go. reflexivity. Qed.
  Lemma tp_layout o p : ea p (xml_events (opt (fun t => leaf "w:tblLayout" [("w:type"%string, show_TableLayoutType t)]) o)) p.
  Proof.
    eapply eats_eq; [one (fun (_ : TableLayoutType) (p : tblpr) => p); go; reflexivity | now destruct o].
  Qed.
  Lemma tp_position o p : all_of fits_tposition o ->
    ea p (xml_events (opt BuildModel.x_tposition o)) (upd o (fun t => set_tpr_position (Some (reread_tposition t))) p).
  Proof.
    intros H. one (fun t => set_tpr_position (Some (reread_tposition t))). subst o. rewrite <- (tposition_meant x H). reflexivity.
  Qed.
End Tblpr.
Theorem reads_tblpr p : fits_tblpr p ->
  reads 0 (fun _ => read_tblpr) (xml_events (ch_of (BuildModel.x_tblpr p)) ++ [EEnd (split_qname "w:tblPr")]) (reread_tblpr p).
Proof.
  intros (H1 & H2 & H3 & H4 & H5).
  apply (reads_flat "tblPr" tp_start (fun p => p) tp_shape) with (a := set_tpr_borders tborders_empty tblpr_default); [reflexivity | reflexivity |].
  unfold BuildModel.x_tblpr, ch_of. rewrite !xml_events_app, !xml_events_cons. change (xml_events []) with (@nil event).
  rewrite app_nil_r, <- !app_assoc. eapply eats_eq.
  - eapply eats_app0; [apply tp_width; assumption|]. eapply eats_app0; [apply tp_jc|].
    eapply eats_app0; [apply tp_borders; assumption|]. eapply eats_app0; [apply tp_margins; assumption|].
    eapply eats_app0; [apply tp_indent; assumption|]. eapply eats_app0; [apply tp_style|].
    eapply eats_app0; [apply tp_layout|]. apply tp_position. assumption.
  - destruct p as [w j b m i sty lay pos]. cbn [tpr_width tpr_jc tpr_borders tpr_margins tpr_indent tpr_style tpr_layout tpr_position] in *.
    unfold reread_tblpr. cbn [tpr_width tpr_jc tpr_borders tpr_margins tpr_indent tpr_style tpr_layout tpr_position].
    destruct (read_TableAlignmentType (seen j)), m, i as [[z zt]|], sty, pos; rewrite ?upd_some, ?upd_none; cbn [fst];
      try destruct (z =? 0)%Z; reflexivity.
Qed.

(** ** Cell properties *)
Definition tc_start (s : subs) : tcpr -> qname -> list attribute -> R tcpr :=
  ltac:(let t := eval unfold read_tcpr in read_tcpr in match t with element _ ?f _ _ => exact f end).
Lemma tc_shape a q atts : Prog (q_local q) (fun s => tc_start s a q atts).
Proof. unfold tc_start. prog_tac. Qed.
Section Tcpr.
  Local Notation ea := (eats (F "tcPr" tc_start (fun p => p)) 0).
  Ltac leaf1 := apply (eats_leaf "tcPr" tc_start (fun p => p) tc_shape); [reflexivity | intros d l c; unfold tc_start ].
  Ltac one g := apply (eats_opt _ _ _ _ _ _ g); intros x Hx; leaf1.
  Lemma tc_width_step o p : all_of fits_width o -> ea p (xml_events (opt (BuildModel.x_uwidth "w:tcW") o)) (upd o (fun w => set_tc_width (Some w)) p).
  Proof.
    intros H. one (fun w => set_tc_width (Some w)). subst o. destruct x as [n t]. cbn [all_of fits_width fst] in H.
    unfold fits_width in H. cbn [fst] in H. unfold BuildModel.x_uwidth. cbn [fst snd]. rewrite (as_i32_small n H), show_Z_of_N.
    assert (H' : is_usize n) by (ranges; lia). fin.
  Qed.
  Lemma tc_borders_step o p : all_of fits_cborders o ->
    ea p (xml_events (opt BuildModel.x_cborders o)) (upd o (fun m => set_tc_borders (Some (reread_cborders m))) p).
  Proof.
    intros H. apply (eats_opt _ _ _ _ _ _ (fun m => set_tc_borders (Some (reread_cborders m)))). intros x Hx. subst o.
    deep "tcPr"%string tc_start (fun p : tcpr => p) tc_shape (reads_cborders x H). reflexivity.
  Qed.
  Lemma tc_span o p : all_of is_usize o -> ea p (xml_events (opt (valued_n "w:gridSpan") o)) (upd o (fun n => set_tc_grid_span (Some n)) p).
  Proof. intros H. one (fun n => set_tc_grid_span (Some n)). subst o. cbn in H. fin. Qed.
  Lemma tc_vmerge_step o p : ea p (xml_events (opt (fun v => valued "w:vMerge" (show_VMergeType v)) o)) (upd o (fun v => set_tc_vmerge (Some v)) p).
  Proof. one (fun v => set_tc_vmerge (Some v)). fin. Qed.
  Lemma tc_valign_step o p : ea p (xml_events (opt (fun v => valued "w:vAlign" (show_VAlignType v)) o)) (upd o (fun v => set_tc_valign (Some v)) p).
  Proof. one (fun v => set_tc_valign (Some v)). fin. Qed.
  Lemma tc_direction o p : ea p (xml_events (opt (fun v => valued "w:textDirection" (show_TextDirectionType v)) o))
    (upd o (fun v => set_tc_text_direction (Some v)) p).
  Proof. one (fun v => set_tc_text_direction (Some v)). fin. Qed.
  Lemma tc_shading_step o p : ea p (xml_events (opt BuildModel.x_shading o)) (upd o (fun v => set_tc_shading (Some (reread_shading v))) p).
  Proof. one (fun v => set_tc_shading (Some (reread_shading v))). rewrite <- shading_meant. reflexivity. Qed.
  Lemma tc_margins_step o p : all_of fits_cmargins o ->
    ea p (xml_events (opt BuildModel.x_cmargins o)) (upd o (fun m => set_tc_margins (Some m)) p).
  Proof.
    intros H. apply (eats_opt _ _ _ _ _ _ (fun m => set_tc_margins (Some m))). intros x Hx. subst o.
    deep "tcPr"%string tc_start (fun p : tcpr => p) tc_shape (reads_cmargins x H). reflexivity.
  Qed.
End Tcpr.
Theorem reads_tcpr p : fits_tcpr p ->
  reads 0 (fun _ => read_tcpr) (xml_events (ch_of (BuildModel.x_tcpr p)) ++ [EEnd (split_qname "w:tcPr")]) (reread_tcpr p).
Proof.
  intros (H1 & H2 & H3 & H4).
  apply (reads_flat "tcPr" tc_start (fun p => p) tc_shape) with (a := tcpr_empty); [reflexivity | reflexivity |].
  unfold BuildModel.x_tcpr, ch_of. rewrite !xml_events_app. eapply eats_eq.
  - eapply eats_app0; [apply tc_width_step; assumption|]. eapply eats_app0; [apply tc_borders_step; assumption|].
    eapply eats_app0; [apply tc_span; assumption|]. eapply eats_app0; [apply tc_vmerge_step|].
    eapply eats_app0; [apply tc_valign_step|]. eapply eats_app0; [apply tc_direction|].
    eapply eats_app0; [apply tc_shading_step|]. apply tc_margins_step. assumption.
  - destruct p as [w b g v a t s m]. cbn [tc_width tc_borders tc_grid_span tc_vmerge tc_valign tc_text_direction tc_shading tc_margins] in *.
    apply tcpr_ext; cbn [reread_tcpr tc_width tc_borders tc_grid_span tc_vmerge tc_valign tc_text_direction tc_shading tc_margins]; field.
Qed.

(** ** Row properties, read by the loop of the row *)
Definition ro_start (s : subs) : row_state -> qname -> list attribute -> R row_state :=
  ltac:(let t := eval unfold read_row in (read_row s) in match t with element _ ?f _ _ => exact f end).
Definition ro_fin (r : row_state) : node := NRow (ro_prop r) (existsb node_numbering (ro_cells r)) (ro_cells r).
Lemma ro_shape a q atts : Prog (q_local q) (fun s => ro_start s a q atts).
Proof. unfold ro_start. prog_tac. Qed.
Section Trpr.
  Local Notation ea := (eats (F "tr" ro_start ro_fin) 0).
  Ltac leaf1 := apply (eats_leaf "tr" ro_start ro_fin ro_shape); [reflexivity | intros d l c; unfold ro_start ].
  Lemma tr_del_step i o p : ea p (xml_events (opt (fun m => leaf "w:del" [("w:id", i); ("w:author", m_author m); ("w:date", m_date m)]%string) o))
    (upd o (fun v => ro_with (set_tr_del (Some (reread_mark v)))) p).
  Proof.
    apply (eats_opt _ _ _ _ _ _ (fun v => ro_with (set_tr_del (Some (reread_mark v))))). intros x Hx.
    apply (eats_sub "tr" ro_start ro_fin ro_shape). change (xml_events []) with (@nil event). intros d l c Ld Kd. unfold ro_start.
    go. sub (reads_bare_del i x d l c Ld Kd). reflexivity.
  Qed.
  Lemma tr_ins_step i o p : ea p (xml_events (opt (fun m => leaf "w:ins" [("w:id", i); ("w:author", m_author m); ("w:date", m_date m)]%string) o))
    (upd o (fun v => ro_with (set_tr_ins (Some (reread_mark v)))) p).
  Proof.
    apply (eats_opt _ _ _ _ _ _ (fun v => ro_with (set_tr_ins (Some (reread_mark v))))). intros x Hx.
    apply (eats_sub "tr" ro_start ro_fin ro_shape). change (xml_events []) with (@nil event). intros d l c Ld Kd. unfold ro_start.
    go. sub (reads_bare_ins i x d l c Ld Kd). reflexivity.
  Qed.
  Lemma tr_cant (b : bool) p : ea p (xml_events (on b [leaf "w:cantSplit" []])) p.
  Proof. destruct b; [|apply eats_nil]. cbn [on xml_events flat_map]. rewrite app_nil_r. leaf1. reflexivity. Qed.
  Lemma tr_height_step r o p : all_of exact32 o ->
    ea p (xml_events (opt (fun h => leaf "w:trHeight" [("w:val", show_N h); ("w:hRule", show_HeightRule r)]%string) o))
       (upd o (fun h => ro_with (fun t => set_tr_rule (Some r) (set_tr_height (Some h) t))) p).
  Proof.
    intros H. apply (eats_opt _ _ _ _ _ _ (fun h => ro_with (fun t => set_tr_rule (Some r) (set_tr_height (Some h) t)))). intros x Hx.
    leaf1. subst o. cbn in H. fin.
  Qed.
  Lemma eats_trpr p s xs s' cells : fits_trpr p -> BuildModel.b_trpr p s = Some (xs, s') ->
    ea {| ro_prop := trpr_empty; ro_cells := cells |} (xml_events xs) {| ro_prop := reread_trpr p; ro_cells := cells |}.
  Proof.
    intros Hf H. unfold BuildModel.b_trpr, BuildModel.bind in H.
    destruct (BuildModel.b_opt_mark "w:del" (tr_del p) s) as [[d s1]|] eqn:Hd; [|discriminate].
    destruct (BuildModel.b_opt_mark "w:ins" (tr_ins p) s1) as [[i s2]|] eqn:Hi; [|discriminate].
    injection H as <- <-. destruct (b_opt_mark_out _ _ _ _ _ Hd) as [id ->]. destruct (b_opt_mark_out _ _ _ _ _ Hi) as [ii ->].
    rewrite xml_events_cons. change (xml_events []) with (@nil event). rewrite app_nil_r.
    apply (eats_through "tr" ro_start ro_fin ro_shape); [reflexivity | intros; unfold ro_start; go; reflexivity |].
    rewrite !xml_events_app. eapply eats_eq.
    - eapply eats_app0; [apply tr_del_step|]. eapply eats_app0; [apply tr_ins_step|]. eapply eats_app0; [apply tr_cant|].
      apply tr_height_step. exact Hf.
    - destruct p as [ga wa gb wb h r de i c]. cbn [tr_height tr_rule tr_del tr_ins tr_cant_split] in *.
      destruct h, de, i; reflexivity.
  Qed.
End Trpr.

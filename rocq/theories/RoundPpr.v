(** Paragraph properties: build and read. *)
From Coq Require Import NArith ZArith List Bool Lia.
From Verif Require Import Str StrFacts TypesModel Props PropsSet Ast EscapeModel FloatModel XmlParser XmlSpec
  ReadBase ReadProps ReadModel ReadProg ReadProofs.
From Verif Require BuildModel.
From Verif Require Import RoundSpec RoundBase RoundNums RoundRpr RoundSect.
Import ListNotations.
Import BuildModel (xml, E, L, leaf, opt, on, valued, valued_n, valued_z, attr_s, attr_n, attr_z).

(** ** Borders and tab stops *)
Definition pb_start (s : subs) : pborders -> qname -> list attribute -> R pborders :=
  ltac:(let t := eval unfold read_pborders in read_pborders in match t with element _ ?f _ _ => exact f end).
Lemma pb_shape a q atts : Prog (q_local q) (fun s => pb_start s a q atts).
Proof. unfold pb_start. prog_tac. Qed.
Lemma pborder_meant n b s : fits_pborder b -> read_border (meant (atts_of (BuildModel.x_pborder n b))) s =
  Val {| ba_type := pb_val b; ba_color := seen (pb_color b); ba_size := pb_size b; ba_space := pb_space b |} s.
Proof. intros (H1 & H2). unfold read_border, BuildModel.x_pborder, atts_of, leaf. fin. Qed.
Ltac sub H := let X := fresh in pose proof H as X; revert X; go; intros X; rewrite X; clear X.
Lemma pb_step n set o p : all_of fits_pborder o ->
  In (n, set) [("w:left"%string, set_pb_left); ("w:right"%string, set_pb_right); ("w:top"%string, set_pb_top); ("w:bottom"%string, set_pb_bottom);
               ("w:between"%string, set_pb_between); ("w:bar"%string, set_pb_bar)] ->
  eats (F "pBdr" pb_start (fun p => p)) 0 p (xml_events (opt (BuildModel.x_pborder n) o)) (upd o (fun b => set (Some (reread_pborder b))) p).
Proof.
  intros H Hn. apply (eats_opt _ _ _ _ _ _ (fun b => set (Some (reread_pborder b)))). intros x Hx. subst o.
  cbn [In] in Hn. decompose [or] Hn; try contradiction;
    match goal with E : _ = (n, set) |- _ => injection E as <- <- end;
    (apply (eats_leaf "pBdr" pb_start (fun p => p) pb_shape); [reflexivity |]; intros d l c; unfold pb_start;
     sub (pborder_meant "" x (st l c) H); reflexivity).
Qed.
Theorem reads_pborders b : fits_pborders b ->
  reads 0 (fun _ => read_pborders) (xml_events (ch_of (BuildModel.x_pborders b)) ++ [EEnd (split_qname "w:pBdr")]) (reread_pborders b).
Proof.
  intros (H1 & H2 & H3 & H4 & H5 & H6).
  apply (reads_flat "pBdr" pb_start (fun p => p) pb_shape) with (a := pborders_empty); [reflexivity | reflexivity |].
  unfold BuildModel.x_pborders, ch_of. destruct b as [l r t b m a]. cbn [pb_left pb_right pb_top pb_bottom pb_between pb_bar] in *.
  rewrite !xml_events_app. eapply eats_eq.
  - repeat (eapply eats_app0; [apply pb_step; [assumption | cbn; tauto]|]). apply pb_step; [assumption | cbn; tauto].
  - apply pborders_ext; cbn [reread_pborders pb_left pb_right pb_top pb_bottom pb_between pb_bar]; field.
Qed.

Definition tabs_start (s : subs) : list tab -> qname -> list attribute -> R (list tab) :=
  ltac:(let t := eval unfold read_tabs in read_tabs in match t with element _ ?f _ _ => exact f end).
Lemma tabs_shape a q atts : Prog (q_local q) (fun s => tabs_start s a q atts).
Proof. unfold tabs_start. prog_tac. Qed.
Lemma reads_tab t : all_of exact32 (t_pos t) ->
  reads 0 (fun _ => read_tab (meant (atts_of (BuildModel.x_tab t)))) [EEnd (split_qname "w:tab")] t.
Proof.
  intros H. unfold read_tab. set (v := upd _ _ _). replace v with t; [now apply to_end_reads|].
  subst v. unfold BuildModel.x_tab, atts_of, leaf. destruct t as [[v|] [l|] [n|]]; cbn in H; cbv [t_val t_leader t_pos];
    symmetry; fin.
Qed.
Lemma reads_tabs ts : Forall (fun t => all_of exact32 (t_pos t)) ts ->
  reads 0 (fun _ => read_tabs) (xml_events (map BuildModel.x_tab ts) ++ [EEnd (split_qname "w:tabs")]) ts.
Proof.
  intros H. apply (reads_flat "tabs" tabs_start (fun p => p) tabs_shape) with (a := []); [reflexivity | reflexivity |].
  change ts with ([] ++ ts) at 2. generalize (@nil tab). induction H as [|t ts Ht Hts IH]; intros acc.
  - rewrite app_nil_r. apply eats_nil.
  - cbn [map]. rewrite xml_events_cons. eapply eats_app0.
    + apply (eats_sub "tabs" tabs_start (fun p => p) tabs_shape) with (a' := acc ++ [t]).
      change (xml_events []) with (@nil event). intros d l c Ld Kd. unfold tabs_start.
      pose proof (reads_tab t Ht d l c Ld Kd) as X. revert X. cbv [atts_of BuildModel.x_tab leaf]. 
      set (a := meant _). change ([] ++ [EEnd (split_qname "w:tab")]) with [EEnd (split_qname "w:tab")].
      cbv [split_qname span_until q_local String.eqb Ascii.eqb Bool.eqb bind attempt]. intros X. rewrite X. reflexivity.
    + specialize (IH (acc ++ [t])). now rewrite <- app_assoc in IH.
Qed.

(** ** Paragraph properties *)
Definition ppr_start (s : subs) : ppr -> qname -> list attribute -> R ppr :=
  ltac:(let t := eval unfold read_ppr in (read_ppr s) in match t with element _ ?f _ _ => exact f end).
Lemma ppr_shape a q atts : Prog (q_local q) (fun s => ppr_start s a q atts).
Proof. unfold ppr_start. prog_tac. Qed.
Definition pprF : nat -> ppr -> R ppr := F "pPr" ppr_start (fun p => p).
Definition change_start (s : subs) : ppr -> qname -> list attribute -> R ppr :=
  ltac:(let t := eval unfold read_change in (read_change s []) in match t with element _ ?f _ _ => exact f end).
Lemma change_shape a q atts : Prog (q_local q) (fun s => change_start s a q atts).
Proof. unfold change_start. prog_tac. Qed.
Definition change_of (p : ppr) : option ppr_change := match p with PPr _ c => c end.

Section Ppr.
  Local Notation ea := (eats pprF 0).
  Ltac leaf1 := apply (eats_leaf "pPr" ppr_start (fun p => p) ppr_shape); [reflexivity | intros d l c; unfold ppr_start ].
  Ltac one g := apply (eats_opt _ _ _ _ _ _ g); intros x Hx; leaf1.
  (** An element with a reader of its own. *)
  Ltac deep H := apply (eats_sub "pPr" ppr_start (fun p => p) ppr_shape); intros d l c Ld Kd; unfold ppr_start;
    pose proof (H d l c Ld Kd) as X;
    match type of X with _ ?s2 = _ => match goal with |- _ ?s1 = _ => change s1 with s2 end; revert X; generalize s2 end;
    intros s0; go; intros X; rewrite X; clear X.
  Lemma ppr_style o p : ea p (xml_events (opt (valued "w:pStyle") o)) (upd o (fun v => on_base (set_p_style (Some (stored v)))) p).
  Proof. one (fun v => on_base (set_p_style (Some (stored v)))). fin. Qed.
  Lemma ppr_num o p : all_of (fun n => all_of is_usize (n_id n) /\ all_of is_usize (n_level n)) o ->
    ea p (xml_events (opt BuildModel.x_numpr o)) (upd o (fun v => on_base (set_p_numbering (Some v))) p).
  Proof.
    intros H. apply (eats_opt _ _ _ _ _ _ (fun v => on_base (set_p_numbering (Some v)))). intros x Hx. subst o.
    deep (reads_numpr x H). reflexivity.
  Qed.
  Lemma ppr_frame o p : all_of fits_frame o ->
    ea p (xml_events (opt BuildModel.x_frame o)) (upd o (fun v => on_base (set_p_frame (Some (reread_frame v)))) p).
  Proof.
    intros H. one (fun v => on_base (set_p_frame (Some (reread_frame v)))). subst o. rewrite <- (frame_meant x H). reflexivity.
  Qed.
  Lemma ppr_jc o p : ea p (xml_events (opt (valued "w:jc") o))
    (upd o (fun v => on_base (upd (read_AlignmentType (seen v)) (fun a => set_p_alignment (Some (show_AlignmentType a))))) p).
  Proof.
    one (fun v => on_base (upd (read_AlignmentType (seen v)) (fun a => set_p_alignment (Some (show_AlignmentType a))))).
    go. destruct (read_AlignmentType (seen x)); [reflexivity|]. now destruct p.
  Qed.
  Lemma ppr_ind o p : all_of fits_indent o ->
    ea p (xml_events (opt BuildModel.x_indent o)) (upd o (fun v => on_base (set_p_indent (Some (reread_indent v)))) p).
  Proof.
    intros H. one (fun v => on_base (set_p_indent (Some (reread_indent v)))). subst o.
    pose proof (indent_meant x (st l c) H) as X. revert X. unfold BuildModel.x_indent, atts_of, leaf. generalize (meant
     (("w:left"%string, show_Z match i_start x with Some v => v | None => 0%Z end)
      :: ("w:right"%string, show_Z match i_end x with Some v => v | None => 0%Z end)
         :: attr_z "w:leftChars" (i_start_chars x) ++
            match i_special x with
            | Some (FirstLine v) => [("w:firstLine"%string, show_Z v)]
            | Some (Hanging v) => [("w:hanging"%string, show_Z v)]
            | None => []
            end)). intros a X. go. rewrite X. reflexivity.
  Qed.
  Lemma ppr_spacing o p : all_of fits_spacing o ->
    ea p (xml_events (opt BuildModel.x_spacing o)) (upd o (fun v => on_base (set_p_spacing (Some v))) p).
  Proof.
    intros H. one (fun v => on_base (set_p_spacing (Some v))). subst o.
    pose proof (spacing_meant x (st l c) H) as X. revert X. unfold BuildModel.x_spacing, atts_of, leaf. generalize (meant
      (attr_n "w:before" (ls_before x) ++ attr_n "w:after" (ls_after x) ++
       attr_n "w:beforeLines" (ls_before_lines x) ++ attr_n "w:afterLines" (ls_after_lines x) ++
       attr_z "w:line" (ls_line x) ++ opt (fun r => ("w:lineRule"%string, BuildModel.show_rule r)) (ls_rule x))).
    intros a X. go. rewrite X. reflexivity.
  Qed.
  Lemma ppr_outline o p : all_of is_usize o ->
    ea p (xml_events (opt (valued_n "w:outlineLvl") o))
       (upd o (fun n => on_base (set_p_outline (Some (if (10 <=? n)%N then 9%N else n)))) p).
  Proof. intros H. one (fun n => on_base (set_p_outline (Some (if (10 <=? n)%N then 9%N else n)))). subst o. cbn in H. fin. Qed.
  Lemma ppr_borders o p : all_of fits_pborders o ->
    ea p (xml_events (opt BuildModel.x_pborders o)) (upd o (fun v => on_base (set_p_borders (Some (reread_pborders v)))) p).
  Proof.
    intros H. apply (eats_opt _ _ _ _ _ _ (fun v => on_base (set_p_borders (Some (reread_pborders v))))). intros x Hx. subst o.
    deep (reads_pborders x H). reflexivity.
  Qed.
  Lemma ppr_shading o p : ea p (xml_events (opt BuildModel.x_shading o)) (upd o (fun v => on_base (set_p_shading (Some (reread_shading v)))) p).
  Proof. one (fun v => on_base (set_p_shading (Some (reread_shading v)))). rewrite <- shading_meant. reflexivity. Qed.
  Lemma ppr_text_align o p : ea p (xml_events (opt (fun a => valued "w:textAlignment" (show_TextAlignmentType a)) o))
    (upd o (fun v => on_base (set_p_text_alignment (Some v))) p).
  Proof. one (fun v => on_base (set_p_text_alignment (Some v))). fin. Qed.
  Lemma ppr_adjust o p : all_of is_i64 o ->
    ea p (xml_events (opt (valued_z "w:adjustRightInd") o)) (upd o (fun v => on_base (set_p_adjust_right_ind (Some v))) p).
  Proof. intros H. one (fun v => on_base (set_p_adjust_right_ind (Some v))). subst o. cbn in H. fin. Qed.
  Lemma ppr_snap o p : ea p (xml_events (opt (fun v => valued "w:snapToGrid" (BuildModel.show_bool v)) o))
    (upd o (fun v => on_base (set_p_snap_to_grid (Some v))) p).
  Proof. one (fun v => on_base (set_p_snap_to_grid (Some v))). destruct x; reflexivity. Qed.
  Lemma ppr_keep_next (b : bool) p : ea p (xml_events (on b [leaf "w:keepNext" []]))
    (upd (if b then Some tt else None) (fun _ => on_base (set_p_keep_next (Some true))) p).
  Proof. destruct b; [|apply eats_nil]. cbn [on xml_events flat_map]. rewrite app_nil_r. leaf1. reflexivity. Qed.
  Lemma ppr_keep_lines (b : bool) p : ea p (xml_events (on b [leaf "w:keepLines" []]))
    (upd (if b then Some tt else None) (fun _ => on_base (set_p_keep_lines (Some true))) p).
  Proof. destruct b; [|apply eats_nil]. cbn [on xml_events flat_map]. rewrite app_nil_r. leaf1. reflexivity. Qed.
  Lemma ppr_page_break (b : bool) p : ea p (xml_events (on b [leaf "w:pageBreakBefore" []]))
    (upd (if b then Some tt else None) (fun _ => on_base (set_p_page_break_before (Some true))) p).
  Proof. destruct b; [|apply eats_nil]. cbn [on xml_events flat_map]. rewrite app_nil_r. leaf1. reflexivity. Qed.
  Lemma ppr_bidi (b : bool) p : ea p (xml_events (on b [leaf "w:bidi" []])) p.
  Proof. destruct b; [|apply eats_nil]. cbn [on xml_events flat_map]. rewrite app_nil_r. leaf1. reflexivity. Qed.
  Lemma ppr_widow o p : ea p (xml_events (opt (fun v => valued "w:widowControl" (BuildModel.show_01 v)) o))
    (upd o (fun v => on_base (fun b => if v : bool then set_p_widow_control (Some true) b else b)) p).
  Proof. one (fun v => on_base (fun b => if v : bool then set_p_widow_control (Some true) b else b)). destruct x; [reflexivity|]. now destruct p. Qed.
  Lemma ppr_tabs ts p : Forall (fun t => all_of exact32 (t_pos t)) ts ->
    ea p (xml_events (match ts with [] => [] | t :: l => [E "w:tabs" [] (map BuildModel.x_tab (t :: l))] end))
       (upd (Some ts) (fun ts => on_base (fun b => set_p_tabs (p_tabs b ++ ts) b)) p).
  Proof.
    intros H. destruct ts as [|t ts].
    - cbn. replace (on_base _ p) with p; [apply eats_nil|]. destruct p as [b c]. cbn. rewrite app_nil_r. now destruct b.
    - unfold xml_events at 1. cbn [flat_map]. rewrite app_nil_r. revert H. generalize (t :: ts). intros us H.
      deep (reads_tabs us H). reflexivity.
  Qed.
  Lemma ppr_sect o p : all_of fits_sectpr o ->
    ea p (xml_events (opt BuildModel.x_sectpr o)) (upd o (fun v => on_base (set_p_section (Some (reread_sectpr v)))) p).
  Proof.
    intros H. apply (eats_opt _ _ _ _ _ _ (fun v => on_base (set_p_section (Some (reread_sectpr v))))). intros x Hx. subst o.
    deep (reads_sectpr x H). reflexivity.
  Qed.
  Lemma ppr_rpr r p s xs s' : fits_rpr r -> BuildModel.b_rpr r s = Some (xs, s') ->
    ea p (xml_events xs) (upd (Some (reread_rpr r)) (fun v => on_base (set_p_rpr v)) p).
  Proof.
    intros Hf H. destruct (reads_rpr r s xs s' Hf H) as (ch & -> & Hr). unfold xml_events. cbn [flat_map]. rewrite app_nil_r.
    deep Hr. reflexivity.
  Qed.

  Lemma base_upd A (o : option A) g p : base_of (upd o (fun v => on_base (g v)) p) = upd o g (base_of p).
  Proof. destruct o, p; reflexivity. Qed.
  Lemma change_upd A (o : option A) g p : change_of (upd o (fun v => on_base (g v)) p) = change_of p.
  Proof. destruct o, p; reflexivity. Qed.
  Definition with_change (c : option ppr_change) (p : ppr) : ppr := upd c (fun c p => PPr (base_of p) (Some c)) p.
  Lemma base_with c p : base_of (with_change c p) = base_of p.
  Proof. destruct c, p; reflexivity. Qed.
  Lemma change_with c p : change_of p = None -> change_of (with_change c p) = c.
  Proof. destruct c, p; cbn; auto. Qed.
  Lemma only_on_if o : only_on o = if BuildModel.is_on o then Some true else None.
  Proof. destruct o as [[|]|]; reflexivity. Qed.
  Lemma upd_upd A B C (o : option A) (f : A -> option B) (g : B -> C -> C) x :
    upd o (fun v => upd (f v) g) x = upd (match o with Some v => f v | None => None end) g x.
  Proof. now destruct o. Qed.
  Lemma map_match A B C (o : option A) (f : A -> option B) (g : B -> C) :
    match o with Some v => option_map g (f v) | None => None end = option_map g (match o with Some v => f v | None => None end).
  Proof. now destruct o. Qed.
  Lemma tabs_set b ts : p_tabs (set_p_tabs (p_tabs b ++ ts) b) = p_tabs b ++ ts.
  Proof. reflexivity. Qed.
  Lemma ppr_eq p b c : base_of p = b -> change_of p = c -> p = PPr b c.
  Proof. destruct p; cbn. now intros -> ->. Qed.

  (** With the recorded change read as [c]. *)
  Lemma eats_ppr b c xs xc s s' : fits_base b -> BuildModel.b_rpr (p_rpr b) s = Some (xs, s') ->
    (forall p, ea p (xml_events xc) (with_change c p)) ->
    ea ppr_empty (xml_events (xs ++ BuildModel.ppr_before b ++ xc ++ BuildModel.ppr_after b)) (PPr (reread_base b) c).
  Proof.
    intros (H1 & H2 & H3 & H4 & H5 & H6 & H7 & H8 & H9 & H10) Hr Hc. unfold BuildModel.ppr_before, BuildModel.ppr_after.
    eapply eats_eq.
    - rewrite <- !app_assoc, !xml_events_app.
      repeat (eapply eats_app0;
        [first [ apply Hc | eapply ppr_rpr; eassumption | apply ppr_style | apply ppr_num; assumption | apply ppr_frame; assumption | apply ppr_jc
               | apply ppr_ind; assumption | apply ppr_spacing; assumption | apply ppr_outline; assumption | apply ppr_borders; assumption
               | apply ppr_shading | apply ppr_text_align | apply ppr_adjust; assumption | apply ppr_snap | apply ppr_keep_next
               | apply ppr_keep_lines | apply ppr_page_break | apply ppr_bidi | apply ppr_widow | apply (ppr_tabs (p_tabs b)); assumption ] |]).
      apply ppr_sect. assumption.
    - apply ppr_eq.
      + rewrite ?base_upd, ?base_with, ?base_upd.
        apply ppr_base_ext; cbn [reread_base p_rpr p_style p_numbering p_alignment p_indent p_spacing p_keep_next p_keep_lines p_bidi
          p_page_break_before p_widow_control p_outline p_section p_tabs p_borders p_frame p_text_alignment p_adjust_right_ind p_snap_to_grid
          p_shading p_div_id]; rewrite ?only_on_if.
        all: rewrite ?upd_upd, ?map_match, ?upd_some.
        all: try solve [field].
        (* the tabs *)
        rewrite (upd_other _ _ _ p_tabs (p_section b)) by reflexivity. rewrite tabs_set.
        match goal with |- ?l ++ _ = _ => replace l with (@nil tab); [reflexivity|] end. symmetry. field.
      + rewrite ?change_upd. apply change_with. now rewrite ?change_upd.
  Qed.
End Ppr.

Lemma reads_change ch v atts :
  reads 0 (fun d => s_ppr (readers d)) (xml_events ch ++ [EEnd (split_qname "w:pPr")]) v ->
  reads 0 (fun d => s_change (readers d) atts) (xml_events [E "w:pPr" [] ch] ++ [EEnd (split_qname "w:pPrChange")])
        (PChange (m_author (read_mark atts)) (m_date (read_mark atts)) v).
Proof.
  intros H.
  apply (reads_deep "pPrChange" change_start (fun p => PChange (m_author (read_mark atts)) (m_date (read_mark atts)) p) change_shape)
    with (a := ppr_empty); [reflexivity | reflexivity |].
  unfold xml_events. cbn [flat_map]. rewrite app_nil_r.
  apply (eats_sub "pPrChange" change_start (fun p => PChange (m_author (read_mark atts)) (m_date (read_mark atts)) p) change_shape).
  intros d l c Ld Kd. unfold change_start.
  pose proof (H d l c Ld Kd) as X. fold (xml_events ch) in *.
  match type of X with _ ?s2 = _ => match goal with |- _ ?s1 = _ => change s1 with s2 end; revert X; generalize s2 end.
  intros s0. go. intros X. rewrite X. reflexivity.
Qed.
Lemma reads_ppr : forall p s xs s', fits_ppr p -> BuildModel.b_ppr p s = Some (xs, s') ->
  exists ch, xs = [E "w:pPr" [] ch] /\
    reads 0 (fun d => s_ppr (readers d)) (xml_events ch ++ [EEnd (split_qname "w:pPr")]) (reread_ppr p).
Proof.
  fix IH 1. intros [b c] s xs s' [Hb Hc] H. cbn [BuildModel.b_ppr] in H. unfold BuildModel.bind in H.
  destruct (BuildModel.b_rpr (p_rpr b) s) as [[r s1]|] eqn:Hr; [|discriminate].
  assert (HC : exists xc, xs = [E "w:pPr" [] (r ++ BuildModel.ppr_before b ++ xc ++ BuildModel.ppr_after b)] /\
             (forall p, eats pprF 0 p (xml_events xc) (with_change (change_of (reread_ppr (PPr b c))) p))).
  { destruct c as [[author date q]|].
    - destruct (BuildModel.take_change s1) as [[i s2]|]; [|discriminate].
      destruct (BuildModel.b_ppr q s2) as [[x s3]|] eqn:Hq; [|discriminate].
      injection H as <- <-.
      exists [E "w:pPrChange" [("w:id", i); ("w:author", author); ("w:date", date)]%string x]. split; [reflexivity|]. intros p.
      destruct (IH q s2 x s3 Hc Hq) as (ch & -> & HR). clear IH.
      unfold xml_events at 1. cbn [flat_map]. rewrite app_nil_r.
      apply (eats_sub "pPr" ppr_start (fun p => p) ppr_shape).
      set (atts := [("w:id", i); ("w:author", author); ("w:date", date)]%string).
      pose proof (reads_change ch (reread_ppr q) (meant atts) HR) as HX.
      pose proof (mark_meant i {| m_author := author; m_date := date |}) as HM. cbn [m_author m_date reread_mark] in HM.
      change [("w:id", i); ("w:author", author); ("w:date", date)]%string with atts in HM. rewrite HM in HX.
      cbn [reread_mark m_author m_date] in HX.
      intros d l c0 Ld Kd. unfold ppr_start. pose proof (HX d l c0 Ld Kd) as X.
      clearbody atts.
      match type of X with _ ?s2 = _ => match goal with |- _ ?s1 = _ => change s1 with s2 end; revert X; generalize s2 end.
      intros s0. cbn [reread_ppr change_of]. generalize (reread_ppr q). intros rq. go. intros X. rewrite X. destruct p. reflexivity.
    - injection H as <- <-. exists []. split; [reflexivity|]. intros p. apply eats_nil. }
  destruct HC as (xc & -> & HC). eexists. split; [reflexivity|].
  change (reread_ppr (PPr b c)) with (PPr (reread_base b) (change_of (reread_ppr (PPr b c)))).
  apply (reads_deep "pPr" ppr_start (fun p => p) ppr_shape) with (a := ppr_empty); [reflexivity | reflexivity |].
  eapply eats_ppr; eassumption.
Qed.

(** Run properties: build and read. *)
From Coq Require Import NArith ZArith List Bool Lia.
From Verif Require Import Str StrFacts TypesModel Props PropsSet Ast EscapeModel FloatModel XmlParser XmlSpec
  ReadBase ReadProps ReadModel ReadProg ReadProofs.
From Verif Require BuildModel.
From Verif Require Import RoundSpec RoundBase RoundNums.
Import ListNotations.
Import BuildModel (xml, E, L, leaf, opt, on, valued, valued_n, valued_z, attr_s, attr_n, attr_z).

(** ** Run properties *)
Definition rpr_start (s : subs) : rpr -> qname -> list attribute -> R rpr :=
  ltac:(let t := eval unfold read_rpr in (read_rpr s) in match t with element _ ?f _ _ => exact f end).
Lemma rpr_shape a q atts : Prog (q_local q) (fun s => rpr_start s a q atts).
Proof. unfold rpr_start. prog_tac. Qed.
Definition rprF : nat -> rpr -> R rpr := F "rPr" rpr_start (fun p => p).

Lemma mark_meant i m : read_mark (meant [("w:id", i); ("w:author", m_author m); ("w:date", m_date m)]%string) = reread_mark m.
Proof. destruct m. reflexivity. Qed.
Definition ins_start (s : subs) : list node -> qname -> list attribute -> R (list node) :=
  ltac:(let t := eval unfold read_ins_like in (read_ins_like "ins" s []) in match t with element _ ?f _ _ => exact f end).
Lemma ins_shape a q atts : Prog (q_local q) (fun s => ins_start s a q atts).
Proof. unfold ins_start. prog_tac. Qed.
Definition del_start (s : subs) : list node -> qname -> list attribute -> R (list node) :=
  ltac:(let t := eval unfold read_del in (read_del s []) in match t with element _ ?f _ _ => exact f end).
Lemma del_shape a q atts : Prog (q_local q) (fun s => del_start s a q atts).
Proof. unfold del_start. prog_tac. Qed.
Lemma reads_ins k ev ch atts q : q_local q = "ins"%string ->
  eats (F "ins" ins_start (fun ch => (read_mark atts, ch))) k [] ev ch ->
  reads k (fun d => s_ins (readers d) atts) (ev ++ [EEnd q]) (read_mark atts, ch).
Proof.
  intros Hq H. apply (reads_deep "ins" ins_start (fun ch => (read_mark atts, ch)) ins_shape _ _ [] _ ch); auto.
Qed.
Lemma reads_del k ev ch atts q : q_local q = "del"%string ->
  eats (F "del" del_start (fun ch => (read_mark atts, ch))) k [] ev ch ->
  reads k (fun d => s_del (readers d) atts) (ev ++ [EEnd q]) (read_mark atts, ch).
Proof.
  intros Hq H. apply (reads_deep "del" del_start (fun ch => (read_mark atts, ch)) del_shape _ _ [] _ ch); auto.
Qed.

Section Rpr.
  Local Notation ea := (eats rprF 0).
  Ltac one g := apply (eats_opt _ _ _ _ _ _ g); intros x Hx; apply (eats_leaf "rPr" rpr_start (fun p => p) rpr_shape);
    [reflexivity | intros d l c; unfold rpr_start ].
  Lemma rpr_sz o p : all_of exact64 o ->
    ea p (xml_events (opt (valued_n "w:sz") o)) (upd o (fun n p => set_r_sz_cs (Some n) (set_r_sz (Some n) p)) p).
  Proof. intros H. one (fun n p => set_r_sz_cs (Some n) (set_r_sz (Some n) p)). subst o. cbn in H. fin. Qed.
  Lemma rpr_szcs o p : ea p (xml_events (opt (valued_n "w:szCs") o)) (upd o (fun _ p => p) p).
  Proof. one (fun (_ : N) (p : rpr) => p). reflexivity. Qed.
  Lemma rpr_color o p : ea p (xml_events (opt BuildModel.x_color o)) (upd o (fun v => set_r_color (Some (reread_color v))) p).
  Proof.
    one (fun v => set_r_color (Some (reread_color v))). destruct x as [v [t|] [sh|] [ti|]];
      cbv [BuildModel.x_color c_val c_theme c_shade c_tint reread_color option_map read_color]; go;
      try destruct (read_ThemeColor (seen t)); reflexivity.
  Qed.
  Lemma rpr_b o p : ea p (xml_events (opt (BuildModel.x_switch "w:b") o))
    (upd o (fun v p => set_r_bold_cs (Some v) (set_r_bold (Some v) p)) p).
  Proof.
    apply eats_opt. intros x Hx. destruct x; apply (eats_leaf "rPr" rpr_start (fun p => p) rpr_shape); reflexivity.
  Qed.
  Lemma rpr_bcs o p : ea p (xml_events (opt (BuildModel.x_bare "w:bCs") o)) (upd o (fun _ p => p) p).
  Proof. one (fun (_ : bool) (p : rpr) => p). reflexivity. Qed.
  Lemma rpr_caps o p : ea p (xml_events (opt (fun v => valued "w:caps" (BuildModel.show_bool v)) o)) (upd o (fun v => set_r_caps (Some v)) p).
  Proof. one (fun v => set_r_caps (Some v)). destruct x; reflexivity. Qed.
  Lemma rpr_i o p : ea p (xml_events (opt (BuildModel.x_switch "w:i") o))
    (upd o (fun v p => set_r_italic_cs (Some v) (set_r_italic (Some v) p)) p).
  Proof.
    apply eats_opt. intros x Hx. destruct x; apply (eats_leaf "rPr" rpr_start (fun p => p) rpr_shape); reflexivity.
  Qed.
  Lemma rpr_ics o p : ea p (xml_events (opt (BuildModel.x_bare "w:iCs") o)) (upd o (fun _ p => p) p).
  Proof. one (fun (_ : bool) (p : rpr) => p). reflexivity. Qed.
  Lemma rpr_strike o p : ea p (xml_events (opt (BuildModel.x_switch "w:strike") o))
    (upd o (fun v p => if v then set_r_dstrike None (set_r_strike (Some true) p) else set_r_strike (Some false) p) p).
  Proof.
    apply eats_opt. intros x Hx. destruct x; apply (eats_leaf "rPr" rpr_start (fun p => p) rpr_shape); reflexivity.
  Qed.
  Lemma rpr_dstrike o p : ea p (xml_events (opt (BuildModel.x_switch "w:dstrike") o))
    (upd o (fun v p => if v then set_r_strike None (set_r_dstrike (Some true) p) else set_r_dstrike (Some false) p) p).
  Proof.
    apply eats_opt. intros x Hx. destruct x; apply (eats_leaf "rPr" rpr_start (fun p => p) rpr_shape); reflexivity.
  Qed.
  Lemma rpr_highlight o p : ea p (xml_events (opt (valued "w:highlight") o)) (upd o (fun v => set_r_highlight (Some (seen v))) p).
  Proof. one (fun v => set_r_highlight (Some (seen v))). fin. Qed.
  Lemma rpr_u o p : ea p (xml_events (opt (valued "w:u") o)) (upd o (fun v => set_r_underline (Some (seen v))) p).
  Proof. one (fun v => set_r_underline (Some (seen v))). fin. Qed.
  Lemma rpr_on (b : bool) n f p : (n = "w:vanish" /\ f = set_r_vanish true \/ n = "w:specVanish" /\ f = set_r_spec_vanish true)%string ->
    ea p (xml_events (on b [leaf n []])) (upd (if b then Some tt else None) (fun _ => f) p).
  Proof.
    intros H. destruct b; [|apply eats_nil]. cbn [on xml_events flat_map upd]. rewrite app_nil_r.
    destruct H as [[-> ->]|[-> ->]]; apply (eats_leaf "rPr" rpr_start (fun p => p) rpr_shape); reflexivity.
  Qed.
  Lemma fonts_meant f : read_fonts (meant (atts_of (BuildModel.x_fonts f))) = reread_fonts f.
  Proof. destruct f as [[|] [|] [|] [|] [|] [|] [|] [|] [|]]; reflexivity. Qed.
  Lemma rpr_fonts o p : ea p (xml_events (opt BuildModel.x_fonts o)) (upd o (fun v => set_r_fonts (Some (reread_fonts v))) p).
  Proof. one (fun v => set_r_fonts (Some (reread_fonts v))). rewrite <- fonts_meant. reflexivity. Qed.
  Lemma border_meant t size space col s : is_u32 size -> is_u32 space ->
    read_border (meant [("w:val", show_BorderType t); ("w:sz", show_N size); ("w:space", show_N space); ("w:color", col)]%string) s =
    Val {| ba_type := t; ba_color := seen col; ba_size := size; ba_space := space |} s.
  Proof. intros H1 H2. unfold read_border. fin. Qed.
  Lemma rpr_border o p : all_of (fun b => is_u32 (tb_size b) /\ is_u32 (tb_space b)) o ->
    ea p (xml_events (opt BuildModel.x_text_border o)) (upd o (fun v => set_r_border (Some (reread_text_border v))) p).
  Proof.
    intros H. one (fun v => set_r_border (Some (reread_text_border v))). subst o. cbn in H. destruct H as [H1 H2].
    pose proof (border_meant (tb_type x) _ _ (tb_color x) (st l c) H1 H2) as Hb.
    revert Hb. go. intros Hb. rewrite Hb. reflexivity.
  Qed.
  Ltac sub H := let X := fresh in pose proof H as X; revert X; go; intros X; rewrite X; clear X.
  Lemma reads_bare_ins i m :
    reads 0 (fun d => s_ins (readers d) (meant [("w:id", i); ("w:author", m_author m); ("w:date", m_date m)]%string))
          [EEnd (split_qname "w:ins")] (reread_mark m, []).
  Proof. rewrite <- (mark_meant i). apply (reads_ins 0 []); [reflexivity | apply eats_nil]. Qed.
  Lemma reads_bare_del i m :
    reads 0 (fun d => s_del (readers d) (meant [("w:id", i); ("w:author", m_author m); ("w:date", m_date m)]%string))
          [EEnd (split_qname "w:del")] (reread_mark m, []).
  Proof. rewrite <- (mark_meant i). apply (reads_del 0 []); [reflexivity | apply eats_nil]. Qed.
  Lemma rpr_ins i o p : ea p (xml_events (opt (fun m => leaf "w:ins" [("w:id", i); ("w:author", m_author m); ("w:date", m_date m)]%string) o))
    (upd o (fun v => set_r_ins (Some (reread_mark v))) p).
  Proof.
    apply (eats_opt _ _ _ _ _ _ (fun v => set_r_ins (Some (reread_mark v)))). intros x Hx.
    apply (eats_sub "rPr" rpr_start (fun p => p) rpr_shape). change (xml_events []) with (@nil event). intros d l c Ld Kd. unfold rpr_start.
    go. sub (reads_bare_ins i x d l c Ld Kd). reflexivity.
  Qed.
  Lemma rpr_del i o p : ea p (xml_events (opt (fun m => leaf "w:del" [("w:id", i); ("w:author", m_author m); ("w:date", m_date m)]%string) o))
    (upd o (fun v => set_r_del (Some (reread_mark v))) p).
  Proof.
    apply (eats_opt _ _ _ _ _ _ (fun v => set_r_del (Some (reread_mark v)))). intros x Hx.
    apply (eats_sub "rPr" rpr_start (fun p => p) rpr_shape). change (xml_events []) with (@nil event). intros d l c Ld Kd. unfold rpr_start.
    go. sub (reads_bare_del i x d l c Ld Kd). reflexivity.
  Qed.
  Lemma rpr_vert o p : ea p (xml_events (opt (fun v => valued "w:vertAlign" (show_VertAlignType v)) o)) (upd o (fun v => set_r_vert (Some v)) p).
  Proof. one (fun v => set_r_vert (Some v)). fin. Qed.
  Lemma rpr_spacing o p : all_of is_i32 o ->
    ea p (xml_events (opt (valued_z "w:spacing") o)) (upd o (fun v => set_r_spacing (Some v)) p).
  Proof. intros H. one (fun v => set_r_spacing (Some v)). subst o. cbn in H. fin. Qed.
  Lemma rpr_fit o p : all_of (fun f => is_usize (ft_val f) /\ all_of is_u32 (ft_id f)) o ->
    ea p (xml_events (opt BuildModel.x_fit o)) (upd o (fun v => set_r_fit (Some v)) p).
  Proof.
    intros H. one (fun v => set_r_fit (Some v)). subst o. destruct x as [v [i|]]; cbn in H; destruct H as [H1 H2];
      cbv [ft_val ft_id]; fin.
  Qed.
  Lemma rpr_w o p : ea p (xml_events (opt (valued_z "w:w") o)) (upd o (fun _ p => p) p).
  Proof. one (fun (_ : Z) (p : rpr) => p). reflexivity. Qed.
  Lemma rpr_style o p : ea p (xml_events (opt (valued "w:rStyle") o)) (upd o (fun v => set_r_style (Some (stored v))) p).
  Proof. one (fun v => set_r_style (Some (stored v))). fin. Qed.
  Lemma to_end_reads A own (a : A) q : q_local q = own -> reads 0 (fun _ => to_end own a) [EEnd q] a.
  Proof.
    intros Hq. apply (reads_flat own (fun _ a _ _ => ret a) (fun a => a)) with (ev := []) (a := a) (k := 0%N);
      [intros; prog_tac | reflexivity | exact Hq | apply eats_nil].
  Qed.
  Lemma reads_ptab t : reads 0 (fun _ => read_ptab (meant (atts_of (BuildModel.x_ptab t)))) [EEnd (split_qname "w:ptab")] (reread_ptab t).
  Proof.
    unfold read_ptab. set (v := upd _ _ _). replace v with (reread_ptab t); [now apply to_end_reads|].
    subst v. unfold BuildModel.x_ptab, atts_of, leaf. go. rewrite rt_leader, rt_ptab_align, rt_ptab_relative. reflexivity.
  Qed.
  Lemma rpr_ptab o p : ea p (xml_events (opt BuildModel.x_ptab o)) (upd o (fun v => set_r_ptab (Some (reread_ptab v))) p).
  Proof.
    apply (eats_opt _ _ _ _ _ _ (fun v => set_r_ptab (Some (reread_ptab v)))). intros x Hx.
    apply (eats_sub "rPr" rpr_start (fun p => p) rpr_shape). change (xml_events []) with (@nil event). intros d l c Ld Kd.
    pose proof (reads_ptab x d l c Ld Kd) as X. unfold rpr_start, atts_of in *. cbv [BuildModel.x_ptab leaf] in X |- *.
    revert X. go. intros X. rewrite X. reflexivity.
  Qed.
  Lemma shading_meant s : read_shading (meant (atts_of (BuildModel.x_shading s))) = reread_shading s.
  Proof. unfold read_shading, BuildModel.x_shading, atts_of, leaf. go. rewrite rt_shd. reflexivity. Qed.
  Lemma rpr_shading o p : ea p (xml_events (opt BuildModel.x_shading o)) (upd o (fun v => set_r_shading (Some (reread_shading v))) p).
  Proof. one (fun v => set_r_shading (Some (reread_shading v))). rewrite <- shading_meant. reflexivity. Qed.

  (** The whole. *)
  Theorem eats_rpr i d r : fits_rpr r ->
    ea rpr_empty (xml_events (BuildModel.rpr_before r ++
        opt (fun m => leaf "w:ins" [("w:id", i); ("w:author", m_author m); ("w:date", m_date m)]%string) (r_ins r) ++
        opt (fun m => leaf "w:del" [("w:id", d); ("w:author", m_author m); ("w:date", m_date m)]%string) (r_del r) ++
        BuildModel.rpr_after r)) (reread_rpr r).
  Proof.
    intros (H1 & H2 & H3 & H4). unfold BuildModel.rpr_before, BuildModel.rpr_after.
    eapply eats_eq.
    - rewrite <- !app_assoc, !xml_events_app.
      repeat (eapply eats_app0;
        [first [ apply rpr_sz; assumption | apply rpr_szcs | apply rpr_color | apply rpr_b | apply rpr_bcs | apply rpr_caps | apply rpr_i
               | apply rpr_ics | apply rpr_strike | apply rpr_dstrike | apply rpr_highlight | apply rpr_u
               | apply rpr_on with (f := set_r_vanish true); left; split; reflexivity
               | apply rpr_on with (f := set_r_spec_vanish true); right; split; reflexivity
               | apply rpr_fonts | apply rpr_border; assumption | apply rpr_ins | apply rpr_del | apply rpr_vert
               | apply rpr_spacing; assumption | apply rpr_fit; assumption | apply rpr_w | apply rpr_style | apply rpr_ptab ] |]).
      apply rpr_shading.
    - apply rpr_ext; cbn [reread_rpr r_style r_sz r_sz_cs r_color r_highlight r_vert r_underline r_bold r_bold_cs r_caps r_italic r_italic_cs
        r_vanish r_spec_vanish r_spacing r_fit r_stretch r_fonts r_border r_del r_ins r_strike r_dstrike r_ptab r_shading]; field.
  Qed.
  Theorem reads_rpr r s xs s' : fits_rpr r -> BuildModel.b_rpr r s = Some (xs, s') ->
    exists ch, xs = [E "w:rPr" [] ch] /\
      reads 0 (fun d => s_rpr (readers d)) (xml_events ch ++ [EEnd (split_qname "w:rPr")]) (reread_rpr r).
  Proof.
    intros Hf H. unfold BuildModel.b_rpr, BuildModel.bind in H.
    destruct (BuildModel.b_opt_mark "w:ins" (r_ins r) s) as [[i s1]|] eqn:H1; [|discriminate].
    destruct (BuildModel.b_opt_mark "w:del" (r_del r) s1) as [[d s2]|] eqn:H2; [|discriminate].
    apply b_opt_mark_out in H1 as [i' ->]. apply b_opt_mark_out in H2 as [d' ->]. injection H as <- _.
    eexists. split; [reflexivity|].
    apply (reads_deep "rPr" rpr_start (fun p => p) rpr_shape) with (a := rpr_empty); [reflexivity | reflexivity |].
    now apply eats_rpr.
  Qed.
End Rpr.

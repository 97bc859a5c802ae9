(** The tree: build and read. *)
From Coq Require Import NArith ZArith List Bool Lia.
From Verif Require Import Str StrFacts StrFind TypesModel Props PropsSet Ast EscapeModel XmlParser XmlSpec
  ReadBase ReadProps ReadModel ReadProg ReadProofs.
From Verif Require IdsModel BuildModel BuildSpec BuildProofs VocabSpec VocabProofs.
From Verif Require Import RoundSpec RoundBase RoundNums RoundRpr RoundSect RoundPpr RoundTable RoundPic RoundRun RoundLoops RoundKids.
Import ListNotations.
Import BuildModel (xml, E, L, leaf, opt, on, valued, valued_n, valued_z, attr_s, attr_n, attr_z).

Lemma paras_in_del n : kept InDel n = true -> paras n = 0%N.
Proof. destruct n; cbn; congruence. Qed.
Lemma paras_in_dels l : forallb (kept InDel) l = true -> sumN paras l = 0%N.
Proof.
  induction l as [|n l IH]; [reflexivity|]. cbn [forallb sumN fold_right]. rewrite andb_true_iff. intros [H1 H2].
  now rewrite (paras_in_del n H1), (IH H2 : fold_right _ _ _ = _).
Qed.

(** ** Names *)
Ltac pass :=
  split; [reflexivity | intros ? ? ? ?; cbn [starts]; opened; go; reflexivity].
Ltac pieces tac :=
  repeat first
    [ exact (VocabProofs.every_nil _)
    | apply VocabProofs.every_opt; intros
    | apply VocabProofs.every_on
    | apply VocabProofs.every_map; intros
    | apply VocabProofs.every_leaf; tac
    | apply VocabProofs.every_L; tac
    | apply VocabProofs.every_E; [tac|]
    | match goal with
      | |- VocabProofs.every _ (_ ++ _) => apply VocabProofs.every_app; split
      | |- VocabProofs.every _ (_ :: _ :: _) => apply VocabProofs.every_cons; split
      | |- VocabProofs.every _ (match ?x with _ => _ end) => destruct x
      | |- VocabProofs.every _ [match ?x with _ => _ end] => destruct x
      end ].
Lemma passed_rpr p r : one_of p [LSdt; LPara; LLink] ->
  VocabProofs.every (passes p) (BuildModel.rpr_before r) /\ VocabProofs.every (passes p) (BuildModel.rpr_after r).
Proof.
  places; (split; [unfold BuildModel.rpr_before | unfold BuildModel.rpr_after]; pieces ltac:(pass); unfold BuildModel.x_switch; pieces ltac:(pass)).
Qed.
Lemma passed_sdt p q : one_of p [LSdt; LPara; LLink] ->
  VocabProofs.every (passes p) (opt BuildModel.x_binding (sd_binding q) ++ opt (valued "w:alias") (sd_alias q)).
Proof. places; (unfold BuildModel.x_binding; pieces ltac:(pass)). Qed.
(** Nothing in a deletion is called [moveFrom]. *)
Definition no_from (x : xml) : Prop := (q_local (split_qname (BuildSpec.xname x)) =s "moveFrom") = false.
Lemma no_from_known x : VocabSpec.known x -> VocabProofs.plain (BuildSpec.xname x) = true -> no_from x.
Proof.
  intros (ks & Hks & _) Hp. unfold no_from. revert Hks Hp. generalize (BuildSpec.xname x). intros n Hks Hp.
  unfold VocabSpec.allowed in Hks. apply in_flat_map in Hks as ((m & as_) & Hin & Hm). cbn [fst] in Hm.
  destruct (n =s m) eqn:En; [|destruct Hm]. apply String.eqb_eq in En. subst m.
  assert (A : forallb (fun e => negb (VocabProofs.plain (fst e)) || negb (q_local (split_qname (fst e)) =s "moveFrom")) VocabSpec.vocabulary = true)
    by (vm_compute; reflexivity).
  rewrite forallb_forall in A. specialize (A _ Hin). cbn [fst] in A. rewrite Hp in A. cbn in A. now apply negb_true_iff in A.
Qed.
Lemma no_from_mark n o s xs s' : In n ["w:ins"; "w:del"]%string -> BuildModel.b_opt_mark n o s = Some (xs, s') -> VocabProofs.every no_from xs.
Proof.
  intros Hn H. destruct (b_opt_mark_out _ _ _ _ _ H) as [i ->]. cbn in Hn. decompose [or] Hn; subst; try contradiction;
    (apply VocabProofs.every_opt; intros; apply VocabProofs.every_leaf; reflexivity).
Qed.
Lemma no_from_rpr r s xs s' : BuildModel.b_rpr r s = Some (xs, s') -> VocabProofs.every no_from xs.
Proof.
  unfold BuildModel.b_rpr. intros H. apply BuildProofs.bind_inv in H as (i & s1 & Hi & H). apply BuildProofs.bind_inv in H as (d & s2 & Hd & H).
  injection H as <- <-. apply VocabProofs.every_E; [reflexivity|]. rewrite !VocabProofs.every_app.
  split; [exact (VocabProofs.every_rpr_before _ no_from_known r)|].
  split; [eapply no_from_mark; [|exact Hi]; cbn; auto|]. split; [eapply no_from_mark; [|exact Hd]; cbn; auto|].
  exact (VocabProofs.every_rpr_after _ no_from_known r).
Qed.
Lemma no_from_in_run n s xs s' : kept_in_run n = true -> BuildModel.b_node n s = Some (xs, s') -> VocabProofs.every no_from xs.
Proof.
  intros Hk H. destruct n; try discriminate Hk; cbn [BuildModel.b_node BuildModel.b_leaf] in H; try discriminate H;
    try (injection H as <- <-; unfold BuildModel.x_ptab, BuildModel.x_shading; pieces reflexivity; fail).
  - injection H as <- <-. exact (VocabProofs.every_drawing _ no_from_known p).
  - destruct i; cbn [BuildModel.b_instr] in H; try discriminate H; injection H as <- <-; pieces reflexivity.
  - destruct i; cbn [BuildModel.b_instr] in H; try discriminate H; injection H as <- <-; pieces reflexivity.
Qed.
Lemma each_every (P : xml -> Prop) l : (forall n, In n l -> forall s xs s', BuildModel.b_node n s = Some (xs, s') -> VocabProofs.every P xs) ->
  forall s xs s', BuildModel.each BuildModel.b_node l s = Some (xs, s') -> VocabProofs.every P xs.
Proof.
  induction l as [|n l IH]; intros Hn s xs s' H.
  - injection H as <- <-. apply VocabProofs.every_nil.
  - cbn [BuildModel.each] in H. apply BuildProofs.bind_inv in H as (x & s1 & H1 & H). apply BuildProofs.bind_inv in H as (y & s2 & H2 & H).
    injection H as <- <-. apply VocabProofs.every_app. split; [eapply Hn; [now left | exact H1]|].
    eapply IH; [|exact H2]. intros m Hm. apply Hn. now right.
Qed.
Lemma no_from_in_del n s xs s' : kept InDel n = true -> BuildModel.b_node n s = Some (xs, s') -> VocabProofs.every no_from xs.
Proof.
  intros Hk H. destruct n; try discriminate Hk; cbn [BuildModel.b_node BuildModel.b_leaf] in H.
  - unfold BuildModel.b_run in H. apply BuildProofs.bind_inv in H as (r & s1 & H1 & H). apply BuildProofs.bind_inv in H as (c & s2 & H2 & H).
    injection H as <- <-. apply VocabProofs.every_E; [reflexivity|]. apply VocabProofs.every_app. split; [eapply no_from_rpr, H1|].
    eapply each_every; [|exact H2]. intros m Hm. cbn [kept] in Hk. rewrite forallb_forall in Hk. intros. eapply no_from_in_run; [|eassumption]. now apply Hk.
  - injection H as <- <-. pieces reflexivity.
  - injection H as <- <-. pieces reflexivity.
Qed.
Lemma no_from_in_dels l s xs s' : forallb (kept InDel) l = true -> BuildModel.each BuildModel.b_node l s = Some (xs, s') -> VocabProofs.every no_from xs.
Proof.
  intros Hk H. eapply each_every; [|exact H]. rewrite forallb_forall in Hk. intros. eapply no_from_in_del; [|eassumption]. now apply Hk.
Qed.

(** ** Containers *)
Lemma tree_ins k ev ns atts : ate LIns k ev ns ->
  reads k (fun d => s_ins (readers d) atts) (ev ++ [EEnd (split_qname "w:ins")]) (read_mark atts, ns).
Proof. intros H. now apply (ate_deep LIns _ (fun ch => (read_mark atts, ch)) k _ [] ev ns). Qed.
Lemma tree_to k ev ns atts : ate LTo k ev ns ->
  reads k (fun d => s_to (readers d) atts) (ev ++ [EEnd (split_qname "w:moveTo")]) (read_mark atts, ns).
Proof. intros H. now apply (ate_deep LTo _ (fun ch => (read_mark atts, ch)) k _ [] ev ns). Qed.
Lemma tree_del k ev ns atts : ate LDel k ev ns ->
  reads k (fun d => s_del (readers d) atts) (ev ++ [EEnd (split_qname "w:del")]) (read_mark atts, ns).
Proof. intros H. now apply (ate_deep LDel _ (fun ch => (read_mark atts, ch)) k _ [] ev ns). Qed.
Lemma tree_from k ev ns atts : ate LFrom k ev ns ->
  reads k (fun d => s_from (readers d) atts) (ev ++ [EEnd (split_qname "w:moveFrom")]) (read_mark atts, ns).
Proof. intros H. now apply (ate_deep LFrom _ (fun ch => (read_mark atts, ch)) k _ [] ev ns). Qed.
Lemma tree_link k ev ns l h : all_of is_usize h -> ate LLink k ev ns ->
  reads k (fun d => s_link (readers d) (meant (BuildModel.link_attrs l h))) (ev ++ [EEnd (split_qname "w:hyperlink")])
        (NLink (reread_link l) (Some (match h with Some n => n | None => 1%N end)) ns).
Proof.
  intros Hh H. set (fin := fun ch : list node =>
    NLink (match attr_get "anchor" (meant (BuildModel.link_attrs l h)) with
           | Some a => Anchor a
           | None => External (match attr_get "id" (meant (BuildModel.link_attrs l h)) with Some i => i | None => "" end) ""
           end)
          (match attr_get "history" (meant (BuildModel.link_attrs l h)) with
           | Some h => Some (match parse_usize h with Some n => n | None => 1%N end)
           | None => None
           end) ch).
  assert (Hf : fin ns = NLink (reread_link l) (Some (match h with Some n => n | None => 1%N end)) ns).
  { unfold fin, BuildModel.link_attrs. destruct l as [r t|a]; destruct h as [n|]; cbn [all_of] in Hh; cbn [reread_link]; fin. }
  rewrite <- Hf. now apply (ate_deep LLink _ fin k _ [] ev ns).
Qed.
Lemma tree_sdt k ev ns : ate LSdt k ev ns ->
  reads k (fun d => s_sdt (readers d)) (ev ++ [EEnd (split_qname "w:sdt")]) (NSdt sdtpr_empty false ns).
Proof. intros H. now apply (ate_deep LSdt _ (fun ch => NSdt sdtpr_empty false ch) k _ [] ev ns). Qed.
Definition pa_fin (atts : list attribute) (fresh : string) (p : para_state) : node :=
  NPara (match attr_get "paraId" atts with Some id => id | None => fresh end) (pa_prop p) (pa_numbering p) (pa_children p).
Lemma para_loop d atts ev c : (c + 1 < two32)%N -> read_para (readers d) atts (st ev c) =
  F "p" pa_start (pa_fin atts (pad0 8 (show_hex c))) d {| pa_prop := ppr_empty; pa_numbering := false; pa_children := [] |} (st ev (c + 1)%N).
Proof.
  intros H. assert (X : fresh_para (st ev c) = Val (pad0 8 (show_hex c)) (st ev (c + 1)%N)).
  { unfold fresh_para, IdsModel.gen_para. cbn [st rs_para rs_events]. change IdsModel.two32 with two32.
    now replace (c + 1 <? two32)%N with true by (symmetry; apply N.ltb_lt; lia). }
  unfold read_para. unfold bind at 1. rewrite X. reflexivity.
Qed.
Lemma tree_para k p s x s' ev ns id : fits_ppr p -> BuildModel.b_ppr p s = Some (x, s') -> ate LPara k ev ns ->
  reads (1 + k) (fun d => s_para (readers d) (meant [("w14:paraId", id)]%string)) ((xml_events x ++ ev) ++ [EEnd (split_qname "w:p")])
        (NPara (seen id) (reread_ppr p) (match p_numbering (base_of p) with Some _ => true | None => false end) ns).
Proof.
  intros Hf Hb H. destruct (reads_ppr p s x s' Hf Hb) as (ch & -> & Hr).
  assert (X : forall B (fin : para_state -> B), eats (F "p" pa_start fin) k {| pa_prop := ppr_empty; pa_numbering := false; pa_children := [] |}
            (xml_events [E "w:pPr" [] ch] ++ ev)
            {| pa_prop := reread_ppr p; pa_numbering := match p_numbering (base_of p) with Some _ => true | None => false end; pa_children := ns |}).
  { intros B fin. rewrite <- (N.add_0_l k). eapply eats_app.
    - rewrite xml_events_cons. change (xml_events []) with (@nil event). rewrite app_nil_r.
      apply (loops_sub LPara _ (F_looping LPara B fin eq_refl)). fold (xml_events ch).
      instantiate (1 := {| pa_prop := reread_ppr p; pa_numbering := match p_numbering (base_of p) with Some _ => true | None => false end; pa_children := [] |}).
      intros d l c Ld Kd. pose proof (Hr d l c Ld Kd) as Y.
      match type of Y with _ ?s2 = _ => match goal with |- _ ?s1 = _ => change s1 with s2 end; revert Y; generalize s2 end. intros s0.
      replace (match p_numbering (base_of p) with Some _ => true | None => false end)
         with (match p_numbering (base_of (reread_ppr p)) with Some _ => true | None => false end) by (destruct p; reflexivity).
      generalize (reread_ppr p). intros rp.
      cbn [starts]. unfold pa_start. go. intros Y. rewrite Y. reflexivity.
    - apply (H B _ (F_looping LPara B fin eq_refl)). }
  intros d l c Ld Kd. rewrite app_length in Ld. cbn [length] in Ld. destruct d as [|d]; [lia|].
  cbn [readers next_subs s_para]. rewrite para_loop by lia. rewrite N.add_assoc.
  apply (elem_whole "p" pa_start (pa_fin (meant [("w14:paraId", id)]%string) (pad0 8 (show_hex c))) (starts_shape LPara) k _ _ _
           (split_qname "w:p") eq_refl (X _ _)); lia.
Qed.
Lemma tree_cell k q ev ns : fits_tcpr q -> ate LCell k ev ns ->
  reads k (fun d => s_cell (readers d)) ((events_of_xml (BuildModel.x_tcpr q) ++ ev) ++ [EEnd (split_qname "w:tc")])
        (NCell (reread_tcpr q) (existsb numbered ns) ns).
Proof.
  intros Hf H. set (fin := fun c => NCell (ce_prop c) (ce_numbering c) (ce_children c)).
  apply (reads_deep "tc" ce_start fin (starts_shape LCell) k _ {| ce_prop := tcpr_empty; ce_numbering := false; ce_children := [] |} _
           {| ce_prop := reread_tcpr q; ce_numbering := existsb numbered ns; ce_children := ns |}); [reflexivity | reflexivity |].
  rewrite <- (N.add_0_l k). eapply eats_app; [|apply (H _ _ (F_looping LCell node fin eq_refl) {| ce_prop := reread_tcpr q; ce_numbering := false; ce_children := [] |})].
  pose proof (reads_tcpr q Hf) as Hr. unfold BuildModel.x_tcpr in *. cbn [ch_of] in Hr. cbn [events_of_xml].
  apply (loops_sub LCell _ (F_looping LCell node fin eq_refl)).
  intros d l c Ld Kd. pose proof (Hr d l c Ld Kd) as Y.
  match type of Y with _ ?s2 = _ => match goal with |- _ ?s1 = _ => change s1 with s2 end; revert Y; generalize s2 end. intros s0.
  generalize (reread_tcpr q). intros rq. cbn [starts]. unfold ce_start. go. intros Y. rewrite Y. reflexivity.
Qed.
Lemma tree_row k q s x s' ev ns : fits_trpr q -> BuildModel.b_trpr q s = Some (x, s') -> ate LRow k ev ns ->
  reads k (fun d => s_row (readers d)) ((xml_events x ++ ev) ++ [EEnd (split_qname "w:tr")])
        (NRow (reread_trpr q) (existsb numbered ns) ns).
Proof.
  intros Hf Hb H.
  apply (reads_deep "tr" ro_start ro_fin (starts_shape LRow) k _ {| ro_prop := trpr_empty; ro_cells := [] |} _
           {| ro_prop := reread_trpr q; ro_cells := ns |}); [reflexivity | reflexivity |].
  rewrite <- (N.add_0_l k). eapply eats_app; [eapply eats_trpr; eassumption|].
  apply (H _ _ (F_looping LRow node ro_fin eq_refl)).
Qed.
Lemma tree_table k q g ev ns : fits_tblpr q -> Forall small g -> ate LTable k ev ns ->
  reads k (fun d => s_table (readers d))
    ((events_of_xml (BuildModel.x_tblpr q) ++
      events_of_xml (E "w:tblGrid" [] (map (fun w => BuildModel.x_width "w:gridCol" (BuildModel.as_i32 w) WidthType_Dxa) g)) ++ ev) ++ [EEnd (split_qname "w:tbl")])
    (NTable (reread_tblpr q) g false ns).
Proof.
  intros Hf Hg H. set (fin := fun t => NTable (ta_prop t) (ta_grid t) false (ta_rows t)).
  apply (reads_deep "tbl" ta_start fin (starts_shape LTable) k _
           {| ta_prop := set_tpr_borders tborders_empty tblpr_default; ta_grid := []; ta_rows := [] |} _
           {| ta_prop := reread_tblpr q; ta_grid := g; ta_rows := ns |}); [reflexivity | reflexivity |].
  assert (HL := F_looping LTable node fin eq_refl).
  rewrite <- (N.add_0_l k). eapply eats_app; [|rewrite <- (N.add_0_l k); eapply eats_app; [|apply (H _ _ HL {| ta_prop := reread_tblpr q; ta_grid := g; ta_rows := [] |})]].
  - pose proof (reads_tblpr q Hf) as Hr. unfold BuildModel.x_tblpr in *. cbn [ch_of] in Hr. cbn [events_of_xml].
    instantiate (1 := {| ta_prop := reread_tblpr q; ta_grid := []; ta_rows := [] |}).
    apply (loops_sub LTable _ HL).
    intros d l c Ld Kd. pose proof (Hr d l c Ld Kd) as Y.
    match type of Y with _ ?s2 = _ => match goal with |- _ ?s1 = _ => change s1 with s2 end; revert Y; generalize s2 end. intros s0.
    generalize (reread_tblpr q). intros rq. cbn [starts]. unfold ta_start. go. cbv [ta_with]. intros Y. rewrite Y. reflexivity.
  - cbn [events_of_xml].
    apply (loops_through LTable _ HL _ _ _ _ _ {| ta_prop := reread_tblpr q; ta_grid := []; ta_rows := [] |}); [reflexivity | intros; cbn [starts]; unfold ta_start; go; reflexivity |].
    change g with ([] ++ g) at 2. generalize (@nil N). induction g as [|w g IH]; intros g0.
    + rewrite app_nil_r. apply eats_nil.
    + inversion Hg as [|? ? Hw Hg']; subst. cbn [map flat_map]. replace (g0 ++ w :: g) with ((g0 ++ [w]) ++ g) by (now rewrite <- app_assoc).
      eapply eats_app0; [|apply IH, Hg']. unfold BuildModel.x_width. rewrite events_leaf. unfold ev_leaf.
      apply (loops_leaf LTable _ HL); [reflexivity|]. intros d l c. cbn [starts]. unfold ta_start.
      assert (Hi : is_i32 (Z.of_N w)) by now apply small_i32.
      pose proof (width_meant "w:gridCol" (Z.of_N w) WidthType_Dxa (st l c) Hi) as Y.
      rewrite as_i32_small by exact Hw. unfold BuildModel.x_width, atts_of, leaf in Y. revert Y.
      generalize (meant [("w:w", show_Z (Z.of_N w)); ("w:type", show_WidthType WidthType_Dxa)]%string). intros m Y.
      generalize (reread_tblpr q). intros rq. revert Y. go. intros Y. rewrite Y. cbv [fst]. rewrite wrap_usize_N; [reflexivity|]. ranges. lia.
Qed.

(** ** The tree *)
Definition good (n : node) : Prop := forall p s xs s', kept (place_of p) n = true -> fits n ->
  BuildModel.b_node n s = Some (xs, s') -> ate p (paras n) (xml_events xs) (reread (place_of p) n).
Lemma ate_each p l : Forall good l -> forall s xs s', forallb (kept (place_of p)) l = true -> Forall fits l ->
  BuildModel.each BuildModel.b_node l s = Some (xs, s') ->
  ate p (sumN paras l) (xml_events xs) (flat_map (reread (place_of p)) l).
Proof.
  induction l as [|n l IH]; intros Hg s xs s' Hk Hf H.
  - injection H as <- <-. apply ate_nil.
  - cbn [forallb] in Hk. apply andb_true_iff in Hk as [Hk Hks]. inversion Hf as [|? ? Hn Hl]; subst. inversion Hg as [|? ? Gn Gl]; subst.
    cbn [BuildModel.each] in H. apply BuildProofs.bind_inv in H as (x & s1 & H1 & H). apply BuildProofs.bind_inv in H as (y & s2 & H2 & H).
    injection H as <- <-. rewrite xml_events_app. cbn [flat_map sumN fold_right].
    apply ate_app; [eapply Gn; eassumption | eapply IH; eassumption].
Qed.
Lemma fits_run ch r : fits (NRun r ch) -> fits_rpr r /\ Forall fits_in_run ch.
Proof.
  intros H. unfold fits in H. cbn [all_nodes] in H. inversion H as [|? ? H1 H2]; subst. split; [exact H1|].
  apply Forall_forall. intros n Hn. rewrite Forall_forall in H2.
  assert (Hh : exists tl, all_nodes n = n :: tl) by (destruct n; eexists; reflexivity). destruct Hh as [tl Htl].
  assert (X : fits_node n) by (apply H2, in_flat_map; exists n; split; [exact Hn | rewrite Htl; now left]).
  destruct n; try exact I. exact X.
Qed.
Lemma one_xml (x : xml) : xml_events [x] = events_of_xml x.
Proof. rewrite xml_events_cons. apply app_nil_r. Qed.
Lemma good_run p r ch s xs s' : one_of p [LPara; LLink; LIns; LTo; LDel; LFrom; LSdt] -> forallb kept_in_run ch = true -> fits (NRun r ch) ->
  BuildModel.b_node (NRun r ch) s = Some (xs, s') -> ate p 0 (xml_events xs) [NRun (reread_rpr r) (flat_map reread_in_run ch)].
Proof.
  intros Hp Hk Hf H. apply fits_run in Hf as [Hr Hch]. destruct (reads_run r ch s xs s' Hk Hch Hr H) as (inner & -> & X).
  rewrite one_xml. cbn [events_of_xml]. apply ate_run; assumption.
Qed.
Lemma good_page p i s xs s' : one_of p [LPara; LLink] -> In i [IPAGE; INUMPAGES] ->
  BuildModel.b_simple_run (BuildModel.page_field i) s = Some (xs, s') -> ate p 0 (xml_events xs) [page_run i].
Proof.
  intros Hp Hi H. change (BuildModel.b_simple_run (BuildModel.page_field i)) with (BuildModel.b_node (NRun rpr_empty (BuildModel.page_field i))) in H.
  apply (good_run p rpr_empty (BuildModel.page_field i) s xs s'); try assumption.
  - cbn in *; tauto.
  - cbn in Hi. destruct Hi as [<- | [<- | []]]; reflexivity.
  - unfold fits. cbn [all_nodes BuildModel.page_field flat_map app]. repeat (apply Forall_cons; [exact I || (cbn; unfold fits_rpr; cbn; auto) |]). constructor.
Qed.
Lemma empty_run p atts ev : one_of p [LPara; LLink; LIns; LTo; LDel; LFrom; LSdt] ->
  eats runF 0 (rn rpr_empty []) ev (rn rpr_empty []) -> ate p 0 (EStart (split_qname "w:r") atts :: ev ++ [EEnd (split_qname "w:r")]) [NRun rpr_empty []].
Proof. intros Hp H. apply ate_run; [exact Hp|]. now apply runF_whole. Qed.
Lemma good_comment_end p id s xs s' : one_of p [LPara; LLink; LIns; LTo; LDel; LFrom; LSdt] -> is_usize id ->
  BuildModel.b_node (NCommentEnd id) s = Some (xs, s') -> ate p 0 (xml_events xs) [NRun rpr_empty []; NCommentEnd id; NRun rpr_empty []].
Proof.
  intros Hp Hid H. cbn [BuildModel.b_node BuildModel.b_leaf] in H. injection H as <- <-.
  rewrite !xml_events_cons. change (xml_events []) with (@nil event). rewrite app_nil_r.
  apply (ate_app0 p _ _ [_] [_; _]); [|apply (ate_app0 p _ _ [_] [_])].
  - cbn [events_of_xml flat_map]. rewrite app_nil_r. apply empty_run; [exact Hp|].
    change (EStart (split_qname "w:rPr") (meant []) :: [] ++ [EEnd (split_qname "w:rPr")]) with (events_of_xml (E "w:rPr" [] [])).
    apply run_sub; [reflexivity|]. intros d l c Ld Kd. destruct d as [|d]; [cbn in Ld; lia|]. unfold run_start. 
    assert (X : reads 0 (fun d => s_rpr (readers d)) ([] ++ [EEnd (split_qname "w:rPr")]) rpr_empty).
    { apply (reads_deep "rPr" rpr_start (fun p => p) rpr_shape 0 _ rpr_empty); [reflexivity | reflexivity | apply eats_nil]. }
    pose proof (X (S d) l c Ld Kd) as Y.
    match type of Y with _ ?s2 = _ => match goal with |- _ ?s1 = _ => change s1 with s2 end; revert Y; generalize s2 end. intros s0.
    go. intros Y. rewrite Y. reflexivity.
  - rewrite events_leaf. apply ate_comment_end; [|exact Hid]. cbn in *; tauto.
  - cbn [events_of_xml flat_map]. rewrite app_nil_r. apply empty_run; [exact Hp|].
    apply run_leaf; [reflexivity | reflexivity |]. intros d l c. unfold run_start. go. reflexivity.
Qed.
Lemma good_comment_end_doc id s xs s' : is_usize id ->
  BuildModel.b_node (NCommentEnd id) s = Some (xs, s') -> ate LDoc 0 (xml_events xs) [NCommentEnd id].
Proof.
  intros Hid H. cbn [BuildModel.b_node BuildModel.b_leaf] in H. injection H as <- <-.
  rewrite !xml_events_cons. change (xml_events []) with (@nil event). rewrite app_nil_r.
  apply (ate_app0 LDoc _ _ [] [_]); [|apply (ate_app0 LDoc _ _ [_] [])].
  - apply ate_passed. cbn [BuildSpec.elements flat_map app]. repeat (constructor; [pass|]). constructor.
  - rewrite events_leaf. apply ate_comment_end; [|exact Hid]. cbn in *; tauto.
  - apply ate_passed. cbn [BuildSpec.elements flat_map app]. repeat (constructor; [pass|]). constructor.
Qed.
(** Tags. *)
Lemma ate_rpr p r s xs s' : one_of p [LSdt; LPara; LLink] -> BuildModel.b_rpr r s = Some (xs, s') ->
  ate p 0 (xml_events xs) (match p with LSdt => [] | _ =>
     opt (fun m => NIns (reread_mark m) []) (r_ins r) ++ opt (fun m => NDel (reread_mark m) []) (r_del r) end).
Proof.
  intros Hp H. unfold BuildModel.b_rpr in H. apply BuildProofs.bind_inv in H as (i & s1 & Hi & H). apply BuildProofs.bind_inv in H as (d & s2 & Hd & H).
  injection H as <- <-. rewrite one_xml. cbn [events_of_xml].
  destruct (b_opt_mark_out _ _ _ _ _ Hi) as [ii ->]. destruct (b_opt_mark_out _ _ _ _ _ Hd) as [id ->].
  destruct (passed_rpr p r Hp) as [Pb Pa]. apply ate_passed_all in Pb, Pa.
  apply ate_through.
  - revert Hp. places; reflexivity.
  - revert Hp. places; cbn [starts]; opened; go; reflexivity.
  - fold (xml_events (BuildModel.rpr_before r ++ opt (fun m => leaf "w:ins" [("w:id", ii); ("w:author", m_author m); ("w:date", m_date m)]%string) (r_ins r) ++
      opt (fun m => leaf "w:del" [("w:id", id); ("w:author", m_author m); ("w:date", m_date m)]%string) (r_del r) ++ BuildModel.rpr_after r)).
    rewrite !xml_events_app. apply (ate_app0 p _ _ [] _ Pb).
    destruct (r_ins r) as [mi|], (r_del r) as [md|]; cbn [opt]; rewrite ?one_xml; change (xml_events []) with (@nil event); cbn [app];
      revert Hp Pa; clear; places; cbn [app opt];
      repeat match goal with
      | Pa : ate ?p 0 ?e [], H : _ |- ate ?p 0 ?e [] => exact Pa
      | Pa : ate ?p 0 ?e [] |- ate ?p 0 ?e [] => exact Pa
      | |- ate LSdt 0 (events_of_xml _ ++ _) [] => apply (ate_app0 LSdt _ _ [] []); [apply ate_passed; constructor; [pass | constructor]|]
      | |- ate ?p 0 (events_of_xml _ ++ _) [?a; ?b] => apply (ate_app0 p _ _ [a] [b])
      | |- ate ?p 0 (events_of_xml _ ++ _) [?a] => rewrite <- (app_nil_r [a]); apply (ate_app0 p _ _ [a] [])
      | |- ate ?p 0 (events_of_xml (leaf "w:ins" _)) _ => apply ate_ins; [cbn; tauto | apply reads_bare_ins]
      | |- ate ?p 0 (events_of_xml (leaf "w:del" _)) _ => apply ate_del; [cbn; tauto | apply reads_bare_del]
      end.
Qed.
Lemma ate_sdtpr p q s xs s' : one_of p [LSdt; LPara; LLink] -> BuildModel.b_sdtpr q s = Some (xs, s') ->
  ate p 0 (xml_events xs) (match p with LSdt => [] | _ =>
     opt (fun m => NIns (reread_mark m) []) (r_ins (sd_rpr q)) ++ opt (fun m => NDel (reread_mark m) []) (r_del (sd_rpr q)) end).
Proof.
  intros Hp H. unfold BuildModel.b_sdtpr in H. apply BuildProofs.bind_inv in H as (r & s1 & Hr & H). injection H as <- <-.
  rewrite one_xml. cbn [events_of_xml]. apply ate_through.
  - revert Hp. places; reflexivity.
  - revert Hp. places; cbn [starts]; opened; go; reflexivity.
  - fold (xml_events (r ++ opt BuildModel.x_binding (sd_binding q) ++ opt (valued "w:alias") (sd_alias q))).
    rewrite xml_events_app. match goal with |- ate _ _ _ ?l => rewrite <- (app_nil_r l) end.
    apply ate_app0; [eapply ate_rpr; eassumption | apply ate_passed_all, passed_sdt, Hp].
Qed.
Lemma ate_content p k c ns : one_of p [LSdt; LPara; LLink] -> ate p k (xml_events c) ns -> ate p k (xml_events [E "w:sdtContent" [] c]) ns.
Proof.
  intros Hp H. rewrite one_xml. cbn [events_of_xml]. apply ate_through; [| |exact H].
  - revert Hp. places; reflexivity.
  - revert Hp. places; cbn [starts]; opened; go; reflexivity.
Qed.
Theorem all_good : forall n, good n.
Proof.
  refine (node_tree_ind _ _). intros n IH p s xs s' Hk Hf H.
  assert (Fc : Forall fits (children n)) by exact (VocabProofs.all_q_children fits_node n Hf).
  assert (Fn : fits_node n).
  { unfold fits in Hf. assert (Hh : exists tl, all_nodes n = n :: tl) by (destruct n; eexists; reflexivity). destruct Hh as [tl Htl].
    rewrite Htl in Hf. now inversion Hf. }
  destruct n; try (destruct p; discriminate Hk); cbn [children] in IH, Fc; cbn [fits_node] in Fn; cbn [paras].
  - (* run *)
    assert (Hp : one_of p [LPara; LLink; LIns; LTo; LDel; LFrom; LSdt]) by (destruct p; try discriminate Hk; cbn; tauto).
    assert (Hk' : forallb kept_in_run ch = true) by (destruct p; try discriminate Hk; exact Hk).
    exact (good_run p p0 ch s xs s' Hp Hk' Hf H).
  - (* start of a comment *)
    cbn [BuildModel.b_node BuildModel.b_leaf] in H. injection H as <- <-. rewrite one_xml, events_leaf. cbn [reread].
    apply ate_comment_start; [|exact Fn]. destruct p; try discriminate Hk; cbn; tauto.
  - (* end of a comment *)
    destruct p; try discriminate Hk; cbn [reread place_of];
      first [exact (good_comment_end_doc id s xs s' Fn H) | apply (good_comment_end _ id s xs s'); [cbn; tauto | exact Fn | exact H]].
  - cbn [BuildModel.b_node BuildModel.b_leaf] in H. injection H as <- <-. rewrite one_xml, events_leaf. cbn [reread].
    apply ate_bookmark_start; [|exact Fn]. destruct p; try discriminate Hk; cbn; tauto.
  - cbn [BuildModel.b_node BuildModel.b_leaf] in H. injection H as <- <-. rewrite one_xml, events_leaf. cbn [reread].
    apply ate_bookmark_end; [|exact Fn]. destruct p; try discriminate Hk; cbn; tauto.
  - (* insertion *)
    cbn [BuildModel.b_node] in H. cbn [reread].
    assert (Hp : one_of p [LPara; LLink]) by (destruct p; try discriminate Hk; cbn; tauto).
    assert (Hk' : forallb (kept (place_of LIns)) ch = true) by (destruct p; try discriminate Hk; exact Hk).
    unfold BuildModel.b_tracked in H. apply BuildProofs.bind_inv in H as (i & s1 & _ & H). apply BuildProofs.bind_inv in H as (c & s2 & Hc & H).
    injection H as <- <-. rewrite one_xml. cbn [events_of_xml]. apply ate_ins; [exact Hp|]. rewrite <- (mark_meant i). apply tree_ins.
    exact (ate_each LIns _ IH _ _ _ Hk' Fc Hc).
  - (* deletion *)
    cbn [BuildModel.b_node] in H. cbn [reread].
    assert (Hp : one_of p [LPara; LLink; LIns; LTo]) by (destruct p; try discriminate Hk; cbn; tauto).
    assert (Hk' : forallb (kept (place_of LDel)) ch = true) by (destruct p; try discriminate Hk; exact Hk).
    unfold BuildModel.b_tracked in H. apply BuildProofs.bind_inv in H as (i & s1 & _ & H). apply BuildProofs.bind_inv in H as (c & s2 & Hc & H).
    injection H as <- <-. rewrite one_xml. cbn [events_of_xml]. apply ate_del; [exact Hp|]. rewrite <- (mark_meant i). apply tree_del.
    exact (ate_each LDel _ IH _ _ _ Hk' Fc Hc).
  - (* moved away *)
    cbn [BuildModel.b_node] in H. cbn [reread].
    assert (Hk' : forallb (kept InDel) ch = true) by (destruct p; try discriminate Hk; exact Hk).
    unfold BuildModel.b_tracked in H. apply BuildProofs.bind_inv in H as (i & s1 & _ & H). apply BuildProofs.bind_inv in H as (c & s2 & Hc & H).
    injection H as <- <-. rewrite one_xml. cbn [events_of_xml]. destruct p; try discriminate Hk; cbn [place_of].
    + apply ate_from; [cbn; tauto|]. rewrite <- (mark_meant i). apply tree_from. exact (ate_each LFrom _ IH _ _ _ Hk' Fc Hc).
    + rewrite (paras_in_dels ch Hk'). apply ate_moved. apply reads_ignore; [|reflexivity].
      apply calm_all. exact (no_from_in_dels ch _ _ _ Hk' Hc).
  - (* moved here *)
    cbn [BuildModel.b_node] in H. cbn [reread].
    unfold BuildModel.b_tracked in H. apply BuildProofs.bind_inv in H as (i & s1 & _ & H). apply BuildProofs.bind_inv in H as (c & s2 & Hc & H).
    injection H as <- <-. rewrite one_xml. cbn [events_of_xml]. destruct p; try discriminate Hk; cbn [place_of].
    + apply ate_to; [cbn; tauto|]. rewrite <- (mark_meant i). apply tree_to. exact (ate_each LTo _ IH _ _ _ Hk Fc Hc).
    + apply ate_through; [reflexivity | intros; cbn [starts]; opened; go; reflexivity |]. exact (ate_each LLink _ IH _ _ _ Hk Fc Hc).
  - (* link *)
    cbn [BuildModel.b_node] in H. cbn [reread]. destruct p; try discriminate Hk.
    unfold BuildModel.b_link in H. apply BuildProofs.bind_inv in H as (c & s2 & Hc & H). injection H as <- <-. rewrite one_xml. cbn [events_of_xml].
    apply ate_link; [cbn; tauto|]. apply tree_link; [exact Fn|]. exact (ate_each LLink _ IH _ _ _ Hk Fc Hc).
  - (* tag *)
    cbn [BuildModel.b_node] in H. apply BuildProofs.bind_inv in H as (r & s1 & Hr & H). apply BuildProofs.bind_inv in H as (c & s2 & Hc & H).
    injection H as <- <-. rewrite one_xml. cbn [events_of_xml]. fold (xml_events (r ++ [E "w:sdtContent" [] c])). rewrite xml_events_app.
    destruct p; try discriminate Hk; cbn [reread place_of].
    + apply ate_sdt; [cbn; tauto|]. apply tree_sdt. apply (ate_app LSdt 0 _ _ _ [] _); [eapply (ate_sdtpr LSdt); [cbn; tauto | exact Hr]|].
      apply ate_content; [cbn; tauto|]. exact (ate_each LSdt _ IH _ _ _ Hk Fc Hc).
    + apply ate_sdt; [cbn; tauto|]. apply tree_sdt. apply (ate_app LSdt 0 _ _ _ [] _); [eapply (ate_sdtpr LSdt); [cbn; tauto | exact Hr]|].
      apply ate_content; [cbn; tauto|]. exact (ate_each LSdt _ IH _ _ _ Hk Fc Hc).
    + apply ate_sdt; [cbn; tauto|]. apply tree_sdt. apply (ate_app LSdt 0 _ _ _ [] _); [eapply (ate_sdtpr LSdt); [cbn; tauto | exact Hr]|].
      apply ate_content; [cbn; tauto|]. exact (ate_each LSdt _ IH _ _ _ Hk Fc Hc).
    + apply ate_through; [reflexivity | intros; cbn [starts]; opened; go; reflexivity |]. rewrite app_assoc.
      apply (ate_app LPara 0); [eapply (ate_sdtpr LPara); [cbn; tauto | exact Hr]|].
      apply ate_content; [cbn; tauto|]. exact (ate_each LPara _ IH _ _ _ Hk Fc Hc).
    + apply ate_through; [reflexivity | intros; cbn [starts]; opened; go; reflexivity |]. rewrite app_assoc.
      apply (ate_app LLink 0); [eapply (ate_sdtpr LLink); [cbn; tauto | exact Hr]|].
      apply ate_content; [cbn; tauto|]. exact (ate_each LLink _ IH _ _ _ Hk Fc Hc).
  - destruct p; try discriminate Hk; apply (good_page _ IPAGE s xs s'); (exact H || (cbn; tauto)).
  - destruct p; try discriminate Hk; apply (good_page _ INUMPAGES s xs s'); (exact H || (cbn; tauto)).
  - (* paragraph *)
    cbn [BuildModel.b_node] in H. unfold BuildModel.b_para in H. apply BuildProofs.bind_inv in H as (r & s1 & Hr & H).
    apply BuildProofs.bind_inv in H as (c & s2 & Hc & H). injection H as <- <-. rewrite one_xml. cbn [events_of_xml reread].
    fold (xml_events (r ++ c)). rewrite xml_events_app.
    assert (Hp : one_of p [LDoc; LHeader; LCell; LSdt; LComment]) by (destruct p; try discriminate Hk; cbn; tauto).
    assert (Hk' : forallb (kept (place_of LPara)) ch = true) by (destruct p; try discriminate Hk; exact Hk).
    apply ate_para; [exact Hp|]. eapply tree_para; [exact Fn | exact Hr |]. exact (ate_each LPara _ IH _ _ _ Hk' Fc Hc).
  - (* table *)
    cbn [BuildModel.b_node] in H. apply BuildProofs.bind_inv in H as (c & s2 & Hc & H). injection H as <- <-. rewrite one_xml. cbn [reread].
    destruct Fn as [Fq Fg].
    assert (Hp : one_of p [LDoc; LHeader; LCell; LSdt]) by (destruct p; try discriminate Hk; cbn; tauto).
    assert (Hk' : forallb (kept (place_of LTable)) rows = true) by (destruct p; try discriminate Hk; exact Hk).
    pose proof (tree_table _ p0 grid _ _ Fq Fg (ate_each LTable _ IH _ _ _ Hk' Fc Hc)) as X.
    apply (ate_table p (meant []) _ _ _ _ _ _ Hp) in X.
    cbn [events_of_xml flat_map] in X |- *. fold (xml_events c). rewrite <- !app_assoc in *. exact X.
  - (* row *)
    destruct p; try discriminate Hk. cbn [reread place_of].
    cbn [BuildModel.b_node] in H. apply BuildProofs.bind_inv in H as (r & s1 & Hr & H). apply BuildProofs.bind_inv in H as (c & s2 & Hc & H).
    injection H as <- <-. rewrite one_xml. cbn [events_of_xml]. fold (xml_events (r ++ c)). rewrite xml_events_app.
    apply ate_row. eapply tree_row; [exact Fn | exact Hr |]. exact (ate_each LRow _ IH _ _ _ Hk Fc Hc).
  - (* cell *)
    destruct p; try discriminate Hk. cbn [reread place_of].
    assert (Hk' : forallb (kept (place_of LCell)) ch = true) by (destruct ch as [|c1 [|c2 ch]]; [discriminate Hk | destruct c1; try discriminate Hk; exact Hk | destruct c1; exact Hk]).
    assert (He : exists c, BuildModel.each BuildModel.b_node ch s = Some (c, s') /\ xs = [E "w:tc" [] (BuildModel.x_tcpr p0 :: c)]).
    { cbn [BuildModel.b_node] in H. apply BuildProofs.bind_inv in H as (c & s1 & Hc & H). apply BuildProofs.bind_inv in H as (e & s2 & He & H).
      injection H as <- <-. exists c.
      assert (X : e = [] /\ s2 = s1).
      { destruct ch as [|c1 [|c2 ch]]; [discriminate Hk | destruct c1; try discriminate Hk; now injection He as <- <- | destruct c1; now injection He as <- <-]. }
      destruct X as [-> ->]. rewrite app_nil_r. split; [exact Hc | reflexivity]. }
    destruct He as (c & Hc & ->). rewrite one_xml. cbn [events_of_xml flat_map].
    apply ate_cell. apply tree_cell; [exact Fn|]. exact (ate_each LCell _ IH _ _ _ Hk' Fc Hc).
Qed.

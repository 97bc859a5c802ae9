(** Styles, numberings and settings: build, write, and read. *)
From Coq Require Import NArith ZArith List Bool Lia.
From Verif Require Import Str StrFacts StrFind TypesModel Props PropsSet Ast EscapeModel FloatModel XmlParser XmlSpec XmlProperties WriterModel
  ReadBase ReadProps ReadModel ReadProg ReadProofs ReadSpec.
From Verif Require BuildModel BuildProofs StyleModel.
From Verif Require Import RoundSpec RoundBase RoundNums RoundRpr RoundSect RoundPpr RoundTable RoundLoops RoundParts StyleRead StyleSpec StyleProg.
Import ListNotations.
Import BuildModel (xml, E, L, leaf, opt, on, valued, valued_n, valued_z, attr_s, attr_n, attr_z, part_calls).
Import StyleModel.

Lemma rt_style : forall t, read_StyleType (seen (show_StyleType t)) = Some t. Proof. enum. Qed.
Lemma rt_suffix : forall t, read_LevelSuffixType (seen (show_LevelSuffixType t)) = Some t. Proof. enum. Qed.
Lemma one_event x : xml_events [x] = events_of_xml x.
Proof. unfold xml_events. cbn [flat_map]. apply app_nil_r. Qed.

Lemma reads_as A k (m m' : nat -> R A) ev v : (forall d s, m d s = m' d s) -> reads k m' ev v -> reads k m ev v.
Proof. intros X H d l c Ld Kd. rewrite X. now apply H. Qed.

(** ** Styles *)
Definition sty_start (s : subs) : style -> qname -> list attribute -> R style :=
  ltac:(let t := eval unfold read_style in (read_style s []) in match t with bind _ (fun _ => element _ ?f _ _) => exact f end).
Lemma sty_shape a q atts : Prog (q_local q) (fun s => sty_start s a q atts).
Proof. unfold sty_start. prog_tac. Qed.
Notation styF := (F "style" sty_start (fun y => y)).
Ltac sty_leaf := apply (eats_leaf "style" sty_start (fun y => y) sty_shape); [reflexivity | intros d l c; unfold sty_start].
Lemma sty_name_step n a : eats styF 0 a (events_of_xml (valued "w:name" n)) (style_named (seen n) a).
Proof. unfold valued. sty_leaf. go. reflexivity. Qed.
Lemma sty_based_step o a : eats styF 0 a (xml_events (opt (valued "w:basedOn") o)) (upd o (fun v => sty_set_based_on (seen v)) a).
Proof. apply (eats_opt _ _ _ _ _ _ (fun v => sty_set_based_on (seen v))). intros x Hx. unfold valued. sty_leaf. go. reflexivity. Qed.
Lemma sty_link_step o a : eats styF 0 a (xml_events (opt (valued "w:link") o)) (upd o (fun v => sty_set_link (seen v)) a).
Proof. apply (eats_opt _ _ _ _ _ _ (fun v => sty_set_link (seen v))). intros x Hx. unfold valued. sty_leaf. go. reflexivity. Qed.
Lemma sty_skip_leaf n atts a : In n ["w:next"; "w:qFormat"; "w:uiPriority"; "w:semiHidden"; "w:unhideWhenUsed"]%string ->
  eats styF 0 a (events_of_xml (leaf n atts)) a.
Proof.
  intros Hn. cbn [In] in Hn. decompose [or] Hn; try contradiction; subst n; sty_leaf; generalize (meant atts); intros; go; reflexivity.
Qed.
Lemma upd_id A B (o : option A) (b : B) : upd o (fun _ b => b) b = b.
Proof. now destruct o. Qed.
Lemma sty_next_step o a : eats styF 0 a (xml_events (opt (valued "w:next") o)) a.
Proof.
  pose proof (eats_opt _ _ _ styF (valued "w:next") o (fun _ a => a) a) as H. rewrite upd_id in H. apply H. intros x _. apply sty_skip_leaf. cbn; tauto.
Qed.
Lemma sty_priority_step o a : eats styF 0 a (xml_events (opt (valued_n "w:uiPriority") o)) a.
Proof.
  pose proof (eats_opt _ _ _ styF (valued_n "w:uiPriority") o (fun _ a => a) a) as H. rewrite upd_id in H. apply H. intros x _. apply sty_skip_leaf. cbn; tauto.
Qed.
Lemma sty_flag_step b n a : In n ["w:next"; "w:qFormat"; "w:uiPriority"; "w:semiHidden"; "w:unhideWhenUsed"]%string ->
  eats styF 0 a (xml_events (on b [leaf n []])) a.
Proof.
  intros Hn. pose proof (eats_on _ _ styF b (leaf n []) a a) as H. destruct b; apply H; intros _; now apply sty_skip_leaf.
Qed.
Lemma sty_rpr_step r s xs s' a : fits_rpr r -> BuildModel.b_rpr r s = Some (xs, s') ->
  eats styF 0 a (xml_events xs) (sty_set_rpr (reread_rpr r) a).
Proof.
  intros Hf H. destruct (reads_rpr r s xs s' Hf H) as (ch & -> & Hr). rewrite one_event.
  deep "style"%string sty_start (fun y : style => y) sty_shape Hr. reflexivity.
Qed.
Lemma sty_ppr_step r s xs s' a : fits_ppr r -> BuildModel.b_ppr r s = Some (xs, s') ->
  eats styF 0 a (xml_events xs) (sty_set_ppr (reread_ppr r) a).
Proof.
  intros Hf H. destruct (reads_ppr r s xs s' Hf H) as (ch & -> & Hr). rewrite one_event.
  deep "style"%string sty_start (fun y : style => y) sty_shape Hr. reflexivity.
Qed.
Lemma sty_tcpr_step p a : fits_tcpr p -> eats styF 0 a (events_of_xml (BuildModel.x_tcpr p)) (sty_set_tcpr (reread_tcpr p) a).
Proof.
  intros Hf. pose proof (reads_tcpr p Hf) as Hr. unfold BuildModel.x_tcpr in *. cbn [ch_of] in Hr.
  deep "style"%string sty_start (fun y : style => y) sty_shape Hr. reflexivity.
Qed.
Lemma sty_tblpr_step p a : fits_tblpr p -> eats styF 0 a (events_of_xml (BuildModel.x_tblpr p)) (sty_set_tblpr (reread_tblpr p) a).
Proof.
  intros Hf. pose proof (reads_tblpr p Hf) as Hr. unfold BuildModel.x_tblpr in *. cbn [ch_of] in Hr.
  deep "style"%string sty_start (fun y : style => y) sty_shape Hr. reflexivity.
Qed.
Lemma sty_table_step t tc tp a : (t = StyleType_Table -> fits_tblpr tp /\ fits_tcpr tc) ->
  eats styF 0 a (xml_events (match t with StyleType_Table => [BuildModel.x_tcpr tc; BuildModel.x_tblpr tp] | _ => [] end))
    (if is_table t then sty_set_tblpr (reread_tblpr tp) (sty_set_tcpr (reread_tcpr tc) a) else a).
Proof.
  intros H. destruct t; cbn [is_table]; try apply eats_nil. destruct (H eq_refl) as (H1 & H2).
  rewrite xml_events_cons, one_event. eapply eats_app0; [now apply sty_tcpr_step | now apply sty_tblpr_step].
Qed.
Definition style_atts (s : style) : list (string * string) := [("w:type", show_StyleType (sty_type s)); ("w:styleId", sty_id s)]%string.
Lemma reads_style y s xs s' : fits_style y -> b_style y s = Some (xs, s') ->
  exists ch, xs = [E "w:style" (style_atts y) ch] /\
  reads 0 (fun d => read_style (readers d) (meant (style_atts y))) (xml_events ch ++ [EEnd (split_qname "w:style")]) (reread_style y).
Proof.
  intros (H1 & H2 & H3) H. unfold b_style in H. apply BuildProofs.bind_inv in H as (r & s1 & Hr & H).
  apply BuildProofs.bind_inv in H as (p & s2 & Hp & H). injection H as <- <-.
  eexists. split; [reflexivity|].
  assert (X : forall d st, read_style (readers d) (meant (style_atts y)) st = styF d (style_new (seen (sty_id y)) (sty_type y)) st).
  { intros d u. unfold read_style, style_atts. cbn [meant map fst snd]. generalize (seen (sty_id y)). intros i.
    set (v := seen (show_StyleType (sty_type y))). pose proof (rt_style (sty_type y)) as Hv. fold v in Hv. generalize dependent v. intros v Hv. cbn. rewrite Hv. reflexivity. }
  apply (reads_as _ _ _ _ _ _ X). cbn [app]. rewrite xml_events_cons, !xml_events_app.
  apply (reads_flat "style" sty_start (fun y => y) sty_shape) with (a := style_new (seen (sty_id y)) (sty_type y)); [reflexivity | reflexivity |].
  eapply eats_eq.
  - eapply eats_app0; [apply sty_name_step|]. eapply eats_app0; [eapply sty_rpr_step; eassumption|].
    eapply eats_app0; [eapply sty_ppr_step; eassumption|]. eapply eats_app0; [apply sty_table_step; exact H3|].
    eapply eats_app0; [apply sty_next_step|]. eapply eats_app0; [apply sty_link_step|].
    eapply eats_app0; [apply sty_flag_step; cbn; tauto|]. eapply eats_app0; [apply sty_priority_step|].
    eapply eats_app0; [apply sty_flag_step; cbn; tauto|]. eapply eats_app0; [apply sty_flag_step; cbn; tauto|].
    apply sty_based_step.
  - clear. destruct y as [i n t r p tp tc bo nx li qf ui sh un]. unfold reread_style. cbn [sty_id sty_name sty_type sty_rpr sty_ppr sty_tblpr sty_tcpr sty_based_on sty_next sty_link].
    destruct t, bo, li; reflexivity.
Qed.
Definition dd_start (s : subs) : rpr * ppr -> qname -> list attribute -> R (rpr * ppr) :=
  ltac:(let t := eval unfold read_doc_defaults in (read_doc_defaults s) in match t with element _ ?f _ _ => exact f end).
Lemma dd_shape a q atts : Prog (q_local q) (fun s => dd_start s a q atts).
Proof. unfold dd_start. prog_tac. Qed.
Notation ddF := (F "docDefaults" dd_start (fun d => d)).
Lemma reads_defaults r p s xs s' : fits_rpr r -> fits_ppr p -> b_doc_defaults r p s = Some (xs, s') ->
  exists ch, xs = [E "w:docDefaults" [] ch] /\
  reads 0 (fun d => read_doc_defaults (readers d)) (xml_events ch ++ [EEnd (split_qname "w:docDefaults")]) (reread_rpr r, reread_ppr p).
Proof.
  intros H1 H2 H. unfold b_doc_defaults in H. apply BuildProofs.bind_inv in H as (xr & s1 & Hr & H).
  apply BuildProofs.bind_inv in H as (xp & s2 & Hp & H). injection H as <- <-.
  eexists. split; [reflexivity|].
  apply (reads_flat "docDefaults" dd_start (fun d => d) dd_shape) with (a := (rpr_empty, ppr_empty)); [reflexivity | reflexivity |].
  rewrite xml_events_cons, one_event. eapply eats_app0 with (b := (reread_rpr r, ppr_empty)).
  - apply (eats_through "docDefaults" dd_start (fun d => d) dd_shape); [reflexivity | intros; unfold dd_start; go; reflexivity |].
    destruct (reads_rpr r _ _ _ H1 Hr) as (ch & -> & X). rewrite one_event.
    deep "docDefaults"%string dd_start (fun d : rpr * ppr => d) dd_shape X. reflexivity.
  - apply (eats_through "docDefaults" dd_start (fun d => d) dd_shape); [reflexivity | intros; unfold dd_start; go; reflexivity |].
    destruct (reads_ppr p _ _ _ H2 Hp) as (ch & -> & X). rewrite one_event.
    deep "docDefaults"%string dd_start (fun d : rpr * ppr => d) dd_shape X. reflexivity.
Qed.
Definition ss_start (s : subs) : styles -> qname -> list attribute -> R styles :=
  ltac:(let t := eval unfold read_styles_with in (read_styles_with s) in match t with element _ ?f _ _ => exact f end).
Lemma ss_shape a q atts : Prog (q_local q) (fun s => ss_start s a q atts).
Proof. unfold ss_start. prog_tac. Qed.
Notation ssF := (F "styles" ss_start (fun t => t)).
Lemma ss_style_step y s xs s' a : fits_style y -> b_style y s = Some (xs, s') ->
  eats ssF 0 a (xml_events xs) {| ss_rpr := ss_rpr a; ss_ppr := ss_ppr a; ss_list := ss_list a ++ [reread_style y] |}.
Proof.
  intros Hf H. destruct (reads_style y s xs s' Hf H) as (ch & -> & Hr). rewrite one_event.
  apply (eats_sub "styles" ss_start (fun t => t) ss_shape). intros d l c Ld Kd. unfold ss_start.
  change (q_local (split_qname "w:style") =s "style") with true. cbn iota. unfold bind, attempt. rewrite (Hr d l c Ld Kd). reflexivity.
Qed.
Lemma ss_styles_step l : forall s xs s' a, Forall fits_style l -> BuildModel.each b_style l s = Some (xs, s') ->
  eats ssF 0 a (xml_events xs) {| ss_rpr := ss_rpr a; ss_ppr := ss_ppr a; ss_list := ss_list a ++ map reread_style l |}.
Proof.
  induction l as [|y l IH]; intros s xs s' a Hf H.
  - injection H as <- <-. cbn [map]. rewrite app_nil_r. destruct a. apply eats_nil.
  - inversion Hf as [|? ? Hf1 Hf2]. subst.
    cbn [BuildModel.each] in H. apply BuildProofs.bind_inv in H as (x1 & s1 & H1 & H). apply BuildProofs.bind_inv in H as (x2 & s2 & H2 & H).
    injection H as <- <-. rewrite xml_events_app. eapply eats_app0; [eapply ss_style_step; eassumption|].
    eapply eats_eq; [eapply IH; eassumption|]. cbn [ss_rpr ss_ppr ss_list map]. now rewrite <- app_assoc.
Qed.
Lemma ss_defaults_step r p s xs s' a : fits_rpr r -> fits_ppr p -> b_doc_defaults r p s = Some (xs, s') ->
  eats ssF 0 a (xml_events xs) {| ss_rpr := reread_rpr r; ss_ppr := reread_ppr p; ss_list := ss_list a |}.
Proof.
  intros H1 H2 H. destruct (reads_defaults r p s xs s' H1 H2 H) as (ch & -> & Hr). rewrite one_event.
  apply (eats_sub "styles" ss_start (fun t => t) ss_shape). intros d l c Ld Kd. unfold ss_start.
  change (q_local (split_qname "w:docDefaults") =s "style") with false.
  change (q_local (split_qname "w:docDefaults") =s "docDefaults") with true. cbn iota. unfold bind, attempt. rewrite (Hr d l c Ld Kd). reflexivity.
Qed.
Lemma fits_normal : fits_style style_normal.
Proof. split; [|split; [|discriminate]]; repeat (constructor || split). Qed.
Lemma reread_normal : reread_style style_normal = style_normal.
Proof. reflexivity. Qed.
(** A part without a declaration. *)
Lemma bare_events x ev : doc_reported (BuildModel.xcalls x) = Some ev -> ev = events_of_xml x.
Proof.
  intros H. assert (X : reported [] "" (BuildModel.xcalls x ++ []) = Some ev).
  { rewrite app_nil_r. destruct x; exact H. }
  destruct (reported_xml _ _ _ _ X) as (e & He & ->). injection He as <-. now rewrite app_nil_r.
Qed.
Lemma bare_read x evs : doc_reported (BuildModel.xcalls x) = Some evs ->
  exists w, w_run w_init (BuildModel.xcalls x) = WOk w /\
    forall s, reads_from (WriterModel.out w) s -> exists l, s = st (events_of_xml x ++ l) (rs_para s) /\ Forall (eq EDocEnd) l.
Proof.
  intros H. destruct (written_calls_read_back _ _ H) as (w & Hw & Hn). exists w. split; [exact Hw|].
  intros s Hs. apply bare_events in H. subst evs. destruct (same_nth _ EDocEnd (events_of_xml x) (no_end x) (rs_events s)) as (l & Hl & Hd).
  - intros n. rewrite (Hs n). apply Hn.
  - exists l. split; [|exact Hd]. destruct s as [ev c]. cbn in *. now subst.
Qed.
Theorem styles_read_back t s x s' evs :
  b_styles t s = Some (x, s') -> doc_reported (BuildModel.xcalls x) = Some evs -> fits_styles t ->
  exists w, w_run w_init (BuildModel.xcalls x) = WOk w /\
    forall r, reads_from (WriterModel.out w) r -> enough r 0 -> exists r', read_styles r = Val (reread_styles t) r' /\ rs_para r' = rs_para r.
Proof.
  intros H He (Hr & Hp & Hf). destruct (bare_read x evs He) as (w & Hw & Hs). exists w. split; [exact Hw|]. intros r Hr0 Hn.
  destruct (Hs r Hr0) as (l & Er & Hl). unfold enough in Hn. rewrite Er. clear Er Hs Hr0 He.
  unfold b_styles in H. apply BuildProofs.bind_inv in H as (xd & s1 & Hd & H). apply BuildProofs.bind_inv in H as (xn & s2 & Hxn & H).
  apply BuildProofs.bind_inv in H as (xl & s3 & Hxl & H). injection H as <- <-.
  unfold read_styles, with_depth.
  assert (X : forall d, length (xml_events (xd ++ xn ++ xl)) <= d ->
    ssF d {| ss_rpr := rpr_empty; ss_ppr := ppr_empty; ss_list := [] |}
      (st (events_of_xml (E "w:styles" styles_attrs (xd ++ xn ++ xl)) ++ l) (rs_para r)) = Val (reread_styles t) (st l (rs_para r + 0)%N)).
  { intros d Ld. cbn [events_of_xml app].
    rewrite (elem_start "styles" ss_start (fun t => t) ss_shape) with (a' := {| ss_rpr := rpr_empty; ss_ppr := ppr_empty; ss_list := [] |})
      (s' := st ((xml_events (xd ++ xn ++ xl) ++ [EEnd (split_qname "w:styles")]) ++ l) (rs_para r)).
    2: { unfold ss_start. generalize (meant styles_attrs). intros. go. reflexivity. }
    refine (elem_whole "styles" ss_start (fun t => t) ss_shape 0 _ _ (reread_styles t) (split_qname "w:styles") eq_refl _ d l _ Ld Hn).
    rewrite !xml_events_app. eapply eats_eq.
    - eapply eats_app0; [eapply ss_defaults_step; eassumption|]. eapply eats_app0; [eapply ss_style_step; [exact fits_normal | eassumption]|].
      eapply ss_styles_step; eassumption.
    - reflexivity. }
  eexists. split; [apply X; cbn [st rs_events events_of_xml app length]; unfold xml_events; rewrite !app_length; lia | cbn [st rs_para]; lia].
Qed.

(** ** Loops that skip parse errors *)
Section Lax.
  Context {A B : Type} (own : string) (start : subs -> A -> qname -> list attribute -> R A) (fin : A -> B).
  Hypothesis shape : forall a q atts, Prog (q_local q) (fun s => start s a q atts).
  Definition LF (d : nat) : A -> R B := element_lax own (start (readers d)) fin.
  Lemma lax_takes d a e : takes ((fun a e =>
    match e with
    | EStart q atts => a' <- start (readers d) a q atts ;; ret (Again a')
    | EEnd q => ret (if q_local q =s own then Done (fin a) else Again a)
    | _ => ret (Again a)
    end) a e).
  Proof.
    destruct e as [q atts|q|s|s| |]; [|apply takes_pure; pure_auto ..].
    apply takes_bind; [|intros; apply takes_pure; pure_auto].
    apply (proj1 shape_takes (q_local q) _ _ (shape a q atts)), readers_take.
  Qed.
  Lemma lax_end d a q l c : q_local q = own -> LF d a (st (EEnd q :: l) c) = Val (fin a) (st l c).
  Proof.
    intros Hq. unfold LF, element_lax. rewrite loop_step by (apply lax_takes). cbn.
    now rewrite Hq, String.eqb_refl.
  Qed.
  Lemma lax_skip d a q l c : (q_local q =s own) = false -> LF d a (st (EEnd q :: l) c) = LF d a (st l c).
  Proof. intros Hq. unfold LF, element_lax at 1. rewrite loop_step by (apply lax_takes). cbn. now rewrite Hq. Qed.
  Lemma lax_start d a q atts l c a' s' : start (readers d) a q atts (st l c) = Val a' s' ->
    LF d a (st (EStart q atts :: l) c) = LF d a' s'.
  Proof.
    intros H. unfold LF, element_lax at 1. rewrite loop_step by (apply lax_takes). cbn. unfold bind. rewrite H. reflexivity.
  Qed.
  Lemma lax_leaf n atts a a' :
    (q_local (split_qname n) =s own) = false ->
    (forall d l c, start (readers d) a (split_qname n) (meant atts) (st l c) = Val a' (st l c)) ->
    eats LF 0 a (events_of_xml (leaf n atts)) a'.
  Proof.
    intros Hn H d l c _ _. cbn [leaf events_of_xml flat_map app]. rewrite (lax_start _ _ _ _ _ _ _ _ (H d _ _)).
    rewrite lax_skip by exact Hn. now rewrite N.add_0_r.
  Qed.
  Lemma lax_sub n atts ch k a a' :
    reads k (fun d => start (readers d) a (split_qname n) (meant atts)) (xml_events ch ++ [EEnd (split_qname n)]) a' ->
    eats LF k a (events_of_xml (E n atts ch)) a'.
  Proof.
    intros H d l c Ld Kd. cbn [events_of_xml app length] in *.
    apply lax_start. apply H; [unfold xml_events; lia | exact Kd].
  Qed.
  Lemma lax_flat k (m : nat -> R B) a ev a' q : (forall d s, m d s = LF d a s) -> q_local q = own -> eats LF k a ev a' ->
    reads k m (ev ++ [EEnd q]) (fin a').
  Proof.
    intros Hm Hq H d l c Ld Kd. rewrite app_length in Ld. rewrite Hm, <- app_assoc. rewrite H by lia. cbn [app]. now apply lax_end.
  Qed.
End Lax.

(** ** Numberings *)
Definition lv_start_ (s : subs) : level -> qname -> list attribute -> R level :=
  ltac:(let t := eval unfold read_level in (read_level s []) in match t with bind _ (fun _ => element _ ?f _ _) => exact f end).
Lemma lv_shape a q atts : Prog (q_local q) (fun s => lv_start_ s a q atts).
Proof. unfold lv_start_. prog_tac. Qed.
Notation lvF := (F "lvl" lv_start_ (fun y => y)).
Ltac lv_leaf := apply (eats_leaf "lvl" lv_start_ (fun y => y) lv_shape); [reflexivity | intros d l c; unfold lv_start_].
Lemma lv_start_step n a : is_usize n -> eats lvF 0 a (events_of_xml (valued_n "w:start" n)) (lv_set_start n a).
Proof. intros H. unfold valued_n, attr_n. lv_leaf. go. rewrite usize_N by exact H. reflexivity. Qed.
Lemma lv_format_step v a : eats lvF 0 a (events_of_xml (valued "w:numFmt" v)) (lv_set_format (seen v) a).
Proof. unfold valued. lv_leaf. go. reflexivity. Qed.
Lemma lv_text_step v a : eats lvF 0 a (events_of_xml (valued "w:lvlText" v)) (lv_set_text (seen v) a).
Proof. unfold valued. lv_leaf. go. reflexivity. Qed.
Lemma lv_jc_step v a : eats lvF 0 a (events_of_xml (valued "w:lvlJc" v)) (lv_set_jc (seen v) a).
Proof. unfold valued. lv_leaf. go. reflexivity. Qed.
Lemma lv_rpr_step r s xs s' a : fits_rpr r -> BuildModel.b_rpr r s = Some (xs, s') ->
  eats lvF 0 a (xml_events xs) (lv_set_rpr (reread_rpr r) a).
Proof.
  intros Hf H. destruct (reads_rpr r s xs s' Hf H) as (ch & -> & Hr). rewrite one_event.
  deep "lvl"%string lv_start_ (fun y : level => y) lv_shape Hr. reflexivity.
Qed.
Lemma lv_ppr_step r s xs s' a : fits_ppr r -> BuildModel.b_ppr r s = Some (xs, s') ->
  eats lvF 0 a (xml_events xs) (lv_set_ppr (reread_ppr r) a).
Proof.
  intros Hf H. destruct (reads_ppr r s xs s' Hf H) as (ch & -> & Hr). rewrite one_event.
  deep "lvl"%string lv_start_ (fun y : level => y) lv_shape Hr. reflexivity.
Qed.
Lemma lv_pstyle_step o a : eats lvF 0 a (xml_events (opt (valued "w:pStyle") o)) (upd o (fun v => lv_set_pstyle (seen v)) a).
Proof. apply (eats_opt _ _ _ _ _ _ (fun v => lv_set_pstyle (seen v))). intros x Hx. unfold valued. lv_leaf. go. reflexivity. Qed.
Lemma lv_restart_step o a : all_of is_u32 o -> eats lvF 0 a (xml_events (opt (valued_n "w:lvlRestart") o)) (upd o lv_set_restart a).
Proof.
  intros H. apply (eats_opt _ _ _ _ _ _ lv_set_restart). intros x Hx. subst o. unfold valued_n, attr_n. lv_leaf. go.
  rewrite u32_N by exact H. reflexivity.
Qed.
Lemma lv_lgl_step b a : eats lvF 0 a (xml_events (on b [leaf "w:isLgl" []])) (if b then lv_set_lgl a else a).
Proof. apply eats_on. intros _. lv_leaf. go. reflexivity. Qed.
Lemma lv_suffix_step t a : lv_suffix a = LevelSuffixType_Tab ->
  eats lvF 0 a (xml_events (match t with LevelSuffixType_Nothing => [valued "w:suff" "nothing"] | LevelSuffixType_Space => [valued "w:suff" "space"] | LevelSuffixType_Tab => [] end)) (lv_set_suffix t a).
Proof.
  intros H. assert (X : eats lvF 0 a (events_of_xml (valued "w:suff" (show_LevelSuffixType t))) (lv_set_suffix t a)).
  { unfold valued. lv_leaf. go. rewrite rt_suffix. reflexivity. }
  destruct t; rewrite ?one_event; try exact X. destruct a. cbn in H. subst. apply eats_nil.
Qed.
Definition level_atts (l : level) : list (string * string) := [("w:ilvl", show_N (lv_level l))]%string.
Lemma reads_level y s xs s' : fits_level y -> b_level y s = Some (xs, s') ->
  exists ch, xs = [E "w:lvl" (level_atts y) ch] /\
  reads 0 (fun d => read_level (readers d) (meant (level_atts y))) (xml_events ch ++ [EEnd (split_qname "w:lvl")]) (reread_level y).
Proof.
  intros (H1 & H2 & H3 & H4 & H5) H. unfold b_level in H. apply BuildProofs.bind_inv in H as (p & s1 & Hp & H).
  apply BuildProofs.bind_inv in H as (r & s2 & Hr & H). injection H as <- <-.
  eexists. split; [reflexivity|].
  assert (X : forall d st, read_level (readers d) (meant (level_atts y)) st = lvF d (level_new (lv_level y) 0 "decimal" "" "left") st).
  { intros d u. unfold read_level, read_number_attr, level_atts. cbn [meant map fst snd].
    pose proof (usize_N _ H1) as Hv. generalize dependent (seen (show_N (lv_level y))). intros v Hv. cbn. rewrite Hv. reflexivity. }
  apply (reads_as _ _ _ _ _ _ X). cbn [app]. rewrite !xml_events_cons, !xml_events_app.
  apply (reads_flat "lvl" lv_start_ (fun y => y) lv_shape) with (a := level_new (lv_level y) 0 "decimal" "" "left"); [reflexivity | reflexivity |].
  eapply eats_eq.
  - eapply eats_app0; [apply lv_start_step; exact H2|]. eapply eats_app0; [apply lv_format_step|].
    eapply eats_app0; [apply lv_text_step|]. eapply eats_app0; [apply lv_jc_step|].
    eapply eats_app0; [eapply lv_ppr_step; eassumption|]. eapply eats_app0; [eapply lv_rpr_step; eassumption|].
    eapply eats_app0; [apply lv_pstyle_step|]. eapply eats_app0; [apply lv_restart_step; exact H3|].
    eapply eats_app0; [apply lv_lgl_step|]. apply (lv_suffix_step (lv_suffix y)). destruct (lv_pstyle y), (lv_restart y), (lv_lgl y); reflexivity.
  - clear. destruct y as [i st f t j p r sf ps rs lg]. unfold reread_level.
    cbn [lv_level lv_start lv_format lv_text lv_jc lv_ppr lv_rpr lv_suffix lv_pstyle lv_restart lv_lgl].
    destruct ps, rs, lg; reflexivity.
Qed.
Definition an_start (s : subs) : abstract_num -> qname -> list attribute -> R abstract_num :=
  ltac:(let t := eval unfold read_abstract in (read_abstract s []) in match t with bind _ (fun _ => element_lax _ ?f _ _) => exact f end).
Lemma an_shape a q atts : Prog (q_local q) (fun s => an_start s a q atts).
Proof. unfold an_start. prog_tac. Qed.
Notation anF := (LF "abstractNum" an_start (fun y => y)).
Definition an_add (ls : list level) (t : abstract_num) : abstract_num :=
  {| an_id := an_id t; an_style_link := an_style_link t; an_num_style_link := an_num_style_link t; an_levels := an_levels t ++ ls; an_multi := an_multi t |}.
Lemma an_levels_step l : forall s xs s' a, Forall fits_level l -> BuildModel.each b_level l s = Some (xs, s') ->
  eats anF 0 a (xml_events xs) (an_add (map reread_level l) a).
Proof.
  induction l as [|y l IH]; intros s xs s' a Hf H.
  - injection H as <- <-. unfold an_add. cbn [map]. rewrite app_nil_r. destruct a. apply eats_nil.
  - inversion Hf as [|? ? Hf1 Hf2]. subst.
    cbn [BuildModel.each] in H. apply BuildProofs.bind_inv in H as (x1 & s1 & H1 & H). apply BuildProofs.bind_inv in H as (x2 & s2 & H2 & H).
    injection H as <- <-. rewrite xml_events_app. eapply eats_app0 with (b := an_add [reread_level y] a).
    + destruct (reads_level y s x1 s1 Hf1 H1) as (ch & -> & Hr). rewrite one_event.
      apply (lax_sub "abstractNum" an_start (fun t => t) an_shape). intros d r c Ld Kd. unfold an_start.
      change (q_local (split_qname "w:lvl") =s "lvl") with true. cbn iota. unfold bind. rewrite (Hr d r c Ld Kd). reflexivity.
    + eapply eats_eq; [eapply IH; eassumption|]. unfold an_add. cbn [an_id an_style_link an_num_style_link an_levels an_multi map].
      now rewrite <- app_assoc.
Qed.
Lemma an_multi_step o a : eats anF 0 a (xml_events (opt (valued "w:multiLevelType") o)) a.
Proof.
  pose proof (eats_opt _ _ _ anF (valued "w:multiLevelType") o (fun _ a => a) a) as H. rewrite upd_id in H. apply H. intros x _.
  apply (lax_leaf "abstractNum" an_start (fun t => t) an_shape); [reflexivity|]. intros d l c. unfold an_start. go. reflexivity.
Qed.
Lemma number_attr n q v m s : parse_usize v = Some m -> q_local q = n -> read_number_attr n [(q, v)] s = Val m s.
Proof. intros H Hn. unfold read_number_attr. cbn. now rewrite Hn, String.eqb_refl, H. Qed.
Lemma reads_abstract y s xs s' : fits_abstract y -> b_abstract y s = Some (xs, s') ->
  exists ch, xs = [E "w:abstractNum" [("w:abstractNumId"%string, show_N (an_id y))] ch] /\
  reads 0 (fun d => read_abstract (readers d) (meant [("w:abstractNumId"%string, show_N (an_id y))]))
    (xml_events ch ++ [EEnd (split_qname "w:abstractNum")]) (reread_abstract y).
Proof.
  intros (H1 & H2) H. unfold b_abstract in H. apply BuildProofs.bind_inv in H as (x & s1 & Hx & H). injection H as <- <-.
  eexists. split; [reflexivity|].
  apply (lax_flat "abstractNum" an_start (fun y => y) an_shape)
    with (a := {| an_id := an_id y; an_style_link := None; an_num_style_link := None; an_levels := []; an_multi := None |}); [|reflexivity|].
  - intros d u. unfold read_abstract. cbn [meant map fst snd]. unfold bind at 1.
    erewrite number_attr; [reflexivity | apply (usize_N _ H1) | reflexivity].
  - rewrite xml_events_app. eapply eats_eq; [eapply eats_app0; [apply an_multi_step | eapply an_levels_step; eassumption] |]. reflexivity.
Qed.
Definition lo_start (s : subs) : level_override -> qname -> list attribute -> R level_override :=
  ltac:(let t := eval unfold read_override in (read_override s []) in match t with bind _ (fun _ => bind _ (fun _ => element _ ?f _ _)) => exact f end).
Lemma lo_shape a q atts : Prog (q_local q) (fun s => lo_start s a q atts).
Proof. unfold lo_start. prog_tac. Qed.
Notation loF := (F "lvlOverride" lo_start (fun y => y)).
Lemma reads_override y s xs s' : fits_override y -> b_override y s = Some (xs, s') ->
  exists ch, xs = [E "w:lvlOverride" [("w:ilvl"%string, show_N (ov_level y))] ch] /\
  reads 0 (fun d => read_override (readers d) (meant [("w:ilvl"%string, show_N (ov_level y))]))
    (xml_events ch ++ [EEnd (split_qname "w:lvlOverride")]) (reread_override y).
Proof.
  intros (H1 & H2 & H3) H. unfold b_override in H. apply BuildProofs.bind_inv in H as (x & s1 & Hx & H). injection H as <- <-.
  eexists. split; [reflexivity|].
  assert (X : forall d st, read_override (readers d) (meant [("w:ilvl"%string, show_N (ov_level y))]) st =
     loF d {| ov_level := ov_level y; ov_start := None; ov_replace := None |} st).
  { intros d u. unfold read_override. cbn [meant map fst snd].
    pose proof (usize_N _ H1) as Hv. generalize dependent (seen (show_N (ov_level y))). intros v Hv. cbn. rewrite Hv. reflexivity. }
  apply (reads_as _ _ _ _ _ _ X). rewrite xml_events_app.
  apply (reads_flat "lvlOverride" lo_start (fun y => y) lo_shape) with (a := {| ov_level := ov_level y; ov_start := None; ov_replace := None |});
    [reflexivity | reflexivity |].
  eapply eats_app0 with (b := {| ov_level := ov_level y; ov_start := None; ov_replace := option_map reread_level (ov_replace y) |}).
  - destruct (ov_replace y) as [l|]; cbn [option_map].
    + destruct (reads_level l s x s1 H3 Hx) as (ch & -> & Hr). rewrite one_event.
      apply (eats_sub "lvlOverride" lo_start (fun t => t) lo_shape). intros d r c Ld Kd. unfold lo_start.
      change (q_local (split_qname "w:lvl") =s "startOverride") with false. change (q_local (split_qname "w:lvl") =s "lvl") with true.
      cbn iota. unfold bind, attempt. rewrite (Hr d r c Ld Kd). reflexivity.
    + injection Hx as <- <-. apply eats_nil.
  - eapply eats_eq.
    + apply (eats_opt _ _ _ _ _ _ (fun n o => {| ov_level := ov_level o; ov_start := Some n; ov_replace := ov_replace o |})).
      intros n Hn. rewrite Hn in H2. unfold valued_n, attr_n.
      apply (eats_leaf "lvlOverride" lo_start (fun t => t) lo_shape); [reflexivity|]. intros d l c. unfold lo_start. go.
      rewrite usize_N by exact H2. reflexivity.
    + unfold reread_override. destruct (ov_start y); reflexivity.
Qed.
Definition nm_start (s : subs) : num -> qname -> list attribute -> R num :=
  ltac:(let t := eval unfold read_num in (read_num s []) in match t with bind _ (fun _ => element_lax _ ?f _ _) => exact f end).
Lemma nm_shape a q atts : Prog (q_local q) (fun s => nm_start s a q atts).
Proof. unfold nm_start. prog_tac. Qed.
Notation nmF := (LF "num" nm_start (fun y => y)).
Definition nm_add (ls : list level_override) (t : num) : num :=
  {| nm_id := nm_id t; nm_abstract := nm_abstract t; nm_overrides := nm_overrides t ++ ls |}.
Lemma nm_overrides_step l : forall s xs s' a, Forall fits_override l -> BuildModel.each b_override l s = Some (xs, s') ->
  eats nmF 0 a (xml_events xs) (nm_add (map reread_override l) a).
Proof.
  induction l as [|y l IH]; intros s xs s' a Hf H.
  - injection H as <- <-. unfold nm_add. cbn [map]. rewrite app_nil_r. destruct a. apply eats_nil.
  - inversion Hf as [|? ? Hf1 Hf2]. subst.
    cbn [BuildModel.each] in H. apply BuildProofs.bind_inv in H as (x1 & s1 & H1 & H). apply BuildProofs.bind_inv in H as (x2 & s2 & H2 & H).
    injection H as <- <-. rewrite xml_events_app. eapply eats_app0 with (b := nm_add [reread_override y] a).
    + destruct (reads_override y s x1 s1 Hf1 H1) as (ch & -> & Hr). rewrite one_event.
      apply (lax_sub "num" nm_start (fun t => t) nm_shape). intros d r c Ld Kd. unfold nm_start.
      change (q_local (split_qname "w:lvlOverride") =s "abstractNumId") with false.
      change (q_local (split_qname "w:lvlOverride") =s "lvlOverride") with true. cbn iota. unfold bind, attempt. rewrite (Hr d r c Ld Kd). reflexivity.
    + eapply eats_eq; [eapply IH; eassumption|]. unfold nm_add. cbn [nm_id nm_abstract nm_overrides map].
      now rewrite <- app_assoc.
Qed.
Lemma reads_num y s xs s' : fits_num y -> b_num y s = Some (xs, s') ->
  exists ch, xs = [E "w:num" [("w:numId"%string, show_N (nm_id y))] ch] /\
  reads 0 (fun d => read_num (readers d) (meant [("w:numId"%string, show_N (nm_id y))]))
    (xml_events ch ++ [EEnd (split_qname "w:num")]) (reread_num y).
Proof.
  intros (H1 & H2 & H3) H. unfold b_num in H. apply BuildProofs.bind_inv in H as (x & s1 & Hx & H). injection H as <- <-.
  eexists. split; [reflexivity|].
  apply (lax_flat "num" nm_start (fun y => y) nm_shape)
    with (a := {| nm_id := nm_id y; nm_abstract := 0; nm_overrides := [] |}); [|reflexivity|].
  - intros d u. unfold read_num. cbn [meant map fst snd]. unfold bind at 1.
    erewrite number_attr; [reflexivity | apply (usize_N _ H1) | reflexivity].
  - rewrite xml_events_cons. eapply eats_eq; [eapply eats_app0; [|eapply nm_overrides_step; eassumption] |].
    + unfold valued_n, attr_n. apply (lax_leaf "num" nm_start (fun t => t) nm_shape); [reflexivity|]. intros d l c. unfold nm_start. go.
      rewrite usize_N by exact H2. reflexivity.
    + reflexivity.
Qed.
Notation nsF := (PF (fun l => l =s "numbering") numberings_start (fun t => t)).
Lemma read_numberings_PF d s : read_numberings_with (readers d) s = nsF d {| ns_abstracts := []; ns_nums := [] |} s.
Proof. reflexivity. Qed.
Lemma ns_abstract_step y s xs s' a : fits_abstract y -> b_abstract y s = Some (xs, s') ->
  eats nsF 0 a (xml_events xs) {| ns_abstracts := ns_abstracts a ++ [reread_abstract y]; ns_nums := ns_nums a |}.
Proof.
  intros Hf H. destruct (reads_abstract y s xs s' Hf H) as (ch & -> & Hr). rewrite one_event.
  intros d l c Ld Kd. cbn [events_of_xml app length] in *. erewrite part_start; [reflexivity | apply prog_numberings |].
  unfold numberings_start. change (q_local (split_qname "w:abstractNum") =s "abstractNum") with true. cbn iota. unfold bind.
  fold (xml_events ch). rewrite Hr; [reflexivity | unfold xml_events; lia | exact Kd].
Qed.
Lemma ns_num_step y s xs s' a : fits_num y -> b_num y s = Some (xs, s') ->
  eats nsF 0 a (xml_events xs) {| ns_abstracts := ns_abstracts a; ns_nums := ns_nums a ++ [reread_num y] |}.
Proof.
  intros Hf H. destruct (reads_num y s xs s' Hf H) as (ch & -> & Hr). rewrite one_event.
  intros d l c Ld Kd. cbn [events_of_xml app length] in *. erewrite part_start; [reflexivity | apply prog_numberings |].
  unfold numberings_start. change (q_local (split_qname "w:num") =s "abstractNum") with false.
  change (q_local (split_qname "w:num") =s "num") with true. cbn iota. unfold bind.
  fold (xml_events ch). rewrite Hr; [reflexivity | unfold xml_events; lia | exact Kd].
Qed.
Lemma ns_abstracts_step l : forall s xs s' a, Forall fits_abstract l -> BuildModel.each b_abstract l s = Some (xs, s') ->
  eats nsF 0 a (xml_events xs) {| ns_abstracts := ns_abstracts a ++ map reread_abstract l; ns_nums := ns_nums a |}.
Proof.
  induction l as [|y l IH]; intros s xs s' a Hf H.
  - injection H as <- <-. cbn [map]. rewrite app_nil_r. destruct a. apply eats_nil.
  - inversion Hf as [|? ? Hf1 Hf2]. subst.
    cbn [BuildModel.each] in H. apply BuildProofs.bind_inv in H as (x1 & s1 & H1 & H). apply BuildProofs.bind_inv in H as (x2 & s2 & H2 & H).
    injection H as <- <-. rewrite xml_events_app. eapply eats_app0; [eapply ns_abstract_step; eassumption|].
    eapply eats_eq; [eapply IH; eassumption|]. cbn [ns_abstracts ns_nums map]. now rewrite <- app_assoc.
Qed.
Lemma ns_nums_step l : forall s xs s' a, Forall fits_num l -> BuildModel.each b_num l s = Some (xs, s') ->
  eats nsF 0 a (xml_events xs) {| ns_abstracts := ns_abstracts a; ns_nums := ns_nums a ++ map reread_num l |}.
Proof.
  induction l as [|y l IH]; intros s xs s' a Hf H.
  - injection H as <- <-. cbn [map]. rewrite app_nil_r. destruct a. apply eats_nil.
  - inversion Hf as [|? ? Hf1 Hf2]. subst.
    cbn [BuildModel.each] in H. apply BuildProofs.bind_inv in H as (x1 & s1 & H1 & H). apply BuildProofs.bind_inv in H as (x2 & s2 & H2 & H).
    injection H as <- <-. rewrite xml_events_app. eapply eats_app0; [eapply ns_num_step; eassumption|].
    eapply eats_eq; [eapply IH; eassumption|]. cbn [ns_abstracts ns_nums map]. now rewrite <- app_assoc.
Qed.
Lemma fits_default_abstract : fits_abstract default_abstract.
Proof.
  split; [cbv; discriminate|]. unfold default_abstract. cbn [an_levels].
  repeat (apply Forall_cons; [split; [cbv; discriminate|]; split; [cbv; discriminate|]; split; [exact I|]; split;
    [|repeat (constructor || split)]|]); [..|apply Forall_nil];
    unfold hanging, level_new; cbn [lv_ppr]; repeat (discriminate || (constructor; fail) || split || (cbv; discriminate)).
Qed.
Lemma fits_default_num : fits_num default_num.
Proof. split; [cbv; discriminate|]. split; [cbv; discriminate | apply Forall_nil]. Qed.
Theorem numberings_read_back t s x s' evs :
  b_numberings t s = Some (x, s') -> doc_reported (part_calls x) = Some evs -> fits_numberings t ->
  exists w, w_run w_init (part_calls x) = WOk w /\
    forall r, reads_from (WriterModel.out w) r -> enough r 0 -> exists r', read_numberings r = Val (reread_numberings t) r' /\ rs_para r' = rs_para r.
Proof.
  intros H He (Hfa & Hfn). destruct (part_read x evs He) as (w & Hw & Hs). exists w. split; [exact Hw|]. intros r Hr0 Hn.
  destruct (Hs r Hr0) as (l & Er & Hl). unfold enough in Hn. rewrite Er. clear Er Hs Hr0 He.
  unfold b_numberings in H. apply BuildProofs.bind_inv in H as (xd & s1 & Hd & H). apply BuildProofs.bind_inv in H as (xa & s2 & Hxa & H).
  apply BuildProofs.bind_inv in H as (xe & s3 & Hxe & H). apply BuildProofs.bind_inv in H as (xn & s4 & Hxn & H). injection H as <- <-.
  unfold read_numberings, with_depth. rewrite read_numberings_PF.
  assert (X : forall d, length (xml_events (xd ++ xa ++ xe ++ xn)) <= d ->
    nsF d {| ns_abstracts := []; ns_nums := [] |}
      (st (events_of_xml (E "w:numbering" numbering_attrs (xd ++ xa ++ xe ++ xn)) ++ l) (rs_para r)) = Val (reread_numberings t) (st l (rs_para r + 0)%N)).
  { intros d Ld. cbn [events_of_xml app]. rewrite <- app_assoc. fold (xml_events (xd ++ xa ++ xe ++ xn)). erewrite part_start; [|apply prog_numberings|].
    2: { unfold numberings_start. change (q_local (split_qname "w:numbering") =s "abstractNum") with false.
         change (q_local (split_qname "w:numbering") =s "num") with false. reflexivity. }
    assert (Y : eats nsF 0 {| ns_abstracts := []; ns_nums := [] |} (xml_events (xd ++ xa ++ xe ++ xn)) (reread_numberings t)).
    { rewrite !xml_events_app. eapply eats_eq.
      - eapply eats_app0; [eapply ns_abstract_step; [exact fits_default_abstract | eassumption]|].
        eapply eats_app0; [eapply ns_abstracts_step; eassumption|].
        eapply eats_app0; [eapply ns_num_step; [exact fits_default_num | eassumption]|]. eapply ns_nums_step; eassumption.
      - reflexivity. }
    rewrite (Y d _ _ Ld Hn). cbn [app]. rewrite part_step by (apply prog_numberings || discriminate). reflexivity. }
  eexists. split; [apply X; cbn [st rs_events events_of_xml app length]; unfold xml_events; rewrite !app_length; lia | cbn [st rs_para]; lia].
Qed.

(** ** Settings *)
Lemma decode_closed s : forall ref, decode_attr ref (s +++ "}") = option_map (fun t => t +++ "}") (decode_attr ref s).
Proof.
  induction s as [|c s IH]; intros [ref|]; try reflexivity.
  - cbn [append decode_attr]. destruct (c =c ";"%char).
    + rewrite IH. destruct (resolve_ref ref) as [t|]; [|reflexivity]. destruct (decode_attr None s) as [u|]; [|reflexivity].
      cbn [option_map]. now rewrite append_assoc.
    + destruct (c =c ch_amp); [reflexivity | apply IH].
  - cbn [append decode_attr]. destruct (c =c ch_amp); [apply IH|]. destruct (c =c ch_cr).
    + destruct s as [|e s]; [reflexivity|]. cbn [append]. cbn [append] in IH.
      destruct (e =c ch_nl); rewrite IH; [reflexivity|]. destruct (decode_attr None (String e s)); reflexivity.
    + destruct (is_ws c); rewrite IH; destruct (decode_attr None s); reflexivity.
Qed.
Lemma seen_braces i : seen ("{" +++ i +++ "}") = "{" +++ seen i +++ "}".
Proof.
  unfold seen. change (decode_attr None ("{" +++ i +++ "}")) with (option_map (String "{"%char) (decode_attr None (i +++ "}"))).
  rewrite decode_closed. destruct (decode_attr None i); reflexivity.
Qed.
Lemma no_braces_around i : no_braces ("{" +++ i +++ "}") = without_braces i.
Proof.
  change (no_braces (i +++ "}") = without_braces i).
  induction i as [|c i IH]; [reflexivity|]. cbn [append no_braces without_braces]. rewrite IH. reflexivity.
Qed.
Definition cfg_start (_ : subs) (c : settings) (q : qname) (a : list attribute) : R settings := ret (settings_start c q a).
Lemma cfg_shape a q atts : Prog (q_local q) (fun s => cfg_start s a q atts).
Proof. unfold cfg_start. apply prog_pure. apply pure_ret. Qed.
Notation cfgF := (PF (fun l => l =s "settings") cfg_start (fun t => t)).
Lemma read_settings_PF d s : read_settings s = cfgF d settings_default s.
Proof. unfold read_settings, PF. apply part_ext. intros a e u. destruct e; reflexivity. Qed.
Lemma cfg_leaf n atts a a' : (q_local (split_qname n) =s "settings") = false ->
  settings_start a (split_qname n) (meant atts) = a' -> eats cfgF 0 a (events_of_xml (leaf n atts)) a'.
Proof.
  intros Hn H d l c _ _. cbn [leaf events_of_xml flat_map app]. erewrite part_start; [|apply cfg_shape | unfold cfg_start, ret; now rewrite H].
  rewrite part_skip; [|apply cfg_shape | exact Hn]. now rewrite N.add_0_r.
Qed.
Lemma cfg_through n atts ch a a' : (q_local (split_qname n) =s "settings") = false ->
  (forall a, settings_start a (split_qname n) (meant atts) = a) ->
  eats cfgF 0 a (xml_events ch) a' -> eats cfgF 0 a (events_of_xml (E n atts ch)) a'.
Proof.
  intros Hn H He d l c Ld Kd. cbn [events_of_xml app length] in *. rewrite app_length in Ld. cbn [length] in Ld.
  erewrite part_start; [|apply cfg_shape | unfold cfg_start, ret; now rewrite H].
  rewrite <- app_assoc. fold (xml_events ch). rewrite He by (unfold xml_events; lia). cbn [app].
  rewrite part_skip; [|apply cfg_shape | exact Hn]. reflexivity.
Qed.
Lemma cfg_skips l : forall a, Forall (fun x => exists n atts, x = leaf n atts /\
    In n ["w:zoom"; "w:spaceForUL"; "w:balanceSingleByteDoubleByteWidth"; "w:doNotLeaveBackslashAlone"; "w:ulTrailSpace"; "w:doNotExpandShiftReturn";
          "w:useFELayout"; "w:compatSetting"]%string) l -> eats cfgF 0 a (xml_events l) a.
Proof.
  induction l as [|x l IH]; intros a H; [apply eats_nil|]. inversion H as [|? ? (n & atts & -> & Hn) H2]. subst.
  rewrite xml_events_cons. eapply eats_app0; [|now apply IH].
  cbn [In] in Hn. decompose [or] Hn; try contradiction; subst n; (apply cfg_leaf; [reflexivity|]; generalize (meant atts); intros; unfold settings_start; go; reflexivity).
Qed.
Ltac skips := apply cfg_skips; repeat (apply Forall_cons || apply Forall_nil); eexists _, _; (split; [reflexivity | cbn; tauto]).
Lemma cfg_vars_step l : forall a, eats cfgF 0 a (xml_events (map x_doc_var l))
  (cfg_set (cfg_tab a) (cfg_doc_id a) (cfg_vars a ++ map (fun v => (seen (fst v), seen (snd v))) l) (cfg_even_odd a) (cfg_adjust a) (cfg_spacing a)).
Proof.
  induction l as [|v l IH]; intros a; cbn [map].
  - rewrite app_nil_r. destruct a. apply eats_nil.
  - rewrite xml_events_cons. eapply eats_app0 with (b := cfg_add_var (seen (fst v), seen (snd v)) a).
    + unfold x_doc_var. apply cfg_leaf; [reflexivity|]. unfold settings_start. go. reflexivity.
    + eapply eats_eq; [apply IH|]. unfold cfg_add_var, cfg_set. cbn [cfg_tab cfg_doc_id cfg_vars cfg_even_odd cfg_adjust cfg_spacing].
      now rewrite <- app_assoc.
Qed.
Lemma rt_spacing t : read_CharacterSpacingValues (seen (show_CharacterSpacingValues t)) =
  match t with CharacterSpacingValues_Unsupported => None | _ => Some t end.
Proof. destruct t; reflexivity. Qed.
Lemma cfg_tab_step n a : exact32 n -> eats cfgF 0 a (events_of_xml (valued_n "w:defaultTabStop" n)) (cfg_set_tab n a).
Proof.
  intros H. unfold valued_n, attr_n. apply cfg_leaf; [reflexivity|]. unfold settings_start. go. rewrite f32_N by exact H. go.
  rewrite as_usize_N by (ranges; lia). reflexivity.
Qed.
Lemma cfg_spacing_step o a : cfg_spacing a = None ->
  eats cfgF 0 a (xml_events (opt (fun v => valued "w:characterSpacingControl" (show_CharacterSpacingValues v)) o))
    (cfg_set (cfg_tab a) (cfg_doc_id a) (cfg_vars a) (cfg_even_odd a) (cfg_adjust a)
      (match o with Some CharacterSpacingValues_Unsupported => None | o => o end)).
Proof.
  intros H. eapply eats_eq.
  - apply (eats_opt _ _ _ _ _ _ (fun v => upd (match v with CharacterSpacingValues_Unsupported => None | _ => Some v end) cfg_set_spacing)).
    intros x _. unfold valued. apply cfg_leaf; [reflexivity|]. unfold settings_start. go. rewrite rt_spacing. reflexivity.
  - destruct a as [tab id vars eo adj sp]. cbn in H. subst sp. destruct o as [[]|]; reflexivity.
Qed.
Lemma cfg_adjust_step b a : eats cfgF 0 a (xml_events (on b [leaf "w:adjustLineHeightInTable" []])) (if b then cfg_set_adjust a else a).
Proof. apply eats_on. intros _. apply cfg_leaf; [reflexivity|]. unfold settings_start. go. reflexivity. Qed.
Lemma cfg_even_step b a : eats cfgF 0 a (xml_events (on b [leaf "w:evenAndOddHeaders" []])) (if b then cfg_set_even_odd a else a).
Proof. apply eats_on. intros _. apply cfg_leaf; [reflexivity|]. unfold settings_start, read_bool. go. reflexivity. Qed.
Lemma cfg_id_step o a : eats cfgF 0 a (xml_events (opt x_doc_id o)) (upd o (fun i => cfg_set_doc_id (without_braces (seen i))) a).
Proof.
  apply (eats_opt _ _ _ _ _ _ (fun i => cfg_set_doc_id (without_braces (seen i)))). intros i _. unfold x_doc_id.
  apply cfg_leaf; [reflexivity|]. unfold settings_start, read_doc_id. cbn [meant map fst snd]. rewrite seen_braces.
  rewrite <- no_braces_around. generalize ("{" +++ seen i +++ "}"). intros v. go. reflexivity.
Qed.
Lemma cfg_docvars_step l a : eats cfgF 0 a (xml_events (match l with [] => [] | p :: l0 => [E "w:docVars" [] (map x_doc_var (p :: l0))] end))
  (cfg_set (cfg_tab a) (cfg_doc_id a) (cfg_vars a ++ map (fun v => (seen (fst v), seen (snd v))) l) (cfg_even_odd a) (cfg_adjust a) (cfg_spacing a)).
Proof.
  destruct l as [|v l].
  - cbn [map]. rewrite app_nil_r. destruct a. apply eats_nil.
  - rewrite one_event. apply cfg_through; [reflexivity | intros; unfold settings_start; go; reflexivity |]. apply cfg_vars_step.
Qed.
Definition settings_children (c : settings) : list xml := match x_settings c with E _ _ ch => ch | _ => [] end.
Lemma eats_settings c : fits_settings c -> eats cfgF 0 settings_default (xml_events (settings_children c)) (reread_settings c).
Proof.
  intros H. unfold settings_children, x_settings. rewrite !xml_events_app. eapply eats_eq.
  - eapply eats_app0; [rewrite one_event; apply cfg_tab_step; exact H|].
    eapply eats_app0; [skips|].
    eapply eats_app0.
    { rewrite one_event. apply cfg_through; [reflexivity | intros; unfold settings_start; go; reflexivity |]. rewrite !xml_events_app.
      eapply eats_app0; [skips|]. eapply eats_app0; [apply cfg_spacing_step; reflexivity|]. eapply eats_app0; [apply cfg_adjust_step|]. skips. }
    eapply eats_app0; [apply cfg_id_step|]. eapply eats_app0; [apply (cfg_docvars_step (cfg_vars c))|]. apply cfg_even_step.
  - destruct c as [tab id vars eo adj sp]. unfold reread_settings. cbn [cfg_tab cfg_doc_id cfg_vars cfg_even_odd cfg_adjust cfg_spacing].
    destruct adj, id, eo, sp as [[]|]; reflexivity.
Qed.
Theorem settings_read_back c evs :
  doc_reported (part_calls (x_settings c)) = Some evs -> fits_settings c ->
  exists w, w_run w_init (part_calls (x_settings c)) = WOk w /\
    forall r, reads_from (WriterModel.out w) r -> enough r 0 -> exists r', read_settings r = Val (reread_settings c) r' /\ rs_para r' = rs_para r.
Proof.
  intros He Hf. destruct (part_read _ evs He) as (w & Hw & Hs). exists w. split; [exact Hw|]. intros r Hr0 Hn.
  destruct (Hs r Hr0) as (l & Er & Hl). unfold enough in Hn. rewrite Er. clear Er Hs Hr0 He.
  rewrite (read_settings_PF (length (xml_events (settings_children c)))). eexists. split.
  change (events_of_xml (x_settings c)) with
    (EStart (split_qname "w:settings") (meant [BuildModel.ns_w; BuildModel.ns_w14; BuildModel.ns_w15]) :: xml_events (settings_children c) ++ [EEnd (split_qname "w:settings")]).
  cbn [app]. rewrite <- app_assoc. erewrite part_start; [|apply cfg_shape | reflexivity].
  match goal with |- PF _ _ _ _ ?a _ = _ => change a with settings_default end.
  rewrite (eats_settings c Hf _ _ _ (Nat.le_refl _) Hn). cbn [app]. rewrite part_step by (apply cfg_shape || discriminate). reflexivity.
  cbn [st rs_para]. lia.
Qed.

(** Every file of a saved archive is XML. *)
From Coq Require Import NArith ZArith List Bool Lia.
From Verif Require Import Str StrFacts Props Ast TreeModel DepsModel WriterModel XmlParser XmlSpec XmlProofs XmlTree XmlTreeProofs ReadSpec PackModel PackSpec PackProofs PrepareModel StyleModel StyleSpec RenderModel WellSpec RestSpec OpenSpec
  RoundBase RoundSpec RoundParts OpenText OpenParts OpenFiles TocModel IdsModel ParaIdModel WholeSpec.
From Verif Require BuildModel BuildProofs WellProofs WellPartProofs WellStyle WellRest ReadProperties OpenFinal.
Import WellProofs (plain, plain_N, plain_app).
Import OpenSpec.
Import ListNotations.
Import BuildModel (xml, E, L, leaf, xcalls, part_calls).
Open Scope list_scope.

(** ** Each part *)
(** [t] is the text of an element with the strings [ps]. *)
Definition element_with (t : string) (ps : list piece) : Prop := exists pre x, declaring pre /\ t = text_of (pre ++ xcalls x) /\
  (WellProofs.spelled readable x <-> Forall readable ps) /\ (well_formed_xml x <-> Forall legal ps).
Lemma element_bare pre x ps : declaring pre -> ((WellProofs.spelled readable x <-> Forall readable ps) /\ (well_formed_xml x <-> Forall legal ps)) ->
  element_with (text_of (pre ++ xcalls x)) ps.
Proof. intros H [A B]. exists pre, x. auto. Qed.
Lemma declaring_none : declaring [decl_none].
Proof. right. eexists. reflexivity. Qed.
Lemma declaring_no : declaring [decl_no].
Proof. right. eexists. reflexivity. Qed.
Lemma declaring_part : declaring [BuildModel.decl].
Proof. right. eexists. reflexivity. Qed.
Lemma element_part x ps : ((exists evs, doc_reported (part_calls x) = Some evs) <-> Forall readable ps) /\ (well_formed_xml x <-> Forall legal ps) ->
  element_with (text_of (part_calls x)) ps.
Proof. intros [A B]. apply (element_bare [BuildModel.decl]); [apply declaring_part|]. rewrite <- WellProofs.part_readable. auto. Qed.
Lemma element_plain x : ((WellProofs.spelled readable x <-> Forall readable []) /\ (well_formed_xml x <-> Forall legal [])) -> element_with (text_of (part_calls x)) [].
Proof. intros H. apply (element_bare [BuildModel.decl]); [apply declaring_part|exact H]. Qed.
Lemma rendered_plain k o p s t s' : render k o p (Some s) = (t, Some s') -> b_noisy k o p = None -> t = plain_text k o p.
Proof. intros H Hb. unfold render in H. rewrite Hb in H. now injection H as <- _. Qed.
Lemma every_part k o p s t s' : render k o p (Some s) = (t, Some s') -> (forall xml, p <> PItem xml) -> (match p with PPart n => is_part n = true | _ => True end) ->
  element_with t (part_strings k o p).
Proof.
  intros H Hi Hp. destruct p as [f|n|l|e|i|x|i].
  - destruct f; cbn [part_strings]; try (rewrite (rendered_plain _ _ _ _ _ _ H eq_refl); cbn [plain_text]).
    + apply (element_bare [decl_none]); [apply declaring_none | apply WellRest.types_well].
    + apply (element_bare [decl_none]); [apply declaring_none | apply WellRest.package_rels_well].
    + apply element_plain, WellRest.app_well.
    + apply (element_bare [BuildModel.decl]); [apply declaring_part | apply WellRest.core_well].
    + apply (element_bare [BuildModel.decl]); [apply declaring_part | apply WellRest.custom_well].
    + apply (element_bare [decl_none]); [apply declaring_none | apply WellRest.doc_rels_well].
    + destruct (rendered_part k o _ _ _ _ _ H eq_refl) as (l & Hl & ->). apply built in Hl as (x & Hx & ->). apply element_part. exact (WellPartProofs.document_well _ _ _ _ _ Hx).
    + destruct (rendered_part k o _ _ _ _ _ H eq_refl) as (l & Hl & ->). apply built in Hl as (x & Hx & ->). apply (element_bare []); [now left|].
      rewrite <- WellStyle.bare_readable. exact (WellStyle.styles_well _ _ _ _ Hx).
    + apply element_part, WellStyle.settings_well.
    + apply element_plain, WellRest.fonts_well.
    + destruct (rendered_part k o _ _ _ _ _ H eq_refl) as (l & Hl & ->). apply built in Hl as (x & Hx & ->). apply element_part. exact (WellPartProofs.comments_well _ _ _ _ Hx).
    + destruct (rendered_part k o _ _ _ _ _ H eq_refl) as (l & Hl & ->). apply built in Hl as (x & Hx & ->). apply element_part. exact (WellStyle.numberings_well _ _ _ _ Hx).
    + apply (element_bare []); [now left | apply WellRest.ext_well].
    + destruct (rendered_part k o _ _ _ _ _ H eq_refl) as (l & Hl & ->). apply built in Hl as (x & Hx & ->). apply element_part. exact (WellPartProofs.footnotes_well _ _ _ _ Hx).
    + apply element_plain, WellRest.panes_well.
    + apply (element_bare [BuildModel.decl]); [apply declaring_part | apply WellRest.package_rels_well].
  - destruct n; try discriminate Hp. destruct (rendered_part k o _ _ _ _ _ H eq_refl) as (l & Hl & ->). apply built in Hl as (x & Hx & ->).
    apply element_part. exact (WellPartProofs.part_well _ _ _ _ _ _ _ Hx).
  - rewrite (rendered_plain _ _ _ _ _ _ H eq_refl); cbn [plain_text]. apply (element_bare [decl_none]); [apply declaring_none | apply WellRest.part_rels_well].
  - rewrite (rendered_plain _ _ _ _ _ _ H eq_refl); cbn [plain_text]. apply (element_bare [BuildModel.decl]); [apply declaring_part | apply WellRest.web_well].
  - rewrite (rendered_plain _ _ _ _ _ _ H eq_refl); cbn [plain_text]. apply element_plain, WellRest.item_rels_well.
  - now destruct (Hi x).
  - rewrite (rendered_plain _ _ _ _ _ _ H eq_refl); cbn [plain_text]. apply (element_bare [decl_no]); [apply declaring_no | apply WellRest.item_prop_well].
Qed.

(** ** Entries and steps *)
Lemma entry_step k o l : forall s es s', run_steps (render k o) l (Some s) = (es, Some s') -> forall n t, In (File n t) es ->
  (exists p s1 s2, In (SXml n p) l /\ render k o p (Some s1) = (t, Some s2)) \/ In (SRaw n t) l.
Proof.
  induction l as [|[m|m p|m d] l IH]; intros s es s' H n t Hi; cbn [run_steps] in H.
  - injection H as <- _. contradiction.
  - destruct (run_steps _ l (Some s)) as [es1 s1] eqn:R. injection H as <- ->. destruct Hi as [Hi|Hi]; [discriminate|].
    destruct (IH _ _ _ R _ _ Hi) as [(p & a & b & Hp & Ht)|Hr]; [left; exists p, a, b; split; [now right | exact Ht] | right; now right].
  - destruct (render k o p (Some s)) as [u s0] eqn:Q. destruct (run_steps _ l s0) as [es1 s1] eqn:R. injection H as <- ->.
    destruct s0 as [s0|]; [|exfalso; pose proof (panic_stays k o l) as X; rewrite R in X; discriminate].
    destruct Hi as [Hi|Hi]; [injection Hi as <- <-; left; exists p, s, s0; split; [now left | exact Q]|].
    destruct (IH _ _ _ R _ _ Hi) as [(q & a & b & Hq & Ht)|Hr]; [left; exists q, a, b; split; [now right | exact Ht] | right; now right].
  - destruct (run_steps _ l (Some s)) as [es1 s1] eqn:R. injection H as <- ->. destruct Hi as [Hi|Hi]; [injection Hi as <- <-; right; now left|].
    destruct (IH _ _ _ R _ _ Hi) as [(p & a & b & Hp & Ht)|Hr]; [left; exists p, a, b; split; [now right | exact Ht] | right; now right].
Qed.
Lemma part_step_is kind : forall parts i (rels : rels_of) s, In s (part_steps kind i parts rels) ->
  (exists j n, In n parts /\ s = SXml (nth_name ("word/" +++ kind) j ".xml") (PPart n)) \/
  (exists j l, In (j, l) rels /\ s = SXml (nth_name ("word/_rels/" +++ kind) j ".xml.rels") (PPartRels l)).
Proof.
  induction parts as [|n parts IH]; intros i rels s H; [contradiction|]. cbn [part_steps] in H. destruct H as [<-|H]; [left; exists i, n; split; [now left | reflexivity]|].
  assert (G : forall rels', (forall x, In x rels' -> In x rels) -> In s (part_steps kind (S i) parts rels') ->
    (exists j n0, In n0 (n :: parts) /\ s = SXml (nth_name ("word/" +++ kind) j ".xml") (PPart n0)) \/
    (exists j l, In (j, l) rels /\ s = SXml (nth_name ("word/_rels/" +++ kind) j ".xml.rels") (PPartRels l))).
  { intros rels' Hs X. apply IH in X as [(j & m & Hm & ->)|(j & l & Hl & ->)]; [left; exists j, m; split; [now right | reflexivity] | right; exists j, l; auto]. }
  destruct rels as [|[j l] rels]; [now apply G in H|]. destruct (Nat.eqb_spec j i) as [->|]; [|now apply G in H].
  destruct H as [<-|H]; [right; exists i, l; split; [now left | reflexivity]|]. apply (G rels); [intros x Hx; now right | exact H].
Qed.
Lemma web_step_is : forall l i s, In s (web_steps i l) -> exists n e, In e l /\ s = SXml n (PWeb e).
Proof. induction l as [|e l IH]; intros i s H; [contradiction|]. destruct H as [<-|H]; [exists (nth_name "word/webextensions/webextension" i ".xml"), e; split; [now left | reflexivity]|]. apply IH in H as (n & e' & He & ->). exists n, e'. split; [now right | reflexivity]. Qed.
Lemma item_step_is : forall l i s, In s (item_steps i l) -> exists n j id xml, nth_error l j = Some (id, xml) /\
  (s = SXml n (PItemRels (i + j)) \/ s = SXml (nth_name "customXml/item" (i + j) ".xml") (PItem xml) \/ s = SXml n (PItemProps id)).
Proof.
  induction l as [|[id xml] l IH]; intros i s H; [contradiction|]. cbn [item_steps] in H.
  destruct H as [<-|[<-|[<-|H]]].
  - exists (nth_name "customXml/_rels/item" i ".xml.rels"), 0, id, xml. rewrite Nat.add_0_r. auto.
  - exists ""%string, 0, id, xml. rewrite Nat.add_0_r. auto.
  - exists (nth_name "customXml/itemProps" i ".xml"), 0, id, xml. rewrite Nat.add_0_r. auto.
  - apply IH in H as (n & j & id' & xml' & Hj & H). exists n, (S j), id', xml'. rewrite Nat.add_succ_r. auto.
Qed.
(** Every step of a saved package. *)
Lemma step_is k c s : In s (stream_steps k c) ->
  (exists n, s = SDir n) \/ (exists n f, s = SXml n (PFixed f)) \/
  (exists n p, In p (parts_of (k_doc k)) /\ s = SXml n (PPart p)) \/
  (exists n l, In l (c_header_rels c ++ c_footer_rels c) /\ s = SXml n (PPartRels l)) \/
  (exists m, In m (c_media c) /\ s = SRaw (media_name (fst m)) (snd m)) \/
  (exists n e, In e (k_web k) /\ s = SXml n (PWeb e)) \/
  (exists n j id xml, nth_error (k_custom k) j = Some (id, xml) /\
    (s = SXml n (PItemRels j) \/ s = SXml (nth_name "customXml/item" j ".xml") (PItem xml) \/ s = SXml n (PItemProps id))).
Proof.
  assert (SP : forall (l : rels_list) j x, In (j, x) (sparse l) -> In x l).
  { intros l j x H. apply sparse_in in H as [H _]. now apply nth_error_In in H. }
  intros H. unfold stream_steps in H. repeat (apply in_app_iff in H; destruct H as [H|H]).
  - apply in_map_iff in H as (n & <- & _). left. eauto.
  - apply in_map_iff in H as ([n f] & <- & _). right. left. eauto.
  - right. right. apply part_step_is in H as [(j & n & Hn & ->)|(j & l & Hl & ->)].
    + left. eexists; exists n. split; [|reflexivity]. unfold parts_of. apply in_app_iff. now left.
    + right. left. eexists; exists l. split; [|reflexivity]. apply in_app_iff. left. eauto.
  - right. right. apply part_step_is in H as [(j & n & Hn & ->)|(j & l & Hl & ->)].
    + left. eexists; exists n. split; [|reflexivity]. unfold parts_of. apply in_app_iff. now right.
    + right. left. eexists; exists l. split; [|reflexivity]. apply in_app_iff. right. eauto.
  - unfold unless_nil in H. destruct (c_media c) as [|m0 ms]; [contradiction|]. revert H. generalize (m0 :: ms). intros ms' [<-|H]; [left; eauto|].
    right. right. right. right. left. apply in_map_iff in H as (m & <- & Hm). eauto.
  - destruct (k_taskpanes k); [|contradiction]. destruct H as [<-|[<-|[<-|[<-|H]]]]; eauto.
    right. right. right. right. right. left. now apply web_step_is in H.
  - unfold unless_nil in H. destruct (k_custom k); [contradiction|]. destruct H as [<-|[]]. left. eauto.
  - do 6 right. exact (item_step_is _ 0 _ H).
Qed.

(** ** The strings of the library *)
Definition plain_types (t : types) : Prop := Forall (fun e => plain (fst e) = true /\ plain (snd e) = true) (t_map t).
Definition plain_rels (l : list rel) : Prop := Forall (fun r => plain (rel_id r) = true /\ plain (rel_kind r) = true /\ plain (rel_target r) = true) l.
Definition own_plain (k : pkg) : Prop := plain_types (k_types k) /\ plain_rels (k_rels k) /\ plain_rels (k_pane_rels k).
Lemma insert_plain k v m : plain k = true -> plain v = true -> Forall (fun e => plain (fst e) = true /\ plain (snd e) = true) m ->
  Forall (fun e => plain (fst e) = true /\ plain (snd e) = true) (bt_insert k v m).
Proof.
  intros Hk Hv H. induction H as [|[a b] m H Hm IH]; cbn [bt_insert]; [repeat constructor; auto|].
  destruct (String.compare k a); constructor; auto; constructor; auto.
Qed.
Ltac str := rewrite ?plain_app, ?plain_N; reflexivity.
Lemma header_plain t : plain_types t -> plain_types (add_header t).
Proof. intros H. apply insert_plain; [str | reflexivity | exact H]. Qed.
Lemma footer_plain t : plain_types t -> plain_types (add_footer t).
Proof. intros H. apply insert_plain; [str | reflexivity | exact H]. Qed.
Lemma typed_plain x t : plain_types t -> plain_types (typed x t).
Proof. unfold typed. destruct (is_header_slot x); [apply header_plain | apply footer_plain]. Qed.
Lemma attach_plain x c r t p parts : plain_types t -> plain_types (snd (fst (attach x c (r, t, (p, parts))))).
Proof. intros H. cbn [attach fst snd]. now apply typed_plain. Qed.
Lemma attach_if_plain x c s : plain_types (snd (fst s)) -> plain_types (snd (fst (attach_if x c s))).
Proof. destruct s as [[r t] [p parts]]. destruct c as [c|]; [|auto]. apply attach_plain. Qed.
Lemma rel_plain l r : plain_rels l -> plain (rel_id r) = true /\ plain (rel_kind r) = true /\ plain (rel_target r) = true -> plain_rels (l ++ [r]).
Proof. intros H Hr. apply Forall_app. split; [exact H | now constructor]. Qed.
Lemma call_plain k a : own_plain k -> own_plain (call k a).
Proof.
  intros (Ht & Hr & Hp). destruct a as [n|s|x c| |e|id x|d]; cbn [call].
  - now split.
  - unfold add_section. match goal with |- context [attach_if FEven ?a ?b] => pose proof (attach_if_plain FEven a b) as G; destruct (attach_if FEven a b) as [[r t] [p parts]] end.
    split; [|now split]. cbn [set_types k_types]. apply G. repeat apply attach_if_plain. exact Ht.
  - split; [|now split]. cbn. now apply typed_plain.
  - split; [apply insert_plain; [reflexivity | reflexivity | exact Ht]|]. split; [|exact Hp]. apply rel_plain; [exact Hr|]. cbn [rel_id rel_kind rel_target mk_rel]. repeat split; str.
  - split; [apply insert_plain; [str | reflexivity | exact Ht]|]. split; [exact Hr|]. apply rel_plain; [exact Hp|]. cbn [rel_id rel_kind rel_target mk_rel]. repeat split; str.
  - split; [apply insert_plain; [str | reflexivity | exact Ht]|]. now split.
  - now split.
Qed.
Lemma calls_plain l : own_plain (calls l).
Proof.
  assert (G : forall k, own_plain k -> own_plain (fold_left call l k)).
  { induction l as [|a l IH]; intros k H; [exact H|]. now apply IH, call_plain. }
  apply G. repeat split; repeat constructor.
Qed.
Lemma prepared_plain crc styles ext n k k' c e : own_plain k -> prepare_package crc styles ext n k = Some (k', c, e) -> own_plain k'.
Proof.
  intros (Ht & Hr & Hp) H. unfold prepare_package in H. destruct (expand_auto_tocs _ _ _) as [[[body u] v]|]; [|discriminate].
  destruct (prepare_ids _) as [d1|]; [|discriminate]. destruct (collect_package crc _) as [[d2 c']|]; [|discriminate]. injection H as <- <- <-.
  split; [|now split]. cbn. destruct (c_has_footnotes c'); [|exact Ht]. apply insert_plain; [reflexivity | reflexivity | exact Ht].
Qed.
Section Pieces.
  Variable P : piece -> Prop.
  Hypothesis value : forall s, plain s = true -> P (Value s).
  Lemma types_hold t : plain_types t -> Forall P (in_types t).
  Proof. intros H. unfold in_types. induction H as [|e m [H1 H2] H IH]; [constructor|]. cbn [flat_map]. repeat (constructor; [now apply value|]). exact IH. Qed.
  Lemma rels_hold l : plain_rels l -> Forall P (in_package_rels l).
  Proof. intros H. unfold in_package_rels. induction H as [|e m (H1 & H2 & H3) H IH]; [constructor|]. cbn [flat_map]. repeat (constructor; [now apply value|]). exact IH. Qed.
  (** The strings of a part are among those given, but for those of the library. *)
  Lemma part_holds k o c n p : own_plain k -> Forall P (given k o c) -> In (SXml n p) (stream_steps k c) -> (forall xml, p <> PItem xml) -> Forall P (part_strings k o p).
  Proof.
    intros (Ht & Hr & Hp) H Hs Hi. unfold given, stored in H. rewrite !Forall_app in H.
    destruct H as ((H1 & H2 & H3 & H4 & H5 & H6 & H7 & H8 & H9 & H10) & H11 & H12 & H13 & H14).
    apply step_is in Hs as [(m & X)|[(m & f & X)|[(m & q & Hq & X)|[(m & l & Hl & X)|[(m & Hm & X)|[(m & e & He & X)|(m & j & id & xml & Hj & X)]]]]]];
      try discriminate X; try (injection X as <- ->).
    - destruct f; cbn [part_strings]; auto using types_hold, rels_hold.
    - cbn [part_strings]. rewrite Forall_flat_map, Forall_forall in H2. now apply H2.
    - cbn [part_strings]. rewrite Forall_flat_map, Forall_forall in H10. now apply H10.
    - cbn [part_strings]. rewrite Forall_flat_map, Forall_forall in H13. now apply H13.
    - destruct X as [X|[X|X]]; injection X as _ ->; cbn [part_strings]; [constructor | now destruct (Hi xml)|].
      apply nth_error_In in Hj. rewrite Forall_map, Forall_forall in H14. constructor; [|constructor]. exact (H14 _ Hj).
  Qed.
End Pieces.

(** ** All files *)
Lemma file_is l o k c es n t : saved l o k c es -> In (File n t) es ->
  media_file c n t \/ item_file k n t \/
  exists ps, element_with t ps /\ (forall P : piece -> Prop, (forall s, plain s = true -> P (Value s)) -> Forall P (given k o c) -> Forall P ps).
Proof.
  intros (Hty & (crc & styles & ext & m & Hprep) & s & s' & Hpack) Hi.
  pose proof (prepared_plain _ _ _ _ _ _ _ _ (calls_plain l) Hprep) as Hown.
  destruct (entry_step _ _ _ _ _ _ (ran _ _ _ _ _ _ Hpack) _ _ Hi) as [(p & s1 & s2 & Hp & Hr)|Hr].
  - destruct p as [f|q|r|e|i|x|i].
    6:{ right. left. apply step_is in Hp as [(a & X)|[(a & f & X)|[(a & q & Hq & X)|[(a & r & Hl & X)|[(a & Hm & X)|[(a & e & He & X)|(a & j & id & xml & Hj & X)]]]]]]; try discriminate X.
        destruct X as [X|[X|X]]; try discriminate X. injection X as -> <-. rewrite (rendered_plain _ _ _ _ _ _ Hr eq_refl). now exists j, id. }
    all: right; right; eexists; (split; [eapply every_part; [exact Hr | discriminate | try exact I] | intros P HP Hg; now apply (part_holds P HP k o c n)]).
    apply step_is in Hp as [(a & X)|[(a & f & X)|[(a & q' & Hq & X)|[(a & r & Hl & X)|[(a & Hm & X)|[(a & e & He & X)|(a & j & id & xml & Hj & X)]]]]]]; try discriminate X.
    + injection X as <- <-. pose proof (OpenFinal.parts_are_parts (k_doc k)) as F. rewrite Forall_forall in F. now apply F.
    + destruct X as [X|[X|X]]; discriminate X.
  - left. apply step_is in Hr as [(a & X)|[(a & f & X)|[(a & q' & Hq & X)|[(a & r & Hl & X)|[(a & Hm & X)|[(a & e & He & X)|(a & j & id & xml & Hj & X)]]]]]]; try discriminate X.
    + injection X as -> ->. now exists a.
    + destruct X as [X|[X|X]]; discriminate X.
Qed.
Lemma ends_after l r : Forall (eq EDocEnd) r -> forall st, still_open st (l ++ r) = still_open st l.
Proof. intros H st. rewrite still_open_app. destruct (still_open st l) as [o|]; [|reflexivity]. revert H. clear. intros H. revert o. induction H as [|e r <- H IH]; intros o; [reflexivity | apply IH]. Qed.
Lemma open_text s st : still_open st (text_events s) = Some st.
Proof. unfold text_events. destruct s; [reflexivity|]. now destruct (all_char _ _). Qed.
Lemma open_xml : forall x st, still_open st (events_of_xml x) = Some st.
Proof.
  induction x as [n a ch IH|n a ts] using xml_tree_ind; intros st; cbn [events_of_xml still_open]; rewrite still_open_app.
  - assert (G : forall st, still_open st (flat_map events_of_xml ch) = Some st).
    { induction IH as [|y ch Hy H IH']; intros o; [reflexivity|]. cbn [flat_map]. rewrite still_open_app, Hy. apply IH'. }
    rewrite G. cbn [still_open]. now rewrite qname_eqb_refl.
  - rewrite open_text. cbn [still_open]. now rewrite qname_eqb_refl.
Qed.
Lemma no_error x : ~ In EErr (events_of_xml x).
Proof.
  induction x as [n a ch IH|n a ts] using xml_tree_ind; cbn [events_of_xml In]; rewrite in_app_iff; cbn [In]; intros [H|[H|[H|[]]]]; try discriminate.
  - apply in_flat_map in H as (y & Hy & H). rewrite Forall_forall in IH. exact (IH y Hy H).
  - revert H. unfold text_events. destruct (concat_str ts); [auto|]. destruct (all_char _ _); cbn; intuition discriminate.
Qed.
Theorem files_are_xml l o k c es : saved l o k c es -> Forall legal (given k o c) ->
  forall n t, In (File n t) es -> media_file c n t \/ item_file k n t \/ is_xml t.
Proof.
  intros Hs Hg n t Hi. destruct (file_is _ _ _ _ _ _ _ Hs Hi) as [H|[H|(ps & (pre & x & Hd & -> & _ & Hx) & Hps)]]; auto.
  right. right. exists pre, x. split; [exact Hd|]. split; [reflexivity|]. apply Hx, Hps; [|exact Hg]. apply WellProofs.legal_value.
Qed.
Theorem files_complete l o k c es : saved l o k c es -> Forall readable (given k o c) ->
  forall n t, In (File n t) es -> media_file c n t \/ item_file k n t \/ complete_text t.
Proof.
  intros Hs Hg n t Hi. destruct (file_is _ _ _ _ _ _ _ Hs Hi) as [H|[H|(ps & (pre & x & Hd & -> & Hx & _) & Hps)]]; auto.
  right. right. assert (Hr : WellProofs.spelled readable x) by (apply Hx, Hps; [apply WellProofs.readable_value | exact Hg]).
  destruct (events_text pre x Hd Hr) as (r & He & Hend). apply ReadProperties.complete_by_events; rewrite He.
  - rewrite ends_after by exact Hend. apply open_xml.
  - intros X. apply in_app_iff in X as [X|X]; [|rewrite Forall_forall in Hend; now apply Hend in X].
    now apply no_error in X.
Qed.

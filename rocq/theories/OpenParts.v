(** Reading the texts of the parts of a package in the place where they stand. *)
From Coq Require Import NArith ZArith List Bool Lia.
From Verif Require Import Str StrFacts TypesModel Props PropsSet Ast EscapeModel XmlParser XmlSpec XmlProofs XmlProperties WriterModel WriterProofs ReadBase ReadProps ReadModel ReadProg ReadProofs ReadSpec
  ZipNameModel PathModel DepsModel PackModel PackSpec StyleModel StyleRead StyleSpec RenderModel RenderSpec RenderProofs OpenModel WellSpec WellPartProofs OpenText.
From Verif Require BuildModel BuildSpec BuildProofs WellProofs WellStyle ReadProperties.
From Verif Require Import RoundSpec RoundBase RoundNums RoundParts RoundStyle.
Import ListNotations.
Import BuildModel (xml, E, L, leaf, xcalls, part_calls).
Import ReadProperties (from_text, from_text_reads).
Open Scope list_scope.

(** ** Texts begin with a tag *)
Definition tagged (t : string) : Prop := exists r, t = String "<" r.
Lemma tagged_app a b : tagged a -> tagged (a +++ b).
Proof. intros (r & ->). now exists (r +++ b). Qed.
Lemma tagged_bom t : tagged t -> without_bom t = t.
Proof. intros (r & ->). reflexivity. Qed.
Lemma text_tagged pre x : declaring pre -> tagged (text_of (pre ++ xcalls x)).
Proof.
  intros Hp. assert (D : declares pre) by (destruct Hp as [->|(s & ->)]; [now left | right; eauto 6]).
  destruct (text_is_text pre x D) as (w & Hw & <-). destruct Hp as [->|(s & ->)].
  - cbn [app] in Hw. destruct x as [n a ch|n a ts].
    + assert (X : exists c r, flat_map xcalls ch ++ [CEnd] = c :: r) by (destruct (flat_map xcalls ch); cbn [app]; eauto).
      destruct X as (c & r & X). cbn [xcalls] in Hw. rewrite X in Hw. cbn [w_run w_step] in Hw.
      destruct c as [v e s|m b| |t]; cbn [w_step flush_pending stack pending WriterModel.out pending_start w_init append] in Hw; apply run_grows in Hw as (b' & ->); cbn [WriterModel.out];
        apply tagged_app; eexists; reflexivity.
    + destruct ts as [|t ts]; cbn [xcalls map app w_run w_step flush_pending stack pending WriterModel.out pending_start w_init append] in Hw.
      * injection Hw as <-. cbn [WriterModel.out]. eexists; reflexivity.
      * apply run_grows in Hw as (b' & ->). cbn [WriterModel.out]. apply tagged_app; eexists; reflexivity.
  - destruct (run_prefix [CDecl "1.0" (Some "UTF-8"%string) s] (xcalls x) _ w eq_refl Hw) as (b & ->). apply tagged_app. eexists; reflexivity.
Qed.
Lemma decl_declaring : declaring [BuildModel.decl].
Proof. right. eexists. reflexivity. Qed.

(** ** The parts with a tree *)
Lemma on_text_from A (m : R A) calls w v k s : w_run w_init calls = WOk w ->
  (forall r, reads_from (WriterModel.out w) r -> enough r k -> exists r', m r = Val v r' /\ rs_para r' = (rs_para r + k)%N) ->
  (rs_para s + k < 4294967296)%N ->
  on_text m (text_of calls) s = Val v {| rs_events := rs_events s; rs_para := rs_para s + k |}.
Proof.
  intros Hw H Hs. unfold text_of. rewrite Hw. unfold on_text.
  destruct (H {| rs_events := events_of (WriterModel.out w); rs_para := rs_para s |}) as (r' & Hr & Hc).
  - intros n. unfold rs_events. rewrite nth_request_events. reflexivity.
  - exact Hs.
  - rewrite Hr. cbn [rs_para] in Hc. now rewrite Hc.
Qed.
(** The rendering of a part, unfolded. *)
Lemma rendered_part k o p m s t s' : RenderModel.render k o p (Some s) = (t, Some s') -> b_noisy k o p = Some m -> exists l, m s = Some (l, s') /\ t = text_of l.
Proof.
  intros H Hm. unfold RenderModel.render in H. rewrite Hm in H. destruct (m s) as [[l s1]|]; [|discriminate]. injection H as <- <-. now exists l.
Qed.
Lemma built A (m : BuildModel.M A) (f : A -> list WriterModel.call) s l s' :
  BuildModel.bind m (fun x => BuildModel.ret (f x)) s = Some (l, s') -> exists x, m s = Some (x, s') /\ l = f x.
Proof. intros H. apply BuildProofs.bind_inv in H as (x & s1 & H & H'). injection H' as <- <-. now exists x. Qed.
Notation after r k := {| rs_events := rs_events r; rs_para := rs_para r + k |}.

Lemma document_text k o s t s' r : let body := d_body (k_doc k) in let sp := d_sect (k_doc k) in
  RenderModel.render k o (PFixed XDocument) (Some s) = (t, Some s') ->
  Forall readable (in_document body sp) -> forallb (kept InDocument) body = true -> Forall fits body -> fits_sectpr sp ->
  (rs_para r + sumN paras body < 4294967296)%N ->
  tagged t /\ on_text read_document t r = Val (flat_map (reread InDocument) body, reread_sectpr sp) (after r (sumN paras body)).
Proof.
  intros body sp H Hr Hk Hf Hs Hn. destruct (rendered_part k o _ _ _ _ _ H eq_refl) as (l & Hl & ->). apply built in Hl as (x & Hx & ->).
  split; [apply (text_tagged [BuildModel.decl]), decl_declaring|].
  apply (proj1 (document_well _ _ _ _ _ Hx)) in Hr as (evs & He). destruct (document_reads_back _ _ _ _ _ _ Hx He Hk Hf Hs) as (w & Hw & Hd).
  now apply (on_text_from _ _ _ w).
Qed.
Lemma part_text k o sl rid nb ch s t s' r :
  RenderModel.render k o (PPart (NPart sl rid nb ch)) (Some s) = (t, Some s') ->
  Forall readable (in_body ch) -> forallb (kept InPart) ch = true -> Forall fits ch -> (rs_para r + sumN paras ch < 4294967296)%N ->
  tagged t /\ on_text read_header t r = Val (flat_map (reread InPart) ch) (after r (sumN paras ch)).
Proof.
  intros H Hr Hk Hf Hn. destruct (rendered_part k o _ _ _ _ _ H eq_refl) as (l & Hl & ->). apply built in Hl as (x & Hx & ->).
  split; [apply (text_tagged [BuildModel.decl]), decl_declaring|].
  apply (proj1 (part_well _ _ _ _ _ _ _ Hx)) in Hr as (evs & He). destruct (header_reads_back _ _ _ _ _ _ _ _ Hx He Hk Hf) as (w & Hw & Hd).
  now apply (on_text_from _ _ _ w).
Qed.
Lemma comments_text k o s t s' r : let cs := d_comments (k_doc k) in
  RenderModel.render k o (PFixed XComments) (Some s) = (t, Some s') ->
  Forall readable (in_comments cs) -> forallb kept_comment cs = true -> Forall fits_comment cs -> (rs_para r + paras_in cs < 4294967296)%N ->
  tagged t /\ on_text read_comments t r = Val (map reread_comment cs) (after r (paras_in cs)).
Proof.
  intros cs H Hr Hk Hf Hn. destruct (rendered_part k o _ _ _ _ _ H eq_refl) as (l & Hl & ->). apply built in Hl as (x & Hx & ->).
  split; [apply (text_tagged [BuildModel.decl]), decl_declaring|].
  apply (proj1 (comments_well _ _ _ _ Hx)) in Hr as (evs & He). destruct (RoundParts.comments_read_back _ _ _ _ _ Hx He Hk Hf) as (w & Hw & Hd).
  now apply (on_text_from _ _ _ w).
Qed.
Lemma unchanged A (m : R A) t v (r : rst) : on_text m t r = Val v (after r 0) -> on_text m t r = Val v r.
Proof. rewrite N.add_0_r. now destruct r. Qed.
Lemma styles_text k o s t s' r :
  RenderModel.render k o (PFixed XStyles) (Some s) = (t, Some s') ->
  Forall readable (in_styles (o_styles o)) -> fits_styles (o_styles o) -> (rs_para r < 4294967296)%N ->
  tagged t /\ on_text read_styles t r = Val (reread_styles (o_styles o)) r.
Proof.
  intros H Hr Hf Hn. destruct (rendered_part k o _ _ _ _ _ H eq_refl) as (l & Hl & ->). apply built in Hl as (x & Hx & ->).
  split; [apply (text_tagged []); now left|].
  apply (proj1 (WellStyle.styles_well _ _ _ _ Hx)) in Hr as (evs & He). destruct (RoundStyle.styles_read_back _ _ _ _ _ Hx He Hf) as (w & Hw & Hd).
  apply unchanged, (on_text_from _ _ _ w); [exact Hw | | lia]. intros q Hq Hq2. destruct (Hd q Hq Hq2) as (r' & R1 & R2). exists r'. split; [exact R1 | lia].
Qed.
Lemma numberings_text k o s t s' r :
  RenderModel.render k o (PFixed XNumbering) (Some s) = (t, Some s') ->
  Forall readable (in_numberings (o_numberings o)) -> fits_numberings (o_numberings o) -> (rs_para r < 4294967296)%N ->
  tagged t /\ on_text read_numberings t r = Val (reread_numberings (o_numberings o)) r.
Proof.
  intros H Hr Hf Hn. destruct (rendered_part k o _ _ _ _ _ H eq_refl) as (l & Hl & ->). apply built in Hl as (x & Hx & ->).
  split; [apply (text_tagged [BuildModel.decl]), decl_declaring|].
  apply (proj1 (WellStyle.numberings_well _ _ _ _ Hx)) in Hr as (evs & He). destruct (RoundStyle.numberings_read_back _ _ _ _ _ Hx He Hf) as (w & Hw & Hd).
  apply unchanged, (on_text_from _ _ _ w); [exact Hw | | lia]. intros q Hq Hq2. destruct (Hd q Hq Hq2) as (r' & R1 & R2). exists r'. split; [exact R1 | lia].
Qed.
Lemma settings_text c r : Forall readable (in_settings c) -> fits_settings c -> (rs_para r < 4294967296)%N ->
  on_text read_settings (text_of (part_calls (x_settings c))) r = Val (reread_settings c) r.
Proof.
  intros Hr Hf Hn. apply (proj1 (WellStyle.settings_well _)) in Hr as (evs & He). destruct (RoundStyle.settings_read_back _ _ He Hf) as (w & Hw & Hd).
  apply unchanged, (on_text_from _ _ _ w); [exact Hw | | lia]. intros q Hq Hq2. destruct (Hd q Hq Hq2) as (r' & R1 & R2). exists r'. split; [exact R1 | lia].
Qed.

(** ** The archive *)
Lemma plain_path n : has_char ch_back n = false -> (forall r, n <> String ch_slash r) -> zip_path n = n.
Proof.
  intros H Hs. unfold zip_path. rewrite H. destruct n as [|c n]; [reflexivity|]. cbn [trim_slashes]. destruct (Ascii.eqb_spec c ch_slash) as [->|]; [now destruct (Hs n) | reflexivity].
Qed.
Lemma by_name_in a n d : NoDup (map fst a) -> In (n, d) a -> by_name a n = Some d.
Proof.
  induction a as [|[m e] a IH]; intros Hd Hi; [contradiction|]. inversion Hd as [|? ? Hm Ha]; subst. cbn [by_name]. destruct Hi as [Hi|Hi].
  - injection Hi as -> ->. assert (X : by_name a n = None); [|rewrite X; now rewrite String.eqb_refl].
    clear -Hm. induction a as [|[p q] a IH]; [reflexivity|]. cbn [map fst In] in Hm. apply Decidable.not_or in Hm as [H1 H2]. cbn [by_name]. rewrite (IH H2).
    apply String.eqb_neq in H1. now rewrite H1.
  - now rewrite (IH Ha Hi).
Qed.
Lemma by_name_none a n : ~ In n (map fst a) -> by_name a n = None.
Proof.
  induction a as [|[p q] a IH]; intros H; [reflexivity|]. cbn [map fst In] in H. apply Decidable.not_or in H as [H1 H2]. cbn [by_name]. rewrite (IH H2).
  apply String.eqb_neq in H1. now rewrite H1.
Qed.
Lemma archive_names es : map fst (as_archive es) = map entry_name es.
Proof. unfold as_archive. rewrite map_map. apply map_ext. now intros []. Qed.
Lemma zip_file es n d : NoDup (map entry_name es) -> In (File n d) es -> zip_path n = n -> read_zip (as_archive es) n = Some (without_bom d).
Proof.
  intros Hd Hi Hn. unfold read_zip. rewrite Hn. rewrite (by_name_in _ n d); [reflexivity | now rewrite archive_names |].
  unfold as_archive. apply in_map_iff. now exists (File n d).
Qed.
Lemma zip_missing es n : ~ In n (map entry_name es) -> zip_path n = n -> read_zip (as_archive es) n = None.
Proof. intros Hi Hn. unfold read_zip. rewrite Hn, by_name_none; [reflexivity | now rewrite archive_names]. Qed.
(** After a panic nothing recovers. *)
Lemma panic_stays k o l : snd (run_steps (RenderModel.render k o) l None) = None.
Proof.
  induction l as [|[n|n p|n d] l IH]; cbn [run_steps].
  - reflexivity.
  - destruct (run_steps _ l None). exact IH.
  - unfold RenderModel.render at 1. destruct (b_noisy k o p); destruct (run_steps _ l None); exact IH.
  - destruct (run_steps _ l None). exact IH.
Qed.
Lemma step_entries k o l : forall s es s', run_steps (RenderModel.render k o) l (Some s) = (es, Some s') ->
  (forall n p, In (SXml n p) l -> exists s1 s2 t, RenderModel.render k o p (Some s1) = (t, Some s2) /\ In (File n t) es) /\
  (forall n d, In (SRaw n d) l -> In (File n d) es).
Proof.
  induction l as [|[n|n p|n d] l IH]; intros s es s' H; cbn [run_steps] in H; [split; contradiction| | |].
  - destruct (run_steps _ l (Some s)) as [es1 s1] eqn:R. injection H as <- ->. destruct (IH _ _ _ R) as [A B]. split.
    + intros m q [X|X]; [discriminate|]. destruct (A _ _ X) as (a & b & t & Ht & Hi). exists a, b, t. split; [exact Ht | now right].
    + intros m q [X|X]; [discriminate|]. right. now apply B.
  - destruct (RenderModel.render k o p (Some s)) as [t s0] eqn:Q. destruct (run_steps _ l s0) as [es1 s1] eqn:R. injection H as <- ->.
    destruct s0 as [s0|]; [|exfalso; pose proof (panic_stays k o l) as X; rewrite R in X; discriminate]. destruct (IH _ _ _ R) as [A B]. split.
    + intros m q [X|X]; [injection X as <- <-; exists s, s0, t; split; [exact Q | now left]|].
      destruct (A _ _ X) as (a & b & t' & Ht & Hi). exists a, b, t'. split; [exact Ht | now right].
    + intros m q [X|X]; [discriminate|]. right. now apply B.
  - destruct (run_steps _ l (Some s)) as [es1 s1] eqn:R. injection H as <- ->. destruct (IH _ _ _ R) as [A B]. split.
    + intros m q [X|X]; [discriminate|]. destruct (A _ _ X) as (a & b & t & Ht & Hi). exists a, b, t. split; [exact Ht | now right].
    + intros m q [X|X]; [injection X as <- <-; now left|]. right. now apply B.
Qed.

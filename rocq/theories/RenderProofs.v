(** Streaming and buffering with the real renderer. *)
From Coq Require Import NArith List Bool Lia.
From Verif Require Import Str StrFacts ListFacts TypesModel Props Ast IdsModel WriterModel WriterProofs BuildModel BuildSpec BuildProofs BuildPartProofs
  TreeModel StyleModel PackModel PackSpec PackProofs RenderModel RenderSpec RenderSame.
Import ListNotations.

(** ** Ids taken for styles and numberings *)
Lemma costs_total {A} (f : A -> M (list xml)) (sp : A -> spend) l : (forall a, costs (f a) true (sp a)) -> costs (each f l) true (total (map sp l)).
Proof.
  intros H. induction l as [|a l IH]; cbn [each map]; [apply costs_ret|]. rewrite total_cons.
  eapply costs_eq; [chain ltac:(first [apply H | exact IH]) | reflexivity | sums].
Qed.
Lemma costs_style s : costs (b_style s) true (style_spend s).
Proof. unfold style_spend. eapply costs_eq; [unfold b_style; chain ltac:(first [apply costs_rpr | apply costs_ppr]) | reflexivity | sums]. Qed.
Lemma costs_styles t : costs (b_styles t) true (styles_spend t).
Proof.
  unfold styles_spend. rewrite !total_cons. eapply costs_eq; [unfold b_styles | |].
  - eapply costs_bind; [unfold b_doc_defaults; chain ltac:(first [apply costs_rpr | apply costs_ppr])|]. intros d.
    eapply costs_bind; [apply costs_style|]. intros n. eapply costs_bind; [apply (costs_total b_style style_spend), costs_style|]. intros; apply costs_ret.
  - reflexivity.
  - change (style_spend style_normal) with nothing. sums.
Qed.
Lemma costs_level l : costs (b_level l) true (level_spend l).
Proof. unfold level_spend. eapply costs_eq; [unfold b_level; chain ltac:(first [apply costs_rpr | apply costs_ppr]) | reflexivity | sums]. Qed.
Lemma costs_abstract a : costs (b_abstract a) true (total (map level_spend (an_levels a))).
Proof. eapply costs_eq; [unfold b_abstract; chain ltac:(apply (costs_total b_level level_spend), costs_level) | reflexivity | apply plus_0_r]. Qed.
Lemma costs_override o : costs (b_override o) true (total (map level_spend (opt (fun l => l) (ov_replace o)))).
Proof.
  unfold b_override. destruct (ov_replace o) as [l|]; cbn [opt map].
  - eapply costs_eq; [chain ltac:(apply costs_level) | reflexivity | reflexivity].
  - eapply costs_eq; [chain idtac | reflexivity | reflexivity].
Qed.
Lemma costs_num n : costs (b_num n) true (total (map level_spend (replaced_levels n))).
Proof.
  eapply costs_eq; [unfold b_num; chain ltac:(apply (costs_total b_override (fun o => total (map level_spend (opt (fun l => l) (ov_replace o))))), costs_override) | reflexivity |]. rewrite plus_0_r. unfold replaced_levels.
  induction (nm_overrides n) as [|o l IH]; [reflexivity|]. cbn [map flat_map]. now rewrite total_cons, map_app, total_app, IH.
Qed.
Lemma total_flat {A B} (f : B -> spend) (g : A -> list B) l : total (map (fun a => total (map f (g a))) l) = total (map f (flat_map g l)).
Proof. induction l as [|a l IH]; [reflexivity|]. cbn [map flat_map]. now rewrite total_cons, map_app, total_app, IH. Qed.
Lemma costs_numberings t : costs (b_numberings t) true (numberings_spend t).
Proof.
  unfold numberings_spend. rewrite map_app, total_app, <- !total_flat. eapply costs_eq; [unfold b_numberings | |].
  - eapply costs_bind; [apply costs_abstract|]. intros d. eapply costs_bind; [apply (costs_total b_abstract (fun a => total (map level_spend (an_levels a)))), costs_abstract|]. intros a.
    eapply costs_bind; [apply costs_num|]. intros e. eapply costs_bind; [apply (costs_total b_num (fun n => total (map level_spend (replaced_levels n)))), costs_num|]. intros; apply costs_ret.
  - reflexivity.
  - change (total (map level_spend (an_levels default_abstract))) with nothing. change (total (map level_spend (replaced_levels default_num))) with nothing. sums.
Qed.

(** ** The text of an element *)
Lemma xcalls_run : forall x w, exists w', w_run w (xcalls x) = WOk w' /\ List.length (stack w') = List.length (stack w).
Proof.
  refine (xml_tree_ind _ _ _).
  - intros n a ch IH w. cbn [xcalls w_run w_step].
    set (w0 := {| WriterModel.out := _; stack := _; names := _; pending_start := _ |}).
    assert (L0 : List.length (stack w0) = S (List.length (stack w))) by (cbn [stack w0 List.length]; now rewrite flush_length).
    assert (C : forall v, exists v', w_run v (flat_map xcalls ch) = WOk v' /\ List.length (stack v') = List.length (stack v)).
    { clear -IH. induction IH as [|x l Hx _ IHl]; intros v; cbn [flat_map]; [now exists v|].
      destruct (Hx v) as (v1 & R1 & L1). destruct (IHl v1) as (v2 & R2 & L2). exists v2. rewrite run_app, R1. split; [exact R2 | congruence]. }
    destruct (C w0) as (w1 & R & L). rewrite run_app, R. cbn [w_run w_step]. rewrite L0 in L.
    destruct (stack w1) as [|e st]; [discriminate|]. injection L as L. destruct (pending e); eexists; (split; [reflexivity | exact L]).
  - intros n a t w. cbn [xcalls w_run w_step].
    set (w0 := {| WriterModel.out := _; stack := _; names := _; pending_start := _ |}).
    assert (L0 : List.length (stack w0) = S (List.length (stack w))) by (cbn [stack w0 List.length]; now rewrite flush_length).
    assert (C : forall v, exists v', w_run v (map CText t) = WOk v' /\ List.length (stack v') = List.length (stack v)).
    { clear. induction t as [|x l IHl]; intros v; cbn [map w_run w_step]; [now exists v|].
      match goal with |- context [w_run ?u _] => destruct (IHl u) as (v2 & R2 & L2) end. exists v2. split; [exact R2|].
      rewrite L2. cbn [stack]. now rewrite flush_length. }
    destruct (C w0) as (w1 & R & L). rewrite run_app, R. cbn [w_run w_step]. rewrite L0 in L.
    destruct (stack w1) as [|e st]; [discriminate|]. injection L as L. destruct (pending e); eexists; (split; [reflexivity | exact L]).
Qed.
Definition declares (pre : list WriterModel.call) : Prop := pre = [] \/ exists d, pre = [d] /\ exists v e s, d = CDecl v e s.
Lemma text_is_text pre x : declares pre -> is_text pre x (text_of (pre ++ xcalls x)).
Proof.
  intros D. assert (P : exists w, w_run w_init pre = WOk w).
  { destruct D as [->|(d & -> & v & e & s & ->)]; [now exists w_init | cbn [w_run w_step]; eauto]. }
  destruct P as (w & P). destruct (xcalls_run x w) as (w' & R & _). exists w'. unfold text_of. rewrite run_app, P, R. auto.
Qed.
Lemma declared_text_full v e s x : text_of (CDecl v e s :: xcalls x) <> "".
Proof.
  change (text_of ([CDecl v e s] ++ xcalls x) <> ""). assert (D : declares [CDecl v e s]) by (right; eauto 6).
  destruct (text_is_text [CDecl v e s] x D) as (w & R & <-).
  destruct (run_prefix [CDecl v e s] (xcalls x) _ w eq_refl R) as (b & ->). cbn. discriminate.
Qed.

(** ** One part *)
Section Parts.
  Variable k : pkg.
  Variable o : rest.
  Notation render := (render k o).
  Definition renders (p : part) (ok : bool) (sp : spend) : Prop :=
    exists pre m, b_noisy k o p = Some (x <- m;; ret (pre ++ xcalls x)) /\ declares pre /\ costs m ok sp /\
      forall b1 b2, st b1 b2 nothing (fun k => same_but_ids b1 b2 k) m m.
  Lemma declares_decl : declares [decl].
  Proof. right. unfold decl. eauto 8. Qed.
  Lemma renders_document : renders (PFixed XDocument) (writable (d_body (k_doc k))) (document_spend k).
  Proof.
    exists [decl], (b_document (d_body (k_doc k)) (d_sect (k_doc k))). split; [reflexivity|]. split; [apply declares_decl|].
    split; [apply costs_document | intros; apply st_document].
  Qed.
  Lemma renders_styles : renders (PFixed XStyles) true (styles_spend (o_styles o)).
  Proof.
    exists [], (b_styles (o_styles o)). split; [reflexivity|]. split; [now left|]. split; [apply costs_styles | intros; apply st_styles].
  Qed.
  Lemma renders_comments : renders (PFixed XComments) (writable (flat_map snd (d_comments (k_doc k)))) (comments_spend k).
  Proof.
    exists [decl], (b_comments (d_comments (k_doc k))). split; [reflexivity|]. split; [apply declares_decl|].
    split; [apply costs_comments | intros; apply st_comments].
  Qed.
  Lemma renders_numbering : renders (PFixed XNumbering) true (numberings_spend (o_numberings o)).
  Proof.
    exists [decl], (b_numberings (o_numberings o)). split; [reflexivity|]. split; [apply declares_decl|].
    split; [apply costs_numberings | intros; apply st_numberings].
  Qed.
  Lemma renders_footnotes : renders (PFixed XFootnotes) (writable (flat_map snd (d_footnotes (k_doc k)))) (notes_spend k).
  Proof.
    exists [decl], (b_footnotes (d_footnotes (k_doc k))). split; [reflexivity|]. split; [apply declares_decl|].
    split; [apply costs_footnotes | intros; apply st_footnotes].
  Qed.
  Lemma renders_part x rid nb ch : renders (PPart (NPart x rid nb ch)) (writable ch) (nodes_spend ch).
  Proof.
    exists [decl], (b_part (NPart x rid nb ch)). split; [reflexivity|]. split; [apply declares_decl|].
    split; [apply costs_part | intros; apply st_part].
  Qed.
  Lemma renders_quiet p : noisy p = false -> forall c, render p c = (plain_text k o p, c).
  Proof. intros H c. unfold RenderModel.render. destruct p as [f| | | | | |]; try destruct f; try discriminate H; reflexivity. Qed.
  Lemma rels_full l c : fst (render (PPartRels l) c) <> "".
  Proof. cbn [RenderModel.render b_noisy fst plain_text]. apply declared_text_full. Qed.

  Definition alike (b1 b2 : ids) (sp : spend) (t1 t2 : string) : Prop :=
    exists pre x1 x2, is_text pre x1 t1 /\ is_text pre x2 t2 /\ same_but_ids b1 b2 sp x1 x2.
  Lemma alike_agree b1 b2 sp t1 t2 : alike b1 b2 sp t1 t2 -> agree b1 b2 sp -> t1 = t2.
  Proof.
    intros (pre & x1 & x2 & (w1 & R1 & <-) & (w2 & R2 & <-) & S) A. apply (same_agree _ _ _ A) in S as ->. rewrite R1 in R2. now inversion R2.
  Qed.
  Lemma render_two p ok sp s1 s2 : renders p ok sp -> ok = true -> enough s1 sp -> enough s2 sp ->
    exists t1 t2, render p (Some s1) = (t1, Some (after s1 sp)) /\ render p (Some s2) = (t2, Some (after s2 sp)) /\ alike s1 s2 sp t1 t2.
  Proof.
    intros (pre & m & Hb & Hd & Hc & Hs) -> E1 E2. unfold RenderModel.render. rewrite Hb. unfold bind, ret.
    assert (C1 := Hc s1). assert (C2 := Hc s2). destruct (m s1) as [[x1 u1]|] eqn:R1; [|exfalso; now apply C1].
    destruct (m s2) as [[x2 u2]|] eqn:R2; [|exfalso; now apply C2].
    destruct C1 as (_ & _ & ->), C2 as (_ & _ & ->). do 2 eexists. split; [reflexivity|]. split; [reflexivity|].
    specialize (Hs s1 s2). destruct (Hs x1 (after s1 sp) x2 (after s2 sp)) as (k' & _ & A1 & A2 & S).
    { now rewrite after_0. } { now rewrite after_0. }
    assert (k' = sp) as ->. { apply spend_ext; [apply (f_equal id_para) in A1 | apply (f_equal id_hist) in A1 | apply (f_equal id_change) in A1]; cbn in A1; lia. }
    exists pre, x1, x2. split; [now apply text_is_text|]. split; [now apply text_is_text | exact S].
  Qed.

  (** ** Whether it succeeds *)
  Definition as_m (f : option ids -> option ids) : M unit := fun s => match f (Some s) with Some s' => Some (tt, s') | None => None end.
  Definition stepping (f : option ids -> option ids) (ok : bool) (sp : spend) : Prop := f None = None /\ costs (as_m f) ok sp.
  Lemma stepping_then f g o1 k1 o2 k2 : stepping f o1 k1 -> stepping g o2 k2 -> stepping (fun c => g (f c)) (o1 && o2) (plus k1 k2).
  Proof.
    intros [F1 F2] [G1 G2]. split; [now rewrite F1|].
    eapply (costs_eq _ (o1 && o2) (plus k1 k2)); [|reflexivity|reflexivity].
    intros s. assert (H := costs_bind (as_m f) (fun _ => as_m g) _ _ _ _ F2 (fun _ => G2) s). unfold bind, as_m in *.
    destruct (f (Some s)) as [s'|]; [exact H|]. now rewrite G1.
  Qed.
  Lemma stepping_render p ok sp : renders p ok sp -> stepping (fun c => snd (render p c)) ok sp.
  Proof.
    intros (pre & m & Hb & _ & Hc & _). unfold RenderModel.render. rewrite Hb. split; [reflexivity|].
    intros s. specialize (Hc s). unfold as_m, bind, ret. destruct (m s) as [[x s']|]; exact Hc.
  Qed.
  Definition is_part (n : node) : Prop := match n with NPart _ _ _ _ => True | _ => False end.
  Lemma is_part_inv n : is_part n -> exists x rid nb ch, n = NPart x rid nb ch.
  Proof. destruct n; try contradiction. eauto. Qed.
  Lemma stepping_parts l : Forall is_part l ->
    stepping (fun c => snd (render_all render (map PPart l) c)) (writable (flat_map part_content l)) (parts_spend l).
  Proof.
    induction 1 as [|n l Hn _ IH].
    - split; [reflexivity|]. intros s. cbn. split; [reflexivity|]. split; [apply enough_0 | symmetry; apply after_0].
    - apply is_part_inv in Hn as (x & rid & nb & ch & ->). unfold parts_spend. cbn [flat_map part_content]. rewrite writable_app, nodes_spend_app.
      assert (X := stepping_then _ _ _ _ _ _ (stepping_render _ _ _ (renders_part x rid nb ch)) IH). cbv beta in X.
      destruct X as [X1 X2]. split.
      + cbn [map render_all]. destruct (render (PPart (NPart x rid nb ch)) None) as [d c1]. cbn [snd] in X1.
        destruct (render_all render (map PPart l) c1). exact X1.
      + intros s. specialize (X2 s). unfold as_m in *. cbn [map render_all]. destruct (render (PPart (NPart x rid nb ch)) (Some s)) as [d c1]. cbn [snd] in X2.
        destruct (render_all render (map PPart l) c1). exact X2.
  Qed.
  Lemma where_parts which d : (forall n, which n = true -> is_part n) -> Forall is_part (parts_where which d).
  Proof.
    intros W. assert (F : forall l, Forall is_part (filter which l)) by (intros l; apply Forall_forall; intros m Hm; apply filter_In in Hm; now apply W).
    unfold parts_where. apply Forall_app. split; [apply F|]. apply Forall_flat_map, Forall_forall. intros n _. destruct n; try constructor. apply F.
  Qed.
  Lemma headers_parts : Forall is_part (headers (k_doc k)).
  Proof. apply where_parts. intros n H. destruct n; try discriminate H. exact I. Qed.
  Lemma footers_parts : Forall is_part (footers (k_doc k)).
  Proof. apply where_parts. intros n H. destruct n; try discriminate H. exact I. Qed.

  (** ** Two runs over the headers or footers *)
  Lemma parts_two l : Forall is_part l -> forall s1 s2, writable (flat_map part_content l) = true ->
    enough s1 (parts_spend l) -> enough s2 (parts_spend l) ->
    exists ts1 ts2, render_all render (map PPart l) (Some s1) = (ts1, Some (after s1 (parts_spend l))) /\
      render_all render (map PPart l) (Some s2) = (ts2, Some (after s2 (parts_spend l))) /\
      Forall2 (fun t1 t2 => exists j sp, le_spend sp (parts_spend l) /\ alike (after s1 j) (after s2 j) sp t1 t2) ts1 ts2.
  Proof.
    induction 1 as [|n l Hn _ IH]; intros s1 s2 W E1 E2.
    - exists [], []. unfold parts_spend. change (nodes_spend (flat_map part_content [])) with nothing. rewrite !after_0. auto.
    - apply is_part_inv in Hn as (x & rid & nb & ch & ->).
      unfold parts_spend in *. cbn [flat_map part_content] in *. rewrite writable_app in W. apply andb_true_iff in W as [W1 W2].
      rewrite nodes_spend_app in *. apply enough_plus in E1 as [E1 E1'], E2 as [E2 E2'].
      destruct (render_two _ _ _ s1 s2 (renders_part x rid nb ch) W1 E1 E2) as (t1 & t2 & R1 & R2 & A).
      destruct (IH _ _ W2 E1' E2') as (ts1 & ts2 & Q1 & Q2 & F).
      exists (t1 :: ts1), (t2 :: ts2). cbn [map render_all]. rewrite R1, R2, Q1, Q2, !after_plus. split; [reflexivity|]. split; [reflexivity|].
      constructor.
      + exists nothing, (nodes_spend ch). rewrite !after_0. split; [apply le_spend_plus | exact A].
      + eapply Forall2_impl; [|exact F]. intros u v (j & sp & Hl & Hu). exists (plus (nodes_spend ch) j), sp. rewrite <- !after_plus. split; [|exact Hu].
        eapply le_spend_trans; [exact Hl|]. rewrite plus_comm. apply le_spend_plus.
  Qed.
  (** ** The archive *)
  Definition same_text (s : ids) (t1 t2 : string) : Prop := exists j1 j2 sp, alike (after s j1) (after s j2) sp t1 t2.
  Lemma same_text_entry s name t1 t2 : same_text s t1 t2 -> same_entry s (File name t1) (File name t2).
  Proof. intros (j1 & j2 & sp & pre & x1 & x2 & T1 & T2 & S). right. do 9 eexists. repeat split; eassumption. Qed.
  Lemma entries_refl s l : Forall2 (same_entry s) l l.
  Proof. induction l; constructor; [now left | assumption]. Qed.
  Lemma zip_parts_two s kind D : forall ts1 ts2 i, Forall2 (same_text s) ts1 ts2 -> Forall2 (same_entry s) (zip_parts kind i ts1 D) (zip_parts kind i ts2 D).
  Proof.
    intros ts1 ts2 i F. revert i. induction F as [|t1 t2 l1 l2 H _ IH]; intros i; cbn [zip_parts]; [constructor|].
    constructor; [now apply same_text_entry|]. apply Forall2_app; [apply entries_refl | apply IH].
  Qed.
  Lemma whole_two s c d1 d2 y1 y2 co1 co2 nu1 nu2 fo1 fo2 hs1 hs2 fs1 fs2 :
    same_text s d1 d2 -> same_text s y1 y2 -> same_text s co1 co2 -> same_text s nu1 nu2 -> same_text s fo1 fo2 ->
    Forall2 (same_text s) hs1 hs2 -> Forall2 (same_text s) fs1 fs2 ->
    Forall2 (same_entry s) (zip (whole (plain_text k o) k c (d1, y1, co1, nu1, fo1) hs1 fs1))
                           (zip (whole (plain_text k o) k c (d2, y2, co2, nu2, fo2) hs2 fs2)).
  Proof.
    intros. unfold zip, whole. cbn [x_fixed x_headers x_footers x_header_rels x_footer_rels x_media x_taskpanes x_web x_items x_item_rels x_item_props].
    apply Forall2_app; [apply entries_refl|]. apply Forall2_app.
    { unfold fixed_files, fixed_text. cbn [map fst snd]. repeat (constructor; [first [now left | now apply same_text_entry]|]). constructor. }
    apply Forall2_app; [now apply zip_parts_two|]. apply Forall2_app; [now apply zip_parts_two|]. apply entries_refl.
  Qed.
End Parts.

Lemma le_agree s1 s2 a b : le_spend a b -> agree s1 s2 b -> agree s1 s2 a.
Proof. unfold le_spend, agree. lia. Qed.
Lemma agree_after s1 s2 j a : agree s1 s2 a -> agree (after s1 j) (after s2 j) a.
Proof. unfold agree, after. cbn. lia. Qed.
Lemma enough_after_le s a j b : enough s b -> le_spend (plus j a) b -> enough (after s j) a.
Proof. unfold enough, le_spend, after, plus. cbn. lia. Qed.

Definition all_writable (k : pkg) : bool := writable (content_of k).
Definition all_spend (k : pkg) (o : rest) : spend := plus (main_spend k o) (side_spend k).
Lemma all_writable_split k : all_writable k = true ->
  writable (d_body (k_doc k)) = true /\ writable (flat_map snd (d_comments (k_doc k))) = true /\ writable (flat_map snd (d_footnotes (k_doc k))) = true /\
  writable (flat_map part_content (headers (k_doc k))) = true /\ writable (flat_map part_content (footers (k_doc k))) = true.
Proof. unfold all_writable, content_of. rewrite !writable_app, !andb_true_iff. tauto. Qed.

Lemma both_write k o c s : all_writable k = true -> enough s (all_spend k o) ->
  exists e1 e2, pack_docx k o c s = Some (e1, after s (all_spend k o)) /\ build_docx k o c s = Some (e2, after s (all_spend k o)) /\
    Forall2 (same_entry s) e1 e2 /\
    (apart (main_spend k o) (side_spend k) -> apart (document_spend k) (styles_spend (o_styles o)) -> e1 = e2).
Proof.
  intros W N. apply all_writable_split in W as (Wd & Wc & Wf & Wh & Wg).
  unfold all_spend, main_spend, side_spend in N |- *.
  pose proof (renders_document k o) as Rd. pose proof (renders_styles k o) as Ry. pose proof (renders_comments k o) as Rc.
  pose proof (renders_numbering k o) as Rn. pose proof (renders_footnotes k o) as Rf.
  pose proof (parts_two k o _ (headers_parts k)) as Ph. pose proof (parts_two k o _ (footers_parts k)) as Pg.
  set (kd := document_spend k) in *. set (ky := styles_spend (o_styles o)) in *. set (kc := comments_spend k) in *.
  set (kn := numberings_spend (o_numberings o)) in *. set (kf := notes_spend k) in *. set (kh := parts_spend (headers (k_doc k))) in *.
  set (kg := parts_spend (footers (k_doc k))) in *.
  clearbody kd ky kc kn kf kh kg. rewrite !total_cons in *. change (total []) with nothing in *.
  assert (En : forall j a, le_spend (plus j a) (plus (plus kd (plus ky (plus kc (plus kn (plus kf nothing))))) (plus kh kg)) -> enough (after s j) a)
    by (intros j a Hl; eapply enough_after_le; eassumption).
  Ltac fits En := apply En; repeat match goal with x := _ : spend |- _ => subst x end; unfold le_spend; cbn [k_para k_hist k_change plus nothing]; lia.
  (* the counters before each part, when packing and when building *)
  set (p0 := nothing). set (p1 := kd). set (p2 := plus p1 ky). set (p3 := plus p2 kc). set (p4 := plus p3 kn). set (p5 := plus p4 kf). set (p6 := plus p5 kh).
  set (q1 := kh). set (q2 := plus q1 kg). set (q3 := plus q2 ky). set (q4 := plus q3 kd). set (q5 := plus q4 kc). set (q6 := plus q5 kn).
  destruct (render_two k o _ _ _ (after s p0) (after s q3) Rd Wd) as (d1 & d2 & D1 & D2 & Ad); [fits En | fits En |].
  destruct (render_two k o _ _ _ (after s p1) (after s q2) Ry eq_refl) as (y1 & y2 & Y1 & Y2 & Ay); [fits En | fits En |].
  destruct (render_two k o _ _ _ (after s p2) (after s q4) Rc Wc) as (c1 & c2 & C1 & C2 & Ac); [fits En | fits En |].
  destruct (render_two k o _ _ _ (after s p3) (after s q5) Rn eq_refl) as (n1 & n2 & N1 & N2 & An); [fits En | fits En |].
  destruct (render_two k o _ _ _ (after s p4) (after s q6) Rf Wf) as (f1 & f2 & F1 & F2 & Af); [fits En | fits En |].
  destruct (Ph (after s p5) (after s p0) Wh) as (h1 & h2 & H1 & H2 & Ah); [fits En | fits En |].
  destruct (Pg (after s p6) (after s q1) Wg) as (g1 & g2 & G1 & G2 & Ag); [fits En | fits En |].
  rewrite after_plus in D1, D2, Y1, Y2, C1, C2, N1, N2, F1, F2, H1, H2, G1, G2. clear Ph Pg En Rd Ry Rc Rn Rf.
  assert (S0 : after s p0 = s) by apply after_0. rewrite S0 in D1, H2.
  change (plus p0 kd) with (plus nothing kd) in D1. change (plus p0 kh) with (plus nothing kh) in H2. rewrite plus_0_l in D1, H2.
  pose proof (pack_whole (RenderModel.render k o) (rels_full k o) (plain_text k o) (renders_quiet k o) k c (Some s) _ _ _ _ _ _ _ _ _ _ _ _ _ _ D1 Y1 C1 N1 F1 H1 G1) as PW.
  pose proof (build_whole (RenderModel.render k o) (plain_text k o) (renders_quiet k o) k c (Some s) _ _ _ _ _ _ _ _ _ _ _ _ _ _ H2 G2 Y2 D2 C2 N2 F2) as [BW1 BW2].
  eexists. eexists. split; [|split; [|split]].
  - unfold pack_docx. rewrite PW. f_equal. f_equal. f_equal. repeat match goal with x := _ : spend |- _ => subst x end. sums.
  - unfold build_docx. destruct (build (RenderModel.render k o) k c (Some s)) as [x c']. cbn [fst snd] in BW1, BW2. subst c'. rewrite BW1.
    f_equal. f_equal. f_equal. repeat match goal with x := _ : spend |- _ => subst x end. sums.
  - assert (T : forall j1 j2 sp t1 t2, alike (after s j1) (after s j2) sp t1 t2 -> same_text s t1 t2) by (intros; do 3 eexists; eassumption).
    apply whole_two; eauto; eapply Forall2_impl; [|exact Ah| |exact Ag]; intros u v (j & sp & _ & Hu); rewrite !after_plus in Hu; eauto.
  - intros (A1 & A2 & A3) (B1 & B2 & B3).
    Ltac agreed A1 A2 A3 := repeat match goal with x := _ : spend |- _ => subst x end; cbn [k_para k_hist k_change plus nothing] in A1, A2, A3; split; [|split]; cbn [id_para id_hist id_change after k_para k_hist k_change plus nothing]; lia.
    apply alike_agree in Ad; [|agreed A1 A2 A3].
    apply alike_agree in Ay; [|agreed A1 A2 A3].
    apply alike_agree in Ac; [|agreed A1 A2 A3].
    apply alike_agree in An; [|agreed A1 A2 A3].
    apply alike_agree in Af; [|agreed A1 A2 A3].
    assert (Eh : h1 = h2).
    { assert (Gh : agree (after s p5) (after s p0) kh) by (agreed A1 A2 A3).
      clear -Ah Gh. induction Ah as [|t1 t2 l1 l2 (j & sp & Hl & Hu) _ IH]; [reflexivity|]. f_equal; [|exact IH].
      eapply alike_agree; [exact Hu|]. apply agree_after. eapply le_agree; eassumption. }
    assert (Eg : g1 = g2).
    { assert (Gh : agree (after s p6) (after s q1) kg) by (agreed A1 A2 A3).
      clear -Ag Gh. induction Ag as [|t1 t2 l1 l2 (j & sp & Hl & Hu) _ IH]; [reflexivity|]. f_equal; [|exact IH].
      eapply alike_agree; [exact Hu|]. apply agree_after. eapply le_agree; eassumption. }
    congruence.
Qed.

(** ** Panics *)
Lemma pack_steps k o c : stepping (fun n => snd (pack (RenderModel.render k o) k c n)) (all_writable k) (all_spend k o).
Proof.
  pose proof (stepping_render k o _ _ _ (renders_document k o)) as S1. pose proof (stepping_render k o _ _ _ (renders_styles k o)) as S2.
  pose proof (stepping_render k o _ _ _ (renders_comments k o)) as S3. pose proof (stepping_render k o _ _ _ (renders_numbering k o)) as S4.
  pose proof (stepping_render k o _ _ _ (renders_footnotes k o)) as S5.
  pose proof (stepping_parts k o _ (headers_parts k)) as S6. pose proof (stepping_parts k o _ (footers_parts k)) as S7.
  pose proof (stepping_then _ _ _ _ _ _ S1 S2) as S. pose proof (stepping_then _ _ _ _ _ _ S S3) as S'. clear S. rename S' into S.
  pose proof (stepping_then _ _ _ _ _ _ S S4) as S'. clear S. rename S' into S. pose proof (stepping_then _ _ _ _ _ _ S S5) as S'. clear S. rename S' into S.
  pose proof (stepping_then _ _ _ _ _ _ S S6) as S'. clear S. rename S' into S. pose proof (stepping_then _ _ _ _ _ _ S S7) as S'. clear S. rename S' into S.
  cbv beta in S.
  assert (X : forall n, snd (pack (RenderModel.render k o) k c n) =
    snd (render_all (RenderModel.render k o) (map PPart (footers (k_doc k))) (snd (render_all (RenderModel.render k o) (map PPart (headers (k_doc k)))
      (snd (RenderModel.render k o (PFixed XFootnotes) (snd (RenderModel.render k o (PFixed XNumbering) (snd (RenderModel.render k o (PFixed XComments)
        (snd (RenderModel.render k o (PFixed XStyles) (snd (RenderModel.render k o (PFixed XDocument) n)))))))))))))).
  { intros n. erewrite (pack_whole (RenderModel.render k o) (rels_full k o) (plain_text k o) (renders_quiet k o) k c n); try apply surjective_pairing. reflexivity. }
  destruct S as [Sn Sc]. split; [now rewrite X|].
  eapply costs_eq; [intros s; specialize (Sc s); unfold as_m in *; rewrite X; exact Sc | |].
  - unfold all_writable, content_of. rewrite !writable_app. rewrite !andb_true_r, !andb_assoc. reflexivity.
  - unfold all_spend, main_spend, side_spend. rewrite !total_cons. change (total []) with nothing. sums.
Qed.
Lemma build_steps k o c : stepping (fun n => snd (build (RenderModel.render k o) k c n)) (all_writable k) (all_spend k o).
Proof.
  pose proof (stepping_render k o _ _ _ (renders_document k o)) as S4. pose proof (stepping_render k o _ _ _ (renders_styles k o)) as S3.
  pose proof (stepping_render k o _ _ _ (renders_comments k o)) as S5. pose proof (stepping_render k o _ _ _ (renders_numbering k o)) as S6.
  pose proof (stepping_render k o _ _ _ (renders_footnotes k o)) as S7.
  pose proof (stepping_parts k o _ (headers_parts k)) as S1. pose proof (stepping_parts k o _ (footers_parts k)) as S2.
  pose proof (stepping_then _ _ _ _ _ _ S1 S2) as S. pose proof (stepping_then _ _ _ _ _ _ S S3) as S'. clear S. rename S' into S.
  pose proof (stepping_then _ _ _ _ _ _ S S4) as S'. clear S. rename S' into S. pose proof (stepping_then _ _ _ _ _ _ S S5) as S'. clear S. rename S' into S.
  pose proof (stepping_then _ _ _ _ _ _ S S6) as S'. clear S. rename S' into S. pose proof (stepping_then _ _ _ _ _ _ S S7) as S'. clear S. rename S' into S.
  cbv beta in S.
  assert (X : forall n, snd (build (RenderModel.render k o) k c n) =
    snd (RenderModel.render k o (PFixed XFootnotes) (snd (RenderModel.render k o (PFixed XNumbering) (snd (RenderModel.render k o (PFixed XComments)
      (snd (RenderModel.render k o (PFixed XDocument) (snd (RenderModel.render k o (PFixed XStyles)
        (snd (render_all (RenderModel.render k o) (map PPart (footers (k_doc k))) (snd (render_all (RenderModel.render k o) (map PPart (headers (k_doc k))) n)))))))))))))).
  { intros n. eapply (build_whole (RenderModel.render k o) (plain_text k o) (renders_quiet k o) k c n); apply surjective_pairing. }
  destruct S as [Sn Sc]. split; [now rewrite X|].
  eapply costs_eq; [intros s; specialize (Sc s); unfold as_m in *; rewrite X; exact Sc | |].
  - unfold all_writable, content_of. rewrite !writable_app.
    destruct (writable (d_body (k_doc k))), (writable (flat_map snd (d_comments (k_doc k)))), (writable (flat_map snd (d_footnotes (k_doc k)))),
      (writable (flat_map part_content (headers (k_doc k)))), (writable (flat_map part_content (footers (k_doc k)))); reflexivity.
  - unfold all_spend, main_spend, side_spend. rewrite !total_cons. change (total []) with nothing. sums.
Qed.
Lemma pack_writes k o c s : (exists r, pack_docx k o c s = Some r) <-> all_writable k = true /\ enough s (all_spend k o).
Proof.
  destruct (pack_steps k o c) as [_ P]. rewrite <- (costs_success _ _ _ _ P). unfold pack_docx, as_m.
  destruct (pack (RenderModel.render k o) k c (Some s)) as [e [s'|]]; cbn [snd]; split; [eauto | eauto | intros [? H]; discriminate | intros (? & ? & H); discriminate].
Qed.
Lemma build_writes k o c s : (exists r, build_docx k o c s = Some r) <-> all_writable k = true /\ enough s (all_spend k o).
Proof.
  destruct (build_steps k o c) as [_ P]. rewrite <- (costs_success _ _ _ _ P). unfold build_docx, as_m.
  destruct (build (RenderModel.render k o) k c (Some s)) as [e [s'|]]; cbn [snd]; split; [eauto | eauto | intros [? H]; discriminate | intros (? & ? & H); discriminate].
Qed.

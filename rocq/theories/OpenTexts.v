(** The body of an archive that was saved and opened: its elements and texts. *)
From Coq Require Import NArith ZArith List Bool Lia.
From Verif Require Import Str StrFacts ListFacts TypesModel Props Ast TreeModel TreeSpec TreeProofs DepsModel ReadBase ReadModel
  PackModel PackSpec PackProofs PrepareModel PrepareProofs PackFinalProofs RenderModel OpenModel WellSpec RoundSpec SurviveSpec RoundTextProofs OpenSpec OpenAssign OpenProofs OpenFinal OpenImages.
From Verif Require TocModel TocProofs ParaIdSpec DepsSpec.
Import ListNotations.
Import DepsSpec (seen_comments).
Open Scope list_scope.

(** ** The body that is packed is the body that was given *)
Definition is_toc (n : node) : bool := match n with NToc _ _ _ => true | _ => false end.
Lemma no_tocs_eligible l : forall i, existsb is_toc l = false -> TocModel.eligible_indexes i l = [].
Proof.
  induction l as [|n l IH]; intros i H; [reflexivity|]. cbn [existsb TocModel.eligible_indexes] in *. apply orb_false_iff in H as [H1 H2].
  destruct n; try discriminate H1; cbn [TocModel.eligible]; now apply IH.
Qed.
Lemma expand_tocs styles body n body' n' has : TocModel.expand_auto_tocs styles body n = Some (body', n', has) -> existsb is_toc body' = existsb is_toc body.
Proof.
  intros E. apply TocProofs.toc_expansion_proof in E. destruct E as (marks & F & _). revert F. generalize body at 1. intros B F.
  induction F as [|a m a' l ms l' C _ IH]; [reflexivity|]. cbn [existsb]. rewrite IH. f_equal.
  apply changed_children in C. destruct C as [->|[(id & p & nb & ch & -> & ->)|(d & b & a0 & items & -> & ->)]]; reflexivity.
Qed.
Lemma same_tocs (f : node -> node) a b : (forall n, is_toc (f n) = is_toc n) -> map f a = map f b -> existsb is_toc a = existsb is_toc b.
Proof.
  intros Hf. revert b. induction a as [|x a IH]; intros [|y b] H; try discriminate H; [reflexivity|]. cbn [map existsb] in *. apply cons_same in H as [H1 H2].
  rewrite (IH _ H2), <- (Hf x), H1, Hf. reflexivity.
Qed.
Lemma body_given l o k c es : saved l o k c es -> reopenable k o c -> map bare (d_body (k_doc k)) = map bare (d_body (k_doc (calls l))).
Proof.
  intros (T & (crc & styles & ext & n & P) & _) Re. pose proof (proj1 (re_body _ _ _ Re)) as Kp. revert Kp.
  destruct (prepare_shape _ _ _ _ _ _ _ _ (typed_document l T) P) as (d1 & d & comments & links & -> & _ & N & W & _ & Q & (body & n1 & has & X & Hb & Hp) & _).
  destruct (collect_package_ok crc d1 W) as (d2 & c2 & Q2 & _ & _ & R & Rh & Rf & Wb & Wq & _). rewrite Q in Q2. injection Q2 as <- <-.
  cbn [prepared set_types set_doc k_doc d_body]. intros Kp.
  assert (M1 : map bare (d_body d) = map bare (d_body d1)) by (unfold bare; rewrite <- !(map_map wipe_pics ParaIdSpec.wipe); now rewrite Wb).
  assert (M2 : map bare (d_body d1) = map bare body) by (unfold bare; rewrite !(map_ext _ _ wipes_commute), <- !(map_map ParaIdSpec.wipe wipe_pics); now rewrite Hb).
  assert (Nt : existsb is_toc (d_body d) = false).
  { destruct (existsb is_toc (d_body d)) eqn:Et; [|reflexivity]. apply existsb_exists in Et as (t & T1 & T2). rewrite forallb_forall in Kp. specialize (Kp t T1). destruct t; discriminate. }
  assert (Nb : existsb is_toc body = false) by (rewrite <- Nt; apply (same_tocs bare); [intros []; reflexivity|congruence]).
  rewrite (expand_tocs _ _ _ _ _ _ X) in Nb. unfold TocModel.expand_auto_tocs in X. rewrite no_tocs_eligible in X by exact Nb. cbn [TocModel.expand_all option_map] in X.
  inversion X; subst. congruence.
Qed.

(** ** Texts *)
Lemma texts_map f l p : Forall (fun n => forall p, texts p (f n) = texts p n) l -> flat_map (texts p) (map f l) = flat_map (texts p) l.
Proof. induction 1 as [|n l H _ IH]; [reflexivity|]. cbn [map flat_map]. now rewrite H, IH. Qed.
Lemma run_texts f l : (forall n, run_text (f n) = run_text n) -> flat_map run_text (map f l) = flat_map run_text l.
Proof. intros H. induction l as [|n l IH]; [reflexivity|]. cbn [map flat_map]. now rewrite H, IH. Qed.
Lemma texts_wiped n : forall p, texts p (ParaIdSpec.wipe n) = texts p n.
Proof.
  induction n as [n IH] using node_tree_ind. assert (G : forall p, flat_map (texts p) (map ParaIdSpec.wipe (children n)) = flat_map (texts p) (children n)) by (intros p; now apply texts_map).
  intros p. destruct n; try reflexivity; cbn [ParaIdSpec.wipe texts children] in *; try apply G.
  - apply run_texts. intros []; reflexivity.
  - destruct p; try apply G; reflexivity.
  - destruct p; apply G.
  - destruct p; apply G.
Qed.
Lemma texts_wipe n : forall p, texts p (wipe_pics n) = texts p n.
Proof.
  induction n as [n IH] using node_tree_ind. assert (G : forall p, flat_map (texts p) (map wipe_pics (children n)) = flat_map (texts p) (children n)) by (intros p; now apply texts_map).
  intros p. destruct n; try reflexivity; cbn [wipe_pics texts children] in *; try apply G.
  - apply run_texts. intros []; reflexivity.
  - destruct p; try apply G; reflexivity.
  - destruct p; apply G.
  - destruct p; apply G.
Qed.
Lemma texts_bare l p : flat_map (texts p) (map bare l) = flat_map (texts p) l.
Proof. apply texts_map, Forall_forall. intros n _ q. unfold bare. now rewrite texts_wiped, texts_wipe. Qed.
Lemma store_start_texts l n p : texts p (store_start l n) = texts p n.
Proof. destruct n; try reflexivity. cbn [store_start]. now destruct (comment_by_id l (cd_id c)). Qed.
Lemma starts_texts l ch p : flat_map (texts p) (map (store_start l) ch) = flat_map (texts p) ch.
Proof. apply texts_map, Forall_forall. intros m _ q. apply store_start_texts. Qed.
Lemma store_top_texts l n p : texts p (store_top_child l n) = texts p n.
Proof.
  destruct n; try exact (store_start_texts l _ p); cbn [store_top_child texts]; [|apply starts_texts].
  apply texts_map, Forall_forall. intros m _ q. destruct m; try exact (store_start_texts l _ q). cbn [texts]. apply starts_texts.
Qed.
Lemma store_child_texts l n p : texts p (store_child l n) = texts p n.
Proof. destruct n; try exact (store_start_texts l _ p); cbn [store_child texts]; apply starts_texts. Qed.
Lemma store_block_texts l n : forall p, texts p (store_block l n) = texts p n.
Proof.
  induction n as [n IH] using node_tree_ind.
  assert (G : forall p, flat_map (texts p) (map (store_block l) (children n)) = flat_map (texts p) (children n)) by (intros p; now apply texts_map).
  assert (G' : forall p, flat_map (texts p) (map (fun c => if block_walks c then store_block l c else c) (children n)) = flat_map (texts p) (children n)).
  { intros p. apply texts_map. revert IH. apply Forall_impl. intros c H q. now destruct (block_walks c). }
  intros p. destruct n; try reflexivity; cbn [store_block texts children] in *; try apply G.
  - destruct p; apply G'.
  - apply texts_map, Forall_forall. intros m _ q. apply store_child_texts.
Qed.
Lemma store_texts l body p : flat_map (texts p) (store_comments l body) = flat_map (texts p) body.
Proof.
  apply texts_map, Forall_forall. intros n _ q. destruct n; try reflexivity; try apply store_block_texts.
  cbn [texts]. apply texts_map, Forall_forall. intros m _ r. apply store_top_texts.
Qed.

Lemma body_back l o k c es png preview m op : saved l o k c es -> reopenable k o c -> opened_from k es png preview m op ->
  exists packed, map bare packed = map bare (d_body (k_doc (calls l))) /\
    d_body (k_doc (op_pkg op)) = store_comments (d_comments (k_doc (op_pkg op))) (flat_map (reread InDocument) packed) /\
    d_sect (k_doc (op_pkg op)) = reread_sectpr (d_sect (k_doc (calls l))).
Proof.
  intros S Re O. destruct (opened_back _ _ _ _ _ _ _ _ _ S Re O) as (heads & foots & _ & _ & B1 & B2 & _ & B3 & _).
  exists (d_body (k_doc k)). split; [exact (body_given _ _ _ _ _ S Re)|]. rewrite B3. split; [exact B1|]. rewrite B2, (saved_sect _ _ _ _ _ S). reflexivity.
Qed.
Lemma body_texts_back l o k c es png preview m op : saved l o k c es -> reopenable k o c -> opened_from k es png preview m op ->
  flat_map (texts InDocument) (d_body (k_doc (op_pkg op))) = flat_map back (flat_map (texts InDocument) (d_body (k_doc (calls l)))).
Proof.
  intros S Re O. destruct (body_back _ _ _ _ _ _ _ _ _ S Re O) as (packed & H1 & -> & _). rewrite store_texts, texts_back_all, <- (texts_bare packed), H1, texts_bare. reflexivity.
Qed.

(** ** The comments of the packed body are those that were given *)
Definition wiped_comment (c : comment) : comment := (fst c, map ParaIdSpec.wipe (snd c)).
Lemma comment_at_wiped n : DepsSpec.comment_at (ParaIdSpec.wipe n) = map wiped_comment (DepsSpec.comment_at n).
Proof. now destruct n. Qed.
Definition is_para (n : node) : bool := match n with NPara _ _ _ _ => true | _ => false end.
Lemma comments_in_wiped n : is_para n = true -> DepsSpec.comments_in (ParaIdSpec.wipe n) = map wiped_comment (DepsSpec.comments_in n).
Proof.
  intros Hn. unfold DepsSpec.comments_in. rewrite map_flat.
  assert (G : forall l, flat_map (fun n => match n with NLink _ _ ch => flat_map DepsSpec.comment_at ch | _ => DepsSpec.comment_at n end) (map ParaIdSpec.wipe l) =
              flat_map (fun n => map wiped_comment (match n with NLink _ _ ch => flat_map DepsSpec.comment_at ch | _ => DepsSpec.comment_at n end)) l).
  { intros l. rewrite flat_map_map. apply flat_map_ext. intros m. destruct m; try exact (comment_at_wiped _). cbn [ParaIdSpec.wipe]. rewrite flat_map_map, map_flat. apply flat_map_ext. exact comment_at_wiped. }
  destruct n; try discriminate Hn. cbn [ParaIdSpec.wipe children]. apply G.
Qed.
Lemma paras_below_paras n : forallb is_para (DepsSpec.paras_below n) = true.
Proof.
  induction n as [n IH] using node_tree_ind. rewrite Forall_forall in IH.
  assert (S1 : forall l, incl l (children n) -> forallb is_para (flat_map DepsSpec.paras_below l) = true).
  { intros l Hl. apply forallb_forall. intros x Hx. apply in_flat_map in Hx as (y & H1 & H2). specialize (IH y (Hl y H1)). rewrite forallb_forall in IH. auto. }
  assert (S2 : forall l, incl l (children n) -> forallb is_para (flat_map (fun c => if DepsSpec.block c then DepsSpec.paras_below c else []) l) = true).
  { intros l Hl. apply forallb_forall. intros x Hx. apply in_flat_map in Hx as (y & H1 & H2). destruct (DepsSpec.block y); [|destruct H2]. specialize (IH y (Hl y H1)). rewrite forallb_forall in IH. auto. }
  destruct n; cbn [DepsSpec.paras_below children forallb] in *; try reflexivity; try (apply S1; apply incl_refl); try (apply S2; apply incl_refl).
  rewrite forallb_app, !S2; [reflexivity|apply incl_appr, incl_refl|apply incl_appl, incl_refl].
Qed.
Lemma seen_comments_wiped b : seen_comments (map ParaIdSpec.wipe b) = map wiped_comment (seen_comments b).
Proof.
  assert (G : DepsSpec.seen_paras (map ParaIdSpec.wipe b) = map ParaIdSpec.wipe (DepsSpec.seen_paras b)).
  { unfold DepsSpec.seen_paras. rewrite flat_map_map, map_flat. apply flat_map_ext. intros n. pose proof (paras_below_wiped n) as H. destruct n; try reflexivity; exact H. }
  unfold seen_comments. rewrite G, flat_map_map, map_flat. apply flat_map_in_ext, Forall_forall. intros n Hn. apply comments_in_wiped.
  unfold DepsSpec.seen_paras in Hn. apply in_flat_map in Hn as (y & H1 & H2). pose proof (paras_below_paras y) as H. rewrite forallb_forall in H. apply H. destruct y; try exact H2; destruct H2.
Qed.
Lemma comments_given l o k c es : saved l o k c es -> reopenable k o c ->
  map wiped_comment (seen_comments (d_body (k_doc k))) = map wiped_comment (seen_comments (d_body (k_doc (calls l)))).
Proof.
  intros S Re. pose proof (body_given _ _ _ _ _ S Re) as H. unfold bare in H. rewrite !(map_ext _ _ wipes_commute), <- !(map_map ParaIdSpec.wipe wipe_pics) in H.
  apply (f_equal seen_comments) in H. now rewrite !seen_comments_wipe, !seen_comments_wiped in H.
Qed.

(** Proofs about the cells that are written. *)
From Coq Require Import NArith List Bool Lia.
From Verif Require Import Str StrFacts ListFacts TypesModel Props Ast IdsModel BuildModel BuildSpec BuildProofs VocabSpec VocabProofs.
Import ListNotations.

Lemma last_is_app {A} (f : A -> bool) l m : m <> [] -> last_is f (l ++ m) = last_is f m.
Proof.
  intros H. unfold last_is. rewrite rev_app_distr. destruct (rev m) as [|x r] eqn:E; [|reflexivity].
  apply (f_equal (@rev _)) in E. rewrite rev_involutive in E. now subst.
Qed.
Lemma last_is_cons {A} (f : A -> bool) x l : l <> [] -> last_is f (x :: l) = last_is f l.
Proof. apply (last_is_app f [x] l). Qed.
Lemma last_fix {A} (f : A -> bool) l :
  (fix last l := match l with [] => false | [x] => f x | _ :: r => last r end) l = last_is f l.
Proof.
  induction l as [|x l IH]; [reflexivity|]. destruct l as [|y l]; [reflexivity|].
  rewrite last_is_cons by discriminate. exact IH.
Qed.
Lemma closes_p a ch : closes (E "w:p" a ch) = true.
Proof. reflexivity. Qed.
Lemma closes_sdt a ch : closes (E "w:sdt" a ch) = last_is closes ch.
Proof. cbn [closes]. rewrite last_fix. reflexivity. Qed.
Lemma closes_content a ch : closes (E "w:sdtContent" a ch) = last_is closes ch.
Proof. cbn [closes]. rewrite last_fix. reflexivity. Qed.
Lemma last_is_one {A} (f : A -> bool) x : last_is f [x] = f x.
Proof. reflexivity. Qed.

(** What a computation yields: something, whose last element closes or not. *)
Definition yields (m : M (list xml)) (blocks : bool) (b : bool) : Prop :=
  forall s a s', m s = Some (a, s') -> a <> [] /\ last_is closes a = b /\ (blocks = true -> Forall (fun x => is_block x = true) a).
Ltac steps H :=
  lazymatch type of H with
  | bind _ _ _ = Some _ =>
      let a := fresh "a" in let s := fresh "s" in let H1 := fresh "S" in let H2 := fresh "S" in
      apply bind_inv in H as (a & s & H1 & H2); steps H1; steps H2
  | ret _ _ = Some (_, _) => unfold ret in H; inversion H; subst; clear H
  | _ => idtac
  end.
Lemma yields_para i p inner : yields (b_para i p inner) true true.
Proof. intros s a s' H. unfold b_para in H. steps H. repeat split; [discriminate|]. intros _. repeat constructor. Qed.
Lemma yields_new_para p inner : yields (b_new_para p inner) true true.
Proof. intros s a s' H. unfold b_new_para in H. apply bind_inv in H as (i & s1 & _ & H). eapply yields_para, H. Qed.
Lemma yields_seq m1 m2 f1 b1 b2 f : yields m1 f f1 -> yields m2 f b2 -> b1 = b2 -> yields (a <- m1;; b <- m2;; ret (a ++ b)) f b1.
Proof.
  intros H1 H2 -> s a s' H. steps H. apply H1 in S as (N1 & _ & B1). apply H2 in S1 as (N2 & L2 & B2).
  split; [|split].
  - destruct a0; [easy | discriminate].
  - now rewrite last_is_app.
  - intros E. apply Forall_app. auto.
Qed.
Lemma last_is_cons2 {A} (f : A -> bool) x y l : last_is f (x :: y :: l) = last_is f (y :: l).
Proof. apply last_is_cons. discriminate. Qed.
Lemma yields_each (f : node -> M (list xml)) (g : node -> bool) bl l : l <> [] -> Forall (fun n => yields (f n) bl (g n)) l ->
  yields (each f l) bl (last_is g l).
Proof.
  intros Hn. induction 1 as [|n l Hy Hf IH]; [easy|]. clear Hn. cbn [each].
  destruct l as [|n' l].
  - intros s a s' H. cbn [each] in H. steps H. rewrite app_nil_r. apply (Hy _ _ _ S).
  - rewrite last_is_cons2. eapply yields_seq; [exact Hy | apply IH; discriminate | reflexivity].
Qed.
Lemma yields_toc_entries b l : l <> [] -> yields (toc_entries b l) true true.
Proof.
  revert b. induction l as [|t l IH]; intros b H; [easy|]. cbn [toc_entries].
  eapply yields_seq; [apply yields_new_para | | reflexivity].
  destruct l; [apply yields_new_para | apply IH; discriminate].
Qed.
Lemma yields_items l : l <> [] -> yields (b_items l) true true.
Proof.
  intros Hl s a s' H. unfold b_items in H. steps H. apply yields_toc_entries in S as (N1 & L1 & _); [|exact Hl].
  split; [discriminate|]. split; [|intros _; repeat constructor].
  rewrite last_is_one, closes_sdt, last_is_cons by discriminate. now rewrite last_is_one, closes_content.
Qed.
Lemma yields_in_sdt d inner b : yields inner true b -> yields (in_sdt d inner) true b.
Proof.
  intros W. unfold in_sdt. destruct (td_without_sdt d); [exact W|]. intros s a s' H. steps H. apply W in S1 as (N1 & L1 & _).
  split; [discriminate|]. split; [|intros _; repeat constructor].
  rewrite last_is_one, closes_sdt, last_is_app by discriminate. now rewrite last_is_one, closes_content.
Qed.
Lemma yields_any m b c : yields m b c -> yields m false c.
Proof. intros H s a s' E. destruct (H s a s' E) as (A & B & _). repeat split; auto. discriminate. Qed.
Lemma yields_as m b c b' c' : yields m b c -> b = b' -> c = c' -> yields m b' c'.
Proof. now intros H <- <-. Qed.
Lemma yields_node : forall n, well_formed n -> (sdt_child n || cell_child n) = true -> yields (b_node n) (cell_child n) (node_closes n).
Proof.
  refine (node_tree_ind _ _). intros n IH Wf Hc.
  assert (Wc : Forall well_formed (children n)) by (apply (all_q_children (fun n => local_ok n = true)); exact Wf).
  assert (Lo : local_ok n = true) by (unfold well_formed in Wf; destruct n; inversion Wf; assumption).
  destruct n; try discriminate Hc; cbn [children local_ok cell_child node_closes] in *.
  - (* run *) intros s a s' H. cbn [b_node] in H. unfold b_run in H. steps H. split; [discriminate|]. split; [reflexivity | discriminate].
  - intros s a s' H. inversion H; subst. split; [discriminate|]. split; [reflexivity | discriminate].
  - intros s a s' H. inversion H; subst. split; [discriminate|]. split; [reflexivity | discriminate].
  - intros s a s' H. inversion H; subst. split; [discriminate|]. split; [reflexivity | discriminate].
  - intros s a s' H. inversion H; subst. split; [discriminate|]. split; [reflexivity | discriminate].
  - (* structured tag *) intros s a s' H. cbn [b_node] in H. steps H. split; [discriminate|]. split; [|intros _; repeat constructor].
    rewrite last_is_one, closes_sdt, last_is_app by discriminate. rewrite last_is_one, closes_content, last_fix.
    destruct ch as [|c ch]; [inversion S1; subst; reflexivity|].
    assert (Y : yields (each b_node (c :: ch)) false (last_is node_closes (c :: ch))).
    { apply yields_each; [discriminate|]. rewrite Forall_forall in *. intros x Hx. rewrite forallb_forall in Lo. specialize (Lo x Hx).
      apply (yields_any _ (cell_child x)). apply IH; [exact Hx | now apply Wc | now rewrite Lo]. }
    apply Y in S1. apply S1.
  - (* paragraph *) cbn [b_node]. apply yields_para.
  - (* table *) intros s a s' H. cbn [b_node] in H. steps H. split; [discriminate|]. split; [reflexivity | intros _; repeat constructor].
  - (* table of contents *) apply andb_true_iff in Lo as [Lb La]. cbn [b_node].
    assert (Pb : forall x, plain_block x = true -> cell_child x = true) by (destruct x; easy).
    assert (Y : forall l, incl l (before ++ after) -> forallb plain_block l = true -> Forall (fun n => yields (b_node n) true (node_closes n)) l).
    { intros l Hi Hp. rewrite Forall_forall in *. rewrite forallb_forall in Hp. intros x Hx. specialize (Hp x Hx).
      eapply yields_as; [apply IH; [now apply Hi | now apply Wc, Hi | rewrite (Pb x Hp); apply orb_true_r] | now apply Pb | reflexivity]. }
    assert (Ya : after <> [] -> yields (each b_node after) true (last_is node_closes after)).
    { intros Hn. apply yields_each; [exact Hn|]. apply Y; [apply incl_appr, incl_refl | exact La]. }
    assert (Yb : forall s a s', each b_node before s = Some (a, s') -> Forall (fun x => is_block x = true) a).
    { intros s a s' H. destruct before as [|n before]; [inversion H; subst; constructor|].
      assert (Hn : n :: before <> []) by discriminate.
      assert (Yf : Forall (fun n => yields (b_node n) true (node_closes n)) (n :: before)) by (apply Y; [apply incl_appl, incl_refl | exact Lb]).
      destruct (yields_each b_node node_closes true _ Hn Yf s a s' H) as (_ & _ & B). now apply B. }
    rewrite last_fix. apply yields_in_sdt. destruct (td_items d) as [|it items] eqn:Ei.
    + intros s a s' H. apply bind_inv in H as (b & s1 & S1 & H). apply bind_inv in H as (o & s2 & S2 & H). apply bind_inv in H as (k & s3 & S3 & H).
      apply bind_inv in H as (c & s4 & S4 & H). inversion H; subst a s'; clear H.
      assert (Yo : Forall (fun x => is_block x = true) o).
      { assert (Z : yields (toc_open d) true true) by (unfold toc_open; destruct (td_delete d); apply yields_new_para).
        destruct (Z _ _ _ S2) as (_ & _ & B). now apply B. }
      assert (Yc : c <> [] /\ last_is closes c = match after with [] => true | _ => last_is node_closes after end /\ Forall (fun x => is_block x = true) c).
      { destruct after as [|n r].
        - destruct (yields_para k ppr_empty end_run _ _ _ S4) as (A & B & C). auto.
        - assert (Hn : n :: r <> []) by discriminate. specialize (Ya Hn).
          destruct n; try (destruct (Ya _ _ _ S4) as (A & B & C); now auto).
          + assert (Z : yields (x <- b_para id p (e <- end_run;; c <- each b_node ch;; ret (e ++ c));; y <- each b_node r;; ret (x ++ y)) true
                          (last_is node_closes (NPara id p numbering ch :: r))).
            { destruct r as [|n r].
              - intros t u t' H. apply bind_inv in H as (x & t1 & T1 & H). cbn [each] in H. unfold ret, bind in H. inversion H; subst.
                rewrite app_nil_r. exact (yields_para _ _ _ _ _ _ T1).
              - rewrite last_is_cons2. eapply yields_seq; [apply yields_para | apply yields_each; [discriminate|] | reflexivity].
                cbn [forallb] in La. apply Y; [|exact La]. intros z Hz. apply in_or_app. right. now right. }
            destruct (Z _ _ _ S4) as (A & B & C). auto.
          + assert (Z := yields_seq _ _ _ _ _ true (yields_new_para _ _ : yields empty_line true true) Ya eq_refl).
            destruct (Z _ _ _ S4) as (A & B & C). auto. }
      destruct Yc as (N & L & B). split; [destruct b, o, c; easy|]. split.
      * rewrite app_assoc, last_is_app by exact N. rewrite L. now destruct after.
      * intros _. apply Forall_app. split; [exact (Yb _ _ _ S1)|]. now apply Forall_app.
    + intros s a s' H. apply bind_inv in H as (b & s1 & S1 & H). apply bind_inv in H as (o & s2 & S2 & H).
      apply bind_inv in H as (c & s4 & S4 & H). inversion H; subst a s'; clear H.
      apply yields_items in S2 as (No & Lo & Bo); [|discriminate].
      assert (Yc : (c <> [] -> last_is closes c = last_is node_closes after) /\ (c = [] <-> after = []) /\ Forall (fun x => is_block x = true) c).
      { destruct after as [|n r]; [inversion S4; subst; easy|].
        assert (Hn : n :: r <> []) by discriminate. specialize (Ya Hn).
        assert (Z : yields (match n with NTable _ _ _ _ => e <- empty_line;; c <- each b_node (n :: r);; ret (e ++ c) | _ => each b_node (n :: r) end) true
                      (last_is node_closes (n :: r))).
        { destruct n; try exact Ya. exact (yields_seq _ _ _ _ _ true (yields_new_para _ _ : yields empty_line true true) Ya eq_refl). }
        assert (S4' : (match n with NTable _ _ _ _ => e <- empty_line;; c <- each b_node (n :: r);; ret (e ++ c) | _ => each b_node (n :: r) end) s2 = Some (c, s4)).
        { destruct n; exact S4. }
        destruct (Z _ _ _ S4') as (A & B & C). split; [auto|]. split; [split; intros X; easy | now apply C]. }
      destruct Yc as (L & N & B). split; [destruct b, o; easy|]. split.
      * rewrite app_assoc. destruct c as [|x c].
        -- rewrite app_nil_r, last_is_app by exact No. rewrite Lo. now rewrite (proj1 N eq_refl).
        -- rewrite last_is_app by discriminate. rewrite L by discriminate. destruct after; [now discriminate (proj2 N eq_refl) | reflexivity].
      * intros _. apply Forall_app. split; [exact (Yb _ _ _ S1)|]. apply Forall_app. split; [now apply Bo | exact B].
Qed.

(** ** Cells *)
Lemma cell_parts ch s c s1 e s2 : Forall well_formed ch -> forallb cell_child ch = true ->
  b_nodes ch s = Some (c, s1) -> cell_end ch s1 = Some (e, s2) ->
  c ++ e <> [] /\ Forall (fun b => is_block b = true) (c ++ e) /\ last_is closes (c ++ e) = cell_closes ch.
Proof.
  intros Wf Hc Sc Se.
  assert (Yl : ch <> [] -> yields (each b_node ch) true (last_is node_closes ch)).
  { intros Hn. apply yields_each; [exact Hn|]. rewrite Forall_forall in *. rewrite forallb_forall in Hc. intros x Hx. specialize (Hc x Hx).
    eapply yields_as; [apply yields_node; [now apply Wf | rewrite Hc; apply orb_true_r] | exact Hc | reflexivity]. }
  destruct ch as [|n r].
  - inversion Sc; subst. cbn [app]. destruct (yields_new_para _ _ _ _ _ Se) as (A & B & C). auto.
  - assert (Hn : n :: r <> []) by discriminate. destruct (Yl Hn _ _ _ Sc) as (A & B & C). specialize (C eq_refl).
    destruct (only_table (n :: r)) eqn:Eo.
    + assert (Hp : cell_end (n :: r) = b_new_para ppr_empty (ret [])) by (destruct r; [destruct n; easy | discriminate]).
      rewrite Hp in Se. destruct (yields_new_para _ _ _ _ _ Se) as (A' & B' & C').
      split; [destruct c; easy|]. split; [apply Forall_app; auto|]. rewrite last_is_app by exact A'. rewrite B'. unfold cell_closes. now rewrite Eo.
    + assert (Hp : cell_end (n :: r) = ret []) by (destruct r; [destruct n; easy | destruct n; reflexivity]).
      rewrite Hp in Se. inversion Se; subst. rewrite app_nil_r. split; [exact A|]. split; [exact C|]. rewrite B. unfold cell_closes. now rewrite Eo.
Qed.
Lemma local_ok_of n : well_formed n -> local_ok n = true.
Proof. unfold well_formed. destruct n; intros H; inversion H; assumption. Qed.
Lemma built_cells l s a s' : Forall well_formed l -> b_nodes l s = Some (a, s') ->
  Forall (fun x => xname x = "w:tc" -> has_blocks x) (flat_map elements a).
Proof.
  intros W H. apply (always_nodes (fun x => xname x = "w:tc" -> has_blocks x) (fun n => local_ok n = true)) with (l := l) (s := s) (s' := s').
  - intros x _ Hn E. rewrite E in Hn. discriminate.
  - intros x _ Hn E. now destruct Hn.
  - intros p nb ch c e t t1 t2 Wf Sc Se _.
    assert (Wc := all_q_children _ _ Wf). assert (Lo := local_ok_of _ Wf). cbn [children local_ok] in *.
    destruct (cell_parts ch t c t1 e t2 Wc Lo Sc Se) as (A & B & _).
    exists (x_tcpr p), (c ++ e). auto.
  - exact W.
  - exact H.
Qed.
(** A cell closes exactly when its content does. *)
Lemma cell_built p nb ch s a s' : well_formed (NCell p nb ch) -> b_node (NCell p nb ch) s = Some (a, s') ->
  exists rest, a = [E "w:tc" [] (x_tcpr p :: rest)] /\ last_is closes rest = cell_closes ch.
Proof.
  intros Wf H. cbn [b_node] in H. steps H. exists (a0 ++ a1). split; [reflexivity|].
  assert (Wc := all_q_children _ _ Wf). assert (Lo := local_ok_of _ Wf). cbn [children local_ok] in *.
  exact (proj2 (proj2 (cell_parts ch _ _ _ _ _ Wc Lo S S1))).
Qed.
Lemma built_cells_close l s a s' : Forall well_formed l ->
  Forall (fun n => match n with NCell _ _ ch => cell_closes ch = true | _ => True end) (flat_map all_nodes l) ->
  b_nodes l s = Some (a, s') ->
  Forall (fun x => xname x = "w:tc" -> last_is closes (xchildren x) = true) (flat_map elements a).
Proof.
  intros W Cl H.
  apply (always_nodes (fun x => xname x = "w:tc" -> last_is closes (xchildren x) = true)
           (fun n => local_ok n = true /\ match n with NCell _ _ ch => cell_closes ch = true | _ => True end)) with (l := l) (s := s) (s' := s').
  - intros x _ Hn E. rewrite E in Hn. discriminate.
  - intros x _ Hn E. now destruct Hn.
  - intros p nb ch c e t t1 t2 Wf Sc Se _. cbn [xchildren].
    assert (Wf' : well_formed (NCell p nb ch)) by (unfold well_formed; eapply Forall_impl; [|exact Wf]; intros ? X; apply X).
    assert (Wc := all_q_children _ _ Wf'). assert (Lo := local_ok_of _ Wf'). cbn [children local_ok] in *.
    destruct (cell_parts ch t c t1 e t2 Wc Lo Sc Se) as (A & B & L). rewrite last_is_cons by exact A. rewrite L.
    inversion Wf as [|? ? X _]; subst. apply X.
  - rewrite Forall_forall in *. intros n Hn. specialize (W n Hn). unfold all_q, well_formed in *. rewrite Forall_forall in *.
    intros m Hm. split; [now apply W|]. apply Cl. apply in_flat_map. eauto.
  - exact H.
Qed.

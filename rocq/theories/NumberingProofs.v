From Coq Require Import NArith List Bool Lia.
From Verif Require Import Str Props Ast ListFacts TreeModel PackModel PackSpec PackProofs PackRelsProofs PrepareModel PrepareProofs PackFinalProofs NumberingModel NumberingSpec.
Import ListNotations.

Lemma uses_app l m : uses_numbering (l ++ m) <-> uses_numbering l \/ uses_numbering m.
Proof. unfold uses_numbering. rewrite flat_map_app, Exists_app. tauto. Qed.
Lemma uses_cons n l : uses_numbering (n :: l) <-> uses_numbering [n] \/ uses_numbering l.
Proof. apply (uses_app [n] l). Qed.
Lemma uses_nil : ~ uses_numbering [].
Proof. intros H. inversion H. Qed.
Lemma uses_exists l : uses_numbering l <-> exists n, In n l /\ uses_numbering [n].
Proof.
  induction l as [|n l IH]; [split; [intros H; destruct (uses_nil H)|intros (n & [] & _)]|]. rewrite uses_cons, IH. split.
  - intros [H|(m & I & H)]; [exists n|exists m]; cbn; auto.
  - intros (m & [->|I] & H); [auto|right; eauto].
Qed.
Lemma uses_leaf n : leaf n = true -> ~ uses_numbering [n] /\ flag n = false.
Proof. destruct n; intros L; try discriminate L; (split; [|reflexivity]); apply uses_nil. Qed.
Lemma uses_one n : uses_numbering [n] <-> Exists refers_to_numbering (paras_of n).
Proof. unfold uses_numbering. cbn [flat_map]. now rewrite app_nil_r. Qed.
Lemma uses_para id p nb ch : uses_numbering [NPara id p nb ch] <-> p_numbering (base_of p) <> None \/ uses_numbering ch.
Proof. rewrite uses_one. cbn [paras_of]. rewrite Exists_cons. reflexivity. Qed.
Ltac uses_children := rewrite uses_one; reflexivity.
Lemma uses_link l h ch : uses_numbering [NLink l h ch] <-> uses_numbering ch. Proof. uses_children. Qed.
Lemma uses_row p nb ch : uses_numbering [NRow p nb ch] <-> uses_numbering ch. Proof. uses_children. Qed.
Lemma uses_table p g nb ch : uses_numbering [NTable p g nb ch] <-> uses_numbering ch. Proof. uses_children. Qed.
Lemma uses_cell p nb ch : uses_numbering [NCell p nb ch] <-> uses_numbering ch. Proof. uses_children. Qed.
Lemma uses_sdt p nb ch : uses_numbering [NSdt p nb ch] <-> uses_numbering ch. Proof. uses_children. Qed.
Lemma uses_toc d b a : uses_numbering [NToc d b a] <-> uses_numbering b \/ uses_numbering a.
Proof. rewrite uses_one. cbn [paras_of]. rewrite Exists_app. reflexivity. Qed.

Lemma any_flag l : (forall c, In c l -> flag c = true <-> uses_numbering [c]) -> (existsb flag l = true <-> uses_numbering l).
Proof.
  intros H. rewrite existsb_exists, uses_exists. split; intros (n & I & X); exists n; (split; [exact I|]); now apply H.
Qed.
Theorem flag_exact n : built false n -> (flag n = true <-> uses_numbering [n]).
Proof.
  induction 1 as [n L| |c p _ IHp _ IHc G|id lv p _ IHp|id p nb ch id' p' _ IH E|l h|c n _ IHn _ IHc G|cells _ IH|p nb ch p' _ IH|p rows _ IH
    |row t _ IHt _ IHr G|p g nb ch p' g' _ IH| |c n _ IHn _ IHc|c n _ IHn _ IHc G|p nb ch p' _ IH|p|c n _ IHn _ IHc|c n _ IHn L|p nb ch p' _ IH|d|c n _ IHn _ IHc G|c n _ IHn _ IHc G].
  - destruct (uses_leaf n L) as [U ->]. split; [discriminate|tauto].
  - unfold para_new. rewrite uses_para. cbn. split; [discriminate|]. intros [H|H]; [congruence|destruct (uses_nil H)].
  - destruct G as [G|G]; [discriminate G|]. destruct p; try exact IHp. cbn [para_push]. rewrite uses_para, uses_app in *. cbn [flag] in *. tauto.
  - destruct p; try exact IHp. cbn [para_numbering flag]. rewrite uses_para. destruct p. cbn. split; [left; discriminate|reflexivity].
  - rewrite uses_para in *. rewrite E. exact IH.
  - rewrite uses_link. cbn. split; [discriminate|]. intros H. destruct (uses_nil H).
  - destruct G as [G|G]; [discriminate G|]. destruct n; try exact IHn. cbn [link_push]. rewrite uses_link, uses_app in *. cbn [flag] in *. tauto.
  - unfold row_new. rewrite uses_row. cbn [flag]. now apply any_flag.
  - rewrite uses_row in *. exact IH.
  - unfold table_new. rewrite uses_table. cbn [flag]. now apply any_flag.
  - destruct G as [G|G]; [discriminate G|]. destruct t; try exact IHt. cbn [table_add_row]. rewrite uses_table, uses_app in *. cbn [flag] in *. tauto.
  - rewrite uses_table in *. exact IH.
  - unfold cell_new. rewrite uses_cell. cbn. split; [discriminate|]. intros H. destruct (uses_nil H).
  - destruct n; try exact IHn. cbn [cell_add]. rewrite uses_cell, uses_app in *. cbn [flag] in *. rewrite orb_true_iff. tauto.
  - destruct G as [G|G]; [discriminate G|]. destruct n; try exact IHn. cbn [cell_push]. rewrite uses_cell, uses_app in *. cbn [flag] in *. tauto.
  - rewrite uses_cell in *. exact IH.
  - rewrite uses_sdt. cbn. split; [discriminate|]. intros H. destruct (uses_nil H).
  - destruct n; try exact IHn. cbn [sdt_add]. rewrite uses_sdt, uses_app in *. cbn [flag] in *. rewrite orb_true_iff. tauto.
  - destruct (uses_leaf c L) as [U _]. destruct n; try exact IHn. cbn [sdt_push]. rewrite uses_sdt, uses_app in *. cbn [flag] in *. tauto.
  - rewrite uses_sdt in *. exact IH.
  - rewrite uses_toc. cbn. split; [discriminate|]. intros [H|H]; destruct (uses_nil H).
  - destruct G as [G|G]; [discriminate G|]. destruct n; try exact IHn. cbn [toc_add_before]. rewrite uses_toc, uses_app in *. cbn [flag] in *. tauto.
  - destruct G as [G|G]; [discriminate G|]. destruct n; try exact IHn. cbn [toc_add_after]. rewrite uses_toc, uses_app in *. cbn [flag] in *. tauto.
Qed.
Lemma part_exact c : built_part false c -> (fst c = true <-> uses_numbering (snd c)).
Proof.
  induction 1 as [|c p _ IH B]; [cbn; split; [discriminate|intros H; destruct (uses_nil H)]|].
  cbn [part_add fst snd]. rewrite orb_true_iff, uses_app, IH, (flag_exact c B). tauto.
Qed.
Lemma section_exact s : built_section false s -> (sa_numbering s = true <-> uses_numbering (sa_children s)) /\
  (forall x c, sa_pending s x = Some c -> fst c = true <-> uses_numbering (snd c)).
Proof.
  induction 1 as [p|c s _ [IH1 IH2] B|x c s _ [IH1 IH2] B].
  - split; [cbn; split; [discriminate|intros H; destruct (uses_nil H)]|discriminate].
  - cbn [section_add sa_numbering sa_children sa_pending]. split; [|exact IH2]. rewrite orb_true_iff, uses_app, IH1, (flag_exact c B). tauto.
  - cbn [section_part sa_numbering sa_children sa_pending]. split; [exact IH1|]. intros y d E. destruct (N.eqb _ _); [|eapply IH2; exact E].
    injection E as <-. now apply part_exact.
Qed.

(** ** The record of the document *)
Lemma attach_all_numbering s st : r_numberings (fst (fst (attach_all s st))) =
  r_numberings (fst (fst st)) || existsb (fun x => match sa_pending s x with Some c => fst c | None => false end) all_slots.
Proof.
  unfold attach_all. revert st. induction all_slots as [|x xs IH]; intros st; [cbn; now rewrite orb_false_r|]. cbn [fold_left existsb]. rewrite IH, orb_assoc. f_equal.
  destruct (sa_pending s x) as [c|]; [|now rewrite orb_false_r]. destruct st as [[r t] [p parts]]. reflexivity.
Qed.
Lemma calls_numbering l : Forall (built_call false) l ->
  (r_numberings (k_doc_rels (calls l)) = true <-> Exists (fun a => uses_numbering (handed_over a)) l).
Proof.
  induction l as [|a l IH] using rev_ind; intros B; [cbn; split; [discriminate|intros H; inversion H]|].
  apply Forall_app in B. destruct B as [B Ba]. inversion Ba as [|? ? Ha _]; subst. specialize (IH B). rewrite calls_snoc, Exists_app, <- IH. set (k := calls l) in *.
  assert (Last : Exists (fun a => uses_numbering (handed_over a)) [a] <-> uses_numbering (handed_over a)).
  { split; [intros H; inversion H as [? ? H1|? ? H1]; subst; [exact H1|inversion H1]|now constructor]. }
  rewrite Last. assert (Nil : uses_numbering [] <-> False) by (split; [apply uses_nil|tauto]).
  destruct a; cbn [call handed_over built_call] in *; try contradiction; rewrite ?Nil.
  - cbn [add_block set_doc k_doc_rels number_if r_numberings]. rewrite orb_true_iff, (flag_exact n Ha). tauto.
  - destruct (section_exact s Ha) as [S1 S2]. rewrite add_section_eq. pose proof (attach_all_numbering s (number_if (sa_numbering s) (k_doc_rels k), k_types k, (sa_prop s, []))) as R.
    destruct (attach_all s _) as [[r t] [p parts]]. cbn [fst] in R. cbn [set_types set_doc k_doc_rels]. rewrite R. cbn [number_if r_numberings].
    rewrite !orb_true_iff, S1, uses_app, existsb_exists. rewrite (uses_exists (flat_map _ _)). split.
    + intros [[H|H]|(x & I & H)]; [auto|auto|]. right. right. destruct (sa_pending s x) as [c|] eqn:E; [|discriminate H]. apply (S2 x c E) in H.
      apply uses_exists in H. destruct H as (n & In_ & H). exists n. split; [|exact H]. apply in_flat_map. exists x. rewrite E. auto.
    + intros [H|[H|(n & I & H)]]; [auto|auto|]. right. apply in_flat_map in I. destruct I as (x & Ix & I). exists x. split; [exact Ix|].
      destruct (sa_pending s x) as [c|] eqn:E; [|destruct I]. apply (S2 x c E). apply uses_exists. eauto.
  - pose proof (set_part_parts x c k) as S. pose proof (part_exact c Ha) as P.
    assert (R : r_numberings (k_doc_rels (set_part x c k)) = r_numberings (k_doc_rels k) || fst c) by reflexivity.
    rewrite R, orb_true_iff, P. tauto.
  - cbn. tauto.
  - cbn. tauto.
  - cbn. tauto.
Qed.
Lemma numbering_written r : In numbering_rel (written_rels r) <-> r_numberings r = true.
Proof.
  unfold written_rels. rewrite !in_app_iff. split.
  - intros [I|[I|[I|[I|[I|[I|[I|[I|I]]]]]]]].
    + cbn in I. destruct I as [E|[E|[E|[E|[]]]]]; discriminate E.
    + destruct (r_comments r); [|destruct I]. destruct I as [E|[]]. discriminate E.
    + destruct (r_numberings r); [reflexivity|destruct I].
    + destruct (r_footnotes r); [|destruct I]. destruct I as [E|[]]. discriminate E.
    + apply in_map_iff in I. destruct I as (i & E & _). discriminate E.
    + apply in_map_iff in I. destruct I as (i & E & _). discriminate E.
    + apply in_map_iff in I. destruct I as (i & E & _). discriminate E.
    + apply in_map_iff in I. destruct I as (i & E & _). discriminate E.
    + apply in_map_iff in I. destruct I as (i & E & _). discriminate E.
  - intros ->. do 2 right. left. now left.
Qed.
Lemma numbering_declared_proof crc styles ext n l k' c ext' : typed_calls l -> Forall (built_call false) l ->
  prepare_package crc styles ext n (calls l) = Some (k', c, ext') ->
  (In numbering_rel (written_rels (k_doc_rels k')) <-> Exists (fun a => uses_numbering (handed_over a)) l).
Proof.
  intros T B E. destruct (prepare_found _ _ _ _ _ _ _ _ (typed_document l T) E) as (d1 & d & comments & links & -> & _).
  rewrite numbering_written. cbn [prepared set_types set_doc k_doc_rels r_numberings]. now apply calls_numbering.
Qed.

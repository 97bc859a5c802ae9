(** Building from two states of the counters: the same elements, apart from the ids. *)
From Coq Require Import NArith List Bool Lia.
From Verif Require Import Str StrFacts ListFacts TypesModel Props Ast IdsModel WriterModel BuildModel BuildSpec BuildProofs BuildIdsProofs
  StyleModel PackModel RenderModel RenderSpec.
Import ListNotations.

Definition le_spend (a b : spend) : Prop := (k_para a <= k_para b /\ k_hist a <= k_hist b /\ k_change a <= k_change b)%N.
Lemma le_spend_refl a : le_spend a a.
Proof. unfold le_spend. lia. Qed.
Lemma le_spend_trans a b c : le_spend a b -> le_spend b c -> le_spend a c.
Proof. unfold le_spend. lia. Qed.
Lemma le_spend_plus a b : le_spend a (plus a b).
Proof. unfold le_spend. cbn. lia. Qed.

Section xml_ind.
  Variable P : xml -> Prop.
  Hypothesis HE : forall n a ch, Forall P ch -> P (E n a ch).
  Hypothesis HL : forall n a t, P (L n a t).
  Fixpoint xml_tree_ind (x : xml) : P x :=
    match x with
    | E n a ch => HE n a ch ((fix all l : Forall P l := match l with [] => Forall_nil _ | y :: r => Forall_cons _ (xml_tree_ind y) (all r) end) ch)
    | L n a t => HL n a t
    end.
End xml_ind.

Section Two.
  Variable b1 b2 : ids.
  Notation same k := (same_but_ids b1 b2 k).
  Notation sames k := (Forall2 (same_but_ids b1 b2 k)).

  Lemma attrs_refl k n a : Forall2 (same_attr b1 b2 k n) a a.
  Proof. induction a; constructor; [split; [reflexivity | now left] | assumption]. Qed.
  Lemma same_refl k : forall x, same k x x.
  Proof.
    apply xml_tree_ind; intros; [constructor; [apply attrs_refl|] | constructor; apply attrs_refl].
    induction H; constructor; assumption.
  Qed.
  Lemma sames_refl k l : sames k l l.
  Proof. induction l; constructor; auto using same_refl. Qed.
  Lemma value_le k k' n a v1 v2 : le_spend k k' -> same_value b1 b2 k n a v1 v2 -> same_value b1 b2 k' n a v1 v2.
  Proof.
    intros (P & H & C) [V|[(?&?&i&?&?)|[(?&?&i&?&?)|(?&?&i&?&?)]]]; [now left | right; left | right; right; left | right; right; right];
      (split; [assumption|split; [assumption|]]; exists i; split; [lia|assumption]).
  Qed.
  Lemma attrs_le k k' n a1 a2 : le_spend k k' -> Forall2 (same_attr b1 b2 k n) a1 a2 -> Forall2 (same_attr b1 b2 k' n) a1 a2.
  Proof. intros Hl. induction 1 as [|? ? ? ? [Hn Hv]]; constructor; [split; [assumption | eapply value_le; eassumption] | assumption]. Qed.
  Lemma same_le k k' : le_spend k k' -> forall x y, same k x y -> same k' x y.
  Proof.
    intros Hl. refine (xml_tree_ind _ _ _).
    - intros n a ch IH y H. inversion H as [? ? a2 ? c2 Ha Hc|]; subst. constructor; [eapply attrs_le; eassumption|].
      clear H Ha. revert c2 Hc. induction IH as [|x l Hx _ IHl]; intros c2 Hc; inversion Hc; subst; constructor; auto.
    - intros n a t y H. inversion H; subst. constructor. eapply attrs_le; eassumption.
  Qed.
  Lemma sames_le k k' l m : le_spend k k' -> sames k l m -> sames k' l m.
  Proof. intros Hl. induction 1; constructor; [eapply same_le; eassumption | assumption]. Qed.
  Lemma sames_E k n a c1 c2 : sames k c1 c2 -> sames k [E n a c1] [E n a c2].
  Proof. intros H. constructor; [constructor; [apply attrs_refl | exact H] | constructor]. Qed.
  Lemma sames_E1 k n at_ v1 v2 a c1 c2 : same_value b1 b2 k n at_ v1 v2 -> sames k c1 c2 -> sames k [E n ((at_, v1) :: a) c1] [E n ((at_, v2) :: a) c2].
  Proof. intros V H. constructor; [constructor; [constructor; [now split | apply attrs_refl] | exact H] | constructor]. Qed.
  Lemma sames_L1 k n at_ v1 v2 a t : same_value b1 b2 k n at_ v1 v2 -> sames k [L n ((at_, v1) :: a) t] [L n ((at_, v2) :: a) t].
  Proof. intros V. constructor; [constructor; constructor; [now split | apply attrs_refl] | constructor]. Qed.
  Lemma sames_app k a b c d : sames k a b -> sames k c d -> sames k (a ++ c) (b ++ d).
  Proof. apply Forall2_app. Qed.
  Lemma sames_cons k x a b : sames k a b -> sames k (x :: a) (x :: b).
  Proof. constructor; [apply same_refl | assumption]. Qed.

  (** Two computations, run where the counters have given [k]. *)
  Definition st {A} (k : spend) (R : spend -> A -> A -> Prop) (m1 m2 : M A) : Prop :=
    forall a1 s1 a2 s2, m1 (after b1 k) = Some (a1, s1) -> m2 (after b2 k) = Some (a2, s2) ->
      exists k', le_spend k k' /\ s1 = after b1 k' /\ s2 = after b2 k' /\ R k' a1 a2.
  Notation xs := (fun k => sames k).
  Lemma st_ret {A} k (R : spend -> A -> A -> Prop) a1 a2 : R k a1 a2 -> st k R (ret a1) (ret a2).
  Proof. intros H ? ? ? ? E1 E2. inversion E1; inversion E2; subst. exists k. auto using le_spend_refl. Qed.
  Lemma st_panic {A} k (R : spend -> A -> A -> Prop) m : st k R panic m.
  Proof. intros ? ? ? ? E1. discriminate. Qed.
  Lemma st_bind {A B} k (R : spend -> A -> A -> Prop) (R' : spend -> B -> B -> Prop) m1 m2 f1 f2 :
    st k R m1 m2 -> (forall k' a1 a2, le_spend k k' -> R k' a1 a2 -> st k' R' (f1 a1) (f2 a2)) -> st k R' (bind m1 f1) (bind m2 f2).
  Proof.
    intros Hm Hf c1 t1 c2 t2 E1 E2. apply bind_inv in E1 as (a1 & s1 & E1 & F1). apply bind_inv in E2 as (a2 & s2 & E2 & F2).
    destruct (Hm _ _ _ _ E1 E2) as (k' & Hl & -> & -> & HR). destruct (Hf _ _ _ Hl HR _ _ _ _ F1 F2) as (k'' & Hl' & -> & -> & HR').
    exists k''. eauto using le_spend_trans.
  Qed.
  Lemma st_para k : st k (fun k v1 v2 => same_value b1 b2 k "w:p" "w14:paraId" v1 v2) take_para take_para.
  Proof.
    intros a1 s1 a2 s2 E1 E2. exists (plus k (a_para 1)).
    assert (A1 := costs_take_para (after b1 k)). rewrite E1 in A1. assert (A2 := costs_take_para (after b2 k)). rewrite E2 in A2.
    destruct A1 as (_ & _ & ->), A2 as (_ & _ & ->). apply take_para_inv in E1 as [-> _], E2 as [-> _].
    split; [apply le_spend_plus|]. rewrite !after_plus. split; [reflexivity|]. split; [reflexivity|].
    right. left. split; [reflexivity|]. split; [reflexivity|]. exists (k_para k). split; [cbn; lia | split; reflexivity].
  Qed.
  Lemma st_hist k n : In n ["w:ins"; "w:del"; "w:moveFrom"; "w:moveTo"] -> st k (fun k v1 v2 => same_value b1 b2 k n "w:id" v1 v2) take_hist take_hist.
  Proof.
    intros Hn a1 s1 a2 s2 E1 E2. exists (plus k (a_hist 1)).
    assert (A1 := costs_take_hist (after b1 k)). rewrite E1 in A1. assert (A2 := costs_take_hist (after b2 k)). rewrite E2 in A2.
    destruct A1 as (_ & _ & ->), A2 as (_ & _ & ->). apply take_hist_inv in E1 as [-> _], E2 as [-> _].
    split; [apply le_spend_plus|]. rewrite !after_plus. split; [reflexivity|]. split; [reflexivity|].
    right. right. left. split; [exact Hn|]. split; [reflexivity|]. exists (k_hist k). split; [cbn; lia | split; reflexivity].
  Qed.
  Lemma st_change k : st k (fun k v1 v2 => same_value b1 b2 k "w:pPrChange" "w:id" v1 v2) take_change take_change.
  Proof.
    intros a1 s1 a2 s2 E1 E2. exists (plus k (a_change 1)).
    assert (A1 := costs_take_change (after b1 k)). rewrite E1 in A1. assert (A2 := costs_take_change (after b2 k)). rewrite E2 in A2.
    destruct A1 as (_ & _ & ->), A2 as (_ & _ & ->). apply take_change_inv in E1 as [-> _], E2 as [-> _].
    split; [apply le_spend_plus|]. rewrite !after_plus. split; [reflexivity|]. split; [reflexivity|].
    right. right. right. split; [reflexivity|]. split; [reflexivity|]. exists (k_change k). split; [cbn; lia | split; reflexivity].
  Qed.

  (** Facts about earlier results hold later. *)
  Ltac raise Hl :=
    repeat match type of Hl with le_spend ?k ?k' =>
      match goal with
      | H : Forall2 (same_but_ids b1 b2 k) _ _ |- _ => apply (sames_le k k' _ _ Hl) in H
      | H : same_value b1 b2 k _ _ _ _ |- _ => apply (value_le k k' _ _ _ _ Hl) in H
      end
    end.
  Ltac assemble :=
    repeat first [assumption | apply sames_refl | apply sames_app | apply sames_E | apply sames_cons | apply sames_E1; [assumption|] | apply sames_L1; assumption].
  (** Step through two chains of the same shape; [tac] solves the steps. *)
  Ltac steps tac :=
    lazymatch goal with
    | |- st _ _ (ret _) (ret _) => apply st_ret; cbv beta; assemble
    | |- st _ _ (bind _ _) (bind _ _) =>
        first [eapply (st_bind _ xs) | eapply st_bind]; [steps tac | let k := fresh "k" in let x := fresh "x" in let y := fresh "y" in let Hl := fresh "Hl" in let H := fresh "H" in
          intros k x y Hl H; cbv beta in H; raise Hl; steps tac]
    | |- _ => first [eassumption | apply st_para | apply st_change | tac]
    end.

  Lemma st_mark n o k : In n ["w:ins"; "w:del"; "w:moveFrom"; "w:moveTo"] -> st k xs (b_opt_mark n o) (b_opt_mark n o).
  Proof. intros Hn. destruct o as [m|]; cbn [b_opt_mark]; [unfold b_mark; steps ltac:(apply st_hist, Hn) | apply st_ret, sames_refl]. Qed.
  Lemma st_rpr r k : st k xs (b_rpr r) (b_rpr r).
  Proof. unfold b_rpr. steps ltac:(apply st_mark; cbn; tauto). Qed.
  Lemma st_ppr : forall p k, st k xs (b_ppr p) (b_ppr p).
  Proof.
    fix F 1. intros [b c] k. cbn [b_ppr]. destruct c as [[au da q]|].
    - specialize (F q). steps ltac:(first [apply st_rpr | apply F]).
    - clear F. steps ltac:(apply st_rpr).
  Qed.
  Lemma st_trpr p k : st k xs (b_trpr p) (b_trpr p).
  Proof. unfold b_trpr. steps ltac:(apply st_mark; cbn; tauto). Qed.
  Lemma st_sdtpr p k : st k xs (b_sdtpr p) (b_sdtpr p).
  Proof. unfold b_sdtpr. steps ltac:(apply st_rpr). Qed.
  (** From any value of the counters. *)
  Definition sta (m : M (list xml)) : Prop := forall k, st k xs m m.
  Lemma st_run p inner : sta inner -> sta (b_run p inner).
  Proof. intros H k. unfold b_run. steps ltac:(first [apply H | apply st_rpr]). Qed.
  Lemma st_para_with i1 i2 p inner k : same_value b1 b2 k "w:p" "w14:paraId" i1 i2 -> sta inner -> st k xs (b_para i1 p inner) (b_para i2 p inner).
  Proof. intros V H. unfold b_para. steps ltac:(first [apply H | apply st_ppr]). Qed.
  Lemma st_para_stored i p inner : sta inner -> sta (b_para i p inner).
  Proof. intros H k. apply st_para_with; [now left | exact H]. Qed.
  Lemma st_new_para p inner : sta inner -> sta (b_new_para p inner).
  Proof. intros H k. unfold b_new_para. steps ltac:(apply st_para_with; assumption). Qed.
  Lemma st_tracked n m inner : In n ["w:ins"; "w:del"; "w:moveFrom"; "w:moveTo"] -> sta inner -> sta (b_tracked n m inner).
  Proof. intros Hn H k. unfold b_tracked. steps ltac:(first [apply st_hist, Hn | apply H]). Qed.
  Lemma st_link l h inner : sta inner -> sta (b_link l h inner).
  Proof. intros H k. unfold b_link. steps ltac:(apply H). Qed.
  Lemma st_leaf n m : b_leaf n = Some m -> sta m.
  Proof.
    destruct n; cbn [b_leaf]; intros H k; inversion H; subst; clear H;
      try (apply st_ret, sames_refl); try (apply st_panic); destruct i; cbn [b_instr]; first [apply st_ret, sames_refl | apply st_panic].
  Qed.
  Lemma st_each {A} (f : A -> M (list xml)) l : Forall (fun n => sta (f n)) l -> sta (each f l).
  Proof.
    induction 1 as [|n l Hn _ IH]; intros k; cbn [each]; [apply st_ret, sames_refl|]. steps ltac:(first [apply Hn | apply IH]).
  Qed.
  Lemma st_leaves l : sta (b_leaves l).
  Proof.
    apply st_each, Forall_forall. intros n _. destruct (b_leaf n) as [m|] eqn:En; [eapply st_leaf, En | intros k; apply st_ret, sames_refl].
  Qed.
  Lemma st_simple l : sta (b_simple_run l).
  Proof. apply st_run, st_leaves. Qed.
  Lemma st_toc_line t : sta (toc_line t).
  Proof. intros k. unfold toc_line. steps ltac:(apply st_simple). Qed.
  Lemma st_toc_entry b t : sta (toc_entry b t).
  Proof.
    apply st_new_para. intros k. steps ltac:(idtac).
    - destruct b; [apply st_simple | apply st_ret, sames_refl].
    - destruct (it_hyperlink (ti_instr t)); [apply st_link|]; apply st_toc_line.
  Qed.
  Lemma st_toc_last t : sta (toc_last t).
  Proof. apply st_new_para, st_simple. Qed.
  Lemma st_toc_entries b l : sta (toc_entries b l).
  Proof.
    revert b. induction l as [|t l IH]; intros b k; cbn [toc_entries]; [apply st_ret, sames_refl|].
    steps ltac:(first [apply st_toc_entry | idtac]); destruct l; [apply st_toc_last | apply IH].
  Qed.
  Lemma st_items l : sta (b_items l).
  Proof. intros k. unfold b_items. steps ltac:(apply st_toc_entries). Qed.
  Lemma st_end_run : sta end_run.
  Proof. apply st_simple. Qed.
  Lemma st_empty_line : sta empty_line.
  Proof. apply st_new_para, st_simple. Qed.
  Lemma st_toc_open d : sta (toc_open d).
  Proof. unfold toc_open. destruct (td_delete d); apply st_new_para; [apply st_tracked; [cbn; tauto|]|]; apply st_simple. Qed.
  Lemma st_in_sdt d inner : sta inner -> sta (in_sdt d inner).
  Proof. intros H k. unfold in_sdt. destruct (td_without_sdt d); [apply H|]. steps ltac:(first [apply H | apply st_sdtpr]). Qed.
  Lemma st_node_and_below : forall n, sta (b_node n) /\ Forall (fun c => sta (b_node c)) (children n).
  Proof.
    refine (node_tree_ind _ _). intros n IH2. assert (IH := Forall_impl _ (fun c H => proj1 H) IH2). split; [|exact IH].
    destruct (b_leaf n) as [m|] eqn:El.
    { assert (X : b_node n = m) by (destruct n; try discriminate El; cbn in El |- *; now inversion El). rewrite X. eapply st_leaf, El. }
    destruct n; try discriminate El; cbn [children] in IH; cbn [b_node].
    - apply st_run, st_each, IH.
    - apply st_tracked; [cbn; tauto | apply st_each, IH].
    - apply st_tracked; [cbn; tauto | apply st_each, IH].
    - apply st_tracked; [cbn; tauto | apply st_each, IH].
    - apply st_tracked; [cbn; tauto | apply st_each, IH].
    - apply st_link, st_each, IH.
    - intros k. steps ltac:(first [apply st_sdtpr | apply st_each, IH]).
    - apply st_simple.
    - apply st_simple.
    - apply st_para_stored, st_each, IH.
    - intros k. steps ltac:(apply st_each, IH).
    - intros k. steps ltac:(first [apply st_trpr | apply st_each, IH]).
    - intros k. steps ltac:(first [apply st_each, IH | idtac]).
      assert (Hp : forall k, st k xs (b_new_para ppr_empty (ret [])) (b_new_para ppr_empty (ret []))) by (apply st_new_para; intros k'; apply st_ret, sames_refl).
      destruct ch as [|c [|c' ch]]; [apply Hp | destruct c; first [apply Hp | apply st_ret, sames_refl] | destruct c; apply st_ret, sames_refl].
    - apply Forall_app in IH as [IHb IHa]. apply st_in_sdt.
      assert (Hb := st_each b_node before IHb). assert (Ha := st_each b_node after IHa).
      destruct (td_items d) as [|it items] eqn:Ei; intros k.
      + steps ltac:(first [apply Hb | apply st_toc_open | idtac]).
        destruct after as [|n r]; [apply st_para_with; [assumption | apply st_end_run]|].
        destruct n; try apply Ha.
        * apply Forall_app in IH2 as [_ IH2]. inversion IH2 as [|? ? [_ IHn] _]; subst. inversion IHa as [|? ? _ IHr]; subst. cbn [children] in IHn.
          steps ltac:(first [apply st_each, IHr | apply st_para_stored; intros k''; steps ltac:(first [apply st_end_run | apply st_each, IHn])]).
        * steps ltac:(first [apply st_empty_line | apply Ha]).
      + steps ltac:(first [apply Hb | apply st_items | idtac]).
        destruct after as [|n r]; [apply st_ret, sames_refl|]. destruct n; try apply Ha.
        steps ltac:(first [apply st_empty_line | apply Ha]).
    - apply Forall_app in IH as [IH _]. intros k. steps ltac:(apply st_each, IH).
    - intros k. apply st_ret, sames_refl.
  Qed.
  Lemma st_nodes l : sta (b_nodes l).
  Proof. apply st_each, Forall_forall. intros n _. apply st_node_and_below. Qed.

  (** ** Parts *)
  Notation x1 := (fun k => same_but_ids b1 b2 k).
  Lemma st_root k n a (c1 c2 : list xml) : sames k c1 c2 -> same k (E n a c1) (E n a c2).
  Proof. intros H. constructor; [apply attrs_refl | exact H]. Qed.
  Ltac root := apply st_ret; cbv beta; apply st_root; assemble.
  Lemma st_document body p k : st k x1 (b_document body p) (b_document body p).
  Proof. unfold b_document. eapply st_bind; [apply st_nodes|]. intros k' a1 a2 Hl H. root. Qed.
  Lemma st_part n k : st k x1 (b_part n) (b_part n).
  Proof. destruct n; try apply st_panic. unfold b_part. eapply st_bind; [apply st_nodes|]. intros k' a1 a2 Hl H. root. Qed.
  Lemma st_comments l k : st k x1 (b_comments l) (b_comments l).
  Proof.
    unfold b_comments. eapply st_bind; [apply st_each, Forall_forall; intros c _ j; unfold b_comment; steps ltac:(apply st_nodes)|].
    intros k' a1 a2 Hl H. root.
  Qed.
  Lemma st_footnotes l k : st k x1 (b_footnotes l) (b_footnotes l).
  Proof.
    unfold b_footnotes. eapply st_bind; [apply st_each, Forall_forall; intros c _ j; unfold b_footnote|].
    - steps ltac:(idtac). destruct (snd c); [apply st_new_para; intros j'; apply st_ret, sames_refl | apply st_nodes].
    - intros k' a1 a2 Hl H. root.
  Qed.
  Lemma st_style s : sta (b_style s).
  Proof. intros k. unfold b_style. steps ltac:(first [apply st_rpr | apply st_ppr]). Qed.
  Lemma st_doc_defaults r p : sta (b_doc_defaults r p).
  Proof. intros k. unfold b_doc_defaults. steps ltac:(first [apply st_rpr | apply st_ppr]). constructor; [constructor; [apply attrs_refl | assumption] | apply sames_E; assumption]. Qed.
  Lemma st_styles t k : st k x1 (b_styles t) (b_styles t).
  Proof.
    unfold b_styles. eapply st_bind; [apply st_doc_defaults|]. intros k1 d1 d2 Hl1 Hd. eapply st_bind; [apply st_style|]. intros k2 n1 n2 Hl2 Hn.
    eapply st_bind; [apply st_each, Forall_forall; intros; apply st_style|]. intros k3 l1 l2 Hl3 H. cbv beta in *. raise Hl2. raise Hl3. root.
  Qed.
  Lemma st_level l : sta (b_level l).
  Proof. intros k. unfold b_level. steps ltac:(first [apply st_rpr | apply st_ppr]). Qed.
  Lemma st_abstract a : sta (b_abstract a).
  Proof. intros k. unfold b_abstract. steps ltac:(apply st_each, Forall_forall; intros; apply st_level). Qed.
  Lemma st_override o : sta (b_override o).
  Proof. intros k. unfold b_override. destruct (ov_replace o); steps ltac:(apply st_level). Qed.
  Lemma st_num n : sta (b_num n).
  Proof. intros k. unfold b_num. steps ltac:(apply st_each, Forall_forall; intros; apply st_override). Qed.
  Lemma st_numberings t k : st k x1 (b_numberings t) (b_numberings t).
  Proof.
    unfold b_numberings. eapply st_bind; [apply st_abstract|]. intros k1 d1 d2 Hl1 Hd.
    eapply st_bind; [apply st_each, Forall_forall; intros; apply st_abstract|]. intros k2 a1 a2 Hl2 Ha.
    eapply st_bind; [apply st_num|]. intros k3 e1 e2 Hl3 He.
    eapply st_bind; [apply st_each, Forall_forall; intros; apply st_num|]. intros k4 n1 n2 Hl4 Hn. cbv beta in *.
    raise Hl2. raise Hl3. raise Hl4. root.
  Qed.
End Two.

(** No difference where no id is taken, or where the counters agree. *)
Definition agree (b1 b2 : ids) (k : spend) : Prop :=
  (k_para k = 0 \/ id_para b1 = id_para b2)%N /\ (k_hist k = 0 \/ id_hist b1 = id_hist b2)%N /\ (k_change k = 0 \/ id_change b1 = id_change b2)%N.
Lemma same_agree b1 b2 k : agree b1 b2 k -> forall x y, same_but_ids b1 b2 k x y -> x = y.
Proof.
  intros (P & H & C).
  assert (V : forall n a v1 v2, same_value b1 b2 k n a v1 v2 -> v1 = v2).
  { intros n a v1 v2 [V|[(_&_&i&Hi&->&->)|[(_&_&i&Hi&->&->)|(_&_&i&Hi&->&->)]]]; [exact V|..].
    - destruct P as [P|P]; [lia | now rewrite P].
    - destruct H as [H|H]; [lia | now rewrite H].
    - destruct C as [C|C]; [lia | now rewrite C]. }
  assert (A : forall n a1 a2, Forall2 (same_attr b1 b2 k n) a1 a2 -> a1 = a2).
  { induction 1 as [|[? ?] [? ?] ? ? [Hn Hv] _ IH]; [reflexivity|]. cbn in Hn, Hv. apply V in Hv. congruence. }
  refine (xml_tree_ind _ _ _).
  - intros n a ch IH y Hy. inversion Hy as [? ? a2 ? c2 Ha Hc|]; subst. apply A in Ha as ->. f_equal.
    clear Hy. revert c2 Hc. induction IH as [|x l Hx _ IHl]; intros c2 Hc; inversion Hc; subst; f_equal; auto.
  - intros n a t y Hy. inversion Hy; subst. f_equal. eauto.
Qed.

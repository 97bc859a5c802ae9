(** Every element that is written is in the vocabulary; what holds of all elements. *)
From Coq Require Import NArith List Bool Lia.
From Verif Require Import Str StrFacts ListFacts TypesModel Props Ast IdsModel BuildModel BuildSpec BuildProofs VocabSpec.
Import ListNotations.

(** ** Attributes *)
Lemma sub_opt {A} (f : A -> string * string) k o r ks : (forall a, fst (f a) = k) -> sub (map fst r) ks -> sub (map fst (opt f o ++ r)) (k :: ks).
Proof. intros H S. destruct o; cbn [opt app map]; [rewrite H; now constructor | now constructor 3]. Qed.
Lemma sub_opt_last {A} (f : A -> string * string) k o ks : (forall a, fst (f a) = k) -> sub (map (@fst _ string) (opt f o)) (k :: ks).
Proof. intros H. rewrite <- (app_nil_r (opt f o)). apply sub_opt; [exact H | constructor]. Qed.
Lemma sub_cons (k v : string) (r : list (string * string)) ks : sub (map fst r) ks -> sub (map fst ((k, v) :: r)) (k :: ks).
Proof. now constructor. Qed.
Ltac subs :=
  repeat first
    [ apply sub_nil
    | apply sub_cons
    | apply sub_opt; [intros; reflexivity|]
    | apply sub_opt_last; intros; reflexivity
    | match goal with |- sub (map fst (match ?o with _ => _ end)) _ => destruct o end
    | apply sub_skip ].
(** The [k]th way in which the element may be written. *)
Ltac known_nth k :=
  lazymatch goal with |- exists ks, In ks (allowed ?n) /\ _ =>
    let ks := eval vm_compute in (nth k (allowed n) []) in
    exists ks; split; [vm_compute; tauto | subs; fail]
  end.
Ltac known_tac :=
  unfold known; cbn [xname xattrs leaf valued valued_n valued_z x_border app];
  unfold attr_s, attr_n, attr_z; first [known_nth 0%nat | known_nth 1%nat | known_nth 2%nat].

(** Names that have a meaning of their own in what follows. *)
Definition plain (n : string) : bool :=
  forallb (fun m => negb (n =s m)) ["w:tc"; "w:p"; "w:ins"; "w:del"; "w:moveFrom"; "w:moveTo"; "w:pPrChange"; "w:fldChar"; "w:tbl"; "w:r"; "w:t"; "w:sdt"].
Section Every.
(** A property of elements, and one of the nodes they are built from. *)
Variable P : xml -> Prop.
Variable Q : node -> Prop.
Definition all_q (n : node) : Prop := Forall Q (all_nodes n).
Definition every (l : list xml) : Prop := Forall P (flat_map elements l).
Lemma every_nil : every [].
Proof. constructor. Qed.
Lemma every_app l m : every (l ++ m) <-> every l /\ every m.
Proof. unfold every. now rewrite flat_map_app, Forall_app. Qed.
Lemma every_cons x l : every (x :: l) <-> every [x] /\ every l.
Proof. apply (every_app [x] l). Qed.
Lemma every_E n a ch : P (E n a ch) -> every ch -> every [E n a ch].
Proof. intros H C. unfold every. cbn [flat_map elements]. rewrite app_nil_r. now constructor. Qed.
Lemma every_L n a t : P (L n a t) -> every [L n a t].
Proof. intros H. unfold every. cbn. now constructor. Qed.
Lemma every_leaf n a : P (leaf n a) -> every [leaf n a].
Proof. intros H. apply every_E; [exact H | constructor]. Qed.
Lemma every_opt {A} (f : A -> xml) o : (forall a, every [f a]) -> every (opt f o).
Proof. intros H. destruct o; cbn [opt]; auto using every_nil. Qed.
Lemma every_on b l : every l -> every (on b l).
Proof. destruct b; auto using every_nil. Qed.
Lemma every_map {A} (f : A -> xml) l : (forall a, every [f a]) -> every (map f l).
Proof. intros H. induction l as [|a l IH]; [apply every_nil|]. cbn [map]. apply every_cons. auto. Qed.

(** ** Properties.  Everything but cells is in the vocabulary. *)
Hypothesis Hk : forall x, known x -> plain (xname x) = true -> P x.
Ltac prop := apply Hk; [known_tac | reflexivity].
Ltac pieces :=
  repeat first
    [ exact every_nil
    | apply every_opt; intros
    | apply every_on
    | apply every_map; intros
    | apply every_leaf; prop
    | apply every_L; prop
    | apply every_E; [prop|]
    | match goal with
      | |- every (_ ++ _) => apply every_app; split
      | |- every (_ :: _ :: _) => apply every_cons; split
      | |- every (match ?x with _ => _ end) => destruct x
      | |- every [match ?x with _ => _ end] => destruct x
      end ].
Lemma every_rpr_before r : every (rpr_before r).
Proof. unfold rpr_before. pieces; unfold x_switch; pieces. Qed.
Lemma every_rpr_after r : every (rpr_after r).
Proof. unfold rpr_after. pieces. Qed.
Lemma every_sectpr p : every [x_sectpr p].
Proof. unfold x_sectpr. pieces. Qed.
Lemma every_ppr_before b : every (ppr_before b).
Proof. unfold ppr_before. pieces; unfold x_numpr, x_indent; pieces. Qed.
Lemma every_ppr_after b : every (ppr_after b).
Proof. unfold ppr_after. pieces; try apply every_sectpr; unfold x_pborders; pieces. Qed.
Lemma every_tblpr p : every [x_tblpr p].
Proof. unfold x_tblpr. pieces; unfold x_tborders, x_tmargins; pieces. Qed.
Lemma every_tcpr p : every [x_tcpr p].
Proof. unfold x_tcpr. pieces; unfold x_cborders, x_cmargins; pieces. Qed.
Lemma every_drawing p : every [x_drawing p].
Proof.
  assert (G : every (x_graphic p)) by (unfold x_graphic; pieces; unfold x_pic; pieces).
  unfold x_drawing. pieces; try exact G; unfold x_position; pieces.
Qed.

(** ** The tree *)
Hypothesis Hs : forall x, known x -> xname x <> "w:tc" -> P x.
Ltac prop ::= apply Hs; [known_tac | discriminate].
Definition always (m : M (list xml)) : Prop := forall s a s', m s = Some (a, s') -> every a.
Ltac steps H :=
  lazymatch type of H with
  | bind _ _ _ = Some _ =>
      let a := fresh "a" in let s := fresh "s" in let H1 := fresh "S" in let H2 := fresh "S" in
      apply bind_inv in H as (a & s & H1 & H2); steps H1; steps H2
  | ret _ _ = Some (_, _) => unfold ret in H; inversion H; subst; clear H
  | _ => idtac
  end.
Lemma always_ret l : every l -> always (ret l).
Proof. intros H s a s' E. inversion E; subst. exact H. Qed.
Lemma always_seq m1 m2 : always m1 -> always m2 -> always (a <- m1;; b <- m2;; ret (a ++ b)).
Proof. intros H1 H2 s a s' H. steps H. apply every_app. eauto. Qed.
Lemma always_seq3 m1 m2 m3 : always m1 -> always m2 -> always m3 -> always (a <- m1;; b <- m2;; c <- m3;; ret (a ++ b ++ c)).
Proof. intros H1 H2 H3 s a s' H. steps H. rewrite !every_app. repeat split; eauto. Qed.
Lemma always_mark n o : n = "w:ins" \/ n = "w:del" -> always (b_opt_mark n o).
Proof.
  intros Hn s a s' H. destruct o as [m|]; unfold b_opt_mark, b_mark in H; steps H; [|apply every_nil].
  destruct Hn as [-> | ->]; pieces.
Qed.
Lemma always_rpr r : always (b_rpr r).
Proof.
  intros s a s' H. unfold b_rpr in H. steps H. apply always_mark in S; [|auto]. apply always_mark in S1; [|auto].
  apply every_E; [prop|]. rewrite !every_app. auto using every_rpr_before, every_rpr_after.
Qed.
Lemma always_ppr : forall p, always (b_ppr p).
Proof.
  fix F 1. intros [b c] s a s' H. cbn [b_ppr] in H. destruct c as [[au da q]|]; steps H; apply always_rpr in S.
  - specialize (F q). apply F in S1. apply every_E; [prop|]. rewrite !every_app, every_cons.
    repeat split; auto using every_ppr_before, every_ppr_after. apply every_E; [prop | exact S1].
  - clear F. apply every_E; [prop|]. rewrite !every_app. auto using every_ppr_before, every_ppr_after.
Qed.
Lemma always_trpr p : always (b_trpr p).
Proof.
  intros s a s' H. unfold b_trpr in H. steps H. apply always_mark in S; [|auto]. apply always_mark in S1; [|auto].
  apply every_E; [prop|]. rewrite !every_app. repeat split; auto; pieces.
Qed.
Lemma always_sdtpr p : always (b_sdtpr p).
Proof.
  intros s a s' H. unfold b_sdtpr in H. steps H. apply always_rpr in S. apply every_E; [prop|]. rewrite !every_app. repeat split; auto; pieces.
Qed.
Lemma always_leaf n m : b_leaf n = Some m -> always m.
Proof.
  intros H s a s' E.
  destruct n; cbn [b_leaf] in H; inversion H; subst; clear H; try discriminate E;
    try (destruct i; cbn [b_instr] in E; try discriminate E; unfold ret in E; inversion E; subst; pieces; fail);
    unfold ret in E; inversion E; subst; try apply every_drawing; pieces.
Qed.
Lemma always_run p inner : always inner -> always (b_run p inner).
Proof. intros W s a s' H. unfold b_run in H. steps H. apply always_rpr in S. apply W in S1. apply every_E; [prop|]. now rewrite every_app. Qed.
Lemma always_para i p inner : always inner -> always (b_para i p inner).
Proof. intros W s a s' H. unfold b_para in H. steps H. apply always_ppr in S. apply W in S1. apply every_E; [prop|]. now rewrite every_app. Qed.
Lemma always_new_para p inner : always inner -> always (b_new_para p inner).
Proof. intros W s a s' H. unfold b_new_para in H. apply bind_inv in H as (i & s1 & S & H). now apply (always_para i p inner W) in H. Qed.
Lemma always_tracked n m inner : In n ["w:ins"; "w:del"; "w:moveFrom"; "w:moveTo"] -> always inner -> always (b_tracked n m inner).
Proof.
  intros Hn W s a s' H. unfold b_tracked in H. steps H. apply W in S1. apply every_E; [|exact S1].
  destruct Hn as [<- | [<- | [<- | [<- | []]]]]; prop.
Qed.
Lemma always_link l h inner : always inner -> always (b_link l h inner).
Proof.
  intros W s a s' H. unfold b_link in H. steps H. apply W in S. apply every_E; [|exact S]. unfold link_attrs. destruct l; prop.
Qed.
Lemma always_each (f : node -> M (list xml)) l : Forall (fun n => always (f n)) l -> always (each f l).
Proof. induction 1 as [|n l Hn _ IH]; cbn [each]; [apply always_ret, every_nil | now apply always_seq]. Qed.
Lemma always_leaves l : always (b_leaves l).
Proof.
  apply always_each, Forall_forall. intros n _. destruct (b_leaf n) eqn:En; [exact (always_leaf n _ En) | apply always_ret, every_nil].
Qed.
Lemma always_simple l : always (b_simple_run l).
Proof. apply always_run, always_leaves. Qed.
Lemma always_toc_line t : always (toc_line t).
Proof. unfold toc_line. apply always_seq3; apply always_simple. Qed.
Lemma always_toc_entry b t : always (toc_entry b t).
Proof.
  unfold toc_entry. apply always_new_para. apply always_seq.
  - destruct b; [apply always_simple | apply always_ret, every_nil].
  - destruct (it_hyperlink (ti_instr t)); [apply always_link|]; apply always_toc_line.
Qed.
Lemma always_toc_entries b l : always (toc_entries b l).
Proof.
  revert b. induction l as [|t l IH]; intros b; cbn [toc_entries]; [apply always_ret, every_nil|].
  apply always_seq; [apply always_toc_entry|]. destruct l; [apply always_new_para, always_simple | apply IH].
Qed.
Lemma always_items l : always (b_items l).
Proof.
  intros s a s' H. unfold b_items in H. steps H. apply always_toc_entries in S.
  apply every_E; [prop|]. apply every_cons. split; [pieces|]. apply every_E; [prop | exact S].
Qed.
Lemma always_in_sdt d inner : always inner -> always (in_sdt d inner).
Proof.
  intros W. unfold in_sdt. destruct (td_without_sdt d); [exact W|]. intros s a s' H. steps H. apply always_sdtpr in S. apply W in S1.
  apply every_E; [prop|]. apply every_app. split; [exact S|]. apply every_E; [prop | exact S1].
Qed.
Lemma always_toc_open d : always (toc_open d).
Proof. unfold toc_open. destruct (td_delete d); apply always_new_para; [apply always_tracked; [cbn; auto|]|]; apply always_simple. Qed.
Lemma always_empty_line : always empty_line.
Proof. apply always_new_para, always_simple. Qed.

(** What is added to the content of a cell. *)
Definition cell_end (ch : list node) : M (list xml) :=
  match ch with
  | [] => b_new_para ppr_empty (ret [])
  | [NTable _ _ _ _] => b_new_para ppr_empty (ret [])
  | _ => ret []
  end.
Hypothesis Hc : forall p nb ch c e s s1 s2, all_q (NCell p nb ch) -> b_nodes ch s = Some (c, s1) -> cell_end ch s1 = Some (e, s2) ->
  P (E "w:tc" [] (x_tcpr p :: c ++ e)).

Definition fine (n : node) : Prop := all_q n -> always (b_node n).
Lemma all_q_children n : all_q n -> Forall all_q (children n).
Proof.
  intros H. apply Forall_forall. intros c Hin. unfold all_q in *. rewrite Forall_forall in *. intros m Hm. apply H.
  destruct n; cbn [all_nodes children] in *; try contradiction; right;
    try (apply in_flat_map; exists c; now split); rewrite <- flat_map_app; apply in_flat_map; exists c; now split.
Qed.
Lemma fine_list l : Forall fine l -> Forall all_q l -> Forall (fun n => always (b_node n)) l.
Proof. rewrite !Forall_forall. unfold fine. auto. Qed.
Lemma fine_node_and_below : forall n, fine n /\ Forall fine (children n).
Proof.
  refine (node_tree_ind _ _). intros n IH2. assert (IHf := Forall_impl _ (fun c H => proj1 H) IH2). split; [|exact IHf].
  intros Wf. assert (Wc := all_q_children n Wf). assert (IH := fine_list _ IHf Wc).
  assert (Hleaf : match b_leaf n with Some m => b_node n = m | None => True end) by (destruct n; cbn; auto).
  destruct (b_leaf n) as [m|] eqn:El.
  { rewrite Hleaf. exact (always_leaf n m El). }
  clear Hleaf.
  destruct n; try discriminate El; cbn [children] in IH, IHf, Wc; cbn [b_node].
  - apply always_run, always_each, IH.
  - apply always_tracked; [cbn; auto 6 | apply always_each, IH].
  - apply always_tracked; [cbn; auto 6 | apply always_each, IH].
  - apply always_tracked; [cbn; auto 6 | apply always_each, IH].
  - apply always_tracked; [cbn; auto 6 | apply always_each, IH].
  - apply always_link, always_each, IH.
  - intros s a s' H. steps H. apply always_sdtpr in S. apply (always_each _ _ IH) in S1.
    apply every_E; [prop|]. apply every_app. split; [exact S|]. apply every_E; [prop | exact S1].
  - apply always_simple.
  - apply always_simple.
  - apply always_para, always_each, IH.
  - intros s a s' H. steps H. apply (always_each _ _ IH) in S. apply every_E; [prop|]. rewrite every_cons, (every_cons _ a0).
    split; [apply every_tblpr|]. split; [pieces | exact S].
  - intros s a s' H. steps H. apply always_trpr in S. apply (always_each _ _ IH) in S1. apply every_E; [prop|]. now apply every_app.
  - intros s a s' H. steps H. apply every_E.
    + eapply Hc; [exact Wf | exact S | exact S1].
    + rewrite every_cons, every_app. split; [apply every_tcpr|]. split; [exact (always_each _ _ IH _ _ _ S)|].
      assert (We : always (cell_end ch)).
      { assert (Hp : always (b_new_para ppr_empty (ret []))) by apply always_new_para, always_ret, every_nil.
        assert (Hn := always_ret [] every_nil).
        unfold cell_end. destruct ch as [|c [|c' ch]]; [exact Hp | destruct c; first [exact Hp | exact Hn] | destruct c; exact Hn]. }
      exact (We _ _ _ S1).
  - apply Forall_app in IH as [IHb IHa]. apply always_in_sdt.
    assert (Wb := always_each _ _ IHb). assert (Wa := always_each _ _ IHa).
    destruct (td_items d) as [|it items] eqn:Ei.
    + intros s a s' H. apply bind_inv in H as (b & s1 & S1 & H). apply bind_inv in H as (o & s2 & S2 & H). apply bind_inv in H as (k & s3 & S3 & H).
      apply bind_inv in H as (c & s4 & S4 & H). inversion H; subst a s'; clear H. rewrite !every_app.
      split; [exact (Wb _ _ _ S1)|]. split; [exact (always_toc_open _ _ _ _ S2)|].
      destruct after as [|n r].
      * revert S4. apply always_para, always_simple.
      * destruct n; try exact (Wa _ _ _ S4).
        -- apply Forall_app in IH2 as [_ IH2]. inversion IH2 as [|? ? [_ IHn] _]; subst. inversion IHa as [|? ? _ IHr]; subst.
           apply Forall_app in Wc as [_ Wc]. inversion Wc as [|? ? Wp Wr]; subst.
           cbn [children] in IHn. assert (Wch := all_q_children _ Wp). cbn [children] in Wch.
           revert S4. apply always_seq; [|exact (always_each _ _ IHr)]. apply always_para. apply always_seq; [apply always_simple|].
           exact (always_each _ _ (fine_list _ IHn Wch)).
        -- revert S4. apply always_seq; [apply always_empty_line | exact Wa].
    + apply always_seq3; [exact Wb | apply always_items|].
      destruct after as [|n r]; [exact Wa|]. destruct n; try exact Wa. apply always_seq; [apply always_empty_line | exact Wa].
  - apply Forall_app in IH as [IH _]. intros s a s' H. steps H. apply (always_each _ _ IH) in S1. apply every_app. split; [exact S1|].
    apply every_E; [prop|]. apply every_E; [prop|]. apply every_sectpr.
  - apply always_ret, every_nil.
Qed.
Lemma always_nodes l : Forall all_q l -> always (b_nodes l).
Proof.
  intros H. apply always_each, Forall_forall. intros n Hn. rewrite Forall_forall in H. apply fine_node_and_below, H, Hn.
Qed.
End Every.

Lemma built_known l s a s' : Forall well_formed l -> b_nodes l s = Some (a, s') -> Forall known (flat_map elements a).
Proof.
  intros W H. apply (always_nodes known (fun n => local_ok n = true)) with (l := l) (s := s) (s' := s'); auto.
  intros. known_tac.
Qed.

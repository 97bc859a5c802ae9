(** Reading what was read: places, sizes and ids. *)
From Coq Require Import NArith ZArith List Bool Lia.
From Verif Require Import Str StrFacts TypesModel Props Ast IdsModel EscapeModel EscapeSpec EscapeProofs XmlParser XmlSpec
  RoundSpec SurviveSpec SurviveProofs WellSpec RoundTextProofs CycleSpec CycleProofs CycleTree.
From Verif Require BuildModel BuildSpec BuildProofs XmlTreeProofs.
Import ListNotations.
Open Scope list_scope.

(** ** Places *)
Lemma blank_without s : all_char is_ws (without_cr s) = all_char is_ws s.
Proof.
  unfold without_cr. induction s as [|c s IH]; [reflexivity|]. cbn [filter_str all_char]. unfold not_cr at 1. destruct (Ascii.eqb_spec c ch_cr) as [->|H]; cbn [negb all_char].
  - exact IH.
  - now rewrite IH.
Qed.
Lemma child_kept n : kept_in_run n = true -> forallb kept_in_run (reread_in_run n) = true.
Proof.
  destruct n; cbn [reread_in_run kept_in_run run_child]; intros H; try reflexivity; try discriminate H; try (unfold reread_text; destruct s; reflexivity).
  - cbn [forallb kept_in_run]. rewrite andb_true_r. unfold not_blank in *. now rewrite escaped_seen, blank_without.
  - cbn [forallb kept_in_run]. rewrite andb_true_r. unfold not_blank in *. rewrite !escaped_seen in *. now rewrite without_cr_same by apply no_cr_in_without.
Qed.
Lemma children_kept ch : forallb kept_in_run ch = true -> forallb kept_in_run (flat_map reread_in_run ch) = true.
Proof.
  induction ch as [|n ch IH]; [reflexivity|]. cbn [forallb flat_map]. intros H. apply andb_true_iff in H as [H1 H2]. rewrite forallb_app, child_kept, IH; auto.
Qed.
Lemma part_one n : kept InPart n = true -> exists m, reread InPart n = [m] /\ BuildSpec.is_table m = BuildSpec.is_table n.
Proof. destruct n; cbn [kept]; try discriminate; intros _; cbn [reread]; eexists; split; reflexivity. Qed.
Lemma read_is_kept : forall n p, kept p n = true -> forallb (kept p) (reread p n) = true.
Proof.
  induction n as [n IH] using node_tree_ind. intros p Hk.
  assert (A : forall q, forallb (kept q) (children n) = true -> forallb (kept q) (flat_map (reread q) (children n)) = true).
  { intros q. revert IH. generalize (children n). induction 1 as [|m l Hm _ IHl]; [reflexivity|]. cbn [forallb flat_map]. intros H. apply andb_true_iff in H as [H1 H2].
    rewrite forallb_app, Hm, IHl; auto. }
  clear IH. destruct n; cbn [children] in A; destruct p; cbn [kept] in Hk; try discriminate Hk; cbn [reread forallb kept]; try reflexivity;
    try (rewrite (A _ Hk); reflexivity); try (now apply A); try (rewrite children_kept by exact Hk; reflexivity).
  - rewrite !forallb_app, (A _ Hk), andb_true_r. destruct (r_ins (sd_rpr p0)), (r_del (sd_rpr p0)); reflexivity.
  - rewrite !forallb_app, (A _ Hk), andb_true_r. destruct (r_ins (sd_rpr p0)), (r_del (sd_rpr p0)); reflexivity.
  - rewrite andb_true_r. destruct ch as [|m ch]; [discriminate Hk|].
    assert (K : forallb (kept InPart) (m :: ch) = true) by (destruct m; try exact Hk; destruct ch; [discriminate Hk | exact Hk]).
    pose proof (A _ K) as R. cbn [forallb] in K. apply andb_true_iff in K as [K1 K2]. destruct (part_one _ K1) as (m' & M1 & M2).
    cbn [flat_map] in *. rewrite M1 in *. cbn [app] in *.
    destruct ch as [|m2 ch].
    + cbn [flat_map] in *. destruct m'; try exact R. destruct m; discriminate.
    + cbn [forallb] in K2. apply andb_true_iff in K2 as [K2 _]. destruct (part_one _ K2) as (m2' & M3 & _). cbn [flat_map] in *. rewrite M3 in *. cbn [app] in *.
      destruct m'; exact R.
Qed.

(** ** Runs that hold nothing *)
Lemma numbered_stripped n : existsb numbered (without_empty_runs n) = numbered n.
Proof. destruct n; cbn [without_empty_runs existsb numbered]; try reflexivity; try apply orb_false_r. destruct ch; reflexivity. Qed.
Lemma numbered_same l : existsb numbered (flat_map without_empty_runs l) = existsb numbered l.
Proof. induction l as [|n l IH]; [reflexivity|]. cbn [flat_map existsb]. now rewrite existsb_app, numbered_stripped, IH. Qed.
Lemma stripped_list p l : Forall (fun n => calm p n -> flat_map without_empty_runs (reread p n) = without_empty_runs n) l -> Forall (calm p) l ->
  flat_map without_empty_runs (flat_map (reread p) l) = flat_map without_empty_runs l.
Proof. induction 1 as [|n l H _ IH]; [reflexivity|]. intros C. apply Forall_cons_iff in C as [C1 C2]. cbn [flat_map]. rewrite flat_map_app, H, IH; auto. Qed.
Lemma calm_stripped : forall n p, calm p n -> flat_map without_empty_runs (reread p n) = without_empty_runs n.
Proof.
  induction n as [n IH] using node_tree_ind. intros p.
  assert (A : forall q, Forall (calm q) (children n) -> flat_map without_empty_runs (flat_map (reread q) (children n)) = flat_map without_empty_runs (children n)).
  { intros q. apply stripped_list. eapply Forall_impl; [|exact IH]. auto. }
  assert (B : forall q, Forall (calm q) (children n) -> existsb numbered (flat_map (reread q) (children n)) = existsb numbered (children n)).
  { intros q H. rewrite <- (numbered_same (flat_map _ _)), (A q H). apply numbered_same. }
  clear IH. destruct n; cbn [calm reread children] in *; try contradiction; try reflexivity; rewrite ?all_forall.
  - intros [-> ->]. cbn [flat_map]. apply app_nil_r.
  - intros [H ->]. rewrite <- H. reflexivity.
  - intros _. destruct p; reflexivity.
  - intros ->. reflexivity.
  - intros [-> H]. cbn [flat_map without_empty_runs app]. now rewrite A.
  - intros [-> H]. cbn [flat_map without_empty_runs app]. now rewrite A.
  - intros (N & -> & H). destruct p; try congruence; cbn [flat_map without_empty_runs app]; now rewrite A.
  - intros (N & -> & H). destruct p; try congruence; cbn [flat_map without_empty_runs app]; now rewrite A.
  - intros (-> & N & H). destruct history; [|contradiction]. cbn [flat_map without_empty_runs app]. now rewrite A.
  - intros (N1 & N2 & -> & -> & H). destruct p; try congruence; cbn [flat_map without_empty_runs app]; now rewrite A.
  - intros (-> & -> & -> & H). cbn [flat_map without_empty_runs app]. now rewrite A.
  - intros (-> & -> & H). cbn [flat_map without_empty_runs app]. now rewrite A.
  - intros (-> & -> & H). cbn [flat_map without_empty_runs app]. now rewrite A, B.
  - intros (-> & -> & H). cbn [flat_map without_empty_runs app]. now rewrite A, B.
Qed.

(** ** Ends of comments *)
Lemma sum_app A (f : A -> nat) l m : sum f (l ++ m) = sum f l + sum f m.
Proof. induction l as [|a l IH]; [reflexivity|]. cbn [app sum fold_right]. fold (sum f (l ++ m)). fold (sum f l). rewrite IH. lia. Qed.
Lemma ends_kept : forall n p, sum (ends_inside p) (reread p n) = ends_inside p n.
Proof.
  induction n as [n IH] using node_tree_ind. intros p.
  assert (A : forall q, sum (ends_inside q) (flat_map (reread q) (children n)) = sum (ends_inside q) (children n)).
  { intros q. revert IH. generalize (children n). induction 1 as [|m l Hm _ IHl]; [reflexivity|]. cbn [flat_map]. rewrite sum_app, Hm, IHl. reflexivity. }
  clear IH. destruct n; cbn [children] in A; cbn [reread ends_inside]; try reflexivity; try (cbn [sum fold_right ends_inside]; rewrite A; lia).
  - destruct p; reflexivity.
  - destruct p; try reflexivity; (cbn [sum fold_right ends_inside]; rewrite A; lia).
  - destruct p; try apply A; (cbn [sum fold_right ends_inside]; rewrite A; lia).
  - destruct p; try (cbn [sum fold_right ends_inside]; rewrite A; lia); rewrite !sum_app, A; destruct (r_ins (sd_rpr p0)), (r_del (sd_rpr p0)); reflexivity.
Qed.
Lemma calm_same : forall n p, calm p n -> ends_inside p n = 0 -> reread p n = [n].
Proof.
  induction n as [n IH] using node_tree_ind. intros p.
  assert (A : forall q, Forall (calm q) (children n) -> sum (ends_inside q) (children n) = 0 -> flat_map (reread q) (children n) = children n).
  { intros q. revert IH. generalize (children n). induction 1 as [|m l Hm _ IHl]; [reflexivity|]. intros C. apply Forall_cons_iff in C as [C1 C2].
    cbn [sum fold_right flat_map]. fold (sum (ends_inside q) l). intros S0. rewrite Hm, IHl by (assumption || lia). reflexivity. }
  clear IH. destruct n; cbn [calm reread children ends_inside] in *; try contradiction; try reflexivity; rewrite ?all_forall.
  - intros [-> ->]. reflexivity.
  - intros [H ->]. now rewrite <- H.
  - intros _. destruct p; try discriminate; reflexivity.
  - intros ->. reflexivity.
  - intros [-> H] Z0. now rewrite A.
  - intros [-> H] Z0. now rewrite A.
  - intros (N & -> & H) Z0. destruct p; try congruence; now rewrite A.
  - intros (N & -> & H) Z0. destruct p; try congruence; now rewrite A.
  - intros (-> & N & H) Z0. destruct history; [|contradiction]. now rewrite A.
  - intros (N1 & N2 & -> & -> & H) Z0. destruct p; try congruence; now rewrite A.
  - intros (-> & -> & -> & H) Z0. now rewrite A.
  - intros (-> & -> & H) Z0. now rewrite A.
  - intros (-> & -> & H) Z0. now rewrite A.
  - intros (-> & -> & H) Z0. now rewrite A.
Qed.
Lemma size_app l m : size (l ++ m) = size l + size m.
Proof. unfold size. now rewrite flat_map_app, app_length. Qed.
Lemma size_one n : all_nodes n = n :: flat_map all_nodes (below n) -> size [n] = S (size (below n)).
Proof. intros H. unfold size. cbn [flat_map]. rewrite app_nil_r, H. reflexivity. Qed.
Lemma calm_size : forall n p, calm p n -> size (reread p n) = size [n] + 2 * ends_inside p n.
Proof.
  induction n as [n IH] using node_tree_ind. intros p.
  assert (A : forall q, Forall (calm q) (children n) -> size (flat_map (reread q) (children n)) = size (children n) + 2 * sum (ends_inside q) (children n)).
  { intros q. revert IH. generalize (children n). induction 1 as [|m l Hm _ IHl]; [reflexivity|]. intros C. apply Forall_cons_iff in C as [C1 C2].
    cbn [sum fold_right flat_map]. fold (sum (ends_inside q) l). rewrite size_app, Hm, IHl by assumption. change (m :: l) with ([m] ++ l). rewrite size_app. lia. }
  clear IH. destruct n; cbn [calm reread children ends_inside] in *; try contradiction; try reflexivity; rewrite ?all_forall.
  - intros [-> ->]. lia.
  - intros [H ->]. rewrite <- H. lia.
  - intros _. destruct p; reflexivity.
  - intros [-> H]. rewrite !size_one by reflexivity. cbn [below]. rewrite A by exact H. lia.
  - intros [-> H]. rewrite !size_one by reflexivity. cbn [below]. rewrite A by exact H. lia.
  - intros (N & -> & H). destruct p; try congruence; rewrite !size_one by reflexivity; cbn [below]; rewrite A by exact H; lia.
  - intros (N & -> & H). destruct p; try congruence; rewrite !size_one by reflexivity; cbn [below]; rewrite A by exact H; lia.
  - intros (-> & N & H). rewrite !size_one by reflexivity. cbn [below]. rewrite A by exact H. lia.
  - intros (N1 & N2 & -> & -> & H). destruct p; try congruence; rewrite !size_one by reflexivity; cbn [below]; rewrite A by exact H; lia.
  - intros (-> & -> & -> & H). rewrite !size_one by reflexivity. cbn [below]. rewrite A by exact H. lia.
  - intros (-> & -> & H). rewrite !size_one by reflexivity. cbn [below]. rewrite A by exact H. lia.
  - intros (-> & -> & H). rewrite !size_one by reflexivity. cbn [below]. rewrite A by exact H. lia.
  - intros (-> & -> & H). rewrite !size_one by reflexivity. cbn [below]. rewrite A by exact H. lia.
Qed.
(** ** Paragraphs *)
Lemma sumN_app A (f : A -> N) l m : sumN f (l ++ m) = (sumN f l + sumN f m)%N.
Proof. induction l as [|a l IH]; [reflexivity|]. cbn [app sumN fold_right]. fold (sumN f (l ++ m)). fold (sumN f l). rewrite IH. lia. Qed.
Lemma sumN_cons A (f : A -> N) a l : sumN f (a :: l) = (f a + sumN f l)%N.
Proof. reflexivity. Qed.
Lemma read_paras : forall n p, (sumN paras (reread p n) <= paras n)%N.
Proof.
  induction n as [n IH] using node_tree_ind. intros p.
  assert (A : forall q, (sumN paras (flat_map (reread q) (children n)) <= sumN paras (children n))%N).
  { intros q. revert IH. generalize (children n). induction 1 as [|m l Hm _ IHl]; [reflexivity|]. cbn [flat_map]. rewrite sumN_app, sumN_cons. specialize (Hm q). lia. }
  assert (Z1 : forall m, sumN paras [m] = paras m) by (intros m; rewrite sumN_cons; apply N.add_0_r).
  clear IH. destruct n; cbn [children] in A; cbn [reread]; try apply N.le_0_l; try reflexivity;
    try (rewrite Z1; cbn [paras]; match goal with |- context [flat_map (reread ?q) _] => specialize (A q) end; lia).
  - destruct p; reflexivity.
  - destruct p; try apply N.le_0_l; (rewrite Z1; cbn [paras]; specialize (A InDel); lia).
  - destruct p; try (cbn [paras]; apply A); (rewrite Z1; cbn [paras]; specialize (A InIns); lia).
  - destruct p; try (rewrite Z1; cbn [paras]; specialize (A InSdt); lia); rewrite !sumN_app; cbn [paras]; [specialize (A InPara) | specialize (A InLink)];
      (destruct (r_ins (sd_rpr p0)), (r_del (sd_rpr p0)); cbn [BuildModel.opt]; rewrite ?Z1; cbn [paras]; change (sumN paras []) with 0%N; lia).
Qed.

(** ** Ids *)
Definition le_spend (a b : BuildSpec.spend) : Prop :=
  (BuildSpec.k_para a <= BuildSpec.k_para b)%N /\ (BuildSpec.k_hist a <= BuildSpec.k_hist b)%N /\ (BuildSpec.k_change a <= BuildSpec.k_change b)%N.
Lemma le_refl a : le_spend a a.
Proof. repeat split; reflexivity. Qed.
Lemma le_plus a b c d : le_spend a b -> le_spend c d -> le_spend (BuildSpec.plus a c) (BuildSpec.plus b d).
Proof. intros (H1 & H2 & H3) (G1 & G2 & G3). repeat split; cbn; lia. Qed.
Lemma le_nothing a : le_spend BuildSpec.nothing a.
Proof. repeat split; apply N.le_0_l. Qed.
Lemma le_right a b c : le_spend a b -> le_spend a (BuildSpec.plus c b).
Proof. intros (H1 & H2 & H3). repeat split; cbn; lia. Qed.
Lemma le_enough s a b : le_spend a b -> BuildSpec.enough s b -> BuildSpec.enough s a.
Proof. intros (H1 & H2 & H3) (G1 & G2 & G3). repeat split; lia. Qed.
Lemma rpr_spent r : BuildSpec.rpr_spend (reread_rpr r) = BuildSpec.rpr_spend r.
Proof. unfold BuildSpec.rpr_spend. cbn [r_ins r_del reread_rpr]. destruct (r_ins r), (r_del r); reflexivity. Qed.
Lemma ppr_spent : forall p, BuildSpec.ppr_spend (reread_ppr p) = BuildSpec.ppr_spend p.
Proof. fix F 1. intros [b [[au da q]|]]; cbn [BuildSpec.ppr_spend reread_ppr p_rpr reread_base]; rewrite rpr_spent; [now rewrite F | reflexivity]. Qed.
Lemma nodes_spend_one n : BuildSpec.written n = n :: flat_map BuildSpec.written (below n) ->
  BuildSpec.nodes_spend [n] = BuildSpec.plus (BuildSpec.own_spend n) (BuildSpec.nodes_spend (below n)).
Proof. apply BuildProofs.node_spend_eq. Qed.
Lemma run_spends_nothing l : Forall (fun n => BuildSpec.nodes_spend [n] = BuildSpec.nothing) l -> BuildSpec.nodes_spend l = BuildSpec.nothing.
Proof. induction 1 as [|n l H _ IH]; [reflexivity|]. now rewrite BuildProofs.nodes_spend_cons, H, IH. Qed.
Lemma in_run_spends n : BuildSpec.nodes_spend (reread_in_run n) = BuildSpec.nothing.
Proof. destruct n; try reflexivity; cbn [reread_in_run]; unfold reread_text; destruct s; reflexivity. Qed.
Lemma in_runs_spend l : BuildSpec.nodes_spend (flat_map reread_in_run l) = BuildSpec.nothing.
Proof. induction l as [|n l IH]; [reflexivity|]. cbn [flat_map]. now rewrite BuildProofs.nodes_spend_app, in_run_spends, IH. Qed.
Lemma read_spends : forall n p, kept p n = true -> le_spend (BuildSpec.nodes_spend (reread p n)) (BuildSpec.nodes_spend [n]).
Proof.
  induction n as [n IH] using node_tree_ind. intros p Hk.
  assert (A : forall q, forallb (kept q) (children n) = true -> le_spend (BuildSpec.nodes_spend (flat_map (reread q) (children n))) (BuildSpec.nodes_spend (children n))).
  { intros q. revert IH. generalize (children n). induction 1 as [|m l Hm _ IHl]; [intros _; apply le_refl|]. cbn [forallb flat_map]. intros H. apply andb_true_iff in H as [H1 H2].
    rewrite BuildProofs.nodes_spend_app, (BuildProofs.nodes_spend_cons m l). apply le_plus; auto. }
  assert (One : forall m k, BuildSpec.written m = m :: flat_map BuildSpec.written (below m) -> BuildSpec.written k = k :: flat_map BuildSpec.written (below k) ->
    le_spend (BuildSpec.own_spend m) (BuildSpec.own_spend k) -> le_spend (BuildSpec.nodes_spend (below m)) (BuildSpec.nodes_spend (below k)) ->
    le_spend (BuildSpec.nodes_spend [m]) (BuildSpec.nodes_spend [k])).
  { intros m k H1 H2 H3 H4. rewrite !nodes_spend_one by assumption. now apply le_plus. }
  pose proof (read_is_kept n p Hk) as Rk.
  clear IH. destruct n; cbn [children] in A; destruct p; cbn [kept] in Hk; try discriminate Hk; cbn [reread]; try apply le_refl; try apply le_nothing;
    try (apply One; [reflexivity | reflexivity | apply le_refl | cbn [below]; now apply A]);
    try (apply One; [reflexivity | reflexivity | cbn [BuildSpec.own_spend]; rewrite ?rpr_spent, ?ppr_spent; apply le_refl | cbn [below]; rewrite ?in_runs_spend; first [now apply A | apply le_nothing]]);
    try (apply One; [reflexivity | reflexivity | cbn [BuildSpec.own_spend]; apply le_nothing | cbn [below]; now apply A]).
  - rewrite (nodes_spend_one (NMoveTo a ch)) by reflexivity. apply le_right. now apply A.
  - rewrite (nodes_spend_one (NSdt p0 numbering ch)) by reflexivity. rewrite app_assoc, BuildProofs.nodes_spend_app. apply le_plus; [|now apply A].
    cbn [BuildSpec.own_spend]. unfold BuildSpec.rpr_spend. destruct (r_ins (sd_rpr p0)), (r_del (sd_rpr p0)); apply le_refl.
  - rewrite (nodes_spend_one (NSdt p0 numbering ch)) by reflexivity. rewrite app_assoc, BuildProofs.nodes_spend_app. apply le_plus; [|now apply A].
    cbn [BuildSpec.own_spend]. unfold BuildSpec.rpr_spend. destruct (r_ins (sd_rpr p0)), (r_del (sd_rpr p0)); apply le_refl.
  - apply One; [reflexivity | reflexivity | | now apply A]. cbn [BuildSpec.own_spend tr_del tr_ins reread_trpr]. destruct (tr_del p0), (tr_ins p0); apply le_refl.
  - apply One; [reflexivity | reflexivity | | cbn [below]; apply A; destruct ch as [|[] []]; (exact Hk || discriminate Hk)].
    cbn [reread forallb kept] in Rk. rewrite andb_true_r in Rk. cbn [BuildSpec.own_spend].
    destruct (flat_map (reread InPart) ch) as [|m l]; [discriminate Rk|]. cbn [orb BuildSpec.only_table].
    destruct l; [destruct m; try apply le_nothing; discriminate Rk | apply le_nothing].
Qed.
Lemma read_is_writable : forall n p, Forall (fun m => BuildSpec.unwritable m = false) (flat_map BuildSpec.written (reread p n)).
Proof.
  induction n as [n IH] using node_tree_ind. intros p.
  set (W := fun l => Forall (fun m => BuildSpec.unwritable m = false) (flat_map BuildSpec.written l)).
  assert (App : forall l m, W l -> W m -> W (l ++ m)) by (intros l m H1 H2; unfold W; rewrite flat_map_app; apply Forall_app; auto).
  assert (A : forall q, W (flat_map (reread q) (children n))).
  { intros q. revert IH. generalize (children n). induction 1 as [|m l Hm _ IHl]; [apply Forall_nil|]. cbn [flat_map]. apply App; [apply Hm | exact IHl]. }
  assert (One : forall m, BuildSpec.unwritable m = false -> BuildSpec.written m = m :: flat_map BuildSpec.written (below m) -> W (below m) -> W [m]).
  { intros m H1 H2 H3. unfold W. cbn [flat_map]. rewrite app_nil_r, H2. constructor; assumption. }
  clear IH. change (W (reread p n)). destruct n; cbn [children] in A; cbn [reread]; try apply Forall_nil;
    try (apply One; [reflexivity | reflexivity | cbn [below]; apply A]); try solve [unfold W; cbn; repeat constructor].
  - apply One; [reflexivity | reflexivity|]. cbn [below]. induction ch as [|m ch IH]; [apply Forall_nil|]. cbn [flat_map]. apply App; [|apply IH; intros q; specialize (A q); unfold W in *; cbn [flat_map] in A; rewrite flat_map_app in A; now apply Forall_app in A].
    clear. destruct m; cbn [reread_in_run]; unfold reread_text, W; try (destruct s); cbn; repeat constructor.
  - destruct p; cbn; repeat constructor.
  - destruct p; try apply Forall_nil; (apply One; [reflexivity | reflexivity | apply A]).
  - destruct p; try apply A; (apply One; [reflexivity | reflexivity | apply A]).
  - destruct p; try (apply One; [reflexivity | reflexivity | apply A]); rewrite app_assoc; (apply App; [destruct (r_ins (sd_rpr p0)), (r_del (sd_rpr p0)); cbn; repeat constructor | apply A]).
Qed.

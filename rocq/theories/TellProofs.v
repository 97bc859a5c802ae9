(** Proofs about what the JSON and the XML of a document tell. *)
From Coq Require Import NArith ZArith List Bool Lia.
From Verif Require Import Str StrFacts TypesModel Props Ast BuildModel BuildSpec JsonModel JsonSpec TellSpec.
Import ListNotations.
Open Scope list_scope.

Lemma show_jn n : show_Z (Z.of_N n) = show_N n. Proof. now destruct n. Qed.
Lemma bind_some {A B} (m : M A) (k : A -> M B) s r : bind m k s = Some r -> exists a s1, m s = Some (a, s1) /\ k a s1 = Some r.
Proof. unfold bind. destruct (m s) as [[a s1]|]; [|discriminate]. intros H. now exists a, s1. Qed.
Ltac step H := let a := fresh "a" in let s := fresh "s" in let S := fresh "S" in apply bind_some in H; destruct H as (a & s & S & H).
Ltac steps H := repeat (step H); unfold ret in H; injection H as <- <-.

Definition silent (l : list xml) : Prop := flat_map things_in_xml l = [].
Lemma rpr_silent p s l s' : b_rpr p s = Some (l, s') -> silent l.
Proof. intros H. unfold b_rpr in H. steps H. reflexivity. Qed.
Lemma ppr_silent p s l s' : b_ppr p s = Some (l, s') -> silent l.
Proof. intros H. destruct p as [b [[au da q]|]]; cbn [b_ppr] in H; steps H; reflexivity. Qed.
Lemma trpr_silent p s l s' : b_trpr p s = Some (l, s') -> silent l.
Proof. intros H. unfold b_trpr in H. steps H. reflexivity. Qed.
Lemma sdtpr_silent p s l s' : b_sdtpr p s = Some (l, s') -> silent l.
Proof. intros H. unfold b_sdtpr in H. steps H. reflexivity. Qed.

Definition agrees (n : node) : Prop := all_alike n = true -> forall s l s', b_node n s = Some (l, s') -> flat_map things_in_xml l = things_in_json (j_node n).
Lemma each_agree ch : Forall agrees ch -> forallb alike (flat_map written ch) = true ->
  forall s l s', each b_node ch s = Some (l, s') -> flat_map things_in_xml l = flat_map things_in_json (map j_node ch).
Proof.
  induction 1 as [|n ch Hn Hc IH]; intros A s l s' H.
  - cbn [each] in H. unfold ret in H. injection H as <- <-. reflexivity.
  - change (each b_node (n :: ch)) with (a <- b_node n;; b <- each b_node ch;; ret (a ++ b)) in H. steps H.
    cbn [flat_map] in A. rewrite forallb_app in A. apply andb_true_iff in A. destruct A as [A1 A2].
    rewrite flat_map_app. cbn [map flat_map]. rewrite (Hn A1 _ _ _ S), (IH A2 _ _ _ S0). reflexivity.
Qed.
Ltac hush :=
  repeat match goal with
  | S : b_rpr _ _ = Some _ |- _ => apply rpr_silent in S
  | S : b_ppr _ _ = Some _ |- _ => apply ppr_silent in S
  | S : b_trpr _ _ = Some _ |- _ => apply trpr_silent in S
  | S : b_sdtpr _ _ = Some _ |- _ => apply sdtpr_silent in S
  end; unfold silent in *.
Lemma node_agrees n : agrees n.
Proof.
  induction n as [n IH] using node_tree_ind. unfold agrees, all_alike. intros A s l s' H.
  destruct n; cbn [children] in IH; cbn [written forallb alike] in A; try discriminate A; cbn [b_node b_leaf] in H; try discriminate H.
  all: try (unfold ret in H; injection H as <- <-; cbn; rewrite ?show_jn; try reflexivity; fail).
  all: try (unfold b_run, b_tracked, b_link, b_para in H; steps H; hush; cbn; rewrite ?flat_map_app;
    repeat match goal with Z : flat_map things_in_xml _ = [] |- _ => rewrite Z end;
    repeat match goal with S : each b_node _ _ = Some _ |- _ => rewrite (each_agree _ IH A _ _ _ S); clear S end; cbn; rewrite ?app_nil_r; reflexivity).
  - injection H as <- <-. destruct p as [? ? ? [|] ? ? ? ? ? [|] [?|?] [?|?]]; reflexivity.
  - injection H as <- <-. destruct t, dirty; reflexivity.
  - destruct i; cbn [b_instr] in H; try discriminate H; unfold ret in H; injection H as <- <-; reflexivity.
  - destruct i; cbn [b_instr] in H; try discriminate H; unfold ret in H; injection H as <- <-; reflexivity.
  - unfold b_link in H. steps H. cbn [flat_map things_in_xml one_of existsb property_elements]. cbn. rewrite (each_agree _ IH A _ _ _ S).
    destruct l0 as [rid path|a0]; [destruct path|]; destruct history; cbn; rewrite ?app_nil_r; reflexivity.
  - steps H. hush. cbn. rewrite flat_map_app, S. cbn. rewrite (each_agree _ IH A _ _ _ S0). cbn. rewrite !app_nil_r. reflexivity.
  - apply andb_true_iff in A. destruct A as [A1 A2]. step H.
    assert (Hn : exists z, ret ([E "w:tc" [] (x_tcpr p :: a ++ [])]) z = Some (l, s')).
    { step H. exists s1. destruct ch as [|[] [|]]; try discriminate A1; unfold ret in S0; injection S0 as <- <-; exact H. }
    clear H. destruct Hn as [z H]. unfold ret in H. injection H as <- <-. rewrite app_nil_r. cbn. rewrite (each_agree _ IH A2 _ _ _ S). rewrite !app_nil_r. reflexivity.
Qed.
Lemma all_agree l : Forall agrees l. Proof. apply Forall_forall. intros n _. apply node_agrees. Qed.

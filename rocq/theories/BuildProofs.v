(** Proofs about building: when it succeeds and which ids it takes. *)
From Coq Require Import NArith List Bool Lia.
From Verif Require Import Str StrFacts ListFacts TypesModel Props Ast IdsModel BuildModel BuildSpec.
Import ListNotations.

Lemma bind_inv {A B} (m : M A) (f : A -> M B) s b s' : bind m f s = Some (b, s') ->
  exists a s1, m s = Some (a, s1) /\ f a s1 = Some (b, s').
Proof. unfold bind. destruct (m s) as [[a s1]|]; [|discriminate]. eauto. Qed.

(** ** Sums *)
Lemma plus_assoc a b c : plus (plus a b) c = plus a (plus b c).
Proof. unfold plus. cbn. f_equal; lia. Qed.
Lemma plus_comm a b : plus a b = plus b a.
Proof. unfold plus. f_equal; lia. Qed.
Lemma plus_0_l a : plus nothing a = a.
Proof. destruct a. reflexivity. Qed.
Lemma plus_0_r a : plus a nothing = a.
Proof. now rewrite plus_comm, plus_0_l. Qed.
Lemma total_app l m : total (l ++ m) = plus (total l) (total m).
Proof. induction l as [|a l IH]; cbn [total fold_right app]; [now rewrite plus_0_l|]. fold (total (l ++ m)) (total l). now rewrite IH, plus_assoc. Qed.
Lemma total_cons a m : total (a :: m) = plus a (total m).
Proof. reflexivity. Qed.
Lemma after_plus s a b : after (after s a) b = after s (plus a b).
Proof. unfold after, plus. cbn. f_equal; lia. Qed.
Lemma after_0 s : after s nothing = s.
Proof. destruct s as [a b c]. unfold after, nothing. cbn. now rewrite !N.add_0_r. Qed.
Lemma enough_plus s a b : enough s (plus a b) <-> enough s a /\ enough (after s a) b.
Proof. unfold enough, after, plus. cbn. lia. Qed.
Lemma enough_0 s : enough s nothing.
Proof. unfold enough, nothing. cbn. lia. Qed.
Lemma nodes_spend_app l m : nodes_spend (l ++ m) = plus (nodes_spend l) (nodes_spend m).
Proof. unfold nodes_spend. now rewrite flat_map_app, map_app, total_app. Qed.
Lemma nodes_spend_cons n l : nodes_spend (n :: l) = plus (nodes_spend [n]) (nodes_spend l).
Proof. apply (nodes_spend_app [n] l). Qed.

(** ** A computation that either always panics, or panics exactly when the counters
    cannot give the ids [k], and otherwise takes exactly those. *)
Definition costs {A} (m : M A) (ok : bool) (k : spend) : Prop :=
  forall s, match m s with
            | Some (_, s') => ok = true /\ enough s k /\ s' = after s k
            | None => ok = true -> ~ enough s k
            end.
Lemma costs_ret {A} (a : A) : costs (ret a) true nothing.
Proof. intros s. cbn. split; [easy|]. split; [apply enough_0 | symmetry; apply after_0]. Qed.
Lemma costs_panic {A} k : costs (@panic A) false k.
Proof. intros s. cbn. discriminate. Qed.
Lemma costs_bind {A B} (m : M A) (f : A -> M B) o1 k1 o2 k2 :
  costs m o1 k1 -> (forall a, costs (f a) o2 k2) -> costs (bind m f) (o1 && o2) (plus k1 k2).
Proof.
  intros Hm Hf s. unfold bind. specialize (Hm s). destruct (m s) as [[a s1]|].
  - destruct Hm as (-> & He & ->). specialize (Hf a (after s k1)). destruct (f a (after s k1)) as [[b s2]|].
    + destruct Hf as (-> & He2 & ->). rewrite enough_plus, after_plus. auto.
    + rewrite enough_plus. cbn [andb]. intros ->. intros [_ X]. now apply Hf.
  - rewrite enough_plus. intros X [Y _]. apply andb_true_iff in X. apply Hm; easy.
Qed.
Lemma costs_eq {A} (m : M A) o k o' k' : costs m o k -> o = o' -> k = k' -> costs m o' k'.
Proof. now intros H <- <-. Qed.
Lemma costs_take_para : costs take_para true (a_para 1).
Proof.
  intros s. unfold take_para, gen_para, enough, after, a_para. cbn [k_para k_hist k_change].
  destruct (N.ltb_spec (id_para s + 1) two32).
  - repeat split; auto. f_equal; lia.
  - intros _. lia.
Qed.
Lemma costs_take_hist : costs take_hist true (a_hist 1).
Proof.
  intros s. unfold take_hist, gen_history, enough, after, a_hist. cbn [k_para k_hist k_change].
  destruct (N.ltb_spec (id_hist s + 1) two64).
  - repeat split; auto. f_equal; lia.
  - intros _. lia.
Qed.
Lemma costs_take_change : costs take_change true (a_change 1).
Proof.
  intros s. unfold take_change, gen_paragraph_property_change, gen_history, enough, after, a_change. cbn [k_para k_hist k_change].
  destruct (N.ltb_spec (id_change s + 1) two64).
  - repeat split; auto. f_equal; lia.
  - intros _. lia.
Qed.

Lemma spend_ext a b : k_para a = k_para b -> k_hist a = k_hist b -> k_change a = k_change b -> a = b.
Proof. destruct a, b. cbn. now intros -> -> ->. Qed.
Ltac sums := apply spend_ext; cbn [k_para k_hist k_change plus nothing a_para a_hist a_change]; lia.
(** Cost of a chain of steps, from the costs of its steps. *)
Ltac chain tac :=
  lazymatch goal with
  | |- costs (bind _ _) _ _ => eapply costs_bind; [chain tac | intros; chain tac]
  | |- costs (ret _) _ _ => apply costs_ret
  | |- costs take_para _ _ => apply costs_take_para
  | |- costs take_hist _ _ => apply costs_take_hist
  | |- costs take_change _ _ => apply costs_take_change
  | |- costs _ _ _ => tac
  end.

(** ** Properties *)
Lemma costs_mark n o : costs (b_opt_mark n o) true (a_hist (given o)).
Proof.
  destruct o as [m|]; cbn [b_opt_mark given]; [|apply costs_ret].
  eapply costs_eq; [unfold b_mark; chain idtac | reflexivity | sums].
Qed.
Lemma costs_rpr r : costs (b_rpr r) true (rpr_spend r).
Proof. unfold rpr_spend. eapply costs_eq; [unfold b_rpr; chain ltac:(apply costs_mark) | reflexivity | sums]. Qed.
Lemma costs_ppr : forall p, costs (b_ppr p) true (ppr_spend p).
Proof.
  fix F 1. intros [b c]. cbn [b_ppr ppr_spend].
  destruct c as [[au da q]|].
  - specialize (F q). eapply costs_eq; [chain ltac:(first [apply costs_rpr | apply F]) | reflexivity | sums].
  - clear F. eapply costs_eq; [chain ltac:(apply costs_rpr) | reflexivity | sums].
Qed.
Lemma costs_trpr p : costs (b_trpr p) true (a_hist (given (tr_del p) + given (tr_ins p))).
Proof. eapply costs_eq; [unfold b_trpr; chain ltac:(apply costs_mark) | reflexivity | sums]. Qed.
Lemma costs_sdtpr p : costs (b_sdtpr p) true (rpr_spend (sd_rpr p)).
Proof. eapply costs_eq; [unfold b_sdtpr; chain ltac:(apply costs_rpr) | reflexivity | sums]. Qed.
Lemma costs_run p inner o k : costs inner o k -> costs (b_run p inner) o (plus (rpr_spend p) k).
Proof. intros H. eapply costs_eq; [unfold b_run; chain ltac:(first [apply H | apply costs_rpr]) | now destruct o | sums]. Qed.
Lemma costs_para i p inner o k : costs inner o k -> costs (b_para i p inner) o (plus (ppr_spend p) k).
Proof. intros H. eapply costs_eq; [unfold b_para; chain ltac:(first [apply H | apply costs_ppr]) | now destruct o | sums]. Qed.
Lemma costs_new_para p inner o k : costs inner o k -> costs (b_new_para p inner) o (plus (a_para 1) (plus (ppr_spend p) k)).
Proof. intros H. eapply costs_eq; [unfold b_new_para; chain ltac:(apply costs_para; exact H) | now destruct o | sums]. Qed.
Lemma costs_tracked n m inner o k : costs inner o k -> costs (b_tracked n m inner) o (plus (a_hist 1) k).
Proof. intros H. eapply costs_eq; [unfold b_tracked; chain ltac:(exact H) | now destruct o | sums]. Qed.
Lemma costs_link l h inner o k : costs inner o k -> costs (b_link l h inner) o k.
Proof. intros H. eapply costs_eq; [unfold b_link; chain ltac:(exact H) | now destruct o | sums]. Qed.
Lemma costs_instr n i : costs (b_instr n i) (negb (unwritable (NInstr i))) nothing.
Proof. destruct i; cbn [b_instr unwritable negb]; first [apply costs_ret | apply costs_panic]. Qed.
Lemma costs_leaf n m : b_leaf n = Some m -> costs m (negb (unwritable n)) nothing.
Proof.
  destruct n; cbn [b_leaf]; intros H; inversion H; subst; first [apply costs_ret | apply costs_panic | apply costs_instr].
Qed.

(** ** Lists *)
Definition writable (l : list node) : bool := forallb (fun n => negb (unwritable n)) (flat_map written l).
Lemma writable_app l m : writable (l ++ m) = writable l && writable m.
Proof. unfold writable. now rewrite flat_map_app, forallb_app. Qed.
Lemma writable_cons n l : writable (n :: l) = writable [n] && writable l.
Proof. apply (writable_app [n] l). Qed.
Lemma costs_each (f : node -> M (list xml)) l : Forall (fun n => costs (f n) (writable [n]) (nodes_spend [n])) l ->
  costs (each f l) (writable l) (nodes_spend l).
Proof.
  induction 1 as [|n l Hn _ IH]; cbn [each].
  - apply costs_ret.
  - rewrite (writable_cons n l), (nodes_spend_cons n l).
    eapply costs_eq; [chain ltac:(first [apply Hn | apply IH]) | now destruct (writable [n]), (writable l) | sums].
Qed.
Lemma costs_leaves l : forallb (fun n => match b_leaf n with Some _ => negb (unwritable n) | None => true end) l = true -> costs (b_leaves l) true nothing.
Proof.
  unfold b_leaves. induction l as [|n l IH]; cbn [each forallb]; intros H; [apply costs_ret|].
  apply andb_true_iff in H as [H1 H2].
  eapply costs_eq; [chain ltac:(first [exact (IH H2) | idtac]) | | ].
  - instantiate (1 := nothing). instantiate (1 := true). destruct (b_leaf n) eqn:En; [|apply costs_ret].
    eapply costs_eq; [exact (costs_leaf n _ En) | exact H1 | reflexivity].
  - reflexivity.
  - sums.
Qed.
Lemma costs_simple l : forallb (fun n => match b_leaf n with Some _ => negb (unwritable n) | None => true end) l = true -> costs (b_simple_run l) true nothing.
Proof. intros H. eapply costs_eq; [apply costs_run, costs_leaves, H | reflexivity | now rewrite plus_0_r]. Qed.

(** ** Tables of contents *)
Ltac simple := first [apply costs_simple; reflexivity | idtac].
Lemma costs_toc_line t : costs (toc_line t) true nothing.
Proof. unfold toc_line. eapply costs_eq; [chain simple | reflexivity | sums]. Qed.
Lemma costs_toc_entry b t : costs (toc_entry b t) true (a_para 1).
Proof.
  assert (H : costs (if it_hyperlink (ti_instr t) then b_link (Anchor (ti_key t)) None (toc_line t) else toc_line t) true nothing)
    by (destruct (it_hyperlink (ti_instr t)); [apply costs_link|]; apply costs_toc_line).
  assert (H' : costs (if b then toc_head t else ret []) true nothing) by (destruct b; [apply costs_simple; reflexivity | apply costs_ret]).
  unfold toc_entry. eapply costs_eq; [apply costs_new_para; chain ltac:(first [exact H' | exact H]) | reflexivity | reflexivity].
Qed.
Lemma costs_toc_last t : costs (toc_last t) true (a_para 1).
Proof. unfold toc_last. eapply costs_eq; [apply costs_new_para, costs_simple; reflexivity | reflexivity | reflexivity]. Qed.
Lemma costs_toc_entries b l : l <> [] -> costs (toc_entries b l) true (a_para (count l + 1)).
Proof.
  revert b. induction l as [|t l IH]; intros b H; [easy|]. cbn [toc_entries].
  eapply costs_eq; [eapply costs_bind; [apply costs_toc_entry | intros; eapply costs_bind; [|intros; apply costs_ret]] | |].
  - instantiate (1 := a_para (count l + 1)). instantiate (1 := true).
    destruct l as [|t' l].
    + apply costs_toc_last.
    + apply IH. discriminate.
  - reflexivity.
  - unfold count. cbn [List.length]. apply spend_ext; cbn [k_para k_hist k_change plus nothing a_para a_hist a_change]; lia.
Qed.
Lemma costs_items l : l <> [] -> costs (b_items l) true (a_para (count l + 1)).
Proof. intros H. eapply costs_eq; [unfold b_items; chain ltac:(apply costs_toc_entries, H) | reflexivity | sums]. Qed.
Lemma costs_end_run : costs end_run true nothing.
Proof. apply costs_simple. reflexivity. Qed.
Lemma costs_empty_line : costs empty_line true (a_para 1).
Proof. eapply costs_eq; [apply costs_new_para, costs_simple; reflexivity | reflexivity | reflexivity]. Qed.
Lemma costs_toc_open d : costs (toc_open d) true
  (plus (a_para 1) (plus (a_hist (given (td_delete d))) match td_ppr d with Some p => ppr_spend p | None => nothing end)).
Proof.
  unfold toc_open. destruct (td_delete d) as [m|]; eapply costs_eq.
  - apply costs_new_para, costs_tracked, costs_simple. reflexivity.
  - reflexivity.
  - destruct (td_ppr d) as [p|]; cbn [given]; [sums | reflexivity].
  - apply costs_new_para, costs_simple. reflexivity.
  - reflexivity.
  - destruct (td_ppr d) as [p|]; cbn [given]; [sums | reflexivity].
Qed.
Lemma costs_in_sdt d inner o k : costs inner o k -> costs (in_sdt d inner) o k.
Proof.
  intros H. unfold in_sdt. destruct (td_without_sdt d); [exact H|].
  eapply costs_eq; [chain ltac:(first [exact H | apply costs_sdtpr]) | now destruct o |].
  cbn [sd_rpr]. change (rpr_spend rpr_empty) with nothing. sums.
Qed.

(** ** The tree *)
Lemma node_spend_eq n ch : written n = n :: flat_map written ch -> nodes_spend [n] = plus (own_spend n) (nodes_spend ch).
Proof. intros H. unfold nodes_spend. cbn [flat_map]. rewrite app_nil_r, H. reflexivity. Qed.
Lemma node_writable_eq n ch : written n = n :: flat_map written ch -> writable [n] = negb (unwritable n) && writable ch.
Proof. intros H. unfold writable. cbn [flat_map]. rewrite app_nil_r, H. reflexivity. Qed.
Lemma costs_node_and_below : forall n, costs (b_node n) (writable [n]) (nodes_spend [n]) /\
  Forall (fun c => costs (b_node c) (writable [c]) (nodes_spend [c])) (children n).
Proof.
  refine (node_tree_ind _ _). intros n IH2. assert (IH := Forall_impl _ (fun c H => proj1 H) IH2). split; [|exact IH].
  assert (Hleaf : match b_leaf n with
                  | Some m => b_node n = m /\ written n = [n] /\ own_spend n = nothing
                  | None => True end) by (destruct n; cbn; auto).
  destruct (b_leaf n) as [m|] eqn:El.
  { destruct Hleaf as (-> & Hw & Hs). eapply costs_eq; [exact (costs_leaf n m El) | |].
    - now rewrite (node_writable_eq n []), andb_true_r by exact Hw.
    - rewrite (node_spend_eq n []) by exact Hw. now rewrite Hs. }
  clear Hleaf.
  destruct n; try discriminate El; cbn [children] in IH; cbn [b_node].
  - rewrite (node_writable_eq (NRun p ch) ch), (node_spend_eq (NRun p ch) ch) by reflexivity.
    apply costs_run, costs_each, IH.
  - rewrite (node_writable_eq (NIns a ch) ch), (node_spend_eq (NIns a ch) ch) by reflexivity. apply costs_tracked, costs_each, IH.
  - rewrite (node_writable_eq (NDel a ch) ch), (node_spend_eq (NDel a ch) ch) by reflexivity. apply costs_tracked, costs_each, IH.
  - rewrite (node_writable_eq (NMoveFrom a ch) ch), (node_spend_eq (NMoveFrom a ch) ch) by reflexivity. apply costs_tracked, costs_each, IH.
  - rewrite (node_writable_eq (NMoveTo a ch) ch), (node_spend_eq (NMoveTo a ch) ch) by reflexivity. apply costs_tracked, costs_each, IH.
  - rewrite (node_writable_eq (NLink l history ch) ch), (node_spend_eq (NLink l history ch) ch) by reflexivity. cbn [own_spend].
    rewrite plus_0_l. apply costs_link, costs_each, IH.
  - rewrite (node_writable_eq (NSdt p numbering ch) ch), (node_spend_eq (NSdt p numbering ch) ch) by reflexivity. cbn [own_spend].
    eapply costs_eq; [chain ltac:(first [apply costs_sdtpr | apply costs_each, IH]) | cbn; now destruct (writable ch) | sums].
  - apply costs_simple. reflexivity.
  - apply costs_simple. reflexivity.
  - rewrite (node_writable_eq (NPara id p numbering ch) ch), (node_spend_eq (NPara id p numbering ch) ch) by reflexivity.
    apply costs_para, costs_each, IH.
  - rewrite (node_writable_eq (NTable p grid numbering rows) rows), (node_spend_eq (NTable p grid numbering rows) rows) by reflexivity. cbn [own_spend].
    eapply costs_eq; [chain ltac:(apply costs_each, IH) | cbn; now destruct (writable rows) | sums].
  - rewrite (node_writable_eq (NRow p numbering cells) cells), (node_spend_eq (NRow p numbering cells) cells) by reflexivity. cbn [own_spend].
    eapply costs_eq; [chain ltac:(first [apply costs_trpr | apply costs_each, IH]) | cbn; now destruct (writable cells) | sums].
  - rewrite (node_writable_eq (NCell p numbering ch) ch), (node_spend_eq (NCell p numbering ch) ch) by reflexivity. cbn [own_spend].
    eapply costs_eq; [eapply costs_bind; [apply costs_each, IH | intros; eapply costs_bind; [|intros; apply costs_ret]] | |].
    + instantiate (1 := a_para (if (match ch with [] => true | _ => false end) || only_table ch then 1 else 0)).
      instantiate (1 := true).
      assert (Hp : costs (b_new_para ppr_empty (ret [])) true (a_para 1))
        by (eapply costs_eq; [apply costs_new_para, costs_ret | reflexivity | reflexivity]).
      destruct ch as [|c [|c' ch]]; cbn; [exact Hp | destruct c; cbn; first [exact Hp | apply costs_ret] | destruct c; apply costs_ret].
    + cbn. now destruct (writable ch).
    + sums.
  - (* table of contents *)
    apply Forall_app in IH as [IHb IHa].
    assert (Hw : writable [NToc d before after] = writable before && writable after).
    { unfold writable. cbn [flat_map written]. rewrite app_nil_r. cbn [forallb]. cbn [unwritable negb andb]. apply forallb_app. }
    assert (Hs : nodes_spend [NToc d before after] = plus (own_spend (NToc d before after)) (plus (nodes_spend before) (nodes_spend after))).
    { unfold nodes_spend. cbn [flat_map written]. rewrite app_nil_r. cbn [map]. rewrite total_cons, map_app, total_app. reflexivity. }
    rewrite Hw, Hs. clear Hw Hs. cbn [own_spend]. apply costs_in_sdt.
    assert (Hb := costs_each b_node before IHb).
    assert (Ha := costs_each b_node after IHa).
    destruct (td_items d) as [|it items] eqn:Ei.
    + eapply costs_eq; [eapply costs_bind; [exact Hb | intros; eapply costs_bind; [apply costs_toc_open | intros; eapply costs_bind; [apply costs_take_para | intros k; eapply costs_bind; [|intros; apply costs_ret]]]] | |].
      * instantiate (1 := plus (a_para (if starts_with_table after then 1 else 0)) (nodes_spend after)).
        instantiate (1 := writable after).
        destruct after as [|n r]; [eapply costs_eq; [apply costs_para, costs_end_run | reflexivity | reflexivity]|].
        destruct n; cbn [starts_with_table is_table]; try (change (a_para 0) with nothing; rewrite plus_0_l; exact Ha).
        -- (* paragraph: rebuilt with the end of the field *)
           apply Forall_app in IH2 as [_ IH2]. inversion IH2 as [|? ? [_ IHn] _]; subst. inversion IHa as [|? ? _ IHr]; subst.
           cbn [children] in IHn. rewrite (writable_cons _ r), (nodes_spend_cons _ r).
           rewrite (node_writable_eq (NPara id p numbering ch) ch), (node_spend_eq (NPara id p numbering ch) ch) by reflexivity.
           assert (Hi : costs (e <- end_run;; c <- each b_node ch;; ret (e ++ c)) (writable ch) (nodes_spend ch)).
           { eapply costs_eq; [chain ltac:(first [apply costs_end_run | apply costs_each, IHn]) | now destruct (writable ch) | sums]. }
           eapply costs_eq; [eapply costs_bind; [apply costs_para, Hi | intros; eapply costs_bind; [apply costs_each, IHr | intros; apply costs_ret]] | |].
           ++ cbn [unwritable negb]. now destruct (writable ch), (writable r).
           ++ cbn [own_spend]. sums.
        -- eapply costs_eq; [eapply costs_bind; [apply costs_empty_line | intros; eapply costs_bind; [exact Ha | intros; apply costs_ret]] | |].
           ++ now rewrite andb_true_r.
           ++ sums.
      * destruct (writable before), (writable after); reflexivity.
      * destruct (td_ppr d); sums.
    + eapply costs_eq; [eapply costs_bind; [exact Hb | intros; eapply costs_bind; [apply costs_items; discriminate | intros; eapply costs_bind; [|intros; apply costs_ret]]] | |].
      * instantiate (1 := plus (a_para (if starts_with_table after then 1 else 0)) (nodes_spend after)).
        instantiate (1 := writable after).
        destruct after as [|n r]; [apply costs_ret|].
        destruct n; cbn [starts_with_table is_table]; try (change (a_para 0) with nothing; rewrite plus_0_l; exact Ha).
        eapply costs_eq; [eapply costs_bind; [apply costs_empty_line | intros; eapply costs_bind; [exact Ha | intros; apply costs_ret]] | |].
        -- now rewrite andb_true_r.
        -- sums.
      * destruct (writable before), (writable after); reflexivity.
      * replace (count (map (item_for d) (it :: items))) with (count (it :: items)) by (unfold count; now rewrite map_length). sums.
  - rewrite (node_writable_eq (NSection p parts numbering ch) ch), (node_spend_eq (NSection p parts numbering ch) ch) by reflexivity. cbn [own_spend].
    apply Forall_app in IH as [IH _].
    eapply costs_eq; [chain ltac:(apply costs_each, IH) | cbn; now destruct (writable ch) | sums].
  - apply costs_ret.
Qed.
Lemma costs_node n : costs (b_node n) (writable [n]) (nodes_spend [n]).
Proof. apply costs_node_and_below. Qed.
Lemma costs_nodes l : costs (b_nodes l) (writable l) (nodes_spend l).
Proof. apply costs_each, Forall_forall. intros n _. apply costs_node. Qed.

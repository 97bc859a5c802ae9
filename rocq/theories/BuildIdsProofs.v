(** Proofs about the paragraph ids in what is built. *)
From Coq Require Import NArith List Bool Lia Permutation.
From Verif Require Import Str StrFacts ListFacts TypesModel Props Ast IdsModel BuildModel BuildSpec BuildProofs.
Import ListNotations.

Notation cnt := (count_occ string_dec).
Definition between (c d : N) : list string := next_ids c (d - c).
Lemma next_ids_app c a b : next_ids c (a + b) = next_ids c a ++ next_ids (c + a) b.
Proof.
  assert (G : forall n k, map (fun i => pad0 8 (show_hex (c + N.of_nat i))) (seq (N.to_nat a + k) n) =
                          map (fun i => pad0 8 (show_hex (c + a + N.of_nat i))) (seq k n)).
  { induction n as [|n IH]; intros k; [reflexivity|]. cbn [seq map]. f_equal.
    - do 2 f_equal. lia.
    - rewrite <- IH. do 2 f_equal. lia. }
  unfold next_ids. rewrite N2Nat.inj_add, seq_app, map_app. f_equal.
  rewrite <- G. do 2 f_equal. lia.
Qed.
Lemma between_split c d e x : (c <= d)%N -> (d <= e)%N -> cnt (between c e) x = (cnt (between c d) x + cnt (between d e) x)%nat.
Proof.
  intros H1 H2. unfold between. replace (e - c)%N with ((d - c) + (e - d))%N by lia.
  rewrite next_ids_app, count_occ_app. replace (c + (d - c))%N with d by lia. reflexivity.
Qed.
Lemma between_same c : between c c = [].
Proof. unfold between. now rewrite N.sub_diag. Qed.
Lemma between_one c : between c (c + 1) = [pad0 8 (show_hex c)].
Proof. unfold between. replace (c + 1 - c)%N with 1%N by lia. unfold next_ids. change (N.to_nat 1) with 1%nat. cbn [seq map N.of_nat]. now rewrite N.add_0_r. Qed.

(** ** Ids of elements *)
Lemma ids_in_app l m : ids_in (l ++ m) = ids_in l ++ ids_in m.
Proof. unfold ids_in. now rewrite !flat_map_app. Qed.
Lemma ids_in_cons x l : ids_in (x :: l) = ids_in [x] ++ ids_in l.
Proof. apply (ids_in_app [x] l). Qed.
Lemma ids_in_E n a ch : (n =s "w:p") = false -> ids_in [E n a ch] = ids_in ch.
Proof. intros H. unfold ids_in. cbn [flat_map elements]. rewrite app_nil_r. cbn [flat_map]. unfold id_attr at 1. cbn [xname]. now rewrite H. Qed.
Lemma ids_in_p i ch : ids_in [E "w:p" [("w14:paraId", i)] ch] = i :: ids_in ch.
Proof. unfold ids_in. cbn [flat_map elements]. rewrite app_nil_r. reflexivity. Qed.
Lemma ids_in_leaf n a : (n =s "w:p") = false -> ids_in [leaf n a] = [].
Proof. intros H. unfold leaf. now rewrite ids_in_E. Qed.
Lemma ids_in_L n a t : (n =s "w:p") = false -> ids_in [L n a t] = [].
Proof. intros H. unfold ids_in. cbn [flat_map elements app]. unfold id_attr. cbn [xname]. now rewrite H. Qed.
Lemma ids_in_opt {A} (f : A -> xml) o : (forall a, ids_in [f a] = []) -> ids_in (opt f o) = [].
Proof. destruct o; cbn [opt]; auto. Qed.
Lemma ids_in_on b l : ids_in l = [] -> ids_in (on b l) = [].
Proof. destruct b; auto. Qed.
Lemma ids_in_map {A} (f : A -> xml) l : (forall a, ids_in [f a] = []) -> ids_in (map f l) = [].
Proof. intros H. induction l as [|a l IH]; [reflexivity|]. cbn [map]. now rewrite ids_in_cons, H, IH. Qed.

Lemma app_eq_nil_intro {A} (l m : list A) : l = [] /\ m = [] -> l ++ m = [].
Proof. now intros [-> ->]. Qed.
(** A list of elements built from pieces without paragraphs. *)
Ltac no_ids :=
  repeat first
    [ reflexivity
    | apply ids_in_opt; intros
    | apply ids_in_on
    | apply ids_in_map; intros
    | rewrite ids_in_leaf by reflexivity
    | rewrite ids_in_L by reflexivity
    | rewrite ids_in_E by reflexivity
    | match goal with
      | |- ids_in (_ ++ _) = [] => rewrite ids_in_app; apply app_eq_nil_intro; split
      | |- ids_in (_ :: _ :: _) = [] => rewrite ids_in_cons; apply app_eq_nil_intro; split
      | |- ids_in (match ?x with _ => _ end) = [] => destruct x
      | |- ids_in [match ?x with _ => _ end] = [] => destruct x
      | |- ids_in [if ?x then _ else _] = [] => destruct x
      end ].
Lemma ids_rpr_before r : ids_in (rpr_before r) = [].
Proof. unfold rpr_before. no_ids; try (unfold x_switch; no_ids). Qed.
Lemma ids_rpr_after r : ids_in (rpr_after r) = [].
Proof. unfold rpr_after. no_ids. Qed.
Lemma ids_sectpr p : ids_in [x_sectpr p] = [].
Proof. unfold x_sectpr. no_ids. Qed.
Lemma ids_ppr_before b : ids_in (ppr_before b) = [].
Proof. unfold ppr_before. no_ids; unfold x_numpr; no_ids. Qed.
Lemma ids_ppr_after b : ids_in (ppr_after b) = [].
Proof. unfold ppr_after. no_ids; try apply ids_sectpr; unfold x_pborders; no_ids. Qed.
Lemma ids_tblpr p : ids_in [x_tblpr p] = [].
Proof. unfold x_tblpr. no_ids; unfold x_tborders, x_tmargins; no_ids. Qed.
Lemma ids_tcpr p : ids_in [x_tcpr p] = [].
Proof. unfold x_tcpr. no_ids; unfold x_cborders, x_cmargins; no_ids. Qed.
Lemma ids_position n r d : (n =s "w:p") = false -> ids_in [x_position n r d] = [].
Proof. intros H. unfold x_position. rewrite ids_in_E by exact H. destruct d; no_ids. Qed.
Lemma ids_drawing p : ids_in [x_drawing p] = [].
Proof.
  assert (G : ids_in (x_graphic p) = []) by (unfold x_graphic; no_ids; unfold x_pic; no_ids).
  unfold x_drawing. no_ids; try exact G; apply ids_position; reflexivity.
Qed.

(** ** What a computation writes: the stored ids [st] and the ids it takes, but for [k]
    of them, which it drops. *)
Definition writes (m : M (list xml)) (st : list string) (k : nat) : Prop :=
  forall s a s', m s = Some (a, s') ->
    (id_para s <= id_para s')%N /\
    exists w, List.length w = k /\
      forall x, (cnt (ids_in a) x + cnt w x = cnt st x + cnt (between (id_para s) (id_para s')) x)%nat.
(** No paragraphs at all, and no ids. *)
Definition writes_none (m : M (list xml)) : Prop := forall s a s', m s = Some (a, s') -> id_para s' = id_para s /\ ids_in a = [].
Lemma writes_none_writes m : writes_none m -> writes m [] 0.
Proof.
  intros H s a s' E. destruct (H s a s' E) as [-> ->]. split; [lia|]. exists []. split; [reflexivity|]. intros x. rewrite between_same. reflexivity.
Qed.
(** Decompose a run of steps. *)
Ltac steps H :=
  lazymatch type of H with
  | bind _ _ _ = Some _ =>
      let a := fresh "a" in let s := fresh "s" in let H1 := fresh "S" in let H2 := fresh "S" in
      apply bind_inv in H as (a & s & H1 & H2); steps H1; steps H2
  | ret _ _ = Some (_, _) => unfold ret in H; inversion H; subst; clear H
  | _ => idtac
  end.
Lemma take_para_inv s i s' : take_para s = Some (i, s') -> i = pad0 8 (show_hex (id_para s)) /\ id_para s' = (id_para s + 1)%N.
Proof. unfold take_para, gen_para. destruct (_ <? _)%N; [|discriminate]. intros E. inversion E; subst. auto. Qed.
Lemma take_hist_inv s i s' : take_hist s = Some (i, s') -> i = show_N (id_hist s) /\ id_para s' = id_para s.
Proof. unfold take_hist, gen_history. destruct (_ <? _)%N; [|discriminate]. intros E. inversion E; subst. auto. Qed.
Lemma take_change_inv s i s' : take_change s = Some (i, s') -> i = show_N (id_change s) /\ id_para s' = id_para s.
Proof. unfold take_change, gen_paragraph_property_change, gen_history. destruct (_ <? _)%N; [|discriminate]. intros E. inversion E; subst. auto. Qed.
Lemma none_mark n o : (n =s "w:p") = false -> writes_none (b_opt_mark n o).
Proof.
  intros Hn s a s' H. destruct o as [m|]; unfold b_opt_mark, b_mark in H; steps H.
  - apply take_hist_inv in S as [-> E]. split; [exact E | now apply ids_in_leaf].
  - auto.
Qed.
Lemma none_rpr r : writes_none (b_rpr r).
Proof.
  intros s a s' H. unfold b_rpr in H. steps H.
  apply none_mark in S as [E1 N1]; [|reflexivity]. apply none_mark in S1 as [E2 N2]; [|reflexivity].
  split; [congruence|]. rewrite ids_in_E by reflexivity. now rewrite !ids_in_app, N1, N2, ids_rpr_before, ids_rpr_after.
Qed.
Lemma none_ppr : forall p, writes_none (b_ppr p).
Proof.
  fix F 1. intros [b c] s a s' H. cbn [b_ppr] in H. destruct c as [[au da q]|]; steps H; apply none_rpr in S as [E1 N1].
  - specialize (F q). apply take_change_inv in S0 as [-> E2]. apply F in S1 as [E3 N3]. split; [congruence|].
    rewrite ids_in_E by reflexivity. rewrite !ids_in_app, N1, ids_ppr_before, ids_in_cons, ids_ppr_after. rewrite ids_in_E by reflexivity. now rewrite N3.
  - clear F. split; [congruence|]. rewrite ids_in_E by reflexivity. now rewrite !ids_in_app, N1, ids_ppr_before, ids_ppr_after.
Qed.
Lemma none_trpr p : writes_none (b_trpr p).
Proof.
  intros s a s' H. unfold b_trpr in H. steps H.
  apply none_mark in S as [E1 N1]; [|reflexivity]. apply none_mark in S1 as [E2 N2]; [|reflexivity].
  split; [congruence|]. rewrite ids_in_E by reflexivity. rewrite !ids_in_app, N1, N2. cbn [app]. apply app_eq_nil_intro. split; no_ids.
Qed.
Lemma none_sdtpr p : writes_none (b_sdtpr p).
Proof.
  intros s a s' H. unfold b_sdtpr in H. steps H. apply none_rpr in S as [E1 N1]. split; [congruence|].
  rewrite ids_in_E by reflexivity. rewrite !ids_in_app, N1. cbn [app]. apply app_eq_nil_intro. split; no_ids.
Qed.
Lemma none_leaf n m : b_leaf n = Some m -> writes_none m.
Proof.
  intros H s a s' E.
  destruct n; cbn [b_leaf] in H; inversion H; subst; clear H;
    try (unfold ret in E; inversion E; subst; split; [reflexivity|]; no_ids; fail);
    try discriminate E.
  - unfold ret in E; inversion E; subst; split; [reflexivity | apply ids_drawing].
  - destruct i; cbn [b_instr] in E; try discriminate E; unfold ret in E; inversion E; subst; (split; [reflexivity| no_ids]).
  - destruct i; cbn [b_instr] in E; try discriminate E; unfold ret in E; inversion E; subst; (split; [reflexivity| no_ids]).
Qed.

(** ** Combinations *)
Lemma writes_run p inner st k : writes inner st k -> writes (b_run p inner) st k.
Proof.
  intros W s a s' H. unfold b_run in H. steps H. apply none_rpr in S as [E1 N1]. apply W in S1 as (E2 & U2).
  rewrite ids_in_E by reflexivity. rewrite ids_in_app, N1, E1 in *. cbn [app]. auto.
Qed.
Lemma writes_para i p inner st k : writes inner st k -> writes (b_para i p inner) (i :: st) k.
Proof.
  intros W s a s' H. unfold b_para in H. steps H. apply none_ppr in S as [E1 N1]. apply W in S1 as (E2 & w & Lw & U2).
  rewrite ids_in_p, ids_in_app, N1, E1 in *. cbn [app]. split; [lia|]. exists w. split; [exact Lw|].
  intros x; specialize (U2 x); cbn [count_occ]; destruct (string_dec i x); lia.
Qed.
Lemma writes_new_para p inner st k : writes inner st k -> writes (b_new_para p inner) st k.
Proof.
  intros W s a s' H. unfold b_new_para in H. apply bind_inv in H as (i & s1 & S & H).
  apply take_para_inv in S as [-> E]. apply (writes_para _ _ _ _ _ W) in H as (E2 & w & Lw & U2). rewrite E in *.
  split; [lia|]. exists w. split; [exact Lw|]. intros x; specialize (U2 x).
  rewrite (between_split _ (id_para s + 1)) by lia. rewrite between_one. cbn [count_occ] in *. destruct (string_dec _ x); lia.
Qed.
Lemma writes_tracked n m inner st k : (n =s "w:p") = false -> writes inner st k -> writes (b_tracked n m inner) st k.
Proof.
  intros Hn W s a s' H. unfold b_tracked in H. steps H. apply take_hist_inv in S as [_ E1]. apply W in S1 as (E2 & U2).
  rewrite ids_in_E by exact Hn. rewrite E1 in *. auto.
Qed.
Lemma writes_link l h inner st k : writes inner st k -> writes (b_link l h inner) st k.
Proof.
  intros W s a s' H. unfold b_link in H. steps H. apply W in S as (E2 & U2). rewrite ids_in_E by reflexivity. auto.
Qed.
Lemma writes_seq m1 m2 st1 st2 k1 k2 : writes m1 st1 k1 -> writes m2 st2 k2 -> writes (a <- m1;; b <- m2;; ret (a ++ b)) (st1 ++ st2) (k1 + k2).
Proof.
  intros W1 W2 s a s' H. steps H. apply W1 in S as (E1 & w1 & L1 & U1). apply W2 in S1 as (E2 & w2 & L2 & U2).
  split; [lia|]. exists (w1 ++ w2). split; [rewrite app_length; lia|]. intros x; specialize (U1 x); specialize (U2 x); rewrite ids_in_app, !count_occ_app.
  rewrite (between_split _ (id_para s0)) by assumption. lia.
Qed.
Lemma stored_app l m : stored_ids (l ++ m) = stored_ids l ++ stored_ids m.
Proof. unfold stored_ids. now rewrite !flat_map_app. Qed.
Lemma stored_cons n l : stored_ids (n :: l) = stored_ids [n] ++ stored_ids l.
Proof. apply (stored_app [n] l). Qed.
(** Ids taken and dropped. *)
Definition dropped (l : list node) : nat := List.length (filter drops_id (flat_map written l)).
Lemma dropped_app l m : dropped (l ++ m) = (dropped l + dropped m)%nat.
Proof. unfold dropped. now rewrite flat_map_app, filter_app, app_length. Qed.
Lemma dropped_cons n l : dropped (n :: l) = (dropped [n] + dropped l)%nat.
Proof. apply (dropped_app [n] l). Qed.
Lemma writes_each (f : node -> M (list xml)) l : Forall (fun n => writes (f n) (stored_ids [n]) (dropped [n])) l ->
  writes (each f l) (stored_ids l) (dropped l).
Proof.
  induction 1 as [|n l Hn _ IH]; cbn [each].
  - apply writes_none_writes. intros s a s' E. inversion E; subst. auto.
  - rewrite stored_cons, dropped_cons. now apply writes_seq.
Qed.
Lemma none_leaves l : writes_none (b_leaves l).
Proof.
  unfold b_leaves. induction l as [|n l IH]; cbn [each]; intros s a s' H; steps H; [auto|].
  apply IH in S1 as [E2 N2]. rewrite ids_in_app, N2.
  destruct (b_leaf n) as [m|] eqn:En; [apply (none_leaf n m En) in S as [E1 N1] | inversion S; subst].
  - rewrite N1. split; [congruence | reflexivity].
  - auto.
Qed.
Lemma none_simple l : writes_none (b_simple_run l).
Proof.
  intros s a s' H. unfold b_simple_run, b_run in H. steps H. apply none_rpr in S as [E1 N1]. apply none_leaves in S1 as [E2 N2].
  split; [congruence|]. rewrite ids_in_E by reflexivity. now rewrite ids_in_app, N1, N2.
Qed.
Lemma writes_simple l : writes (b_simple_run l) [] 0.
Proof. apply writes_none_writes, none_simple. Qed.
Lemma writes_ret : writes (ret []) [] 0.
Proof. apply writes_none_writes. intros s a s' E. inversion E; subst. auto. Qed.
Lemma writes_toc_line t : writes (toc_line t) [] 0.
Proof.
  apply writes_none_writes. intros s a s' H. unfold toc_line in H. steps H.
  apply none_simple in S as [E1 N1], S1 as [E2 N2], S0 as [E3 N3]. rewrite !ids_in_app, N1, N2, N3. split; [congruence | reflexivity].
Qed.
Lemma writes_toc_entry b t : writes (toc_entry b t) [] 0.
Proof.
  unfold toc_entry. apply writes_new_para. apply (writes_seq _ _ [] [] 0 0).
  - destruct b; [apply writes_simple | apply writes_ret].
  - destruct (it_hyperlink (ti_instr t)); [apply writes_link|]; apply writes_toc_line.
Qed.
Lemma writes_toc_entries b l : writes (toc_entries b l) [] 0.
Proof.
  revert b. induction l as [|t l IH]; intros b; cbn [toc_entries]; [apply writes_ret|].
  apply (writes_seq _ _ [] [] 0 0); [apply writes_toc_entry|].
  destruct l; [unfold toc_last; apply writes_new_para, writes_simple | apply IH].
Qed.
Lemma writes_items l : writes (b_items l) [] 0.
Proof.
  intros s a s' H. unfold b_items in H. steps H. apply writes_toc_entries in S as (E1 & U).
  assert (Q : ids_in [E "w:sdt" [] [leaf "w:sdtPr" []; E "w:sdtContent" [] a0]] = ids_in a0).
  { rewrite ids_in_E by reflexivity. rewrite ids_in_cons, ids_in_leaf by reflexivity. now rewrite ids_in_E. }
  rewrite Q. auto.
Qed.
Lemma writes_in_sdt d inner st k : writes inner st k -> writes (in_sdt d inner) st k.
Proof.
  intros W. unfold in_sdt. destruct (td_without_sdt d); [exact W|]. intros s a s' H. steps H.
  apply none_sdtpr in S as [E1 N1]. apply W in S1 as (E2 & U2).
  rewrite ids_in_E by reflexivity. rewrite ids_in_app, N1. rewrite ids_in_E by reflexivity. rewrite E1 in *. auto.
Qed.
Lemma stored_eq n ch : written n = n :: flat_map written ch -> is_para n = false -> stored_ids [n] = stored_ids ch.
Proof.
  intros H Hp. unfold stored_ids. cbn [flat_map]. rewrite app_nil_r, H. cbn [flat_map].
  destruct n; try reflexivity. discriminate.
Qed.
Lemma dropped_eq n ch : written n = n :: flat_map written ch -> drops_id n = false -> dropped [n] = dropped ch.
Proof. intros H Hp. unfold dropped. cbn [flat_map]. rewrite app_nil_r, H. cbn [filter]. now rewrite Hp. Qed.
Lemma writes_as m st k st' k' : writes m st k -> st = st' -> k = k' -> writes m st' k'.
Proof. now intros H <- <-. Qed.
Lemma writes_seq3 m1 m2 m3 st1 st2 st3 k1 k2 k3 : writes m1 st1 k1 -> writes m2 st2 k2 -> writes m3 st3 k3 ->
  writes (a <- m1;; b <- m2;; c <- m3;; ret (a ++ b ++ c)) (st1 ++ st2 ++ st3) (k1 + k2 + k3).
Proof.
  intros W1 W2 W3 s a s' H. steps H. apply W1 in S as (E1 & w1 & L1 & U1). apply W2 in S1 as (E2 & w2 & L2 & U2). apply W3 in S0 as (E3 & w3 & L3 & U3).
  split; [lia|]. exists (w1 ++ w2 ++ w3). split; [rewrite !app_length; lia|].
  intros x; specialize (U1 x); specialize (U2 x); specialize (U3 x); rewrite !ids_in_app, !count_occ_app.
  rewrite (between_split _ (id_para s0)) by lia. rewrite (between_split (id_para s0) (id_para s1)) by lia. lia.
Qed.
(** The last piece may use an id taken before, or leave it. *)
Lemma writes_seq4 m1 m2 (m3 : string -> M (list xml)) st1 st2 st3 k1 k2 k3 (drop : bool) : writes m1 st1 k1 -> writes m2 st2 k2 ->
  (forall k, writes (m3 k) (if drop then st3 else k :: st3) k3) ->
  writes (a <- m1;; b <- m2;; k <- take_para;; c <- m3 k;; ret (a ++ b ++ c)) (st1 ++ st2 ++ st3) (k1 + k2 + k3 + if drop then 1 else 0).
Proof.
  intros W1 W2 W3 s a s' H. apply bind_inv in H as (a0 & s0 & S & H). apply bind_inv in H as (a1 & s1 & S1 & H).
  apply bind_inv in H as (k0 & s2 & S0 & H). apply bind_inv in H as (a2 & s3 & S2 & H). inversion H; subst a s3; clear H.
  apply W1 in S as (E1 & w1 & L1 & U1). apply W2 in S1 as (E2 & w2 & L2 & U2).
  apply take_para_inv in S0 as [-> E]. set (k := pad0 8 (show_hex (id_para s1))) in *.
  apply W3 in S2 as (E3 & w3 & L3 & U3). rewrite E in *.
  split; [lia|]. exists (w1 ++ w2 ++ w3 ++ if drop then [k] else []). split; [rewrite !app_length; destruct drop; cbn; lia|].
  intros x; specialize (U1 x); specialize (U2 x); specialize (U3 x).
  rewrite !ids_in_app, !count_occ_app.
  rewrite (between_split _ (id_para s0)) by lia. rewrite (between_split (id_para s0) (id_para s1)) by lia.
  rewrite (between_split (id_para s1) (id_para s1 + 1)) by lia. rewrite between_one. fold k.
  destruct drop; cbn [count_occ] in *; destruct (string_dec k x); lia.
Qed.
Lemma writes_toc_open d : writes (toc_open d) [] 0.
Proof.
  unfold toc_open. destruct (td_delete d); apply writes_new_para; [apply writes_tracked; [reflexivity|]|]; apply writes_simple.
Qed.
Lemma writes_empty_line : writes empty_line [] 0.
Proof. apply writes_new_para, writes_simple. Qed.
Lemma writes_node_and_below : forall n, writes (b_node n) (stored_ids [n]) (dropped [n]) /\
  Forall (fun c => writes (b_node c) (stored_ids [c]) (dropped [c])) (children n).
Proof.
  refine (node_tree_ind _ _). intros n IH2. assert (IH := Forall_impl _ (fun c H => proj1 H) IH2). split; [|exact IH].
  assert (Hleaf : match b_leaf n with
                  | Some m => b_node n = m /\ stored_ids [n] = [] /\ dropped [n] = 0%nat
                  | None => True end) by (destruct n; cbn; auto).
  destruct (b_leaf n) as [m|] eqn:El.
  { destruct Hleaf as (-> & Hs & Hd). rewrite Hs, Hd. apply writes_none_writes. exact (none_leaf n m El). }
  clear Hleaf.
  destruct n; try discriminate El; cbn [children] in IH; cbn [b_node];
    try (rewrite (stored_eq _ ch), (dropped_eq _ ch) by reflexivity).
  - apply writes_run, writes_each, IH.
  - apply writes_tracked, writes_each, IH. reflexivity.
  - apply writes_tracked, writes_each, IH. reflexivity.
  - apply writes_tracked, writes_each, IH. reflexivity.
  - apply writes_tracked, writes_each, IH. reflexivity.
  - apply writes_link, writes_each, IH.
  - intros s a s' H. steps H. apply none_sdtpr in S as [E1 N1]. apply (writes_each _ _ IH) in S1 as (E2 & U2).
    rewrite ids_in_E by reflexivity. rewrite ids_in_app, N1. rewrite ids_in_E by reflexivity. rewrite E1 in *. auto.
  - apply writes_simple.
  - apply writes_simple.
  - replace (stored_ids [NPara id p numbering ch]) with (id :: stored_ids ch).
    + rewrite (dropped_eq _ ch) by reflexivity. apply writes_para, writes_each, IH.
    + unfold stored_ids. cbn [flat_map written]. now rewrite app_nil_r.
  - rewrite (stored_eq _ rows), (dropped_eq _ rows) by reflexivity. intros s a s' H. steps H. apply (writes_each _ _ IH) in S as (E2 & U2).
    rewrite ids_in_E by reflexivity. rewrite ids_in_cons, (ids_in_cons _ a0), ids_tblpr. rewrite ids_in_E by reflexivity.
    rewrite ids_in_map by (intros; now apply ids_in_leaf). cbn [app]. auto.
  - rewrite (stored_eq _ cells), (dropped_eq _ cells) by reflexivity. intros s a s' H. steps H. apply none_trpr in S as [E1 N1].
    apply (writes_each _ _ IH) in S1 as (E2 & U2).
    rewrite ids_in_E by reflexivity. rewrite ids_in_app, N1, E1 in *. auto.
  - assert (We : writes (match ch with [] => b_new_para ppr_empty (ret []) | [NTable _ _ _ _] => b_new_para ppr_empty (ret []) | _ => ret [] end) [] 0).
    { assert (Hp : writes (b_new_para ppr_empty (ret [])) [] 0) by apply writes_new_para, writes_ret.
      destruct ch as [|c [|c' ch]]; [exact Hp | destruct c; first [exact Hp | apply writes_ret] | destruct c; apply writes_ret]. }
    intros s a s' H. steps H.
    assert (W := writes_seq _ _ _ _ _ _ (writes_each _ _ IH) We s (a0 ++ a1) s').
    unfold bind in W. rewrite S, S1 in W. specialize (W eq_refl). rewrite app_nil_r, Nat.add_0_r in W.
    rewrite ids_in_E by reflexivity. rewrite ids_in_cons, ids_tcpr. exact W.
  - apply Forall_app in IH as [IHb IHa].
    replace (stored_ids [NToc d before after]) with (stored_ids before ++ [] ++ stored_ids after)
      by (unfold stored_ids; cbn [flat_map written app]; now rewrite app_nil_r, flat_map_app).
    assert (Hd : dropped [NToc d before after] = (dropped before + dropped after + if drops_id (NToc d before after) then 1 else 0)%nat).
    { unfold dropped. cbn [flat_map written]. rewrite app_nil_r. cbn [filter]. rewrite filter_app.
      destruct (drops_id _); cbn [List.length]; rewrite app_length; lia. }
    apply writes_in_sdt. assert (Wb := writes_each _ _ IHb). assert (Wa := writes_each _ _ IHa). rewrite Hd.
    unfold drops_id. destruct (td_items d) as [|it items] eqn:Ei.
    + replace (dropped before + dropped after)%nat with (dropped before + 0 + dropped after)%nat by lia.
      apply writes_seq4; [exact Wb | apply writes_toc_open|].
      intros k. destruct after as [|n r].
      * apply writes_para, writes_simple.
      * destruct n; try exact Wa.
        -- apply Forall_app in IH2 as [_ IH2]. inversion IH2 as [|? ? [_ IHn] _]; subst. inversion IHa as [|? ? _ IHr]; subst.
           cbn [children] in IHn. rewrite stored_cons, dropped_cons. apply writes_seq; [|exact (writes_each _ _ IHr)].
           replace (stored_ids [NPara id p numbering ch]) with (id :: stored_ids ch)
             by (unfold stored_ids; cbn [flat_map written]; now rewrite app_nil_r).
           rewrite (dropped_eq _ ch) by reflexivity.
           apply writes_para. apply (writes_seq _ _ [] _ 0); [apply writes_simple | exact (writes_each _ _ IHn)].
        -- apply (writes_seq _ _ [] _ 0); [apply writes_empty_line | exact Wa].
    + replace (dropped before + dropped after + 0)%nat with (dropped before + 0 + dropped after)%nat by lia.
      apply writes_seq3; [exact Wb | apply writes_items|].
      destruct after as [|n r]; [exact Wa|]. destruct n; try exact Wa.
      apply (writes_seq _ _ [] _ 0); [apply writes_empty_line | exact Wa].
  - apply Forall_app in IH as [IH _]. intros s a s' H. steps H. apply take_para_inv in S as [-> E1].
    apply (writes_each _ _ IH) in S1 as (E2 & w & Lw & U2). rewrite E1 in *. split; [lia|]. exists w. split; [exact Lw|].
    rewrite ids_in_app, ids_in_p. rewrite ids_in_E, ids_sectpr by reflexivity.
    intros x; specialize (U2 x); rewrite count_occ_app.
    rewrite (between_split _ (id_para s + 1)) by lia. rewrite between_one. cbn [count_occ]. destruct (string_dec _ x); lia.
  - apply writes_ret.
Qed.
Lemma writes_nodes l : writes (b_nodes l) (stored_ids l) (dropped l).
Proof. apply writes_each, Forall_forall. intros n _. apply writes_node_and_below. Qed.

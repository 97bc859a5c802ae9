(** Proofs about the ids of tracked changes in what is built. *)
From Coq Require Import NArith List Bool Lia.
From Verif Require Import Str StrFacts ListFacts TypesModel Props Ast IdsModel BuildModel BuildSpec BuildProofs VocabSpec VocabProofs.
Import ListNotations.

Lemma numbers_app c a b : numbers c (a + b) = numbers c a ++ numbers (c + a) b.
Proof.
  assert (G : forall n k, map (fun i => show_N (c + N.of_nat i)) (seq (N.to_nat a + k) n) =
                          map (fun i => show_N (c + a + N.of_nat i)) (seq k n)).
  { induction n as [|n IH]; intros k; [reflexivity|]. cbn [seq map]. f_equal.
    - f_equal. lia.
    - rewrite <- IH. do 2 f_equal. lia. }
  unfold numbers. rewrite N2Nat.inj_add, seq_app, map_app. f_equal.
  rewrite <- G. do 2 f_equal. lia.
Qed.
Lemma numbers_one c : numbers c 1 = [show_N c].
Proof. unfold numbers. change (N.to_nat 1) with 1%nat. cbn [seq map N.of_nat]. now rewrite N.add_0_r. Qed.
Definition range (c d : N) : list string := numbers c (d - c).
Lemma range_split c d e : (c <= d)%N -> (d <= e)%N -> range c e = range c d ++ range d e.
Proof.
  intros H1 H2. unfold range. replace (e - c)%N with ((d - c) + (e - d))%N by lia.
  rewrite numbers_app. now replace (c + (d - c))%N with d by lia.
Qed.
Lemma range_same c : range c c = [].
Proof. unfold range. now rewrite N.sub_diag. Qed.
Lemma range_one c : range c (c + 1) = [show_N c].
Proof. unfold range. replace (c + 1 - c)%N with 1%N by lia. apply numbers_one. Qed.

(** ** Collecting *)
Definition no_marks (x : xml) : Prop := is_change x = false /\ is_former x = false.
Lemma change_app l m : change_ids (l ++ m) = change_ids l ++ change_ids m.
Proof. unfold change_ids. now rewrite !flat_map_app. Qed.
Lemma former_app l m : former_ids (l ++ m) = former_ids l ++ former_ids m.
Proof. unfold former_ids. now rewrite !flat_map_app. Qed.
Lemma change_cons x l : change_ids (x :: l) = change_ids [x] ++ change_ids l.
Proof. apply (change_app [x] l). Qed.
Lemma former_cons x l : former_ids (x :: l) = former_ids [x] ++ former_ids l.
Proof. apply (former_app [x] l). Qed.
Lemma change_E n a ch : is_change (E n a []) = false -> change_ids [E n a ch] = change_ids ch.
Proof. intros H. unfold change_ids. cbn [flat_map elements]. rewrite app_nil_r. cbn [flat_map]. change (is_change (E n a ch)) with (is_change (E n a [])). now rewrite H. Qed.
Lemma former_E n a ch : is_former (E n a []) = false -> former_ids [E n a ch] = former_ids ch.
Proof. intros H. unfold former_ids. cbn [flat_map elements]. rewrite app_nil_r. cbn [flat_map]. change (is_former (E n a ch)) with (is_former (E n a [])). now rewrite H. Qed.
Lemma every_no_marks l : every no_marks l -> change_ids l = [] /\ former_ids l = [].
Proof.
  unfold every, change_ids, former_ids. induction 1 as [|x r [Hx Hy] _ [IH1 IH2]]; [auto|]. cbn [flat_map]. now rewrite Hx, Hy, IH1, IH2.
Qed.
Lemma plain_no_marks x : known x -> plain (xname x) = true -> no_marks x.
Proof.
  intros _ H. unfold plain in H. rewrite forallb_forall in H.
  assert (G : forall m, In m ["w:ins"; "w:del"; "w:moveFrom"; "w:moveTo"; "w:pPrChange"] -> (xname x =s m) = false).
  { intros m Hm. apply negb_true_iff, H. cbn [In] in *. tauto. }
  split.
  - unfold is_change. cbn [existsb]. rewrite !G by (cbn; tauto). reflexivity.
  - apply G. cbn. tauto.
Qed.

(** ** What a computation writes: all the ids it takes, in the order of the document *)
Definition marks (m : M (list xml)) : Prop :=
  forall s a s', m s = Some (a, s') ->
    (id_hist s <= id_hist s')%N /\ (id_change s <= id_change s')%N /\
    change_ids a = range (id_hist s) (id_hist s') /\ former_ids a = range (id_change s) (id_change s').
Ltac steps H :=
  lazymatch type of H with
  | bind _ _ _ = Some _ =>
      let a := fresh "a" in let s := fresh "s" in let H1 := fresh "S" in let H2 := fresh "S" in
      apply bind_inv in H as (a & s & H1 & H2); steps H1; steps H2
  | ret _ _ = Some (_, _) => unfold ret in H; inversion H; subst; clear H
  | _ => idtac
  end.
Lemma marks_none l : every no_marks l -> marks (ret l).
Proof.
  intros H s a s' E. inversion E; subst. destruct (every_no_marks _ H) as [-> ->]. rewrite !range_same. repeat split; lia.
Qed.
Lemma marks_seq m1 m2 : marks m1 -> marks m2 -> marks (a <- m1;; b <- m2;; ret (a ++ b)).
Proof.
  intros W1 W2 s a s' H. steps H. apply W1 in S as (A1 & B1 & C1 & D1). apply W2 in S1 as (A2 & B2 & C2 & D2).
  rewrite change_app, former_app, C1, C2, D1, D2.
  split; [lia|]. split; [lia|]. split; symmetry; now apply range_split.
Qed.
Lemma marks_seq3 m1 m2 m3 : marks m1 -> marks m2 -> marks m3 -> marks (a <- m1;; b <- m2;; c <- m3;; ret (a ++ b ++ c)).
Proof.
  intros W1 W2 W3 s a s' H. steps H. apply W1 in S as (A1 & B1 & C1 & D1). apply W2 in S1 as (A2 & B2 & C2 & D2). apply W3 in S0 as (A3 & B3 & C3 & D3).
  rewrite !change_app, !former_app, C1, C2, C3, D1, D2, D3.
  split; [lia|]. split; [lia|]. split; symmetry; rewrite (range_split _ _ _ A1) + rewrite (range_split _ _ _ B1); try lia; f_equal; apply range_split; lia.
Qed.
(** Wrapping in an element without an id. *)
Lemma marks_wrap (m : M (list xml)) n a pre post : is_change (E n a []) = false -> is_former (E n a []) = false -> every no_marks pre -> every no_marks post ->
  marks m -> marks (c <- m;; ret [E n a (pre ++ c ++ post)]).
Proof.
  intros H1 H2 Hp Hq W s r s' H. steps H. apply W in S as (A1 & B1 & C1 & D1).
  rewrite change_E, former_E by assumption. rewrite !change_app, !former_app.
  destruct (every_no_marks _ Hp) as [-> ->]. destruct (every_no_marks _ Hq) as [-> ->]. rewrite !app_nil_r, C1, D1. auto.
Qed.
Lemma marks_ext m m' : (forall s, m s = m' s) -> marks m -> marks m'.
Proof. intros H W s a s' E. rewrite <- H in E. eauto. Qed.
Lemma take_hist_inv s i s' : take_hist s = Some (i, s') -> i = show_N (id_hist s) /\ id_hist s' = (id_hist s + 1)%N /\ id_change s' = id_change s.
Proof. unfold take_hist, gen_history. destruct (_ <? _)%N; [|discriminate]. intros E. inversion E; subst. auto. Qed.
Lemma take_change_inv s i s' : take_change s = Some (i, s') -> i = show_N (id_change s) /\ id_change s' = (id_change s + 1)%N /\ id_hist s' = id_hist s.
Proof. unfold take_change, gen_paragraph_property_change, gen_history. destruct (_ <? _)%N; [|discriminate]. intros E. inversion E; subst. auto. Qed.
Lemma take_para_inv s i s' : take_para s = Some (i, s') -> id_change s' = id_change s /\ id_hist s' = id_hist s.
Proof. unfold take_para, gen_para. destruct (_ <? _)%N; [|discriminate]. intros E. inversion E; subst. auto. Qed.
Lemma marks_tracked n m inner : In n ["w:ins"; "w:del"; "w:moveFrom"; "w:moveTo"] -> marks inner -> marks (b_tracked n m inner).
Proof.
  intros Hn W s a s' H. unfold b_tracked in H. steps H. apply take_hist_inv in S as (-> & E1 & E2). apply W in S1 as (A & B & C & D).
  rewrite E1, E2 in *. split; [lia|]. split; [lia|]. split.
  - rewrite (range_split (id_hist s) (id_hist s + 1) (id_hist s')) by lia. rewrite range_one, <- C.
    destruct Hn as [<- | [<- | [<- | [<- | []]]]]; unfold change_ids; cbn [flat_map elements]; now rewrite app_nil_r.
  - rewrite <- D. destruct Hn as [<- | [<- | [<- | [<- | []]]]]; now apply former_E.
Qed.
Lemma b_mark_tracked n m s : b_mark n m s = b_tracked n m (ret []) s.
Proof. unfold b_mark, b_tracked, bind, ret. destruct (take_hist s) as [[i s1]|]; reflexivity. Qed.
Lemma marks_mark n o : In n ["w:ins"; "w:del"; "w:moveFrom"; "w:moveTo"] -> marks (b_opt_mark n o).
Proof.
  intros Hn. destruct o as [m|]; cbn [b_opt_mark]; [|apply marks_none, every_nil].
  apply (marks_ext (b_tracked n m (ret []))); [intros s; symmetry; apply b_mark_tracked|]. apply marks_tracked; [exact Hn | apply marks_none, every_nil].
Qed.
Ltac plain_piece L := exact (L no_marks plain_no_marks _).
Lemma marks_rpr r : marks (b_rpr r).
Proof.
  intros s a s' H. unfold b_rpr in H. steps H. apply marks_mark in S as (A1 & B1 & C1 & D1); [|cbn; tauto]. apply marks_mark in S1 as (A2 & B2 & C2 & D2); [|cbn; tauto].
  rewrite change_E, former_E by reflexivity. rewrite !change_app, !former_app.
  destruct (every_no_marks _ (every_rpr_before no_marks plain_no_marks r)) as [-> ->].
  destruct (every_no_marks _ (every_rpr_after no_marks plain_no_marks r)) as [-> ->]. rewrite !app_nil_r, C1, C2, D1, D2. cbn [app].
  split; [lia|]. split; [lia|]. split; symmetry; now apply range_split.
Qed.
Lemma marks_ppr : forall p, marks (b_ppr p).
Proof.
  fix F 1. intros [b c] s a s' H. cbn [b_ppr] in H. destruct c as [[au da q]|]; steps H; apply marks_rpr in S as (A1 & B1 & C1 & D1);
    rewrite change_E, former_E by reflexivity;
    destruct (every_no_marks _ (every_ppr_before no_marks plain_no_marks b)) as [X1 X2];
    destruct (every_no_marks _ (every_ppr_after no_marks plain_no_marks b)) as [Y1 Y2].
  - specialize (F q). apply F in S1 as (A3 & B3 & C3 & D3). apply take_change_inv in S0 as (-> & E1 & E2). rewrite E1, E2 in *.
    rewrite !change_app, !former_app, change_cons, former_cons, X1, X2, Y1, Y2, !app_nil_r, C1, D1. cbn [app].
    split; [lia|]. split; [lia|]. split.
    + rewrite change_E by reflexivity. rewrite C3. symmetry. now apply range_split.
    + rewrite (range_split (id_change s) (id_change s0) (id_change s')) by lia. f_equal. rewrite (range_split (id_change s0) (id_change s0 + 1) (id_change s')) by lia. rewrite range_one, <- D3.
      unfold former_ids. cbn [flat_map elements]. now rewrite app_nil_r.
  - clear F. rewrite !change_app, !former_app, X1, X2, Y1, Y2, !app_nil_r, C1, D1. auto.
Qed.
Lemma marks_trpr p : marks (b_trpr p).
Proof.
  intros s a s' H. unfold b_trpr in H. steps H. apply marks_mark in S as (A1 & B1 & C1 & D1); [|cbn; tauto]. apply marks_mark in S1 as (A2 & B2 & C2 & D2); [|cbn; tauto].
  rewrite change_E, former_E by reflexivity. rewrite !change_app, !former_app, C1, C2, D1, D2.
  split; [lia|]. split; [lia|]. split.
  - rewrite (range_split _ _ _ A1 A2). do 2 f_equal. destruct (tr_cant_split p), (tr_height p); cbn; apply app_nil_r.
  - rewrite (range_split _ _ _ B1 B2). do 2 f_equal. destruct (tr_cant_split p), (tr_height p); cbn; apply app_nil_r.
Qed.
Lemma marks_sdtpr p : marks (b_sdtpr p).
Proof.
  intros s a s' H. unfold b_sdtpr in H. steps H. apply marks_rpr in S as (A1 & B1 & C1 & D1).
  rewrite change_E, former_E by reflexivity. rewrite !change_app, !former_app, C1, D1.
  destruct (sd_binding p), (sd_alias p); cbn; rewrite !app_nil_r; auto.
Qed.
Lemma marks_leaf n m : b_leaf n = Some m -> marks m.
Proof.
  intros H.
  destruct n; cbn [b_leaf] in H; inversion H; subst; clear H;
    try (intros s a s' E; discriminate E);
    try (destruct i; cbn [b_instr]; try (intros s a s' E; discriminate E); apply marks_none, every_L; split; reflexivity);
    apply marks_none; try (exact (every_drawing no_marks plain_no_marks _));
    try (apply every_L; split; reflexivity); try (apply every_leaf; split; reflexivity).
  (* the end of a comment *)
  apply every_cons; split; [|apply every_cons; split]; repeat (first [apply every_leaf; split; reflexivity | apply every_E; [split; reflexivity|] | apply every_nil]).
Qed.
Lemma marks_pair (m1 m2 : M (list xml)) n a : is_change (E n a []) = false -> is_former (E n a []) = false ->
  marks m1 -> marks m2 -> marks (r <- m1;; c <- m2;; ret [E n a (r ++ c)]).
Proof.
  intros H1 H2 W1 W2 s r s' H. steps H. assert (W := marks_seq _ _ W1 W2 s (a0 ++ a1) s').
  unfold bind in W. rewrite S, S1 in W. specialize (W eq_refl). rewrite change_E, former_E by assumption. exact W.
Qed.
Lemma marks_run p inner : marks inner -> marks (b_run p inner).
Proof. intros W. apply marks_pair; auto using marks_rpr. Qed.
Lemma marks_para i p inner : marks inner -> marks (b_para i p inner).
Proof. intros W. apply marks_pair; auto using marks_ppr. Qed.
Lemma marks_take (f : string -> M (list xml)) : (forall k, marks (f k)) -> marks (k <- take_para;; f k).
Proof.
  intros W s a s' H. apply bind_inv in H as (k & s1 & S & H). apply take_para_inv in S as [E1 E2]. apply W in H. now rewrite E1, E2 in H.
Qed.
Lemma marks_new_para p inner : marks inner -> marks (b_new_para p inner).
Proof. intros W. apply marks_take. intros k. now apply marks_para. Qed.
Lemma marks_link l h inner : marks inner -> marks (b_link l h inner).
Proof.
  intros W s a s' H. unfold b_link in H. steps H. apply W in S. rewrite change_E, former_E by reflexivity. exact S.
Qed.
Lemma marks_each (f : node -> M (list xml)) l : Forall (fun n => marks (f n)) l -> marks (each f l).
Proof. induction 1 as [|n l Hn _ IH]; cbn [each]; [apply marks_none, every_nil | now apply marks_seq]. Qed.
Lemma marks_simple l : marks (b_simple_run l).
Proof.
  apply marks_run, marks_each, Forall_forall. intros n _. destruct (b_leaf n) eqn:En; [exact (marks_leaf n _ En) | apply marks_none, every_nil].
Qed.
Lemma marks_toc_line t : marks (toc_line t).
Proof. unfold toc_line. apply marks_seq3; apply marks_simple. Qed.
Lemma marks_toc_entry b t : marks (toc_entry b t).
Proof.
  unfold toc_entry. apply marks_new_para. apply marks_seq.
  - destruct b; [apply marks_simple | apply marks_none, every_nil].
  - destruct (it_hyperlink (ti_instr t)); [apply marks_link|]; apply marks_toc_line.
Qed.
Lemma marks_toc_entries b l : marks (toc_entries b l).
Proof.
  revert b. induction l as [|t l IH]; intros b; cbn [toc_entries]; [apply marks_none, every_nil|].
  apply marks_seq; [apply marks_toc_entry|]. destruct l; [apply marks_new_para, marks_simple | apply IH].
Qed.
Lemma marks_items l : marks (b_items l).
Proof.
  intros s a s' H. unfold b_items in H. steps H. apply marks_toc_entries in S.
  rewrite change_E, former_E, change_cons, former_cons by reflexivity. rewrite (change_E "w:sdtContent"), (former_E "w:sdtContent") by reflexivity. exact S.
Qed.
Lemma marks_content m1 m2 : marks m1 -> marks m2 -> marks (p <- m1;; c <- m2;; ret [E "w:sdt" [] (p ++ [E "w:sdtContent" [] c])]).
Proof.
  intros W1 W2 s r s' H. steps H. assert (W := marks_seq _ _ W1 W2 s (a ++ a0) s').
  unfold bind in W. rewrite S, S1 in W. specialize (W eq_refl).
  rewrite change_E, former_E by reflexivity. rewrite change_app, former_app in *. rewrite change_E, former_E by reflexivity. exact W.
Qed.
Lemma marks_in_sdt d inner : marks inner -> marks (in_sdt d inner).
Proof. intros W. unfold in_sdt. destruct (td_without_sdt d); [exact W|]. apply marks_content; [apply marks_sdtpr | exact W]. Qed.
Lemma marks_toc_open d : marks (toc_open d).
Proof. unfold toc_open. destruct (td_delete d); apply marks_new_para; [apply marks_tracked; [cbn; tauto|]|]; apply marks_simple. Qed.
Lemma marks_empty_line : marks empty_line.
Proof. apply marks_new_para, marks_simple. Qed.
Lemma marks_seq4 m1 m2 (f : string -> M (list xml)) : marks m1 -> marks m2 -> (forall k, marks (f k)) ->
  marks (a <- m1;; b <- m2;; k <- take_para;; c <- f k;; ret (a ++ b ++ c)).
Proof.
  intros W1 W2 W3. apply (marks_ext (a <- m1;; b <- m2;; c <- (k <- take_para;; f k);; ret (a ++ b ++ c))).
  - intros s. unfold bind. destruct (m1 s) as [[a s1]|]; [|reflexivity]. destruct (m2 s1) as [[b s2]|]; [|reflexivity].
    destruct (take_para s2) as [[k s3]|]; reflexivity.
  - apply marks_seq3; auto using marks_take.
Qed.
Lemma marks_node_and_below : forall n, marks (b_node n) /\ Forall (fun c => marks (b_node c)) (children n).
Proof.
  refine (node_tree_ind _ _). intros n IH2. assert (IH := Forall_impl _ (fun c H => proj1 H) IH2). split; [|exact IH].
  assert (Hleaf : match b_leaf n with Some m => b_node n = m | None => True end) by (destruct n; cbn; auto).
  destruct (b_leaf n) as [m|] eqn:El.
  { rewrite Hleaf. exact (marks_leaf n m El). }
  clear Hleaf.
  destruct n; try discriminate El; cbn [children] in IH; cbn [b_node].
  - apply marks_run, marks_each, IH.
  - apply marks_tracked; [cbn; tauto | apply marks_each, IH].
  - apply marks_tracked; [cbn; tauto | apply marks_each, IH].
  - apply marks_tracked; [cbn; tauto | apply marks_each, IH].
  - apply marks_tracked; [cbn; tauto | apply marks_each, IH].
  - apply marks_link, marks_each, IH.
  - apply marks_content; [apply marks_sdtpr | apply marks_each, IH].
  - apply marks_simple.
  - apply marks_simple.
  - apply marks_para, marks_each, IH.
  - intros s a s' H. steps H. apply (marks_each _ _ IH) in S.
    rewrite change_E, former_E by reflexivity. rewrite change_cons, former_cons, (change_cons _ a0), (former_cons _ a0).
    destruct (every_no_marks _ (every_tblpr no_marks plain_no_marks p)) as [-> ->].
    assert (G : every no_marks [E "w:tblGrid" [] (map (fun w => x_width "w:gridCol" (as_i32 w) WidthType_Dxa) grid)]).
    { apply every_E; [split; reflexivity|]. apply every_map. intros w. apply every_leaf. split; reflexivity. }
    destruct (every_no_marks _ G) as [-> ->]. exact S.
  - apply marks_pair; [reflexivity | reflexivity | apply marks_trpr | apply marks_each, IH].
  - assert (We : marks (cell_end ch)).
    { assert (Hp : marks (b_new_para ppr_empty (ret []))) by apply marks_new_para, marks_none, every_nil.
      assert (Hn : marks (ret [])) by apply marks_none, every_nil.
      unfold cell_end. destruct ch as [|c [|c' ch]]; [exact Hp | destruct c; first [exact Hp | exact Hn] | destruct c; exact Hn]. }
    intros s a s' H. steps H. assert (W := marks_seq _ _ (marks_each _ _ IH) We s (a0 ++ a1) s').
    unfold bind in W. rewrite S in W. unfold cell_end in W. rewrite S1 in W. specialize (W eq_refl).
    rewrite change_E, former_E, change_cons, former_cons by reflexivity.
    destruct (every_no_marks _ (every_tcpr no_marks plain_no_marks p)) as [-> ->]. exact W.
  - apply Forall_app in IH as [IHb IHa]. apply marks_in_sdt.
    assert (Wb := marks_each _ _ IHb). assert (Wa := marks_each _ _ IHa).
    destruct (td_items d) as [|it items] eqn:Ei.
    + apply marks_seq4; [exact Wb | apply marks_toc_open|].
      intros k. destruct after as [|n r].
      * apply marks_para, marks_simple.
      * destruct n; try exact Wa.
        -- apply Forall_app in IH2 as [_ IH2]. inversion IH2 as [|? ? [_ IHn] _]; subst. inversion IHa as [|? ? _ IHr]; subst.
           cbn [children] in IHn. apply marks_seq; [|exact (marks_each _ _ IHr)]. apply marks_para.
           apply marks_seq; [apply marks_simple | exact (marks_each _ _ IHn)].
        -- apply marks_seq; [apply marks_empty_line | exact Wa].
    + apply marks_seq3; [exact Wb | apply marks_items|].
      destruct after as [|n r]; [exact Wa|]. destruct n; try exact Wa. apply marks_seq; [apply marks_empty_line | exact Wa].
  - apply Forall_app in IH as [IH _]. apply marks_take. intros k s a s' H. steps H. apply (marks_each _ _ IH) in S.
    rewrite change_app, former_app. rewrite change_E, former_E by reflexivity.
    rewrite change_E, former_E by reflexivity.
    destruct (every_no_marks _ (every_sectpr no_marks plain_no_marks p)) as [-> ->]. rewrite !app_nil_r. exact S.
  - apply marks_none, every_nil.
Qed.
Lemma marks_nodes l : marks (b_nodes l).
Proof. apply marks_each, Forall_forall. intros n _. apply marks_node_and_below. Qed.

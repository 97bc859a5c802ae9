From Coq Require Import NArith List Bool Lia.
From Verif Require Import Str StrFacts ListFacts IdsModel Props Ast Pass PassFacts ParaIdModel ParaIdSpec.
Import ListNotations.

(** * Membership *)
Lemma mem_in s l : mem s l = true <-> In s l.
Proof.
  unfold mem. rewrite existsb_exists. split.
  - intros (x & H & E). apply String.eqb_eq in E. now subst.
  - intros H. exists s. split; [exact H|apply String.eqb_refl].
Qed.
Lemma mem_not s l : mem s l = false <-> ~ In s l.
Proof. rewrite <- mem_in. destruct (mem s l); intuition congruence. Qed.
Lemma insert_in x s l : In x (insert s l) <-> x = s \/ In x l.
Proof.
  unfold insert. destruct (mem s l) eqn:E.
  - apply mem_in in E. intuition (subst; auto).
  - cbn. intuition.
Qed.
Lemma insert_nodup s l : NoDup l -> NoDup (insert s l).
Proof. unfold insert. destruct (mem s l) eqn:E; [auto|]. apply mem_not in E. now constructor. Qed.
Lemma keys_in x l : In x (keys l) <-> In x l.
Proof. induction l as [|y l IH]; cbn [keys]; [tauto|]. rewrite insert_in, IH. cbn. intuition. Qed.
Lemma keys_nodup l : NoDup (keys l).
Proof. induction l; cbn [keys]; [constructor|]. now apply insert_nodup. Qed.

Lemma count_app s l m : count s (l ++ m) = count s l + count s m.
Proof. unfold count. now rewrite filter_app, app_length. Qed.
Lemma count_in s l : In s l <-> 0 < count s l.
Proof.
  unfold count. split.
  - intros H. assert (Hf : In s (filter (String.eqb s) l)) by (apply filter_In; split; [exact H|apply String.eqb_refl]).
    destruct (filter (String.eqb s) l); [destruct Hf|cbn; lia].
  - intros H. destruct (filter (String.eqb s) l) as [|y t] eqn:E; [cbn in H; lia|].
    assert (Hy : In y (filter (String.eqb s) l)) by (rewrite E; now left).
    apply filter_In in Hy. destruct Hy as [Hy E']. apply String.eqb_eq in E'. now subst.
Qed.

(** * The search *)
Lemma scan_spec u : forall fuel v,
  NoDup u ->
  (forall w, (w < v)%N -> True) ->
  match scan fuel v u with
  | Some id => ~ In id u /\ exists k, id = pad0 8 (show_hex k)
  | None => forall i, (i < N.of_nat fuel)%N -> In (pad0 8 (show_hex (v + i))) u
  end.
Proof.
  induction fuel as [|f IH]; intros v Hu _; cbn [scan].
  - intros i Hi. lia.
  - destruct (mem (pad0 8 (show_hex v)) u) eqn:E.
    + specialize (IH (v + 1)%N Hu (fun _ _ => I)). destruct (scan f (v + 1) u); [exact IH|].
      intros i Hi. apply mem_in in E. destruct (N.eq_dec i 0) as [->|Hn].
      * now rewrite N.add_0_r.
      * replace (v + i)%N with (v + 1 + (i - 1))%N by lia. apply IH. lia.
    + apply mem_not in E. split; [exact E|now exists v].
Qed.
Lemma scan_some u v : NoDup u -> exists id, scan (S (List.length u)) v u = Some id.
Proof.
  intros Hu. pose proof (scan_spec u (S (List.length u)) v Hu (fun _ _ => I)) as H.
  destruct (scan _ v u) as [id|]; [now exists id|exfalso].
  pose (l := map (fun i => pad0 8 (show_hex (v + N.of_nat i))) (seq 0 (S (List.length u)))).
  assert (Hl : NoDup l).
  { apply NoDup_map_in; [|apply seq_NoDup]. intros x y _ _ E. apply pad0_hex_inj in E. lia. }
  assert (Hi : incl l u).
  { intros x Hx. apply in_map_iff in Hx. destruct Hx as (i & <- & Hi). apply in_seq in Hi. apply H. lia. }
  apply NoDup_incl_length in Hi; [|exact Hl]. unfold l in Hi. rewrite map_length, seq_length in Hi. lia.
Qed.
Lemma pad0_nonempty w s : pad0 (S w) s <> "".
Proof. unfold pad0. destruct s; cbn; [discriminate|]. destruct (w - String.length s); cbn; discriminate. Qed.

Lemma next_unique_spec u c : NoDup u ->
  match next_unique u c with
  | Some (id, c') => ~ In id u /\ id <> "" /\ c' = (c + 1)%N /\ (c + 1 < two32)%N
  | None => (two32 <= c + 1)%N
  end.
Proof.
  intros Hu. unfold next_unique, gen_para. destruct (c + 1 <? two32)%N eqn:Ec; [|now apply N.ltb_ge].
  apply N.ltb_lt in Ec. destruct (mem (pad0 8 (show_hex c)) u) eqn:Em.
  - pose proof (scan_spec u (S (List.length u)) (N.of_nat (List.length u) + 1) Hu (fun _ _ => I)) as H.
    destruct (scan_some u (N.of_nat (List.length u) + 1) Hu) as (id & Ei). rewrite Ei in *.
    destruct H as (Hn & k & ->). repeat split; auto. apply pad0_nonempty.
  - apply mem_not in Em. repeat split; auto. apply pad0_nonempty.
Qed.

(** * The pass over the list of ids *)
Fixpoint renewals (pre rest : list string) : nat :=
  match rest with
  | [] => 0
  | id :: t => (if (id =s "") || mem id pre then 1 else 0) + renewals (pre ++ [id]) t
  end.
Fixpoint renewed (all pre rest new : list string) : Prop :=
  match rest, new with
  | [], [] => True
  | id :: t, x :: u =>
      ((id <> "" /\ ~ In id pre /\ x = id) \/ ((id = "" \/ In id pre) /\ ~ In x all)) /\ renewed all (pre ++ [id]) t u
  | _, _ => False
  end.

Section Ids.
  Variable all : list string.
  Let dup := is_duplicate all.
  Definition Inv (pre out : list string) (s : ids_state) : Prop :=
    NoDup (used s) /\ incl all (used s) /\ incl out (used s) /\ NoDup out /\ ~ In "" out /\
    (forall x, In x out -> In x all -> In x pre) /\
    (forall x, In x (seen s) <-> In x pre /\ x <> "" /\ dup x = true).

  Lemma not_dup_once pre id t : all = pre ++ id :: t -> dup id = false -> ~ In id pre.
  Proof.
    intros E H Hi. unfold dup, is_duplicate in H. rewrite E, count_app in H.
    apply PeanoNat.Nat.ltb_ge in H. apply count_in in Hi.
    assert (0 < count id (id :: t)) by (apply count_in; now left). lia.
  Qed.
  Lemma twice_dup pre id t : all = pre ++ id :: t -> In id pre -> dup id = true.
  Proof. intros E Hi. destruct (dup id) eqn:D; [reflexivity|]. now destruct (not_dup_once _ _ _ E D). Qed.

  Lemma ensure_step pre id t out s : all = pre ++ id :: t -> Inv pre out s ->
    match ensure dup id s with
    | Some (x, s') =>
        ((id <> "" /\ ~ In id pre /\ x = id) \/ ((id = "" \/ In id pre) /\ ~ In x all)) /\
        Inv (pre ++ [id]) (out ++ [x]) s' /\
        counter s' = (counter s + N.of_nat (if (id =s "") || mem id pre then 1 else 0))%N /\
        ((id =s "") || mem id pre = false \/ (counter s + 1 < two32)%N)
    | None => (id =s "") || mem id pre = true /\ (two32 <= counter s + 1)%N
    end.
  Proof.
    intros E (I1 & I2 & I3 & I4 & I5 & I6 & I7). unfold ensure.
    assert (Hall : In id all) by (rewrite E; apply in_or_app; right; now left).
    assert (Hkeep : id <> "" -> ~ In id pre ->
              forall s', used s' = used s -> counter s' = counter s ->
              (forall x, In x (seen s') <-> In x (pre ++ [id]) /\ x <> "" /\ dup x = true) ->
              ((id <> "" /\ ~ In id pre /\ id = id) \/ ((id = "" \/ In id pre) /\ ~ In id all)) /\
              Inv (pre ++ [id]) (out ++ [id]) s' /\
              counter s' = (counter s + N.of_nat (if (id =s "") || mem id pre then 1 else 0))%N /\
              ((id =s "") || mem id pre = false \/ (counter s + 1 < two32)%N)).
    { intros Hne Hni s' Eu Ec Hs. assert (Eb : (id =s "") || mem id pre = false).
      { apply orb_false_iff. split; [now apply String.eqb_neq|now apply mem_not]. }
      rewrite Eb. split; [left; repeat split; auto|]. split; [|split; [rewrite Ec; cbn; lia|now left]].
      unfold Inv. rewrite Eu. repeat split; auto; try apply Hs; auto.
      - intros x Hx. apply in_app_iff in Hx. destruct Hx as [Hx|[<-|[]]]; auto.
      - apply NoDup_snoc; [exact I4|]. intros Hx. apply Hni. now apply I6.
      - rewrite in_app_iff. intros [H|[H|[]]]; auto.
      - intros x Hx Ha. apply in_app_iff in Hx. apply in_app_iff. destruct Hx as [Hx|[<-|[]]]; [left; auto|right; now left]. }
    destruct (id =s "") eqn:Ee; cbn [negb andb orb].
    2: destruct (dup id) eqn:D; cbn [negb andb].
    2: destruct (mem id (seen s)) eqn:Em; cbn [negb].
    4: { apply String.eqb_neq in Ee. pose proof (not_dup_once _ _ _ E D) as Hni.
         apply Hkeep; auto.
         intros x. rewrite I7, in_app_iff. split; [tauto|]. intros ([H|[->|[]]] & H1 & H2); [tauto|congruence]. }
    3: { apply String.eqb_neq in Ee.
         apply mem_not in Em. rewrite I7 in Em. assert (Hni : ~ In id pre) by tauto.
         apply Hkeep; auto. cbn [seen]. intros x. rewrite insert_in, I7, in_app_iff. cbn.
         split; [intros [->|H]; [repeat split; auto|tauto]|]. intros ([H|[->|[]]] & H1 & H2); auto. }
    all: clear Hkeep; pose proof (next_unique_spec (used s) (counter s) I1) as Hn;
      destruct (next_unique (used s) (counter s)) as [(x & c')|].
    all: assert (Hb : id = "" \/ In id pre) by
      (try (left; now apply String.eqb_eq); right; apply mem_in in Em; now apply I7 in Em).
    all: try (match goal with Em : mem ?i (seen ?s) = true, I7 : forall x, In x (seen ?s) <-> In x ?pre /\ _ |- _ =>
        assert (Hm : mem i pre = true) by (apply mem_in in Em; apply mem_in; now apply I7 in Em); rewrite Hm end).
    2, 4: split; [reflexivity|exact Hn].
    all: destruct Hn as (H1 & H2 & -> & H4); (split; [right; split; [exact Hb|auto]|]);
      (split; [|cbn [counter]; split; [reflexivity|now right]]).
    all: unfold Inv; cbn [used seen]; repeat split; auto.
    all: try (now apply insert_nodup).
    all: try (intros y Hy; apply insert_in; right; now apply I2).
    all: try (intros y Hy; apply insert_in; apply in_app_iff in Hy; destruct Hy as [Hy|[<-|[]]]; auto; fail).
    all: try (apply NoDup_snoc; [exact I4|]; intros Hx; apply H1; now apply I3).
    all: try (rewrite in_app_iff; intros [Hx|[Hx|[]]]; auto; fail).
    all: try (intros y Hy Ha; apply in_app_iff; apply in_app_iff in Hy; destruct Hy as [Hy|[<-|[]]]; [left; auto|]; exfalso; apply H1; now apply I2).
    all: try (apply in_app_iff; left; now apply I7).
    all: try (match goal with H : In _ (seen _) |- _ => now apply I7 in H end).
    all: intros (Hx & Hx1 & Hx2); apply I7; repeat split; auto; apply in_app_iff in Hx; destruct Hx as [Hx|[<-|[]]]; auto; try contradiction.
    all: destruct Hb as [Hb|Hb]; [congruence|exact Hb].
  Qed.

  Lemma pass_ids rest : forall pre out s, all = pre ++ rest -> Inv pre out s ->
    match pass (ensure dup) rest s with
    | Some (new, s') =>
        renewed all pre rest new /\ Inv all (out ++ new) s' /\
        counter s' = (counter s + N.of_nat (renewals pre rest))%N /\
        (renewals pre rest = 0 \/ (counter s + N.of_nat (renewals pre rest) < two32)%N)
    | None => 0 < renewals pre rest /\ (two32 <= counter s + N.of_nat (renewals pre rest))%N
    end.
  Proof.
    induction rest as [|id t IH]; intros pre out s E Hi; cbn [pass renewed renewals].
    - rewrite app_nil_r in E. rewrite app_nil_r. rewrite <- E in Hi. cbn [N.of_nat]. rewrite N.add_0_r. auto.
    - pose proof (ensure_step _ _ _ _ _ E Hi) as Hs. destruct (ensure dup id s) as [(x & s1)|].
      + destruct Hs as (H1 & H2 & H3 & H4).
        assert (E' : all = (pre ++ [id]) ++ t) by now rewrite <- app_assoc.
        specialize (IH _ _ _ E' H2). destruct (pass (ensure dup) t s1) as [(u & s2)|].
        * destruct IH as (J1 & J2 & J3 & J4). split; [split; auto|]. rewrite <- app_assoc in J2. split; [exact J2|].
          rewrite J3, H3. rewrite H3 in J4. clear H1 J1 J2 E'.
          destruct ((id =s "") || mem id pre); cbn [Nat.add] in *.
          -- split; [lia|]. right. destruct J4 as [J4|J4]; [|lia]. destruct H4 as [H4|H4]; [discriminate|]. lia.
          -- split; [lia|]. rewrite N.add_0_r in J4. exact J4.
        * rewrite H3 in IH. destruct ((id =s "") || mem id pre); cbn [Nat.add] in *; lia.
      + destruct Hs as (-> & Hs). lia.
  Qed.
End Ids.

Lemma renewed_length all rest : forall pre new, renewed all pre rest new -> List.length new = List.length rest.
Proof. induction rest as [|id t IH]; intros pre [|x u] H; cbn in *; try tauto. f_equal. apply (IH (pre ++ [id])). tauto. Qed.
Lemma renewed_first all rest : forall pre new i id, renewed all pre rest new ->
  nth_error rest i = Some id -> id <> "" -> ~ In id pre -> (forall j, j < i -> nth_error rest j <> Some id) ->
  nth_error new i = Some id.
Proof.
  induction rest as [|y t IH]; intros pre [|x u] i id H Hn He Hp Hj; cbn in H; try tauto; destruct i as [|i]; try discriminate.
  - injection Hn as ->. destruct H as [[(H1 & H2 & ->)|([H1|H1] & H2)] _]; cbn; [reflexivity|contradiction|contradiction].
  - cbn in *. apply (IH (pre ++ [y])); auto; [tauto| |].
    + rewrite in_app_iff. intros [H1|[->|[]]]; [auto|]. apply (Hj 0); [lia|reflexivity].
    + intros j Hlt. apply (Hj (S j)). lia.
Qed.
Lemma renewed_fresh all rest : forall pre new i x, renewed all pre rest new ->
  nth_error new i = Some x -> nth_error rest i = Some x \/ ~ In x all.
Proof.
  induction rest as [|y t IH]; intros pre [|z u] i x H Hn; cbn in H; try tauto; destruct i as [|i]; try discriminate.
  - injection Hn as ->. cbn. destruct H as [[(H1 & H2 & ->)|(_ & H2)] _]; auto.
  - cbn in *. apply (IH (pre ++ [y]) u); tauto.
Qed.

(** * The count of renewals *)
Lemma NoDup_same_length {A} (l m : list A) : NoDup l -> NoDup m -> (forall x, In x l <-> In x m) -> List.length l = List.length m.
Proof.
  intros Hl Hm H. apply PeanoNat.Nat.le_antisymm; apply NoDup_incl_length; auto; intros x Hx; now apply H.
Qed.
Definition news (pre rest : list string) : list string :=
  nodup string_dec (filter (fun id => negb (id =s "") && negb (mem id pre)) rest).
Lemma news_in pre rest x : In x (news pre rest) <-> In x rest /\ x <> "" /\ ~ In x pre.
Proof.
  unfold news. rewrite nodup_In, filter_In, andb_true_iff, !negb_true_iff, String.eqb_neq, mem_not. tauto.
Qed.
Lemma news_nodup pre rest : NoDup (news pre rest).
Proof. apply NoDup_nodup. Qed.
Lemma renewals_length rest : forall pre, List.length rest = renewals pre rest + List.length (news pre rest).
Proof.
  induction rest as [|id t IH]; intros pre; [reflexivity|]. cbn [renewals List.length]. rewrite (IH (pre ++ [id])).
  destruct ((id =s "") || mem id pre) eqn:E.
  - enough (List.length (news (pre ++ [id]) t) = List.length (news pre (id :: t))) by lia.
    apply NoDup_same_length; auto using news_nodup. intros x. rewrite !news_in, in_app_iff. cbn.
    apply orb_true_iff in E. rewrite String.eqb_eq, mem_in in E. intuition (subst; try tauto).
  - enough (S (List.length (news (pre ++ [id]) t)) = List.length (news pre (id :: t))) by lia.
    apply orb_false_iff in E. rewrite String.eqb_neq, mem_not in E.
    change (List.length (id :: news (pre ++ [id]) t) = List.length (news pre (id :: t))). apply NoDup_same_length; auto using news_nodup.
    + constructor; [|apply news_nodup]. rewrite news_in, in_app_iff. cbn. tauto.
    + intros x. cbn [In]. rewrite !news_in, in_app_iff. cbn.
      destruct (string_dec id x); intuition (subst; try tauto).
Qed.
Lemma to_renew_eq ids : to_renew ids = renewals [] ids.
Proof.
  unfold to_renew. pose proof (renewals_length ids []) as H.
  enough (E : List.length (nodup string_dec (filter (fun id => negb (id =s "")) ids)) = List.length (news [] ids)) by lia.
  unfold news. do 2 f_equal. apply filter_ext. intros a. cbn. now rewrite andb_true_r.
Qed.

(** * The pass over the tree is the pass over the list of ids *)
Section Tree.
  Variable dup : string -> bool.
  Local Notation tracks := (tracks (ensure dup)).

  Ltac same_kind := let c := fresh in let c' := fresh in let E := fresh in intros c c'; destruct c, c'; cbn [wipe]; intros E; (reflexivity || discriminate E).
  Ltac kinds := intros []; reflexivity.
  Ltac simple_case vc vr k := 
    eapply (tracks_then _ _ _ (map wipe) k); [reflexivity|reflexivity|reflexivity| |
      apply (tracks_children _ (refresh dup) collect_ids wipe vc vr); [kinds|same_kind|assumption]]; cbn [wipe]; intros z ->; reflexivity.

  Lemma refresh_tracks n : tracks (refresh dup) collect_ids wipe n.
  Proof.
    induction n as [n IH] using node_tree_ind.
    destruct n; try (intros ?; split; reflexivity); cbn [children] in IH.
    - simple_case run_visit_c run_visit_r (NRun p).
    - simple_case block_visit_c block_visit_r (NCommentStart c).
    - simple_case ins_visit_c ins_visit_r (NIns a).
    - simple_case del_visit_c del_visit_r (NDel a).
    - simple_case del_visit_c del_visit_r (NMoveFrom a).
    - simple_case ins_visit_c ins_visit_r (NMoveTo a).
    - simple_case para_visit_c para_visit_r (NLink l history).
    - simple_case sdt_visit_c sdt_visit_r (NSdt p numbering).
    - assert (H : tracks (pass (fun c s => if para_visit_r c then refresh dup c s else Some (c, s)))
           (flat_map (fun c => if para_visit_c c then collect_ids c else [])) (map wipe) ch)
        by (apply (tracks_children _ (refresh dup) collect_ids wipe para_visit_c para_visit_r); [kinds|same_kind|assumption]).
      intros s. cbn [refresh collect_ids pass]. destruct (ensure dup id s) as [(id' & s1)|]; [|reflexivity].
      specialize (H s1). unfold then_.
      destruct (pass (fun c s => if para_visit_r c then refresh dup c s else Some (c, s)) ch s1) as [(ch' & s2)|].
      + destruct H as [-> H]. cbn [collect_ids wipe]. split; [reflexivity|now rewrite H].
      + now rewrite H.
    - simple_case is_row is_row (NTable p grid numbering).
    - simple_case is_cell is_cell (NRow p numbering).
    - simple_case cell_visit_c cell_visit_r (NCell p numbering).
    - apply Forall_app in IH. destruct IH as [Hb Ha].
      eapply (tracks_then _ _ _ (fun p => (map wipe (fst p), map wipe (snd p))) (fun p => NToc d (fst p) (snd p)));
        [| | | |apply tracks_pair; apply (tracks_children _ (refresh dup) collect_ids wipe block_visit_c block_visit_r); [kinds|same_kind|exact Hb|kinds|same_kind|exact Ha]].
      + intros s. cbn [refresh fst snd]. destruct (pass _ before s) as [(b' & s1)|]; [|reflexivity].
        unfold then_. destruct (pass _ after s1) as [(a' & s2)|]; reflexivity.
      + reflexivity.
      + intros (b & a). reflexivity.
      + intros (b & a) E. cbn in *. now injection E as -> ->.
    - apply Forall_app in IH. destruct IH as [Hc Hp].
      eapply (tracks_then _ _ _ (fun q => (map wipe (fst q), map wipe (snd q))) (fun q => NSection p (snd q) numbering (fst q)));
        [| | | |apply tracks_pair; [apply (tracks_children _ (refresh dup) collect_ids wipe section_visit_c section_visit_r); [kinds|same_kind|exact Hc]
                                   |apply (tracks_children _ (refresh dup) collect_ids wipe is_part is_part); [kinds|same_kind|exact Hp]]].
      + intros s. cbn [refresh fst snd]. destruct (pass _ ch s) as [(b' & s1)|]; [|reflexivity].
        unfold then_. destruct (pass _ parts s1) as [(a' & s2)|]; reflexivity.
      + reflexivity.
      + intros (b & a). reflexivity.
      + intros (b & a) E. cbn in *. now injection E as -> ->.
    - simple_case part_visit_c part_visit_r (NPart s rid numbering).
  Qed.
  Lemma refresh_tracks_all l : Forall (tracks (refresh dup) collect_ids wipe) l.
  Proof. apply Forall_forall. intros n _. apply refresh_tracks. Qed.

  Lemma refresh_docx_tracks d : tracks (refresh_docx dup) collect_docx wipe_docx d.
  Proof.
    intros s. unfold refresh_docx, collect_docx. rewrite pass_app.
    assert (H1 := tracks_children _ (refresh dup) collect_ids wipe doc_visit_c doc_visit_r (d_body d) ltac:(kinds) ltac:(same_kind) (refresh_tracks_all _) s).
    destruct (pass _ (d_body d) s) as [(body & s1)|]; [|now rewrite H1]. destruct H1 as [-> W1]. rewrite pass_app.
    assert (H2 := tracks_children _ (refresh dup) collect_ids wipe is_part is_part (d_parts d) ltac:(kinds) ltac:(same_kind) (refresh_tracks_all _) s1).
    destruct (pass _ (d_parts d) s1) as [(parts & s2)|]; [|now rewrite H2]. destruct H2 as [-> W2]. rewrite pass_app.
    match goal with |- context [pass ?f (d_comments d) s2] => set (F3 := f);
      assert (H3 : tracks (pass F3) (flat_map (fun c => flat_map (fun x => if block_visit_c x then collect_ids x else []) (snd c)))
        (map (fun c => (fst c, map wipe (snd c)))) (d_comments d)) end.
    { apply tracks_list, Forall_forall. intros (c & l) _.
      eapply (tracks_then _ _ _ (map wipe) (pair c)); [reflexivity|reflexivity|reflexivity| |
        apply (tracks_children _ (refresh dup) collect_ids wipe block_visit_c block_visit_r); [kinds|same_kind|apply refresh_tracks_all]].
      cbn. now intros z ->. }
    specialize (H3 s2).
    destruct (pass F3 (d_comments d) s2) as [(comments & s3)|]; [|now rewrite H3].
    destruct H3 as [-> W3].
    match goal with |- context [pass ?f (d_footnotes d) s3] => set (F4 := f);
      assert (H4 : tracks (pass F4) (flat_map (fun c => flat_map (fun x => if is_para x then collect_ids x else []) (snd c)))
        (map (fun c => (fst c, map wipe (snd c)))) (d_footnotes d)) end.
    { apply tracks_list, Forall_forall. intros (c & l) _.
      eapply (tracks_then _ _ _ (map wipe) (pair c)); [reflexivity|reflexivity|reflexivity| |
        apply (tracks_children _ (refresh dup) collect_ids wipe is_para is_para); [kinds|same_kind|apply refresh_tracks_all]].
      cbn. now intros z ->. }
    specialize (H4 s3). unfold then_ at 1.
    destruct (pass F4 (d_footnotes d) s3) as [(footnotes & s4)|]; [|now rewrite H4].
    destruct H4 as [-> W4]. cbn [d_body d_parts d_comments d_footnotes d_sect]. split; [reflexivity|].
    unfold wipe_docx. cbn [d_body d_parts d_comments d_footnotes d_sect]. congruence.
  Qed.
End Tree.

(** * What the passes visit *)
Lemma wipe_visit (vc : node -> bool) : (forall c, vc (wipe c) = vc c) -> forall l, forallb vc (map wipe l) = forallb vc l.
Proof. intros H l. induction l as [|c l IH]; cbn; [reflexivity|]. now rewrite H, IH. Qed.
Lemma local_ok_wipe n : local_ok (wipe n) = local_ok n.
Proof.
  destruct n; cbn [wipe local_ok]; rewrite ?wipe_visit; try reflexivity; intros []; reflexivity.
Qed.

Lemma open_nodes_eq n : open_nodes n = n :: match n with NTextBox _ | NFootRef _ _ _ => [] | _ => flat_map open_nodes (children n) end.
Proof. destruct n; cbn [open_nodes children flat_map]; rewrite ?flat_map_app; reflexivity. Qed.
Lemma all_nodes_eq n : all_nodes n = n :: flat_map all_nodes (children n).
Proof. destruct n; cbn [all_nodes children flat_map]; rewrite ?flat_map_app; reflexivity. Qed.

Lemma open_nodes_wipe n : open_nodes (wipe n) = map wipe (open_nodes n).
Proof.
  induction n as [n IH] using node_tree_ind.
  rewrite (open_nodes_eq n), (open_nodes_eq (wipe n)). cbn [map]. f_equal.
  assert (E : children (wipe n) = match n with NTextBox _ | NFootRef _ _ _ => children n | _ => map wipe (children n) end)
    by (destruct n; cbn [wipe children map]; rewrite ?map_app; reflexivity).
  destruct n; try reflexivity; cbn [wipe]; cbn [wipe] in E; rewrite E; rewrite flat_map_map, map_flat_map; now apply flat_map_in_ext.
Qed.
Definition open_ok (n : node) : Prop := Forall (fun m => local_ok m = true) (open_nodes n).
Lemma open_ok_wipe n : open_ok (wipe n) <-> open_ok n.
Proof.
  unfold open_ok. rewrite open_nodes_wipe, Forall_map. split; intros H; (eapply Forall_impl; [|exact H]); intros m Hm; cbn in *.
  - now rewrite local_ok_wipe in Hm.
  - now rewrite local_ok_wipe.
Qed.
Lemma open_in_all n : incl (open_nodes n) (all_nodes n).
Proof.
  induction n as [n IH] using node_tree_ind. rewrite open_nodes_eq, all_nodes_eq.
  intros m [<-|Hm]; [now left|]. right.
  assert (Hm' : In m (flat_map open_nodes (children n))) by (destruct n; try exact Hm; destruct Hm).
  apply in_flat_map in Hm'. destruct Hm' as (c & Hc & Hm'). apply in_flat_map. exists c. split; [exact Hc|].
  rewrite Forall_forall in IH. now apply (IH c Hc).
Qed.
Lemma well_formed_open n : well_formed n -> open_ok n.
Proof. unfold well_formed, open_ok. rewrite !Forall_forall. intros H m Hm. apply H. now apply open_in_all. Qed.

Definition ids_below (n : node) : list string := flat_map para_id (open_nodes n).
Lemma leaf_ids n : children n = [] -> para_id n = [] -> ids_below n = [].
Proof.
  intros H H'. unfold ids_below. rewrite open_nodes_eq, H. cbn [flat_map]. rewrite H'. destruct n; reflexivity.
Qed.
Lemma collect_list kind vc l :
  (forall c, kind c = true -> vc c = false -> ids_below c = []) ->
  forallb kind l = true -> Forall (fun c => collect_ids c = ids_below c) l ->
  flat_map (fun c => if vc c then collect_ids c else []) l = flat_map ids_below l.
Proof.
  intros Hv Hk H. apply flat_map_in_ext. rewrite forallb_forall in Hk. rewrite Forall_forall in *.
  intros c Hc. destruct (vc c) eqn:E; [now apply H|]. symmetry. now apply Hv; [apply Hk|].
Qed.

Ltac leafs := let E := fresh in intros [] _ E; first [discriminate E | reflexivity | (apply leaf_ids; reflexivity)].
Ltac leafs_k := let K := fresh in let E := fresh in
  intros [] K E; first [discriminate K | discriminate E | reflexivity].

Lemma collect_open n : open_ok n -> collect_ids n = ids_below n.
Proof.
  induction n as [n IH] using node_tree_ind. intros Hok.
  assert (IH' : match n with NTextBox _ | NFootRef _ _ _ => True | _ => Forall (fun c => collect_ids c = ids_below c) (children n) end).
  { unfold open_ok in Hok. rewrite open_nodes_eq in Hok. inversion Hok as [|? ? _ H]; subst.
    assert (G : Forall (fun m => local_ok m = true) (flat_map open_nodes (children n)) -> Forall (fun c => collect_ids c = ids_below c) (children n)).
    { intros Hc. rewrite Forall_forall in *. intros c Hin. apply IH; [exact Hin|]. apply Forall_forall. intros m Hm.
      apply Hc, in_flat_map. eauto. }
    destruct n; try exact I; apply G; exact H. }
  unfold open_ok in Hok. rewrite open_nodes_eq in Hok. inversion Hok as [|? ? Hl _]; subst. clear IH Hok.
  unfold ids_below. rewrite open_nodes_eq. 
  destruct n; try reflexivity; cbn [children collect_ids para_id flat_map app] in *; rewrite ?flat_map_flat_map; cbn [local_ok] in Hl.
  - apply (collect_list run_child); [leafs_k|exact Hl|exact IH'].
  - apply (collect_list plain_block); [leafs_k|exact Hl|exact IH'].
  - apply (collect_list ins_child); [leafs_k|exact Hl|exact IH'].
  - apply (collect_list del_child); [leafs_k|exact Hl|exact IH'].
  - apply (collect_list del_child); [leafs_k|exact Hl|exact IH'].
  - apply (collect_list ins_child); [leafs_k|exact Hl|exact IH'].
  - apply (collect_list para_child); [leafs_k|exact Hl|exact IH'].
  - apply (collect_list sdt_child); [leafs_k|exact Hl|exact IH'].
  - f_equal. apply (collect_list para_child); [leafs_k|exact Hl|exact IH'].
  - apply (collect_list is_row); [leafs_k|exact Hl|exact IH'].
  - apply (collect_list is_cell); [leafs_k|exact Hl|exact IH'].
  - apply (collect_list cell_child); [leafs_k|exact Hl|exact IH'].
  - apply andb_true_iff in Hl. destruct Hl as [H1 H2]. apply Forall_app in IH'. destruct IH' as [I1 I2].
    rewrite flat_map_app. f_equal; (apply (collect_list plain_block); [leafs_k|assumption|assumption]).
  - apply andb_true_iff in Hl. destruct Hl as [H1 H2]. apply Forall_app in IH'. destruct IH' as [I1 I2].
    rewrite flat_map_app. f_equal.
    + apply (collect_list section_child); [leafs_k|assumption|assumption].
    + apply (collect_list is_part); [leafs_k|assumption|assumption].
  - apply (collect_list part_child); [leafs_k|exact Hl|exact IH'].
Qed.

(** Rust's typing, as far as the passes see it *)
Definition docx_ok (d : docx) : Prop :=
  forallb doc_child (d_body d) = true /\ forallb is_part (d_parts d) = true /\
  forallb (fun c => forallb plain_block (snd c)) (d_comments d) = true /\
  forallb (fun f => forallb is_para (snd f)) (d_footnotes d) = true /\
  Forall open_ok (doc_roots d).
Lemma docx_well_formed_ok d : doc_well_formed d -> docx_ok d.
Proof.
  intros (H1 & H2 & H3 & H4 & H5). repeat split; auto.
  - apply forallb_forall. now apply Forall_forall.
  - apply forallb_forall. now apply Forall_forall.
  - eapply Forall_impl; [|exact H5]. apply well_formed_open.
Qed.
Lemma doc_roots_wipe d : doc_roots (wipe_docx d) = map wipe (doc_roots d).
Proof.
  unfold doc_roots, wipe_docx. cbn [d_body d_parts d_comments d_footnotes]. rewrite !map_app.
  rewrite !flat_map_map, !map_flat_map. reflexivity.
Qed.
Lemma docx_ok_wipe d : docx_ok (wipe_docx d) <-> docx_ok d.
Proof.
  unfold docx_ok. rewrite doc_roots_wipe, Forall_map. unfold wipe_docx. cbn [d_body d_parts d_comments d_footnotes].
  rewrite !wipe_visit by (intros []; reflexivity).
  assert (E : forall (A : Type) (v : node -> bool) (l : list (A * list node)), (forall c, v (wipe c) = v c) ->
    forallb (fun c => forallb v (snd c)) (map (fun c => (fst c, map wipe (snd c))) l) = forallb (fun c => forallb v (snd c)) l).
  { intros A v l Hv. induction l as [|x l IH]; cbn; [reflexivity|]. now rewrite wipe_visit, IH. }
  rewrite !E by (intros []; reflexivity).
  assert (F : Forall (fun n => open_ok (wipe n)) (doc_roots d) <-> Forall open_ok (doc_roots d)).
  { rewrite !Forall_forall. split; intros H x Hx; apply open_ok_wipe; auto. }
  rewrite F. reflexivity.
Qed.

Lemma collect_docx_open d : docx_ok d -> collect_docx d = open_para_ids d.
Proof.
  intros (H1 & H2 & H3 & H4 & H5). unfold collect_docx, open_para_ids, doc_roots in *.
  rewrite !flat_map_app, !flat_map_flat_map. rewrite !Forall_app in H5. destruct H5 as (B & P & C & F).
  assert (G : forall l, Forall open_ok l -> Forall (fun c => collect_ids c = ids_below c) l).
  { intros l H. eapply Forall_impl; [|exact H]. apply collect_open. }
  f_equal; [|f_equal; [|f_equal]].
  - apply (collect_list doc_child); [leafs_k|exact H1|auto].
  - apply (collect_list is_part); [leafs_k|exact H2|auto].
  - apply flat_map_in_ext. rewrite forallb_forall in H3. rewrite Forall_forall in C |- *. intros c Hc.
    apply (collect_list plain_block); [leafs_k|now apply H3|]. apply G, Forall_forall.
    intros x Hx. apply C, in_flat_map. eauto.
  - apply flat_map_in_ext. rewrite forallb_forall in H4. rewrite Forall_forall in F |- *. intros c Hc.
    apply (collect_list is_para); [leafs_k|now apply H4|]. apply G, Forall_forall.
    intros x Hx. apply F, in_flat_map. eauto.
Qed.

(** * Whole documents *)
Lemma unique_no_dup ids : negb (existsb (is_duplicate ids) ids) && negb (mem "" ids) = true <-> ids_unique ids.
Proof.
  rewrite andb_true_iff, !negb_true_iff, mem_not. unfold ids_unique.
  enough (E : existsb (is_duplicate ids) ids = false <-> NoDup ids) by tauto.
  split.
  - intros H. assert (A : forall x, In x ids -> count x ids <= 1).
    { intros x Hx. destruct (is_duplicate ids x) eqn:D.
      - enough (existsb (is_duplicate ids) ids = true) by congruence. apply existsb_exists. eauto.
      - now apply PeanoNat.Nat.ltb_ge in D. }
    clear H. induction ids as [|y l IH]; constructor.
    + intros Hy. specialize (A y (or_introl eq_refl)). change (y :: l) with ([y] ++ l) in A. rewrite count_app in A.
      apply count_in in Hy. unfold count at 1 in A. cbn in A. rewrite String.eqb_refl in A. cbn in A. lia.
    + apply IH. intros x Hx. specialize (A x (or_intror Hx)). change (y :: l) with ([y] ++ l) in A. rewrite count_app in A. lia.
  - intros H. apply not_true_is_false. intros E. apply existsb_exists in E. destruct E as (x & Hx & D).
    apply PeanoNat.Nat.ltb_lt in D. apply in_split in Hx. destruct Hx as (a & b & ->).
    rewrite count_app in D. change (x :: b) with ([x] ++ b) in D. rewrite count_app in D.
    apply NoDup_remove_2 in H. rewrite in_app_iff in H. rewrite !count_in in H.
    unfold count at 2 in D. cbn in D. rewrite String.eqb_refl in D. cbn in D. lia.
Qed.
Lemma unique_renews ids : ids_unique ids -> renews ids ids.
Proof. intros H. repeat split; auto; try apply H. Qed.
Lemma renewals_unique ids : ids_unique ids -> to_renew ids = 0.
Proof.
  intros [H E]. unfold to_renew. rewrite (nodup_fixed_point string_dec).
  - enough (filter (fun id => negb (id =s "")) ids = ids) as -> by lia.
    clear H. induction ids as [|x l IH]; cbn; [reflexivity|]. destruct (x =s "") eqn:Ex.
    + apply String.eqb_eq in Ex. subst. exfalso. apply E. now left.
    + cbn. f_equal. apply IH. intros Hx. apply E. now right.
  - now apply NoDup_filter.
Qed.

Lemma refresh_duplicate_spec d c : docx_ok d ->
  match refresh_duplicate_ids d c with
  | Some (d', c') =>
      renews (open_para_ids d) (open_para_ids d') /\ wipe_docx d' = wipe_docx d /\
      c' = (c + N.of_nat (to_renew (open_para_ids d)))%N /\
      (to_renew (open_para_ids d) = 0 \/ (c + N.of_nat (to_renew (open_para_ids d)) < two32)%N)
  | None => 0 < to_renew (open_para_ids d) /\ (two32 <= c + N.of_nat (to_renew (open_para_ids d)))%N
  end.
Proof.
  intros Hok. unfold refresh_duplicate_ids. rewrite (collect_docx_open d Hok). set (ids := open_para_ids d).
  destruct (negb (existsb (is_duplicate ids) ids) && negb (mem "" ids)) eqn:Eu.
  - apply unique_no_dup in Eu. split; [now apply unique_renews|]. rewrite (renewals_unique _ Eu). cbn [N.of_nat].
    rewrite N.add_0_r. auto.
  - pose proof (refresh_docx_tracks (is_duplicate ids) d {| used := keys ids; seen := []; counter := c |}) as Ht.
    rewrite (collect_docx_open d Hok) in Ht. fold ids in Ht.
    assert (Hi : Inv ids [] [] {| used := keys ids; seen := []; counter := c |}).
    { unfold Inv. cbn [used seen]. split; [apply keys_nodup|]. split; [intros x Hx; now apply keys_in|].
      split; [intros x []|]. split; [constructor|]. split; [intros []|]. split; [intros x []|]. intros x; cbn; tauto. }
    pose proof (pass_ids ids ids [] [] _ eq_refl Hi) as Hp. cbn [counter] in Hp. rewrite <- to_renew_eq in Hp.
    destruct (refresh_docx (is_duplicate ids) d _) as [(d' & s')|].
    + destruct Ht as [Hc Hw]. rewrite Hc in Hp. destruct Hp as (R & (_ & _ & _ & Hn & He & _) & Hcnt & Hlt).
      assert (Hok' : docx_ok d') by (apply docx_ok_wipe; rewrite Hw; now apply docx_ok_wipe).
      rewrite (collect_docx_open d' Hok') in *. cbn [app] in *.
      split; [|split; [exact Hw|split; [exact Hcnt|exact Hlt]]].
      split; [exact (renewed_length _ _ _ _ R)|]. split; [split; assumption|]. split.
      * intros i id H1 H2 H3. apply (renewed_first _ _ _ _ _ _ R); auto.
      * intros i x H1. apply (renewed_fresh _ _ _ _ _ _ R); auto.
    + rewrite Ht in Hp. exact Hp.
Qed.

Lemma prepare_spec d d' : doc_well_formed d -> prepare_ids d = Some d' ->
  renews (open_para_ids d) (open_para_ids d') /\ wipe_docx d' = wipe_docx d.
Proof.
  intros Hw H. pose proof (refresh_duplicate_spec d (reset_id 0) (docx_well_formed_ok d Hw)) as S. unfold prepare_ids in H.
  destruct (refresh_duplicate_ids d (reset_id 0)) as [(d1 & c)|]; [|discriminate]. injection H as ->. tauto.
Qed.
Lemma prepare_total d : doc_well_formed d ->
  ((exists d', prepare_ids d = Some d') <-> (N.of_nat (to_renew (open_para_ids d)) < 4294967295)%N).
Proof.
  intros Hw. pose proof (refresh_duplicate_spec d (reset_id 0) (docx_well_formed_ok d Hw)) as S. unfold prepare_ids.
  change (reset_id 0) with 1%N in *. change two32 with 4294967296%N in S.
  destruct (refresh_duplicate_ids d 1) as [(d1 & c)|].
  - split; [|eauto]. intros _. destruct S as (_ & _ & _ & [S|S]); [rewrite S; reflexivity|lia].
  - split; [intros (d' & E); discriminate|]. lia.
Qed.
Lemma prepare_keeps d : doc_well_formed d -> ids_unique (open_para_ids d) -> prepare_ids d = Some d.
Proof.
  intros Hw Hu. unfold prepare_ids, refresh_duplicate_ids. rewrite (collect_docx_open d (docx_well_formed_ok d Hw)).
  apply unique_no_dup in Hu. now rewrite Hu.
Qed.

Lemma hidden_ids n : Forall (fun m => match m with NFootRef _ _ ch | NTextBox ch => ch = [] | _ => True end) (all_nodes n) ->
  all_nodes n = open_nodes n.
Proof.
  induction n as [n IH] using node_tree_ind. rewrite all_nodes_eq, open_nodes_eq. intros H. inversion H as [|? ? Hn Hc]; subst.
  f_equal. assert (E : flat_map all_nodes (children n) = flat_map open_nodes (children n)).
  { apply flat_map_in_ext. rewrite Forall_forall in *. intros c Hin. apply IH; [exact Hin|]. apply Forall_forall. intros m Hm.
    apply Hc, in_flat_map. eauto. }
  destruct n; try exact E; cbn [children]; now rewrite Hn.
Qed.
Lemma all_open_ids d : nothing_hidden d -> all_para_ids d = open_para_ids d.
Proof.
  unfold nothing_hidden, all_para_ids, open_para_ids. intros H. f_equal. apply flat_map_in_ext.
  rewrite Forall_forall in *. intros n Hn. apply hidden_ids, Forall_forall. intros m Hm. apply H, in_flat_map. eauto.
Qed.
(** Nothing hidden is a matter of the wiped tree. *)
Lemma hidden_wipe n :
  Forall (fun m => match m with NFootRef _ _ ch | NTextBox ch => ch = [] | _ => True end) (all_nodes n) <->
  Forall (fun m => match m with NFootRef _ _ ch | NTextBox ch => ch = [] | _ => True end) (all_nodes (wipe n)).
Proof.
  induction n as [n IH] using node_tree_ind. rewrite !all_nodes_eq, !Forall_cons_iff.
  assert (E : children (wipe n) = match n with NTextBox _ | NFootRef _ _ _ => children n | _ => map wipe (children n) end)
    by (destruct n; cbn [wipe children map]; rewrite ?map_app; reflexivity).
  assert (G : Forall (fun m => match m with NFootRef _ _ ch | NTextBox ch => ch = [] | _ => True end) (flat_map all_nodes (children n)) <->
    Forall (fun m => match m with NFootRef _ _ ch | NTextBox ch => ch = [] | _ => True end) (flat_map all_nodes (map wipe (children n)))).
  { clear E. induction IH as [|c l Hc _ IHl]; cbn; [tauto|]. rewrite !Forall_app, Hc, IHl. tauto. }
  destruct n; rewrite E; cbn [wipe]; tauto.
Qed.
Lemma hidden_docx_wipe d : nothing_hidden d <-> nothing_hidden (wipe_docx d).
Proof.
  unfold nothing_hidden. rewrite doc_roots_wipe. induction (doc_roots d) as [|n l IH]; cbn; [tauto|].
  rewrite !Forall_app, <- hidden_wipe, IH. tauto.
Qed.
Lemma prepare_all d d' : doc_well_formed d -> nothing_hidden d -> prepare_ids d = Some d' ->
  renews (all_para_ids d) (all_para_ids d').
Proof.
  intros Hw Hh H. destruct (prepare_spec d d' Hw H) as [R W].
  rewrite (all_open_ids d Hh), (all_open_ids d'); [exact R|]. apply hidden_docx_wipe. rewrite W. now apply hidden_docx_wipe in Hh.
Qed.
Lemma next_unique_total u c : NoDup u ->
  (exists id, next_unique u c = Some (id, (c + 1)%N) /\ ~ In id u /\ id <> "") \/ ((two32 <= c + 1)%N /\ next_unique u c = None).
Proof.
  intros Hu. pose proof (next_unique_spec u c Hu) as H. destruct (next_unique u c) as [(id & c')|].
  - left. destruct H as (H1 & H2 & -> & _). eauto.
  - right. auto.
Qed.

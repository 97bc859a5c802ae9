(** Saving and opening again and again. *)
From Coq Require Import NArith ZArith List Bool Lia.
From Verif Require Import Str StrFacts TypesModel Props Ast IdsModel EscapeModel EscapeSpec EscapeProofs XmlParser XmlSpec WriterModel
  ReadBase ReadModel ReadSpec RoundSpec RoundParts SurviveSpec SurviveProofs WellSpec WellPartProofs CycleSpec CycleProofs CycleTree CycleGrow.
From Verif Require BuildModel BuildSpec BuildProofs BuildProperties ReadProperties RoundProperties.
Import ListNotations.
Open Scope list_scope.

Definition once (a : state) : state := (flat_map (reread InDocument) (fst a), reread_sectpr (snd a)).

(** ** What is read can be written and read *)
Lemma read_strings : forall n p, plain n -> Forall plain_piece (in_body (reread p n)).
Proof.
  induction n as [n IH] using node_tree_ind. intros p Hp.
  set (W := fun l => Forall plain_piece (in_body l)).
  assert (App : forall l m, W l -> W m -> W (l ++ m)) by (intros l m H1 H2; unfold W, in_body; rewrite flat_map_app; apply Forall_app; auto).
  assert (A : forall q, Forall plain (children n) -> W (flat_map (reread q) (children n))).
  { intros q. revert IH. generalize (children n). induction 1 as [|m l Hm _ IHl]; [intros _; apply Forall_nil|]. intros P. apply Forall_cons_iff in P as [P1 P2].
    cbn [flat_map]. apply App; [now apply Hm | now apply IHl]. }
  apply plain_iff in Hp as [Ho Hb].
  assert (One : forall m, in_node m = own_strings m ++ in_body (below m) -> Forall plain_piece (own_strings m) -> W (below m) -> W [m]).
  { intros m H1 H2 H3. unfold W, in_body. cbn [flat_map]. rewrite app_nil_r, H1. apply Forall_app. split; assumption. }
  clear IH. change (W (reread p n)).
  destruct n; cbn [children] in A; cbn [reread]; try apply Forall_nil; cbn [below] in Hb; try (pose proof (fun q => A q Hb) as A'; clear A; rename A' into A); cbn [own_strings] in Ho;
    try solve [unfold W; cbn; repeat constructor].
  - apply One; [reflexivity | now apply rpr_settles|]. cbn [below]. clear A. induction ch as [|m ch IH]; [apply Forall_nil|]. apply Forall_cons_iff in Hb as [H1 H2]. cbn [flat_map]. apply App; [|now apply IH].
    apply child_plain in H1. clear -H1 One. destruct m; cbn [reread_in_run] in *; unfold reread_text in *; try apply Forall_nil; try (destruct s; [apply Forall_nil|]);
      apply Forall_inv in H1; apply plain_iff in H1 as [H1 _]; (apply One; [reflexivity | exact H1 | apply Forall_nil]).
  - destruct p; unfold W; cbn; repeat constructor.
  - apply Forall_inv in Ho. apply One; [reflexivity | | apply Forall_nil]. cbn [own_strings plain_piece] in *. constructor; [|apply Forall_nil]. cbn [plain_piece]. now rewrite seen_unmarked.
  - apply One; [reflexivity | now apply mark_settles | apply A].
  - apply One; [reflexivity | now apply mark_settles | apply A].
  - destruct p; try apply Forall_nil; (apply One; [reflexivity | now apply mark_settles | apply A]).
  - destruct p; try apply A; (apply One; [reflexivity | now apply mark_settles | apply A]).
  - apply Forall_inv in Ho. apply One; [destruct l; reflexivity | | apply A]. constructor; [now apply link_strings | apply Forall_nil].
  - assert (X : W [NSdt sdtpr_empty false (flat_map (reread InSdt) ch)]) by (apply One; [reflexivity | apply Forall_nil | apply A]).
    destruct (marks_plain _ InPara Ho) as [M _].
    assert (MI : forall m, plain (NIns m []) -> W [NIns m []]) by (intros m H; apply One; [reflexivity | apply plain_iff in H; apply H | apply Forall_nil]).
    assert (MD : forall m, plain (NDel m []) -> W [NDel m []]) by (intros m H; apply One; [reflexivity | apply plain_iff in H; apply H | apply Forall_nil]).
    apply Forall_app in M as [MA MB].
    assert (Y : W (BuildModel.opt (fun m => NIns (reread_mark m) []) (r_ins (sd_rpr p0)) ++ BuildModel.opt (fun m => NDel (reread_mark m) []) (r_del (sd_rpr p0)))).
    { apply App; [destruct (r_ins (sd_rpr p0)) | destruct (r_del (sd_rpr p0))]; cbn [BuildModel.opt] in *; try apply Forall_nil;
        [apply Forall_inv in MA; now apply MI | apply Forall_inv in MB; now apply MD]. }
    destruct p; try exact X; rewrite app_assoc; (apply App; [exact Y | apply A]).
  - apply Forall_cons_iff in Ho as [H1 H2]. apply One; [reflexivity | | apply A]. cbn [own_strings]. constructor; [cbn [plain_piece] in *; now rewrite seen_unmarked|]. now apply ppr_settles.
  - apply One; [reflexivity | now apply tblpr_settles | apply A].
  - apply One; [reflexivity | now apply trpr_settles | apply A].
  - apply One; [reflexivity | now apply tcpr_settles | apply A].
Qed.
Lemma once_steady a : steady a -> steady (once a).
Proof.
  intros [[H1 H2] H3 H4 [H5 H6]]. constructor; cbn [once fst snd].
  - split; [apply flat_forall; eapply Forall_impl; [|exact H1]; intros n; apply read_is_plain | now apply sectpr_settles].
  - unfold in_document. apply Forall_app. split.
    + unfold in_body. apply flat_forall, flat_forall. eapply Forall_impl; [|exact H1]. intros n Hn. apply forall_flat. eapply Forall_impl; [apply plain_readable|]. now apply read_strings.
    + eapply Forall_impl; [apply plain_readable|]. now apply sectpr_settles.
  - revert H4. generalize (fst a) as l. induction l as [|n l IH]; [reflexivity|]. cbn [forallb flat_map]. intros H. apply andb_true_iff in H as [K1 K2].
    rewrite forallb_app, read_is_kept, IH; auto.
  - split; [apply flat_forall; eapply Forall_impl; [|exact H5]; intros n; apply read_fits | now apply sectpr_fits].
Qed.
Lemma opened_once a b : steady a -> saved_and_opened a b -> b = once a.
Proof.
  intros [[H1 H2] H3 H4 [H5 H6]] (s & x & s' & w & r & r' & B & W & R & I & D).
  destruct (RoundProperties.document_read_back _ _ _ _ _ B H3 H4 H5 H6) as (t & (w' & W' & Q) & K). rewrite W in W'. injection W' as <-. subst t.
  destruct (K r R I) as (r2 & D2). rewrite D in D2. injection D2 as -> _. reflexivity.
Qed.
Lemma times_is k a b : steady a -> times k a b -> b = Nat.iter k once a /\ steady b.
Proof.
  intros H T. revert H. induction T as [a|k a b c _ IH O]; intros H; [auto|]. destruct (IH H) as [-> S1].
  rewrite (opened_once _ _ S1 O). split; [reflexivity | now apply once_steady].
Qed.
(** Once it can be saved, it can be saved and opened any number of times. *)
Lemma once_builds a s x s' : steady a -> BuildModel.b_document (fst a) (snd a) s = Some (x, s') ->
  exists x2 s2, BuildModel.b_document (fst (once a)) (snd (once a)) s = Some (x2, s2).
Proof.
  intros [[H1 H2] H3 H4 [H5 H6]] B. apply BuildProperties.document_builds_iff.
  assert (K : exists x s', BuildModel.b_document (fst a) (snd a) s = Some (x, s')) by eauto. apply BuildProperties.document_builds_iff in K as [_ K].
  cbn [once fst]. split.
  - intros n Hn. apply in_flat_map in Hn as (m & M1 & M2). apply in_flat_map in M1 as (m0 & M0 & M1).
    pose proof (read_is_writable m0 InDocument) as Q. rewrite Forall_forall in Q. apply Q. apply in_flat_map. eauto.
  - eapply le_enough; [|exact K]. clear -H4. induction (fst a) as [|n l IH]; [apply le_refl|]. cbn [forallb flat_map] in *. apply andb_true_iff in H4 as [K1 K2].
    rewrite BuildProofs.nodes_spend_app, (BuildProofs.nodes_spend_cons n l). apply le_plus; [now apply read_spends | now apply IH].
Qed.
Lemma once_paras a : (sumN paras (fst (once a)) <= sumN paras (fst a))%N.
Proof.
  cbn [once fst]. induction (fst a) as [|n l IH]; [reflexivity|]. cbn [flat_map]. rewrite sumN_app, sumN_cons. pose proof (read_paras n InDocument). lia.
Qed.

Lemma once_opens a s x s' : steady a -> BuildModel.b_document (fst a) (snd a) s = Some (x, s') -> (1 + sumN paras (fst a) < 4294967296)%N -> saved_and_opened a (once a).
Proof.
  intros [[H1 H2] H3 H4 [H5 H6]] B L. destruct (RoundProperties.document_read_back _ _ _ _ _ B H3 H4 H5 H6) as (t & (w & W & Q) & K). subst t.
  destruct (K (ReadProperties.from_text (WriterModel.out w)) (ReadProperties.from_text_reads _)) as (r' & D); [exact L|].
  exists s, x, s', w, (ReadProperties.from_text (WriterModel.out w)), r'. repeat split; try assumption. apply ReadProperties.from_text_reads.
Qed.
Lemma times_go k : forall a s x s', steady a -> BuildModel.b_document (fst a) (snd a) s = Some (x, s') -> (1 + sumN paras (fst a) < 4294967296)%N ->
  times k a (Nat.iter k once a).
Proof.
  intros a s x s' S0 B L. cut (times k a (Nat.iter k once a) /\ steady (Nat.iter k once a) /\ (1 + sumN paras (fst (Nat.iter k once a)) < 4294967296)%N /\
    exists x s', BuildModel.b_document (fst (Nat.iter k once a)) (snd (Nat.iter k once a)) s = Some (x, s')); [tauto|].
  induction k as [|k IH]; [change (Nat.iter 0 once a) with a; split; [apply Never | split; [exact S0 | split; [exact L | now exists x, s']]]|].
  destruct IH as (T & S1 & L1 & x1 & s1 & B1). change (Nat.iter (S k) once a) with (once (Nat.iter k once a)). set (b := Nat.iter k once a) in *.
  split; [eapply Again; [exact T | now apply (once_opens b s x1 s1)]|]. split; [now apply once_steady|]. split; [pose proof (once_paras b); lia|]. now apply (once_builds b s x1 s1).
Qed.

(** ** Settling *)
Definition at_rest (a : state) : Prop := Forall (calm InDocument) (fst a) /\ reread_sectpr (snd a) = snd a.
Lemma rest_if_quick a : steady a -> quick (fst a) -> at_rest (once a).
Proof.
  intros [[H1 H2] _ _ _] Q. split; cbn [once fst snd]; [|now apply sectpr_settles]. unfold quick in Q. apply forall_flat in Q. apply flat_forall.
  apply Forall_impl with (P := fun n => plain n /\ no_slow n); [|now apply forall_two]. intros n [A B]. now apply read_is_calm.
Qed.
Lemma once_quick a : quick (fst (once a)).
Proof. unfold quick. cbn [once fst]. apply flat_forall, flat_forall. apply Forall_forall. intros n _. apply read_is_quick. Qed.
Lemma rest_at_two a k : steady a -> at_rest (Nat.iter (2 + k) once a).
Proof.
  intros H. assert (S1 : forall j, steady (Nat.iter j once a)) by (induction j as [|j IH]; [exact H | change (Nat.iter (S j) once a) with (once (Nat.iter j once a)); now apply once_steady]).
  change (Nat.iter (2 + k) once a) with (once (once (Nat.iter k once a))). apply rest_if_quick; [apply once_steady, S1 | apply once_quick].
Qed.
Lemma rest_at_one a k : steady a -> quick (fst a) -> at_rest (Nat.iter (1 + k) once a).
Proof. intros H Q. destruct k as [|k]; [now apply rest_if_quick | now apply (rest_at_two a k)]. Qed.
Lemma rest_stripped a : at_rest a -> flat_map without_empty_runs (fst (once a)) = flat_map without_empty_runs (fst a) /\ snd (once a) = snd a.
Proof. intros [H1 H2]. split; [|exact H2]. cbn [once fst]. apply stripped_list; [apply Forall_forall; intros n _; apply calm_stripped | exact H1]. Qed.
Lemma rest_same a : at_rest a -> sum (ends_inside InDocument) (fst a) = 0 -> once a = a.
Proof.
  intros [H1 H2] E0. destruct a as [l sp]. unfold once. cbn [fst snd] in *. f_equal; [|exact H2]. clear H2. induction H1 as [|n l C _ IH]; [reflexivity|].
  change (ends_inside InDocument n + sum (ends_inside InDocument) l = 0) in E0. cbn [flat_map]. rewrite (calm_same n), IH by (assumption || lia). reflexivity.
Qed.
Lemma rest_size a : at_rest a -> size (fst (once a)) = size (fst a) + 2 * sum (ends_inside InDocument) (fst a).
Proof.
  intros [H1 _]. cbn [once fst]. induction H1 as [|n l C _ IH]; [reflexivity|]. change (sum (ends_inside InDocument) (n :: l)) with (ends_inside InDocument n + sum (ends_inside InDocument) l). cbn [flat_map].
  rewrite size_app, (calm_size n _ C), IH. change (n :: l) with ([n] ++ l). rewrite size_app. lia.
Qed.
Lemma once_ends a : sum (ends_inside InDocument) (fst (once a)) = sum (ends_inside InDocument) (fst a).
Proof. cbn [once fst]. induction (fst a) as [|n l IH]; [reflexivity|]. cbn [flat_map]. rewrite sum_app, ends_kept, IH. reflexivity. Qed.
Lemma iter_ends k a : sum (ends_inside InDocument) (fst (Nat.iter k once a)) = sum (ends_inside InDocument) (fst a).
Proof. induction k as [|k IH]; [reflexivity|]. change (Nat.iter (S k) once a) with (once (Nat.iter k once a)). now rewrite once_ends. Qed.
(** From a point of rest on. *)
Lemma iter_stripped k a j : (forall i, at_rest (Nat.iter (j + i) once a)) ->
  flat_map without_empty_runs (fst (Nat.iter (j + k) once a)) = flat_map without_empty_runs (fst (Nat.iter j once a)) /\ snd (Nat.iter (j + k) once a) = snd (Nat.iter j once a).
Proof.
  intros H. induction k as [|k [IH1 IH2]]; [rewrite Nat.add_0_r; auto|]. rewrite Nat.add_succ_r. change (Nat.iter (S (j + k)) once a) with (once (Nat.iter (j + k) once a)). destruct (rest_stripped _ (H k)) as [R1 R2].
  now rewrite R1, R2.
Qed.
Lemma iter_same k a j : (forall i, at_rest (Nat.iter (j + i) once a)) -> sum (ends_inside InDocument) (fst a) = 0 -> Nat.iter (j + k) once a = Nat.iter j once a.
Proof.
  intros H E0. induction k as [|k IH]; [now rewrite Nat.add_0_r|]. rewrite Nat.add_succ_r. change (Nat.iter (S (j + k)) once a) with (once (Nat.iter (j + k) once a)).
  rewrite rest_same; [exact IH | apply H | now rewrite iter_ends].
Qed.
Lemma iter_size k a j : (forall i, at_rest (Nat.iter (j + i) once a)) ->
  size (fst (Nat.iter (j + k) once a)) = size (fst (Nat.iter j once a)) + 2 * k * sum (ends_inside InDocument) (fst a).
Proof.
  intros H. induction k as [|k IH]; [rewrite Nat.add_0_r; lia|]. rewrite Nat.add_succ_r. change (Nat.iter (S (j + k)) once a) with (once (Nat.iter (j + k) once a)).
  rewrite rest_size by apply H. rewrite IH, iter_ends. lia.
Qed.

(** ** Histories *)
Theorem history_goes_on : forall k a s x s', steady a -> BuildModel.b_document (fst a) (snd a) s = Some (x, s') -> (1 + sumN paras (fst a) < 4294967296)%N -> exists b, times k a b.
Proof. intros k a s x s' H B L. eexists. now apply (times_go k a s x s'). Qed.
Theorem history_determined : forall k a b c, steady a -> times k a b -> times k a c -> b = c.
Proof. intros k a b c H T1 T2. apply times_is in T1 as [-> _], T2 as [-> _]; auto. Qed.
Theorem history_settles : forall k a b c, steady a -> times 2 a b -> times (2 + k) a c ->
  flat_map without_empty_runs (fst c) = flat_map without_empty_runs (fst b) /\ snd c = snd b.
Proof. intros k a b c H T1 T2. apply times_is in T1 as [-> _], T2 as [-> _]; auto. apply iter_stripped. intros i. now apply rest_at_two. Qed.
Theorem history_settles_at_once : forall k a b c, steady a -> quick (fst a) -> times 1 a b -> times (1 + k) a c ->
  flat_map without_empty_runs (fst c) = flat_map without_empty_runs (fst b) /\ snd c = snd b.
Proof. intros k a b c H Q T1 T2. apply times_is in T1 as [-> _], T2 as [-> _]; auto. apply iter_stripped. intros i. now apply rest_at_one. Qed.
Theorem history_stands_still : forall k a b c, steady a -> sum (ends_inside InDocument) (fst a) = 0 -> times 2 a b -> times (2 + k) a c -> c = b.
Proof. intros k a b c H Q T1 T2. apply times_is in T1 as [-> _], T2 as [-> _]; auto. apply iter_same; [|exact Q]. intros i. now apply rest_at_two. Qed.
Theorem history_stands_still_at_once : forall k a b c, steady a -> quick (fst a) -> sum (ends_inside InDocument) (fst a) = 0 -> times 1 a b -> times (1 + k) a c -> c = b.
Proof. intros k a b c H Q E0 T1 T2. apply times_is in T1 as [-> _], T2 as [-> _]; auto. apply iter_same; [|exact E0]. intros i. now apply rest_at_one. Qed.
Theorem history_grows : forall k a b c, steady a -> times 2 a b -> times (2 + k) a c -> size (fst c) = size (fst b) + 2 * k * sum (ends_inside InDocument) (fst a).
Proof. intros k a b c H T1 T2. apply times_is in T1 as [-> _], T2 as [-> _]; auto. apply iter_size. intros i. now apply rest_at_two. Qed.

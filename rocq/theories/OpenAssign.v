(** Headers and footers put into their slots after reading. *)
From Coq Require Import NArith ZArith List Bool Lia.
From Verif Require Import Str StrFacts ListFacts TypesModel Props Ast TreeModel DepsModel PackModel PackSpec RenderModel OpenModel OpenCalls.
From Verif Require PackOrderProofs.
Import ListNotations.
Import PackOrderProofs (ranked, put_ranked, find_put, slot_eqb_spec).
Open Scope list_scope.

Lemma slot_ref_is x p : slot_ref x p = ref_of p x.
Proof. now destruct x. Qed.
(** Referring anew to what is referred to changes nothing. *)
Lemma same_ref x p r : ref_of p x = Some r -> pr_type r = ref_type x -> with_title_pg (sp_title_pg p) (set_ref x (pr_id r) p) = p.
Proof.
  intros H Ht. destruct r as [ty id]. cbn [pr_type pr_id] in *. subst ty. destruct p as [f1 f2 f3 f4 f5 f6 f7 f8 f9 f10 f11 f12 f13 f14 f15].
  destruct x; cbn in H; subst; reflexivity.
Qed.
Section Assign.
  Variables (sp : sectpr) (heads foots : list (string * part_read)).
  Hypothesis refs : refs_typed sp.
  Definition table (x : slot) := if is_head x then heads else foots.
  Definition want (x : slot) : option node :=
    match ref_of sp x with
    | Some r => match part_by_id (pr_id r) (table x) with Some p => Some (NPart x (pr_id r) (part_flag (fst p)) (fst p)) | None => None end
    | None => None
    end.
  Definition pics (x : slot) : list target :=
    match ref_of sp x with
    | Some r => match part_by_id (pr_id r) (table x) with Some p => targets (snd p) (office_rel "image") | None => [] end
    | None => []
    end.
  Variable d0 : docx.
  Hypothesis sect0 : d_sect d0 = sp.
  Hypothesis parts0 : d_parts d0 = [].
  Definition kept_doc (d : docx) : Prop := d_body d = d_body d0 /\ d_sect d = sp /\ d_comments d = d_comments d0 /\ d_footnotes d = d_footnotes d0.
  Definition inv (done : list slot) (s : pkg * list target) : Prop :=
    kept_doc (k_doc (fst s)) /\ ranked (d_parts (k_doc (fst s))) /\
    (forall y, part_at (k_doc (fst s)) 0 y = if existsb (slot_eqb y) done then want y else None) /\ snd s = flat_map pics done.
  Lemma slot_eqb_sym x y : slot_eqb x y = slot_eqb y x.
  Proof. now destruct x, y. Qed.
  Lemma assign_step x done s : inv done s -> inv (done ++ [x]) (assign x (table x) s).
  Proof.
    destruct s as [p m]. intros ((B1 & B2 & B3 & B4) & Hr & Hp & Hm). cbn [fst snd] in *. unfold inv. unfold assign. rewrite slot_ref_is, B2.
    assert (Hw : forall y, existsb (slot_eqb y) (done ++ [x]) = existsb (slot_eqb y) done || slot_eqb y x) by (intros y; rewrite existsb_app; cbn; now rewrite orb_false_r).
    assert (Same : want x = None -> forall y, (if existsb (slot_eqb y) done then want y else None) = if existsb (slot_eqb y) (done ++ [x]) then want y else None).
    { intros W y. rewrite Hw. destruct (existsb (slot_eqb y) done); [reflexivity|]. cbn [orb]. destruct (slot_eqb y x) eqn:Q; [|reflexivity]. apply slot_eqb_spec in Q. now subst. }
    rewrite flat_map_app. cbn [flat_map]. rewrite app_nil_r.
    destruct (ref_of sp x) as [r|] eqn:Hx.
    2:{ cbn [fst snd]. repeat split; try assumption; [apply Hr | apply Hr | |].
        - intros y. rewrite Hp. apply Same. unfold want. now rewrite Hx.
        - rewrite Hm. assert (X : pics x = []) by (unfold pics; now rewrite Hx). now rewrite X, app_nil_r. }
    destruct (part_by_id (pr_id r) (table x)) as [[ch rels]|] eqn:Hq.
    2:{ cbn [fst snd]. repeat split; try assumption; [apply Hr | apply Hr | |].
        - intros y. rewrite Hp. apply Same. unfold want. now rewrite Hx, Hq.
        - rewrite Hm. assert (X : pics x = []) by (unfold pics; now rewrite Hx, Hq). now rewrite X, app_nil_r. }
    cbn [fst snd set_types set_doc k_doc d_body d_sect d_parts d_comments d_footnotes].
    split; [|split; [|split]].
    - repeat split; try assumption. cbn [d_sect]. apply same_ref; [exact Hx | now apply refs].
    - apply (put_ranked x (pr_id r) (part_flag ch, ch)). exact Hr.
    - intros y. unfold part_at. cbn [parts_at d_parts]. pose proof (find_put x (pr_id r) (part_flag ch, ch) _ y Hr) as F. cbn [fst snd] in F. rewrite F. clear F. rewrite Hw.
      specialize (Hp y). unfold part_at in Hp. cbn [parts_at] in Hp.
      rewrite (slot_eqb_sym y x). destruct (slot_eqb x y) eqn:Q.
      + apply slot_eqb_spec in Q. subst y. rewrite orb_true_r. unfold want. now rewrite Hx, Hq.
      + rewrite orb_false_r. exact Hp.
    - rewrite Hm. assert (X : pics x = targets rels (office_rel "image")) by (unfold pics; now rewrite Hx, Hq). now rewrite X.
  Qed.
  Lemma assign_all p : k_doc p = d0 ->
    inv all_slots (assign FEven foots (assign FFirst foots (assign FDefault foots (assign HEven heads (assign HFirst heads (assign HDefault heads (p, []))))))).
  Proof.
    intros Hp. change foots with (table FEven) at 1. change foots with (table FFirst) at 1. change foots with (table FDefault) at 1.
    change heads with (table HEven) at 1. change heads with (table HFirst) at 1. change heads with (table HDefault) at 1.
    change all_slots with ((((((([] ++ [HDefault]) ++ [HFirst]) ++ [HEven]) ++ [FDefault]) ++ [FFirst]) ++ [FEven])).
    repeat apply assign_step. unfold inv. cbn [fst snd]. rewrite Hp, parts0. repeat split; try assumption; try constructor.
    intros y. unfold part_at. cbn [parts_at]. rewrite parts0. reflexivity.
  Qed.
End Assign.
(** Storing no comments. *)
Lemma store_start_nil n : store_start [] n = n.
Proof. now destruct n. Qed.
Lemma map_same A (f : A -> A) l : Forall (fun x => f x = x) l -> map f l = l.
Proof. induction 1 as [|x l H _ IH]; [reflexivity|]. cbn [map]. now rewrite H, IH. Qed.
Lemma starts_nil l : map (store_start []) l = l.
Proof. apply map_same, Forall_forall. intros n _. apply store_start_nil. Qed.
Lemma store_child_nil n : store_child [] n = n.
Proof. destruct n; cbn [store_child]; rewrite ?starts_nil; reflexivity. Qed.

Lemma store_block_nil n : store_block [] n = n.
Proof.
  assert (W : forall l, Forall (fun n => store_block [] n = n) l -> map (fun c => if block_walks c then store_block [] c else c) l = l).
  { intros l H. apply map_same. eapply Forall_impl; [|exact H]. intros m Hm. cbv beta. now destruct (block_walks m). }
  induction n as [n IH] using node_tree_ind. destruct n; cbn [store_block children] in *; try reflexivity.
  all: try (f_equal; first [now apply W | now apply map_same | apply map_same, Forall_forall; intros m _; apply store_child_nil]).
  apply Forall_app in IH as [H1 H2]. f_equal; now apply W.
Qed.
Lemma store_nil body : store_comments [] body = body.
Proof.
  unfold store_comments. apply map_same, Forall_forall. intros n _. destruct n; try reflexivity; [|apply store_block_nil].
  f_equal. apply map_same, Forall_forall. intros m _. destruct m; cbn [store_top_child]; rewrite ?store_start_nil, ?starts_nil; try reflexivity.
  f_equal. apply map_same, Forall_forall. intros q _. destruct q; rewrite ?store_start_nil, ?starts_nil; reflexivity.
Qed.

(** Reading the headers and footers of a saved archive. *)
From Coq Require Import NArith ZArith List Bool Lia Permutation.
From Verif Require Import Str StrFacts ListFacts TypesModel Props Ast TreeModel DepsModel XmlParser ReadBase ReadProps ReadModel
  ZipNameModel PathModel PackModel PackSpec PackProofs RenderModel OpenModel WellSpec RestSpec RoundSpec RoundNums OpenText OpenPath OpenParts OpenRels OpenFiles OpenSpec.
From Verif Require BuildModel WellProofs PackOrderProofs.
Import ListNotations.
Import PackOrderProofs (side_name, side_parts, side_name_inj, side_rid, side_count, side_rid_inj).
Open Scope list_scope.

(** A header or footer whose text reads back. *)
Definition good_part (n : node) : Prop :=
  is_part n = true /\ Forall readable (in_body (part_content n)) /\ forallb (kept InPart) (part_content n) = true /\ Forall fits (part_content n).
Definition side_target (h : bool) (i : N) : target := (side_rid h (i + 1), side_name h (N.to_nat i), None).
Lemma side_target_inj h i j : side_target h i = side_target h j -> i = j.
Proof. unfold side_target. intros H. injection H as H _. apply side_rid_inj in H. lia. Qed.
Lemma header_targets n : map header_target (upto n) = map (side_target true) (upto n).
Proof. apply map_ext. intros i. unfold header_target, side_target. cbn [side_rid]. unfold side_name, nth_name. now rewrite N2Nat.id. Qed.
Lemma footer_targets n : map footer_target (upto n) = map (side_target false) (upto n).
Proof. apply map_ext. intros i. unfold footer_target, side_target. cbn [side_rid]. unfold side_name, nth_name. now rewrite N2Nat.id. Qed.
Lemma sumN_app A (f : A -> N) l m : sumN f (l ++ m) = (sumN f l + sumN f m)%N.
Proof. induction l as [|x l IH]; [reflexivity|]. cbn [app sumN fold_right]. fold (sumN f (l ++ m)). rewrite IH. unfold sumN. lia. Qed.
Lemma sumN_perm A (f : A -> N) l m : Permutation l m -> sumN f l = sumN f m.
Proof. unfold sumN. induction 1; cbn [fold_right]; lia. Qed.
Lemma sumN_nth A (f : A -> N) l n : (sumN (fun i => match nth_error l (N.to_nat i) with Some x => f x | None => 0 end) (upto n) <= sumN f l)%N.
Proof.
  unfold upto. generalize (N.to_nat n). clear n. intros n.
  assert (G : forall m k, (sumN (fun i => match nth_error l (N.to_nat i) with Some x => f x | None => 0 end) (map N.of_nat (seq k m)) <= sumN f (skipn k l))%N).
  { induction m as [|m IH]; intros k; [cbn; lia|]. cbn [seq map sumN fold_right]. specialize (IH (S k)). unfold sumN in IH at 1. rewrite Nat2N.id.
    destruct (nth_error l k) as [x|] eqn:Hx.
    - assert (Hs : skipn k l = x :: skipn (S k) l).
      { clear -Hx. revert k Hx. induction l as [|y l IH]; intros [|k] Hx; try discriminate; [now injection Hx as ->|]. cbn in Hx |- *. now apply IH. }
      rewrite Hs. unfold sumN at 1. cbn [fold_right]. unfold sumN in IH. lia.
    - apply nth_error_None in Hx. rewrite (skipn_all2 l (n := S k)) in IH by lia. unfold sumN in IH |- *. cbn [fold_right] in IH. lia. }
  exact (G n 0).
Qed.
Lemma perm_index A (f : A -> target) l m : Permutation l (map f m) -> exists is_, l = map f is_ /\ Permutation is_ m.
Proof. intros H. apply Permutation_map_inv in H as (q & -> & Hq). exists q. split; [reflexivity | now symmetry]. Qed.

Section Saved.
  Variables (k : pkg) (o : rest) (c : collected) (s : BuildModel.ids) (es : list entry) (s' : BuildModel.ids).
  Hypothesis packed : pack_docx k o c s = Some (es, s').
  Hypothesis media_apart : NoDup (map fst (c_media c)).
  Notation a := (as_archive es).
  Variable h : bool.
  Notation parts := (side_parts h (k_doc k)).
  Hypothesis good : Forall good_part parts.
  Hypothesis rels_good : Forall (fun l => Forall readable (in_part_rels l)) (side_rels h c).
  Definition cost (i : N) : N := match nth_error parts (N.to_nat i) with Some n => sumN paras (part_content n) | None => 0%N end.
  (** What the table of the parts read has for the index [i]. *)
  Definition right_entry (i : N) (l : list (string * part_read)) : Prop :=
    match nth_error parts (N.to_nat i) with
    | Some n => exists rels, part_by_id (side_rid h (i + 1)) l = Some (flat_map (reread InPart) (part_content n), rels) /\
                             targets rels (office_rel "image") = set_of (map image_target (nth (N.to_nat i) (side_rels h c) []))
    | None => part_by_id (side_rid h (i + 1)) l = None
    end.
  Lemma parts_read is_ : forall r, (rs_para r + sumN cost is_ < 4294967296)%N ->
    exists l, read_parts a (map (side_target h) is_) r = Val l (after r (sumN cost is_)) /\
      (forall i, In i is_ -> right_entry i l) /\ (forall rid, (forall i, In i is_ -> rid <> side_rid h (i + 1)) -> part_by_id rid l = None).
  Proof.
    induction is_ as [|i is_ IH]; intros r Hr.
    { exists []. repeat split; [cbn [map read_parts sumN fold_right]; rewrite N.add_0_r; now destruct r | intros i []]. }
    cbn [map read_parts side_target]. cbn [sumN fold_right] in Hr |- *. fold (sumN cost is_) in Hr |- *.
    destruct (nth_error parts (N.to_nat i)) as [n|] eqn:Hn.
    - destruct (part_file k o c s es s' packed media_apart _ _ (side_there k c h _ n Hn) (side_zip h _)) as (s1 & s2 & t & Ht & Hz).
      assert (Hg : good_part n) by (rewrite Forall_forall in good; now apply good, nth_error_In with (N.to_nat i)).
      assert (Hp : exists sl rid nb ch, n = NPart sl rid nb ch) by (destruct n; try (destruct Hg as [Hg _]; discriminate Hg); eauto).
      assert (Hc : cost i = sumN paras (part_content n)) by (unfold cost; now rewrite Hn). rewrite Hc in *. clear Hc.
      destruct Hp as (sl & rid & nb & ch & ->). destruct Hg as (_ & G1 & G2 & G3). cbn [part_content] in *.
      destruct (part_text k o sl rid nb ch s1 t s2 r Ht G1 G2 G3) as [Htag Hread]; [lia|].
      destruct (side_rels_read k o c s es s' packed media_apart h _ _ Hn rels_good) as (rels & Hrels & Himg).
      destruct (IH (after r (sumN paras ch))) as (l & Hl & Hin & Hout); [cbn [rs_para]; lia|].
      exists ((side_rid h (i + 1), (flat_map (reread InPart) ch, match rels with Some x => x | None => [] end)) :: l). split; [|split].
      + unfold attempt at 1, bind at 1 2. unfold get. rewrite Hz, tagged_bom by exact Htag. cbn [or_fail]. unfold ret at 1. unfold bind at 1. rewrite Hread.
        unfold bind at 1. rewrite Hrels. rewrite Hl. unfold ret. cbn [rs_events rs_para]. now rewrite N.add_assoc.
      + intros j Hj. unfold right_entry, part_by_id. cbn [last_such fst snd].
        destruct (in_dec N.eq_dec j is_) as [Hd|Hd].
        * specialize (Hin j Hd). unfold right_entry, part_by_id in Hin. destruct (nth_error parts (N.to_nat j)) as [m|] eqn:Hm.
          -- destruct Hin as (rels' & Hin & Hi'). exists rels'. now rewrite Hin.
          -- rewrite Hin. destruct (String.eqb_spec (side_rid h (i + 1)) (side_rid h (j + 1))) as [X|]; [|reflexivity].
             apply side_rid_inj in X. assert (i = j) by lia. subst. congruence.
        * destruct Hj as [<-|Hj]; [|contradiction]. rewrite Hn. unfold part_by_id in Hout. rewrite Hout.
          -- rewrite String.eqb_refl. eexists. split; [reflexivity | exact Himg].
          -- intros j Hj X. apply side_rid_inj in X. assert (i = j) by lia. subst. contradiction.
      + intros q Hq. unfold part_by_id in *. cbn [last_such fst snd]. rewrite Hout by (intros j Hj; apply Hq; now right).
        destruct (String.eqb_spec (side_rid h (i + 1)) q) as [X|]; [|reflexivity]. now destruct (Hq i (or_introl eq_refl)).
    - assert (Hc : cost i = 0%N) by (unfold cost; now rewrite Hn). rewrite Hc in *. clear Hc.
      destruct (IH r) as (l & Hl & Hin & Hout); [lia|]. exists l. split; [|split].
      + unfold attempt at 1, bind at 1 2. unfold get. rewrite (no_file k o c s es s' packed _ (side_absent k c h _ Hn) (side_zip h _)). cbn [or_fail]. unfold fail at 1.
        rewrite Hl. now rewrite N.add_0_l.
      + intros j [<-|Hj]; [|now apply Hin]. unfold right_entry. rewrite Hn.
        destruct (in_dec N.eq_dec i is_) as [Hd|Hd].
        * specialize (Hin i Hd). unfold right_entry in Hin. now rewrite Hn in Hin.
        * apply Hout. intros j Hj X. apply side_rid_inj in X. assert (i = j) by lia. subst. contradiction.
      + intros q Hq. apply Hout. intros j Hj. apply Hq. now right.
  Qed.
  Lemma side_read r n : (rs_para r + sumN (fun n => sumN paras (part_content n)) parts < 4294967296)%N ->
    exists l q, read_parts a (set_of (map (side_target h) (upto n))) r = Val l (after r q) /\ (q <= sumN (fun n => sumN paras (part_content n)) parts)%N /\
      (forall i, (i < n)%N -> right_entry i l) /\ (forall rid, (forall i, (i < n)%N -> rid <> side_rid h (i + 1)) -> part_by_id rid l = None).
  Proof.
    intros Hr. assert (Hd : NoDup (map (fun t : target => fst (fst t)) (map (side_target h) (upto n)))).
    { rewrite map_map. apply NoDup_map_in; [intros i j _ _ X; apply side_rid_inj in X; lia|]. unfold upto. apply NoDup_map_in; [lia | apply seq_NoDup]. }
    destruct (perm_index _ _ _ _ (set_of_perm _ Hd)) as (is_ & -> & Hp).
    assert (Hc : (sumN cost is_ <= sumN (fun n => sumN paras (part_content n)) parts)%N).
    { rewrite (sumN_perm _ _ _ _ Hp). apply (sumN_nth _ (fun n => sumN paras (part_content n)) parts n). }
    destruct (parts_read is_ r) as (l & Hl & Hin & Hout); [lia|]. exists l, (sumN cost is_). repeat split; [exact Hl | exact Hc | |].
    - intros i Hi. apply Hin. apply (Permutation_in _ (Permutation_sym Hp)). now apply PackOrderProofs.upto_in.
    - intros rid H. apply Hout. intros i Hi. apply H. apply PackOrderProofs.upto_in. exact (Permutation_in _ Hp Hi).
  Qed.
End Saved.

(** Theorems about saving and opening a document over and over (C73). *)
From Coq Require Import NArith ZArith List Bool Lia.
From Verif Require Import Str StrFacts TypesModel Props Ast IdsModel EscapeModel XmlParser XmlSpec ReadBase ReadModel RoundSpec WellSpec CycleSpec CycleFinal.
From Verif Require WellPartProofs BuildModel BuildProperties RoundProperties WellProofs PropsSet.
Import ListNotations.
Open Scope list_scope.

(** A document that can be saved can be saved and opened any number of times. *)
Theorem saving_goes_on : forall k a s x s', steady a -> BuildModel.b_document (fst a) (snd a) s = Some (x, s') ->
  (1 + sumN paras (fst a) < 4294967296)%N -> exists b, times k a b.
Proof. exact history_goes_on. Qed.
(** What it is after so many turns is determined. *)
Theorem saving_is_determined : forall k a b c, steady a -> times k a b -> times k a c -> b = c.
Proof. exact history_determined. Qed.
(** From the second turn on nothing changes but the number of runs that hold nothing. *)
Theorem saving_settles : forall k a b c, steady a -> times 2 a b -> times (2 + k) a c ->
  flat_map without_empty_runs (fst c) = flat_map without_empty_runs (fst b) /\ snd c = snd b.
Proof. exact history_settles. Qed.
Theorem saving_settles_at_once : forall k a b c, steady a -> quick (fst a) -> times 1 a b -> times (1 + k) a c ->
  flat_map without_empty_runs (fst c) = flat_map without_empty_runs (fst b) /\ snd c = snd b.
Proof. exact history_settles_at_once. Qed.
(** If no comment ends inside a paragraph or a tag, nothing changes at all. *)
Theorem saving_stands_still : forall k a b c, steady a -> sum (ends_inside InDocument) (fst a) = 0 -> times 2 a b -> times (2 + k) a c -> c = b.
Proof. exact history_stands_still. Qed.
Theorem saving_stands_still_at_once : forall k a b c, steady a -> quick (fst a) -> sum (ends_inside InDocument) (fst a) = 0 ->
  times 1 a b -> times (1 + k) a c -> c = b.
Proof. exact history_stands_still_at_once. Qed.
(** Every comment that does adds two nodes with each turn. *)
Theorem saving_grows : forall k a b c, steady a -> times 2 a b -> times (2 + k) a c ->
  size (fst c) = size (fst b) + 2 * k * sum (ends_inside InDocument) (fst a).
Proof. exact history_grows. Qed.

(** ** Documents that meet the hypotheses *)
Import BuildProperties (start, me).
Definition said (s : string) : node := NRun rpr_empty [NText s].
Definition comment0 : comment_data := {| cd_id := 5; cd_author := "a<b"; cd_date := "2020"; cd_parent := None |}.
Definition commented : list node :=
  [ NPara "0000000A" ppr_empty false
      [NCommentStart comment0 []; said "one"; NIns me [said "two"; NCommentEnd 5; said "three"]; NLink (Anchor "top") None [said "four"]];
    NTable RoundProperties.tp0 [2000%N] true
      [NRow trpr_empty true [NCell tcpr_empty true [NPara "0000000B" ppr_empty false [said "five"; said "six"]]]] ].
Ltac plain_tree := repeat (first [apply Forall_cons | apply Forall_nil | split | exact I | (vm_compute; reflexivity)]).
Example commented_steady : steady (commented, sectpr_default).
Proof.
  constructor; cbn [fst snd].
  - split; [unfold commented, said|]; plain_tree.
  - apply WellPartProofs.all_readable. vm_compute. reflexivity.
  - vm_compute. reflexivity.
  - split; [unfold commented, said, fits; cbn [all_nodes flat_map app]; RoundProperties.in_range | RoundProperties.in_range].
Qed.
Example commented_builds : exists x s', BuildModel.b_document commented sectpr_default start = Some (x, s').
Proof. eexists _, _. vm_compute. reflexivity. Qed.
Example commented_small : (1 + sumN paras commented < 4294967296)%N /\ quick commented /\ sum (ends_inside InDocument) commented = 1.
Proof. split; [vm_compute; reflexivity|]. split; [unfold quick; cbn; repeat constructor | reflexivity]. Qed.
Example commented_goes_on : forall k, exists b, times k (commented, sectpr_default) b.
Proof.
  intros k. destruct commented_builds as (x & s' & H). eapply saving_goes_on; [exact commented_steady | exact H | exact (proj1 commented_small)].
Qed.
Definition placed : pic :=
  {| pic_id := "rId7"; pic_image := ""; pic_size := (10, 20)%N; pic_anchor := true; pic_simple_pos := true;
     pic_simple_x := 0; pic_simple_y := 0; pic_layout_in_cell := false; pic_relative_height := 0;
     pic_overlap := false; pic_h := Offset 0; pic_v := Offset 0;
     pic_from_h := RelativeFromHType_Character; pic_from_v := RelativeFromVType_Line;
     pic_dist_t := 0; pic_dist_b := 0; pic_dist_l := 0; pic_dist_r := 0; pic_rot := 0 |}.
Definition pictured : list node := [NPara "0000000A" ppr_empty false [NRun rpr_empty [NPic placed]]].
Example pictured_steady : steady (pictured, sectpr_default).
Proof.
  constructor; cbn [fst snd].
  - split; [unfold pictured|]; plain_tree.
  - apply WellPartProofs.all_readable. vm_compute. reflexivity.
  - vm_compute. reflexivity.
  - split; [unfold pictured, fits; cbn [all_nodes flat_map app]; RoundProperties.in_range | RoundProperties.in_range].
Qed.
Example pictured_goes_on : forall k, exists b, times k (pictured, sectpr_default) b.
Proof.
  intros k. assert (B : exists x s', BuildModel.b_document pictured sectpr_default start = Some (x, s')) by (eexists _, _; vm_compute; reflexivity).
  destruct B as (x & s' & H). eapply saving_goes_on; [exact pictured_steady | exact H | vm_compute; reflexivity].
Qed.

(** ** What does not hold *)
(** The claim that a document stops growing is false. *)
Theorem saving_is_bounded_refuted : exists a, steady a /\ forall n, exists k b, times k a b /\ n < size (fst b).
Proof.
  exists (commented, sectpr_default). split; [exact commented_steady|]. intros n.
  destruct (commented_goes_on 2) as [b Hb], (commented_goes_on (2 + n)) as [c Hc]. exists (2 + n), c. split; [exact Hc|].
  pose proof (saving_grows n _ _ _ commented_steady Hb Hc) as G. cbn [fst] in G. rewrite (proj2 (proj2 commented_small)) in G.
  destruct n as [|n]; [|lia]. rewrite G. pose proof (history_determined _ _ _ _ commented_steady Hb Hc) as ->.
  destruct (times_is _ _ _ commented_steady Hc) as [-> _]. vm_compute. lia.
Qed.
(** The claim that what was opened once is opened the same for ever is false, even if no
    comment ends inside a paragraph. *)
Theorem settles_at_once_refuted : exists a b c, steady a /\ sum (ends_inside InDocument) (fst a) = 0 /\ times 1 a b /\ times 2 a c /\
  flat_map without_empty_runs (fst c) <> flat_map without_empty_runs (fst b).
Proof.
  destruct (pictured_goes_on 1) as [b Hb], (pictured_goes_on 2) as [c Hc]. exists (pictured, sectpr_default), b, c.
  split; [exact pictured_steady|]. split; [reflexivity|]. split; [exact Hb|]. split; [exact Hc|].
  destruct (times_is _ _ _ pictured_steady Hb) as [-> _], (times_is _ _ _ pictured_steady Hc) as [-> _]. vm_compute. discriminate.
Qed.

Definition all_proved := conj saving_goes_on (conj saving_is_determined (conj saving_settles (conj saving_settles_at_once (conj saving_stands_still
  (conj saving_stands_still_at_once (conj saving_grows (conj saving_is_bounded_refuted settles_at_once_refuted))))))).
Print Assumptions all_proved.

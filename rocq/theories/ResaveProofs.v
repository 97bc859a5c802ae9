(** An archive that is opened and saved again. *)
From Coq Require Import NArith List Bool Lia Sorting.Sorted.
From Verif Require Import Str StrFacts ListFacts TypesModel Props Ast TreeModel TreeSpec TreeProofs DepsModel PackModel PackSpec PackTypesProofs PackOrderProofs PrepareModel PrepareProofs PackFinalProofs
  ZipNameModel ReadBase ReadModel RenderModel OpenModel OpenImages GivesSpec GivesProofs GivesArchive MediaBytes ResaveSpec.
From Verif Require BuildSpec BuildProofs RenderSpec RenderProofs ParaIdModel ParaIdProofs DepsSpec DepsProofs TocModel OpenTexts ParaIdSpec OpenSpec OpenFinal.
Import ListNotations.
Open Scope list_scope.

Lemma opened_as a op k c : opened_and_saved a op k c -> as_opened (op_pkg op) /\ o_core (op_rest op) = core_new.
Proof. intros ((png & preview & m & st & H) & _). exact (opening_gives _ _ _ _ _ _ H). Qed.
Lemma read_well_formed n : came_from_reading n -> well_formed n.
Proof. apply Forall_impl. intros m H. apply H. Qed.
Lemma opened_well_formed k : as_opened k -> doc_well_formed (k_doc k).
Proof.
  intros [H1 H2 H3 H4 H5 _ _ _ _]. unfold doc_well_formed, doc_roots. rewrite H5. cbn [flat_map].
  split; [|split; [|split; [|split; [constructor|]]]].
  - apply forallb_forall. intros n I. unfold kinds in H1. rewrite Forall_forall in H1. destruct (H1 _ I) as [K _]. destruct n; try discriminate K; reflexivity.
  - destruct H2 as [_ P]. now apply forallb_forall, Forall_forall.
  - eapply Forall_impl; [|exact H4]. intros c C. apply forallb_forall. intros n I. unfold kinds in C. rewrite Forall_forall in C. destruct (C _ I) as [K _]. now destruct n.
  - rewrite !Forall_app. repeat split; try constructor.
    + eapply Forall_impl; [|exact H1]. intros n [_ C]. now apply read_well_formed.
    + eapply Forall_impl; [|exact H3]. exact read_well_formed.
    + apply Forall_flat_map. eapply Forall_impl; [|exact H4]. intros c C. eapply Forall_impl; [|exact C]. intros n [_ N]. now apply read_well_formed.
Qed.
Lemma no_sections k : as_opened k -> sections_of (k_doc k) = [].
Proof.
  intros [H _ _ _ _ _ _ _ _]. unfold sections_of. induction H as [|n l [K _] _ IH]; [reflexivity|]. cbn [flat_map]. rewrite IH. destruct n; try discriminate K; reflexivity.
Qed.

(** ** Headers and footers *)
Lemma ranked_shape l : forall m, map shape l = map shape m -> ranked m -> ranked l.
Proof.
  assert (R : forall a b, shape a = shape b -> is_part b = true -> is_part a = true /\ part_rank a = part_rank b) by (intros a b Q P; destruct b; try discriminate P; destruct a; try discriminate Q; injection Q as -> ->; auto).
  assert (A : forall u m, map shape u = map shape m -> Forall (fun n => is_part n = true) m -> Forall (fun n => is_part n = true) u /\ map part_rank u = map part_rank m).
  { clear l. induction u as [|a u IH]; intros [|b m] Q P; try discriminate Q; [split; constructor|]. cbn [map] in Q. injection Q as Qa Q. inversion P as [|? ? Pb Pm]; subst.
    destruct (R _ _ Qa Pb) as [X1 X2], (IH _ Q Pm) as [Y1 Y2]. split; [now constructor|]. cbn [map]. congruence. }
  intros m Q [S P]. destruct (A _ _ Q P) as [P' Rk]. split; [|exact P'].
  assert (B : forall l, StronglySorted (fun a b => (part_rank a < part_rank b)%N) l <-> StronglySorted N.lt (map part_rank l)).
  { clear. induction l as [|a l IH]; [split; constructor|]. cbn [map]. split; intros H; apply StronglySorted_inv in H; destruct H as [H F]; constructor; try (now apply IH).
    - exact (proj2 (Forall_map part_rank (N.lt (part_rank a)) l) F).
    - exact (proj1 (Forall_map part_rank (N.lt (part_rank a)) l) F). }
  apply B. rewrite Rk. now apply B.
Qed.
Definition in_slot (l : list node) (x : slot) : list node := match List.find (has_slot x) l with Some n => [n] | None => [] end.
Lemma ranked_slots l : ranked l -> l = flat_map (in_slot l) all_slots.
Proof.
  intros R. pose proof R as [S P].
  apply (sorted_unique (fun a b => (part_rank a < part_rank b)%N)); [intros a; lia|intros a b c; lia|exact S| |].
  - assert (F : forall x, Forall (fun n => part_rank n = rank x) (in_slot l x)).
    { intros x. unfold in_slot. destruct (List.find (has_slot x) l) as [n|] eqn:Fd; [|constructor]. apply find_some in Fd. destruct Fd as [I H].
      rewrite Forall_forall in P. rewrite (has_slot_rank x n (P _ I)) in H. apply N.eqb_eq in H. now constructor. }
    assert (O : forall x, length (in_slot l x) <= 1) by (intros x; unfold in_slot; destruct (List.find (has_slot x) l); cbn; lia).
    assert (G : forall xs, StronglySorted (fun x y => (rank x < rank y)%N) xs -> StronglySorted (fun a b => (part_rank a < part_rank b)%N) (flat_map (in_slot l) xs)).
    { induction 1 as [|x xs Sx IH Fx]; [constructor|]. cbn [flat_map]. specialize (F x) as F1. specialize (O x). destruct (in_slot l x) as [|n [|n' r]]; [exact IH| |cbn in O; lia].
      cbn [app]. constructor; [exact IH|]. apply Forall_flat_map. eapply Forall_impl; [|exact Fx]. intros y Hy. eapply Forall_impl; [|apply F]. intros m Hm. inversion F1; subst. cbn beta in *. lia. }
    apply G. repeat constructor.
  - intros n. rewrite in_flat_map. split.
    + intros I. rewrite Forall_forall in P. specialize (P _ I) as Pn. destruct n; try discriminate Pn. exists s. split; [destruct s; cbn; tauto|].
      unfold in_slot. rewrite (ranked_find _ _ s R I); [now left|]. cbn [has_slot]. now apply slot_eqb_spec.
    + intros (x & _ & I). unfold in_slot in I. destruct (List.find (has_slot x) l) as [m|] eqn:Fd; [|destruct I]. destruct I as [->|[]]. apply find_some in Fd. apply Fd.
Qed.
Lemma slot_shape l x n : List.find (has_slot x) l = Some n -> exists rid nb ch, n = NPart x rid nb ch.
Proof. intros F. apply find_some in F. destruct F as [_ H]. destruct n; try discriminate H. cbn [has_slot] in H. apply slot_eqb_spec in H. subst. eauto. Qed.
(** The place of a header among the headers. *)
Definition index_of (l : list node) (x : slot) : nat :=
  length (filter (fun y => eqb (is_head y) (is_head x) && Nat.ltb (slot_order y) (slot_order x) && match List.find (has_slot y) l with Some _ => true | None => false end) all_slots).
Lemma side_place l x n j : ranked l -> List.find (has_slot x) l = Some n -> (nth_error (filter (side_of (is_head x)) l) j = Some n <-> j = index_of l x).
Proof.
  intros R F. rewrite (ranked_slots l R) at 1. unfold index_of, in_slot, all_slots. cbn [flat_map].
  assert (Z : forall y, match List.find (has_slot y) l with Some n => exists rid nb ch, n = NPart y rid nb ch | None => True end).
  { intros y. destruct (List.find (has_slot y) l) eqn:Fy; [|exact I]. exact (slot_shape _ _ _ Fy). }
  pose proof (Z HDefault) as Z1. pose proof (Z HFirst) as Z2. pose proof (Z HEven) as Z3. pose proof (Z FDefault) as Z4. pose proof (Z FFirst) as Z5. pose proof (Z FEven) as Z6. clear Z R.
  cbn [filter]; destruct x; cbn [is_head slot_order eqb Nat.ltb Nat.leb andb]; rewrite ?F in *;
  repeat match goal with H : match ?o with Some _ => _ | None => _ end |- _ => destruct o; [destruct H as (? & ? & ? & ->)|clear H] | H : exists _, _ |- _ => destruct H as (? & ? & ? & ->) end; cbn; clear;
  (split; [destruct j as [|[|[|j]]]; cbn; try (intros; congruence); try (intros H; exfalso; injection H; discriminate); try (destruct j; discriminate)|intros ->; reflexivity]).
Qed.
Lemma parts_shown_resaved a op k c x m : opened_and_saved a op k c -> part_at (k_doc (op_pkg op)) 0 x = Some m ->
  exists r, ref_of (d_sect (k_doc (op_pkg op))) x = Some r /\
    (shown (k_doc k) (k_doc_rels k) (stream_steps k c) 0 x <-> pr_id r = listed_id (k_doc (op_pkg op)) x).
Proof.
  intros H Hm. destruct (opened_as _ _ _ _ H) as [O _]. destruct H as (_ & crc & styles & ext & n & ext' & Q). pose proof (opened_well_formed _ O) as W.
  destruct (prepare_found _ _ _ _ _ _ _ _ W Q) as (d1 & d & comments & links & -> & L & _).
  set (d0 := k_doc (op_pkg op)) in *.
  unfold part_at in Hm. cbn [parts_at] in Hm. destruct (slot_shape _ _ _ Hm) as (rid & nb & ch & ->).
  exists {| pr_type := type_of x; pr_id := rid |}. split; [apply (ao_refs _ O _ _ nb ch); apply find_some in Hm; apply Hm|]. cbn [pr_id].
  pose proof (ao_refs _ O _ _ _ _ (proj1 (find_some _ _ Hm))) as Ref. fold d0 in Ref.
  pose proof (layout_parts _ _ 0 L) as Sh. cbn [parts_at] in Sh.
  assert (Rk : ranked (d_parts d)) by exact (ranked_shape _ _ Sh (ao_ranked _ O)).
  assert (Fs : forall y, option_map shape (List.find (has_slot y) (d_parts d)) = option_map shape (List.find (has_slot y) (d_parts d0))) by (intros y; now apply find_shape).
  destruct (List.find (has_slot x) (d_parts d)) as [n'|] eqn:Fx; [|specialize (Fs x); rewrite Fx, Hm in Fs; discriminate Fs].
  assert (Ix : index_of (d_parts d) x = filled_before d0 x).
  { unfold index_of, filled_before, part_at. cbn [parts_at]. f_equal. apply filter_ext. intros y. f_equal. specialize (Fs y).
    destruct (List.find (has_slot y) (d_parts d)), (List.find (has_slot y) (d_parts d0)); try discriminate Fs; reflexivity. }
  assert (Sd : forall h, side_parts h d = filter (side_of h) (d_parts d)).
  { intros h. assert (Ns : sections_of d = []).
    { pose proof (no_sections _ O) as N0. unfold layout in L. injection L as _ _ L. fold d0 in N0. rewrite N0 in L. now destruct (sections_of d). }
    rewrite side_parts_nodes. unfold side_nodes, located. rewrite Ns. cbn [map loc_from]. rewrite app_nil_r, filter_map, map_map. cbn [snd]. rewrite map_id. apply filter_ext. intros q. reflexivity. }
  assert (Cn : forall h, side_count h (k_doc_rels (prepared (op_pkg op) d comments links c)) = N.of_nat (length (filter (side_of h) (d_parts d)))).
  { intros h. transitivity (side_count h (k_doc_rels (op_pkg op))); [destruct h; reflexivity|]. rewrite (ao_counts _ O h). f_equal. fold d0.
    assert (E2 : map (fun q => match q with Some (y, _) => eqb (is_head y) h | None => false end) (map shape (d_parts d)) = map (fun q => match q with Some (y, _) => eqb (is_head y) h | None => false end) (map shape (d_parts d0))) by now rewrite Sh.
    rewrite !map_map in E2. clear -E2. revert E2. generalize (d_parts d0) as a. generalize (d_parts d) as b.
    induction b as [|u b IH]; intros [|v a] E2; try discriminate E2; [reflexivity|]. cbn [map] in E2. injection E2 as E3 E2. cbn [filter].
    change (match shape u with Some (y, _) => eqb (is_head y) h | None => false end) with (side_of h u) in E3. change (match shape v with Some (y, _) => eqb (is_head y) h | None => false end) with (side_of h v) in E3.
    rewrite E3. destruct (side_of h v); cbn [length]; [f_equal|]; now apply IH. }
  assert (Li : listed_id d0 x = side_rid (is_head x) (N.of_nat (filled_before d0 x) + 1)).
  { unfold listed_id. rewrite N.add_comm. destruct (is_head x); reflexivity. }
  rewrite Li. pose proof (layout_property _ _ 0 L) as Pr. cbn [property_at] in Pr.
  cbn [prepared set_types set_doc k_doc]. split.
  - intros (p & rid' & name & n0 & P1 & P2 & P3 & P4 & P5). cbn [property_at] in P1. rewrite Pr in P1. injection P1 as <-. fold d0 in P2. rewrite Ref in P2. injection P2 as <-.
    apply leads_side in P3. destruct P3 as (j & _ & Rj & ->). unfold part_at in P4. cbn [parts_at] in P4. rewrite Fx in P4. injection P4 as <-.
    apply side_file in P5. cbn [prepared set_types set_doc k_doc] in P5. rewrite Sd in P5. apply (side_place _ _ _ _ Rk Fx) in P5. subst j. now rewrite Rj, Ix.
  - intros ->. exists (d_sect d0), (side_rid (is_head x) (N.of_nat (filled_before d0 x) + 1)), (side_name (is_head x) (filled_before d0 x)), n'.
    pose proof (proj2 (side_place _ _ _ (filled_before d0 x) Rk Fx) (eq_sym Ix)) as Nt.
    split; [cbn [property_at]; now rewrite Pr|]. split; [exact Ref|]. split; [|split; [exact Fx|]].
    + apply leads_side. exists (filled_before d0 x). split; [|auto]. rewrite Cn. assert (Lt : filled_before d0 x < length (filter (side_of (is_head x)) (d_parts d))) by (apply nth_error_Some; congruence). lia.
    + apply side_file. cbn [prepared set_types set_doc k_doc]. now rewrite Sd.
Qed.

(** ** Pictures *)
Lemma own_nodes_all n : incl (own_nodes n) (all_nodes n).
Proof.
  induction n as [n IH] using node_tree_ind. rewrite Forall_forall in IH.
  assert (G : forall l, incl l (children n) -> incl (flat_map own_nodes l) (flat_map all_nodes l)).
  { intros l Hl x Hx. apply in_flat_map in Hx. destruct Hx as (m & Im & Hx). apply in_flat_map. exists m. split; [exact Im|]. now apply (IH m (Hl _ Im)). }
  destruct n; cbn [own_nodes all_nodes children] in *; try apply incl_refl; apply incl_cons; try (now left); try (intros y []; fail); apply incl_tl; try (apply G, incl_refl);
    try (apply incl_app; [apply incl_appl, G, incl_appl, incl_refl|apply incl_appr, G, incl_appr, incl_refl]);
    try (apply incl_appl, G, incl_appl, incl_refl).
Qed.
Lemma no_bytes l : Forall came_from_reading l -> Forall (fun x => pic_image x = "") (pics_in l).
Proof.
  intros H. apply Forall_forall. intros x I. unfold pics_in in I. apply in_flat_map in I. destruct I as (n & I & X). apply in_flat_map in I. destruct I as (r & Ir & I).
  apply own_nodes_all in I. rewrite Forall_forall in H. specialize (H _ Ir). unfold came_from_reading in H. rewrite Forall_forall in H. destruct (H _ I) as [_ A].
  destruct n; try destruct X as [X|[]]; try destruct X. subst. cbn [as_read] in A. now apply String.eqb_eq.
Qed.
Lemma media_empty a op k c : opened_and_saved a op k c -> (forall m, In m (c_media c) -> snd m = "") /\ length (c_media c) <= 1.
Proof.
  intros H. destruct (opened_as _ _ _ _ H) as [O _]. destruct H as (_ & crc & styles & ext & n & ext' & Q). pose proof (opened_well_formed _ O) as W.
  destruct (prepare_shape _ _ _ _ _ _ _ _ W Q) as (d1 & d & comments & links & -> & _ & _ & W1 & _ & Cp & (body & n1 & has & X & Hb & Hp) & _).
  destruct (collect_package_ok crc d1 W1) as (d2 & c2 & Q2 & _ & Nd & _). rewrite Cp in Q2. injection Q2 as <- <-.
  assert (Ep : pics_in (d_body d1) = pics_in (d_body (k_doc (op_pkg op)))).
  { assert (Ap : forall n, pic_at (ParaIdSpec.wipe n) = pic_at n) by (intros []; reflexivity).
    change (own_of pic_at (d_body d1) = own_of pic_at (d_body (k_doc (op_pkg op)))). rewrite <- (own_of_wipe _ Ap (d_body d1)), Hb, (own_of_wipe _ Ap).
    unfold own_of. eapply expand_of; [..|exact X]; intros; try split; reflexivity. }
  assert (B : Forall (fun b => b = "") (map snd (c_media c))).
  { apply (collected_bytes crc (fun b => b = "") d1 d c W1 Cp).
    - rewrite Ep. apply no_bytes. eapply Forall_impl; [|exact (ao_body _ O)]. intros m [_ M]. exact M.
    - intros b. apply (Forall_pics (fun x => pic_image x = "") (doc_parts b (k_doc (op_pkg op)))).
      + symmetry. apply same_part_pics; [exact Hp|]. rewrite <- !secs_wiped, Hb, !secs_wiped. f_equal. exact (expand_sections _ _ _ _ _ _ X).
      + apply Forall_forall. intros m I. apply no_bytes. constructor; [|constructor]. unfold doc_parts in I. apply in_app_iff in I. destruct I as [I|I].
        * apply filter_In in I. destruct I as [I _]. pose proof (ao_came _ O) as Cm. rewrite Forall_forall in Cm. auto.
        * apply in_flat_map in I. destruct I as (u & Iu & I). pose proof (ao_body _ O) as Kb. unfold kinds in Kb. rewrite Forall_forall in Kb. destruct (Kb _ Iu) as [Ku _]. destruct u; try discriminate Ku; destruct I. }
  split.
  - intros m I. rewrite Forall_forall in B. apply B. now apply in_map.
  - destruct (c_media c) as [|m1 [|m2 r]]; cbn [length]; try lia. exfalso. cbn [map] in *. inversion B as [|? ? B1 B2]; subst. inversion B2 as [|? ? B3 _]; subst.
    rewrite B1, B3 in Nd. inversion Nd as [|? ? N1 _]. apply N1. now left.
Qed.
Lemma files_empty a op k c name bytes : opened_and_saved a op k c -> In (SRaw name bytes) (stream_steps k c) -> bytes = "".
Proof.
  intros H I. destruct (media_empty _ _ _ _ H) as [M _]. unfold stream_steps in I. rewrite !in_app_iff in I.
  destruct I as [I|[I|[I|[I|[I|[I|[I|I]]]]]]].
  - apply in_map_iff in I. destruct I as (x & Q & _). discriminate Q.
  - apply in_map_iff in I. destruct I as (x & Q & _). discriminate Q.
  - apply part_steps_in in I. destruct I as [(i & m & N & Q)|(i & m & Q)]; discriminate Q.
  - apply part_steps_in in I. destruct I as [(i & m & N & Q)|(i & m & Q)]; discriminate Q.
  - destruct (c_media c) as [|m0 r]; [destruct I|]. destruct I as [Q|I]; [discriminate Q|]. apply in_map_iff in I. destruct I as (x & Q & I). injection Q as _ <-. now apply M.
  - destruct (k_taskpanes k); [|destruct I]. destruct I as [Q|[Q|[Q|[Q|I]]]]; try discriminate Q. apply web_steps_in in I. destruct I as (? & ? & _ & Q). discriminate Q.
  - destruct (k_custom k); [destruct I|]. destruct I as [Q|[]]. discriminate Q.
  - apply item_steps_in in I. destruct I as (? & ? & ? & _ & [Q|[Q|Q]]); discriminate Q.
Qed.

(** ** Links, numbering, custom XML *)
Lemma links_without_address a op k c e : opened_and_saved a op k c -> In e (written_rels (k_doc_rels k)) -> rel_kind e = "hyperlink" -> rel_target e = "".
Proof.
  intros H. destruct (opened_as _ _ _ _ H) as [O _]. destruct H as (_ & crc & styles & ext & n & ext' & Q). pose proof (opened_well_formed _ O) as W.
  destruct (prepare_found _ _ _ _ _ _ _ _ W Q) as (d1 & d & comments & links & -> & L & _ & _ & _ & _ & El & Ea).
  destruct (DepsProofs.collected_exactly (d_body d1) {| dp_comments := []; dp_ext := []; dp_has_comments := false; dp_links := [] |}) as (_ & _ & _ & lk & Lk & _ & Il & _).
  rewrite <- El in Lk. cbn [dp_links app] in Lk.
  assert (Rl : r_links (k_doc_rels (prepared (op_pkg op) d comments links c)) = external lk).
  { cbn [prepared set_types set_doc k_doc_rels r_links]. rewrite (ao_rels _ O). exact Lk. }
  intros I K. unfold written_rels in I. rewrite !in_app_iff, Rl in I.
  destruct I as [I|[I|[I|[I|[I|[I|[I|[I|I]]]]]]]].
  - cbn in I. destruct I as [<-|[<-|[<-|[<-|[]]]]]; discriminate K.
  - destruct (r_comments _); [|destruct I]. destruct I as [<-|[]]. discriminate K.
  - destruct (r_numberings _); [|destruct I]. destruct I as [<-|[]]. discriminate K.
  - destruct (r_footnotes _); [|destruct I]. destruct I as [<-|[]]. discriminate K.
  - apply in_map_iff in I. destruct I as (i & <- & _). discriminate K.
  - apply in_map_iff in I. destruct I as (i & <- & _). discriminate K.
  - apply in_map_iff in I. destruct I as (i & <- & _). discriminate K.
  - apply in_map_iff in I. destruct I as (i & <- & _). discriminate K.
  - apply in_map_iff in I. destruct I as (i & <- & I). cbn [mk_rel rel_target]. unfold external in I. apply in_map_iff in I. destruct I as (x & <- & I). cbn [fst snd].
    apply Il, all_links_seen in I. rewrite Ea in I. unfold DepsSpec.all_of in I. apply in_flat_map in I. destruct I as (m & Im & I). apply in_flat_map in Im. destruct Im as (r & Ir & Im).
    pose proof (ao_body _ O) as Kb. unfold kinds in Kb. rewrite Forall_forall in Kb. destruct (Kb _ Ir) as [_ C]. unfold came_from_reading in C. rewrite Forall_forall in C. destruct (C _ Im) as [_ A].
    destruct m; try destruct I. destruct l; [|destruct I]. destruct I as [<-|[]]. cbn [as_read snd] in *. now apply String.eqb_eq.
Qed.
Lemma no_numbering a op k c e : opened_and_saved a op k c -> In e (written_rels (k_doc_rels k)) -> rel_kind e <> "numbering".
Proof.
  intros H. destruct (opened_as _ _ _ _ H) as [O _]. destruct H as (_ & crc & styles & ext & n & ext' & Q). pose proof (opened_well_formed _ O) as W.
  destruct (prepare_found _ _ _ _ _ _ _ _ W Q) as (d1 & d & comments & links & -> & _).
  assert (Rl : r_numberings (k_doc_rels (prepared (op_pkg op) d comments links c)) = false).
  { cbn [prepared set_types set_doc k_doc_rels r_numberings]. rewrite (ao_rels _ O). reflexivity. }
  intros I K. unfold written_rels in I. rewrite !in_app_iff, Rl in I.
  destruct I as [I|[I|[I|[I|[I|[I|[I|[I|I]]]]]]]].
  - cbn in I. destruct I as [<-|[<-|[<-|[<-|[]]]]]; discriminate K.
  - destruct (r_comments _); [|destruct I]. destruct I as [<-|[]]. discriminate K.
  - destruct I.
  - destruct (r_footnotes _); [|destruct I]. destruct I as [<-|[]]. discriminate K.
  - apply in_map_iff in I. destruct I as (i & <- & _). discriminate K.
  - apply in_map_iff in I. destruct I as (i & <- & _). discriminate K.
  - apply in_map_iff in I. destruct I as (i & <- & _). discriminate K.
  - apply in_map_iff in I. destruct I as (i & <- & _). discriminate K.
  - apply in_map_iff in I. destruct I as (i & <- & _). discriminate K.
Qed.
Lemma no_extras a op k c s : opened_and_saved a op k c -> In s (stream_steps k c) -> is_extra s = false.
Proof.
  intros H. destruct (opened_as _ _ _ _ H) as [O _]. destruct H as (_ & crc & styles & ext & n & ext' & Q). pose proof (opened_well_formed _ O) as W.
  destruct (prepare_found _ _ _ _ _ _ _ _ W Q) as (d1 & d & comments & links & -> & _). destruct (ao_rest _ O) as (_ & R2 & R3 & R4).
  intros I. unfold stream_steps in I. cbn [prepared set_types set_doc k_doc k_taskpanes k_web k_custom] in I. rewrite R2, R4, !in_app_iff in I.
  destruct I as [I|[I|[I|[I|[I|[I|[I|I]]]]]]].
  - apply in_map_iff in I. destruct I as (x & <- & _). reflexivity.
  - apply in_map_iff in I. destruct I as (x & <- & I). cbn in I. repeat (destruct I as [<-|I]; [reflexivity|]). destruct I.
  - apply part_steps_in in I. destruct I as [(i & m & N & ->)|(i & m & ->)]; reflexivity.
  - apply part_steps_in in I. destruct I as [(i & m & N & ->)|(i & m & ->)]; reflexivity.
  - destruct (c_media c) as [|m0 r]; [destruct I|]. destruct I as [<-|I]; [reflexivity|]. apply in_map_iff in I. destruct I as (x & <- & I). reflexivity.
  - destruct I.
  - destruct I.
  - destruct I.
Qed.

(** ** The tree *)
Lemma tree_kept a op k c : opened_and_saved a op k c ->
  map bare (d_body (k_doc k)) = map bare (d_body (k_doc (op_pkg op))) /\ map bare (d_parts (k_doc k)) = map bare (d_parts (k_doc (op_pkg op))) /\
  d_sect (k_doc k) = d_sect (k_doc (op_pkg op)).
Proof.
  intros H. destruct (opened_as _ _ _ _ H) as [O _]. destruct H as (_ & crc & styles & ext & n & ext' & Q). pose proof (opened_well_formed _ O) as W.
  destruct (prepare_shape _ _ _ _ _ _ _ _ W Q) as (d1 & d & comments & links & -> & L & _ & W1 & _ & Cp & (body & n1 & has & X & Hb & Hp) & _).
  destruct (collect_package_ok crc d1 W1) as (d2 & c2 & Q2 & _ & _ & _ & _ & _ & Wb & Wq & _). rewrite Cp in Q2. injection Q2 as <- <-.
  cbn [prepared set_types set_doc k_doc].
  assert (M1 : forall a b, map wipe_pics a = map wipe_pics b -> map bare a = map bare b) by (intros u v Z; unfold bare; rewrite <- !(map_map wipe_pics ParaIdSpec.wipe); now rewrite Z).
  assert (M2 : forall a b, map ParaIdSpec.wipe a = map ParaIdSpec.wipe b -> map bare a = map bare b) by (intros u v Z; unfold bare; rewrite !(map_ext _ _ wipes_commute), <- !(map_map ParaIdSpec.wipe wipe_pics); now rewrite Z).
  assert (Nb : existsb OpenTexts.is_toc (d_body (k_doc (op_pkg op))) = false).
  { destruct (existsb OpenTexts.is_toc _) eqn:Et; [|reflexivity]. apply existsb_exists in Et as (t & T1 & T2). pose proof (ao_body _ O) as Kb. unfold kinds in Kb. rewrite Forall_forall in Kb.
    destruct (Kb _ T1) as [_ C]. destruct t; try discriminate T2. unfold came_from_reading in C. cbn [all_nodes] in C. inversion C as [|? ? [_ A] _]. discriminate A. }
  unfold TocModel.expand_auto_tocs in X. rewrite OpenTexts.no_tocs_eligible in X by exact Nb. cbn [TocModel.expand_all option_map] in X. injection X as <- _ _.
  split; [|split].
  - rewrite (M1 _ _ Wb). now apply M2.
  - rewrite (M1 _ _ Wq). now apply M2.
  - unfold layout in L. now injection L.
Qed.

(** ** Archives the library wrote *)
Lemma sorted_prefix {A} (R : A -> A -> Prop) l a j : (forall a, ~ R a a) -> (forall a b c, R a b -> R b c -> R a c) -> StronglySorted R l -> nth_error l j = Some a ->
  forall b, In b (firstn j l) <-> In b l /\ R b a.
Proof.
  intros Irr Tr S. revert j. induction S as [|x l S IH F]; intros j H b; [destruct j; discriminate H|]. destruct j as [|j]; cbn [firstn nth_error In] in *.
  - injection H as ->. split; [intros []|]. intros [[->|I] X]; [exact (Irr _ X)|]. rewrite Forall_forall in F. exact (Irr _ (Tr _ _ _ X (F _ I))).
  - rewrite (IH _ H). rewrite Forall_forall in F. split; [|tauto]. intros [->|[I X]]; [|tauto]. split; [now left|]. apply F. exact (nth_error_In _ _ H).
Qed.
Lemma before_irr a : ~ before a a.
Proof. unfold before. lia. Qed.
Lemma before_trans a b c : before a b -> before b c -> before a c.
Proof. unfold before. lia. Qed.
Lemma id_given l x rid c : keeps_document l -> in_order l -> last_given (attachments 0 l) (0, x) = Some (rid, c) ->
  rid = side_rid (is_head x) (N.of_nat (length (filter (fun y => eqb (is_head y) (is_head x) && Nat.ltb (slot_order y) (slot_order x) && match intended l 0 y with Some _ => true | None => false end) all_slots)) + 1).
Proof.
  intros K Ord G. destruct (last_given_at _ _ _ _ G) as (j & At & ->). cbn [snd] in *. do 2 f_equal. destruct At as [At _].
  assert (Srt : StronglySorted before (side_keys (is_head x) (attachments 0 l))) by exact (Ord (is_head x)).
  set (keys := side_keys (is_head x) (attachments 0 l)) in *. set (f := fun y => _ && _ && _).
  pose proof (sorted_prefix before keys _ _ before_irr before_trans Srt At) as Pre.
  assert (Lj : length (firstn j keys) = j) by (apply firstn_length_le; assert (j < length keys) by (apply nth_error_Some; congruence); lia).
  assert (Nd1 : NoDup (firstn j keys)).
  { pose proof (sorted_nodup before before_irr _ Srt) as N. rewrite <- (firstn_skipn j keys) in N. now apply NoDup_app_elim in N. }
  assert (Nd2 : NoDup (map (pair 0) (filter f all_slots))).
  { apply FinFun.Injective_map_NoDup; [intros u v Q; now injection Q|]. apply NoDup_filter. repeat constructor; cbn; intuition discriminate. }
  assert (Same : forall q, In q (firstn j keys) <-> In q (map (pair 0) (filter f all_slots))).
  { intros q. rewrite Pre, in_map_iff. unfold keys. rewrite side_keys_in. split.
    - intros [[I S] B]. destruct q as [pl y]. destruct B as [B|[B B']]; cbn [fst snd] in *; [lia|]. subst pl. exists y. split; [reflexivity|]. apply filter_In. split; [destruct y; cbn; tauto|].
      unfold f. rewrite S, eqb_reflx, (proj2 (Nat.ltb_lt _ _) B'), intended_given. apply last_given_some in I. destruct (last_given (attachments 0 l) (0, y)); [reflexivity|contradiction].
    - intros (y & <- & I). apply filter_In in I. destruct I as [_ I]. unfold f in I. apply andb_true_iff in I. destruct I as [I I3]. apply andb_true_iff in I. destruct I as [I1 I2].
      apply eqb_prop in I1. apply Nat.ltb_lt in I2. rewrite intended_given in I3. split; [split; [|exact I1]|right; auto].
      destruct (in_dec (fun a b => match key_eqb a b as b0 return key_eqb a b = b0 -> {a = b} + {a <> b} with
         | true => fun E => left (proj1 (key_eqb_spec a b) E) | false => fun E => right (fun X => eq_true_false_abs _ (proj2 (key_eqb_spec a b) X) E) end eq_refl) (0, y) (map fst (attachments 0 l))) as [Y|N]; [exact Y|].
      apply last_given_none in N. rewrite N in I3. discriminate I3. }
  rewrite <- Lj at 1. rewrite <- (map_length (pair 0) (filter f all_slots)). f_equal. apply Nat.le_antisymm; apply NoDup_incl_length; auto; intros q; apply Same.
Qed.
Lemma library_headers l o k c es png preview m op k' c' : OpenSpec.saved l o k c es -> OpenSpec.reopenable k o c -> OpenSpec.opened_from k es png preview m op -> in_order l ->
  opened_and_saved (as_archive es) op k' c' -> forall x, intended l 0 x <> None -> shown (k_doc k') (k_doc_rels k') (stream_steps k' c') 0 x.
Proof.
  intros S Re O Ord H x Hi. pose proof (OpenFinal.header_back _ _ _ _ _ _ _ _ _ S Re O Ord) as B. pose proof (B x) as Bx.
  destruct (intended l 0 x) as [given|] eqn:Gx; [|contradiction]. destruct Bx as (rid & packed & _ & Pa).
  destruct (parts_shown_resaved _ _ _ _ _ _ H Pa) as (r & Hr & Sh). apply Sh. clear Sh.
  assert (Fb : forall y, match part_at (k_doc (op_pkg op)) 0 y with Some _ => true | None => false end = match intended l 0 y with Some _ => true | None => false end).
  { intros y. specialize (B y). destruct (intended l 0 y); [destruct B as (? & ? & _ & ->); reflexivity|now rewrite B]. }
  assert (Rid : pr_id r = rid).
  { destruct (opened_as _ _ _ _ H) as [Oo _]. apply find_some in Pa. destruct Pa as [Pa _]. cbn [parts_at] in Pa. pose proof (ao_refs _ Oo _ _ _ _ Pa) as R. rewrite Hr in R. now injection R as ->. }
  rewrite Rid.
  assert (Ref : ref_of (d_sect (k_doc k)) x = Some {| pr_type := type_of x; pr_id := rid |}).
  { pose proof (OpenFinal.part_back _ _ _ _ _ _ _ _ _ S Re O x) as P. destruct S as (T & (crc & styles & ext & n & Q) & _).
    destruct (proj1 (parts_shown_proof _ _ _ _ _ _ _ _ T Q) Ord 0 x) as (p & rid' & name & nd & H1 & H2 & H3 & H4 & H5); [congruence|]. cbn [property_at] in H1. injection H1 as <-.
    rewrite H2 in P. cbn [pr_id] in P. destruct P as [P _]. specialize (P _ _ H3 H5). rewrite Pa in P. injection P as ->. exact H2. }
  pose proof (OpenFinal.saved_sect _ _ _ _ _ S) as Hs. destruct S as (T & _). pose proof (typed_keeps l T) as K.
  rewrite intended_given in Gx. destruct (last_given (attachments 0 l) (0, x)) as [[rid' c0]|] eqn:G; [|discriminate Gx].
  pose proof (o_refs _ _ _ _ (w_document _ _ _ (calls_doc_ok l K)) _ _ _ G) as R2. rewrite Hs, R2 in Ref. injection Ref as <-.
  rewrite (id_given l x rid' c0 K Ord G). unfold listed_id, filled_before.
  assert (Fl : filter (fun y => eqb (is_head y) (is_head x) && Nat.ltb (slot_order y) (slot_order x) && match part_at (k_doc (op_pkg op)) 0 y with Some _ => true | None => false end) all_slots =
               filter (fun y => eqb (is_head y) (is_head x) && Nat.ltb (slot_order y) (slot_order x) && match intended l 0 y with Some _ => true | None => false end) all_slots).
  { apply filter_ext. intros y. now rewrite Fb. }
  rewrite Fl.
  rewrite N.add_comm. destruct (is_head x); reflexivity.
Qed.

(** ** When saving what was opened is possible *)
Lemma nothing_eligible body : kinds section_child body -> forall i, TocModel.eligible_indexes i body = [].
Proof.
  intros H. induction H as [|n l [K C] _ IH]; intros i; [reflexivity|]. cbn [TocModel.eligible_indexes]. rewrite IH.
  unfold came_from_reading in C. rewrite Forall_forall in C. destruct (C n) as [_ A]; [destruct n; now left|]. destruct n; try discriminate K; try discriminate A; reflexivity.
Qed.
(** What preparing does to a document that was opened. *)
Lemma prepare_opened k crc styles ext n : as_opened k ->
  prepare_package crc styles ext n k =
  match ParaIdModel.prepare_ids (k_doc k) with
  | None => None
  | Some d1 =>
      let dp := update_dependencies (d_body d1) {| dp_comments := d_comments d1; dp_ext := ext; dp_has_comments := r_comments (k_doc_rels k); dp_links := [] |} in
      match collect_package crc (with_comments d1 (dp_comments dp)) with
      | None => None
      | Some (d2, c) => Some (prepared k d2 (dp_has_comments dp) (dp_links dp) c, c, dp_ext dp)
      end
  end.
Proof.
  intros O. unfold prepare_package, TocModel.expand_auto_tocs. rewrite (nothing_eligible _ (ao_body _ O)). cbn [TocModel.expand_all option_map].
  assert (Ed : with_body (k_doc k) (d_body (k_doc k)) = k_doc k) by (destruct (k_doc k); reflexivity). now rewrite Ed.
Qed.
Lemma comments_well_formed k d1 ext : as_opened k -> ParaIdModel.prepare_ids (k_doc k) = Some d1 ->
  doc_well_formed (with_comments d1 (dp_comments (update_dependencies (d_body d1) {| dp_comments := d_comments d1; dp_ext := ext; dp_has_comments := r_comments (k_doc_rels k); dp_links := [] |}))).
Proof.
  intros O P. destruct (refresh_layout _ _ (opened_well_formed _ O) P) as [_ (A & B & C & D & F)]. unfold doc_roots in F. rewrite !Forall_app in F. destruct F as (F1 & F2 & F3 & F4).
  destruct (found_comments (d_body d1) {| dp_comments := d_comments d1; dp_ext := ext; dp_has_comments := r_comments (k_doc_rels k); dp_links := [] |} F1 C F3) as [G1 G2].
  unfold doc_well_formed, doc_roots. cbn [with_comments d_body d_parts d_comments d_footnotes]. rewrite !Forall_app. tauto.
Qed.
Lemma prepares_iff a png preview m op st crc styles ext n : read_docx png preview a m = Val op st ->
  ((exists r, prepare_package crc styles ext n (op_pkg op) = Some r) <-> (N.of_nat (ParaIdSpec.to_renew (ParaIdSpec.open_para_ids (k_doc (op_pkg op)))) < 4294967295)%N).
Proof.
  intros H. destruct (opening_gives _ _ _ _ _ _ H) as [O _]. rewrite (prepare_opened _ _ _ _ _ O).
  rewrite <- (ParaIdProofs.prepare_total _ (opened_well_formed _ O)). split.
  - intros [r R]. destruct (ParaIdModel.prepare_ids (k_doc (op_pkg op))) as [d1|]; [eauto|discriminate R].
  - intros [d1 D]. pose proof (comments_well_formed _ _ ext O D) as W1. rewrite D. cbv zeta.
    destruct (collect_package_ok crc _ W1) as (d2 & c2 & Q2 & _). rewrite Q2. eauto.
Qed.

(** What cannot be written is neither put in nor taken out. *)
Notation bad := (existsb BuildSpec.unwritable).
Section Kept.
  Variables (f : node -> node) (g : node -> list node).
  Hypothesis own : forall n, (forall l, incl l (children n) -> bad (flat_map g (map f l)) = bad (flat_map g l)) -> bad (g (f n)) = bad (g n).
  Lemma bad_kept n : bad (g (f n)) = bad (g n).
  Proof.
    induction n as [n IH] using node_tree_ind. rewrite Forall_forall in IH. apply own.
    induction l as [|x l IHl]; intros Hl; [reflexivity|]. cbn [map flat_map]. rewrite !existsb_app, IHl, IH; auto; [apply Hl; now left|intros y Hy; apply Hl; now right].
  Qed.
  Lemma bad_map l : bad (flat_map g (map f l)) = bad (flat_map g l).
  Proof. induction l as [|n l IH]; [reflexivity|]. cbn [map flat_map]. now rewrite !existsb_app, IH, bad_kept. Qed.
End Kept.
Ltac kept := let n := fresh in let G := fresh in intros n G; destruct n;
  cbn [ParaIdSpec.wipe wipe_pics BuildSpec.written all_nodes existsb BuildSpec.unwritable children orb] in *; try reflexivity; try (now apply G, incl_refl);
  rewrite ?existsb_app; repeat match goal with |- context [flat_map _ (map _ ?l)] => rewrite (G l) by first [now apply incl_appl, incl_refl | now apply incl_appr, incl_refl] end; try reflexivity.
Lemma written_wipe l : bad (flat_map BuildSpec.written (map ParaIdSpec.wipe l)) = bad (flat_map BuildSpec.written l).
Proof. apply bad_map. kept. Qed.
Lemma written_pics l : bad (flat_map BuildSpec.written (map wipe_pics l)) = bad (flat_map BuildSpec.written l).
Proof. apply bad_map. kept. Qed.
Lemma all_wipe l : bad (flat_map all_nodes (map ParaIdSpec.wipe l)) = bad (flat_map all_nodes l).
Proof. apply bad_map. kept. Qed.
Lemma written_bare l m : map bare l = map bare m -> bad (flat_map BuildSpec.written l) = bad (flat_map BuildSpec.written m).
Proof. intros H. rewrite <- (written_pics l), <- (written_wipe (map wipe_pics l)), <- (written_pics m), <- (written_wipe (map wipe_pics m)), !map_map. unfold bare in H. now rewrite H. Qed.
Lemma bad_in l : bad l = true <-> exists n, In n l /\ BuildSpec.unwritable n = true.
Proof. apply existsb_exists. Qed.
Lemma bad_incl l m : incl l m -> bad m = false -> bad l = false.
Proof. intros H B. destruct (bad l) eqn:E; [|reflexivity]. apply bad_in in E. destruct E as (n & I & U). rewrite <- B. symmetry. apply bad_in. eauto. Qed.
Lemma written_all l : incl (flat_map BuildSpec.written l) (flat_map all_nodes l).
Proof.
  assert (N : forall n, incl (BuildSpec.written n) (all_nodes n)).
  { induction n as [n IH] using node_tree_ind. rewrite Forall_forall in IH.
    assert (G : forall l, incl l (children n) -> incl (flat_map BuildSpec.written l) (flat_map all_nodes l)).
    { intros u Hl x Hx. apply in_flat_map in Hx. destruct Hx as (m & Im & Hx). apply in_flat_map. exists m. split; [exact Im|]. now apply (IH m (Hl _ Im)). }
    destruct n; cbn [BuildSpec.written all_nodes children] in *; try apply incl_refl; apply incl_cons; try (now left); try (intros y []; fail); apply incl_tl; try (apply G, incl_refl);
      try (apply incl_app; [apply incl_appl, G, incl_appl, incl_refl|apply incl_appr, G, incl_appr, incl_refl]); try (apply incl_appl, G, incl_appl, incl_refl). }
  intros x Hx. apply in_flat_map in Hx. destruct Hx as (n & I & Hx). apply in_flat_map. exists n. split; [exact I|]. now apply N.
Qed.
Lemma nodes_below n m : In m (all_nodes n) -> incl (all_nodes m) (all_nodes n).
Proof.
  revert m. induction n as [n IH] using node_tree_ind. intros m I. rewrite all_nodes_children in I. destruct I as [<-|I]; [apply incl_refl|].
  apply in_flat_map in I. destruct I as (x & Ix & I). rewrite Forall_forall in IH. rewrite (all_nodes_children n). apply incl_tl. intros y Hy. apply in_flat_map. exists x. split; [exact Ix|]. exact (IH x Ix m I y Hy).
Qed.
Lemma seen_in body c : In c (DepsSpec.seen_comments body) -> incl (flat_map all_nodes (snd c)) (flat_map all_nodes body).
Proof.
  intros I. assert (X : In (NCommentStart (fst c) (snd c)) (flat_map all_nodes body)).
  { unfold DepsSpec.seen_comments in I. apply in_flat_map in I. destruct I as (p & Ip & I).
    unfold DepsSpec.seen_paras in Ip. apply in_flat_map in Ip. destruct Ip as (n & In_ & Ip). apply in_flat_map. exists n. split; [exact In_|].
    assert (Pn : In p (all_nodes n)) by (apply DepsProofs.paras_below_incl; destruct n; try destruct Ip; try exact Ip; [now left|now right]).
    apply (nodes_below n p Pn). rewrite all_nodes_children. right.
    unfold DepsSpec.comments_in in I. apply in_flat_map in I. destruct I as (x & Ix & I). apply in_flat_map. exists x. split; [exact Ix|].
    assert (D : forall y, In c (DepsSpec.comment_at y) -> In (NCommentStart (fst c) (snd c)) (all_nodes y)) by (intros y K; destruct y; try destruct K as []; subst; now left).
    destruct x; try (now apply D). apply in_flat_map in I. destruct I as (y & Iy & I). rewrite all_nodes_children. right. apply in_flat_map. exists y. split; [exact Iy|]. now apply D. }
  apply in_flat_map in X. destruct X as (n & In_ & X). intros y Hy. apply in_flat_map. exists n. split; [exact In_|]. apply (nodes_below n _ X). rewrite all_nodes_children. now right.
Qed.
Lemma parts_content (f : node -> bool) l : (forall s r nb ch s' r' nb' ch', s = s' -> f (NPart s r nb ch) = f (NPart s' r' nb' ch')) -> forall m, Forall (fun n => is_part n = true) m -> map bare l = map bare m ->
  bad (flat_map BuildSpec.written (flat_map RenderSpec.part_content (filter f l))) = bad (flat_map BuildSpec.written (flat_map RenderSpec.part_content (filter f m))).
Proof.
  intros Hf. induction l as [|a l IH]; intros [|b m] P H; try discriminate H; [reflexivity|]. cbn [map] in H. injection H as Hn H.
  inversion P as [|? ? Pb Pm]; subst. destruct b; try discriminate Pb. destruct a; try discriminate Hn. unfold bare in Hn. cbn [wipe_pics ParaIdSpec.wipe] in Hn. injection Hn as -> _ _ Hc. rewrite !map_map in Hc.
  cbn [filter]. rewrite (Hf _ rid0 numbering0 ch0 _ rid numbering ch eq_refl). specialize (IH m Pm H). destruct (f _); [|exact IH]. cbn [flat_map RenderSpec.part_content]. rewrite !flat_map_app, !existsb_app, IH.
  f_equal. apply written_bare. exact Hc.
Qed.
Lemma parts_where_opened k f : as_opened k -> parts_where f (k_doc k) = filter f (d_parts (k_doc k)).
Proof.
  intros O. unfold parts_where. pose proof (ao_body _ O) as B. replace (flat_map _ (d_body (k_doc k))) with (@nil node); [apply app_nil_r|].
  symmetry. induction B as [|n l [K C] _ IH]; [reflexivity|]. cbn [flat_map]. rewrite IH. destruct n; try discriminate K; reflexivity.
Qed.
Lemma bare_no_sections l : forall m, map bare l = map bare m -> (forall n, In n m -> match n with NSection _ _ _ _ => False | _ => True end) ->
  forall n, In n l -> match n with NSection _ _ _ _ => False | _ => True end.
Proof.
  induction l as [|a l IH]; intros [|b m] H S n I; try discriminate H; [destruct I|]. cbn [map] in H. injection H as Ha H. destruct I as [<-|I]; [|apply (IH m H); auto; intros; apply S; now right].
  specialize (S b (or_introl eq_refl)). destruct a; auto. destruct b; try discriminate Ha. exact S.
Qed.
Lemma side_written a op k c h : opened_and_saved a op k c -> (forall s r nb ch s' r' nb' ch', s = s' -> h (NPart s r nb ch) = h (NPart s' r' nb' ch')) ->
  bad (flat_map BuildSpec.written (flat_map RenderSpec.part_content (parts_where h (k_doc k)))) =
  bad (flat_map BuildSpec.written (flat_map RenderSpec.part_content (filter h (d_parts (k_doc (op_pkg op)))))).
Proof.
  intros H Hf. destruct (opened_as _ _ _ _ H) as [O _]. destruct (tree_kept _ _ _ _ H) as (Tb & Tp & _).
  rewrite <- (parts_content h (d_parts (k_doc k)) Hf (d_parts (k_doc (op_pkg op))) (proj2 (ao_ranked _ O)) Tp). unfold parts_where.
  assert (S : forall n, In n (d_body (k_doc k)) -> match n with NSection _ _ _ _ => False | _ => True end).
  { apply (bare_no_sections _ _ Tb). intros n I. pose proof (ao_body _ O) as B. unfold kinds in B. rewrite Forall_forall in B. destruct (B _ I) as [K _]. destruct n; auto; discriminate K. }
  replace (flat_map _ (d_body (k_doc k))) with (@nil node); [now rewrite app_nil_r|]. symmetry. clear Tb. induction (d_body (k_doc k)) as [|n l IH]; [reflexivity|]. cbn [flat_map]. rewrite IH by (intros; apply S; now right).
  specialize (S n (or_introl eq_refl)). destruct n; auto. destruct S.
Qed.
Lemma header_by_slot s r nb ch s' r' nb' ch' : s = s' -> is_header (NPart s r nb ch) = is_header (NPart s' r' nb' ch').
Proof. now intros ->. Qed.
Lemma footer_by_slot s r nb ch s' r' nb' ch' : s = s' -> is_footer (NPart s r nb ch) = is_footer (NPart s' r' nb' ch').
Proof. now intros ->. Qed.
Lemma content_bad a op k c : opened_and_saved a op k c ->
  let d := k_doc (op_pkg op) in
  bad (flat_map BuildSpec.written (RenderSpec.content_of k)) =
    bad (flat_map BuildSpec.written (d_body d)) || (bad (flat_map BuildSpec.written (flat_map snd (d_comments (k_doc k)))) || (bad (flat_map BuildSpec.written (flat_map snd (d_footnotes (k_doc k)))) ||
    (bad (flat_map BuildSpec.written (flat_map RenderSpec.part_content (filter is_header (d_parts d)))) || bad (flat_map BuildSpec.written (flat_map RenderSpec.part_content (filter is_footer (d_parts d))))))).
Proof.
  intros H d. unfold RenderSpec.content_of. rewrite !flat_map_app, !existsb_app. destruct (tree_kept _ _ _ _ H) as (Tb & _ & _). rewrite (written_bare _ _ Tb). unfold headers, footers.
  rewrite (side_written _ _ _ _ is_header H header_by_slot), (side_written _ _ _ _ is_footer H footer_by_slot). reflexivity.
Qed.
Lemma bad_writable l : BuildProofs.writable l = negb (bad (flat_map BuildSpec.written l)).
Proof. unfold BuildProofs.writable. induction (flat_map BuildSpec.written l) as [|n r IH]; [reflexivity|]. cbn [forallb existsb]. rewrite IH. now destruct (BuildSpec.unwritable n), (bad r). Qed.
(** A document with a shape can be opened but not saved. *)
Lemma shape_not_saved a op k c n : opened_and_saved a op k c ->
  In n (flat_map BuildSpec.written (d_body (k_doc (op_pkg op)) ++ flat_map RenderSpec.part_content (d_parts (k_doc (op_pkg op))))) -> BuildSpec.unwritable n = true ->
  forall o s, pack_docx k o c s = None /\ build_docx k o c s = None.
Proof.
  intros H I U o s. destruct (opened_as _ _ _ _ H) as [O _].
  assert (W : RenderProofs.all_writable k = false).
  { unfold RenderProofs.all_writable. rewrite bad_writable, (content_bad _ _ _ _ H). apply negb_false_iff.
    rewrite flat_map_app in I. apply in_app_or in I. destruct I as [I|I].
    - rewrite (proj2 (bad_in _) (ex_intro _ n (conj I U))). reflexivity.
    - apply in_flat_map in I. destruct I as (x & I & W). apply in_flat_map in I. destruct I as (p & Ip & Ix).
      assert (P : is_part p = true) by (pose proof (proj2 (ao_ranked _ O)) as R; rewrite Forall_forall in R; now apply R).
      assert (S : In n (flat_map BuildSpec.written (flat_map RenderSpec.part_content (filter is_header (d_parts (k_doc (op_pkg op)))))) \/
                  In n (flat_map BuildSpec.written (flat_map RenderSpec.part_content (filter is_footer (d_parts (k_doc (op_pkg op))))))).
      { destruct (is_header p) eqn:Eh; [left|right]; apply in_flat_map; exists x; (split; [|exact W]); apply in_flat_map; exists p; (split; [|exact Ix]); apply filter_In; (split; [exact Ip|]); [exact Eh|].
        destruct p; try discriminate P. destruct s0; try discriminate Eh; reflexivity. }
      destruct S as [S|S]; rewrite (proj2 (bad_in _) (ex_intro _ n (conj S U))); rewrite ?orb_true_r; reflexivity. }
  split.
  - destruct (pack_docx k o c s) eqn:Q; [|reflexivity]. destruct (proj1 (RenderProofs.pack_writes k o c s)) as [X _]; [eauto|congruence].
  - destruct (build_docx k o c s) eqn:Q; [|reflexivity]. destruct (proj1 (RenderProofs.build_writes k o c s)) as [X _]; [eauto|congruence].
Qed.
(** Without one, it can, as long as the counters last. *)
Lemma no_notes l : Forall came_from_reading l -> footnotes_in l = [].
Proof.
  intros H. unfold footnotes_in. assert (G : Forall (fun n => as_read n = true) (flat_map own_nodes l)).
  { apply Forall_forall. intros n I. apply in_flat_map in I. destruct I as (r & Ir & I). apply own_nodes_all in I. rewrite Forall_forall in H. specialize (H _ Ir). unfold came_from_reading in H. rewrite Forall_forall in H. now destruct (H _ I). }
  induction G as [|n r A _ IH]; [reflexivity|]. cbn [flat_map]. rewrite IH. destruct n; try discriminate A; reflexivity.
Qed.
Lemma resave_writes a op k c : opened_and_saved a op k c ->
  (forall n, In n (flat_map all_nodes (d_body (k_doc (op_pkg op)) ++ flat_map RenderSpec.part_content (d_parts (k_doc (op_pkg op))) ++ flat_map snd (d_comments (k_doc (op_pkg op))))) -> BuildSpec.unwritable n = false) ->
  forall o s, BuildSpec.enough s (BuildSpec.plus (RenderSpec.main_spend k o) (RenderSpec.side_spend k)) -> exists r, pack_docx k o c s = Some r.
Proof.
  intros H Hn o s En. apply RenderProofs.pack_writes. split; [|exact En]. unfold RenderProofs.all_writable. rewrite bad_writable, (content_bad _ _ _ _ H). apply negb_true_iff.
  assert (B : bad (flat_map all_nodes (d_body (k_doc (op_pkg op)) ++ flat_map RenderSpec.part_content (d_parts (k_doc (op_pkg op))) ++ flat_map snd (d_comments (k_doc (op_pkg op))))) = false).
  { destruct (bad _) eqn:Eb; [|reflexivity]. apply bad_in in Eb. destruct Eb as (x & Ix & Ux). rewrite (Hn x Ix) in Ux. discriminate Ux. }
  rewrite !flat_map_app, !existsb_app in B. apply orb_false_iff in B. destruct B as [B1 B]. apply orb_false_iff in B. destruct B as [B2 B3].
  destruct (opened_as _ _ _ _ H) as [O _]. destruct H as (_ & crc & styles & ext & n & ext' & Q). rewrite (prepare_opened _ _ _ _ _ O) in Q.
  destruct (ParaIdModel.prepare_ids (k_doc (op_pkg op))) as [d1|] eqn:P; [|discriminate Q]. pose proof (comments_well_formed _ _ ext O P) as W1. cbv zeta in Q.
  destruct (collect_package_ok crc _ W1) as (d2 & c2 & Q2 & _ & _ & _ & _ & _ & _ & _ & _ & Ec & Ef & _). rewrite Q2 in Q. injection Q as <- <- _.
  destruct (ParaIdProofs.prepare_spec _ _ (opened_well_formed _ O) P) as [_ Wd]. cbn [prepared set_types set_doc k_doc].
  assert (B1' : bad (flat_map all_nodes (d_body d1)) = false).
  { rewrite <- B1, <- (all_wipe (d_body d1)), <- (all_wipe (d_body (k_doc (op_pkg op)))). unfold ParaIdSpec.wipe_docx in Wd. injection Wd as Wb _ _ _ _. now rewrite Wb. }
  assert (S : forall f, bad (flat_map BuildSpec.written (flat_map RenderSpec.part_content (filter f (d_parts (k_doc (op_pkg op)))))) = false).
  { intros f. eapply bad_incl; [|exact B2]. eapply incl_tran; [apply written_all|]. intros x Hx. apply in_flat_map in Hx. destruct Hx as (y & Hy & Hx). apply in_flat_map. exists y. split; [|exact Hx].
    apply in_flat_map in Hy. destruct Hy as (z & Hz & Hy). apply in_flat_map. exists z. split; [|exact Hy]. now apply filter_In in Hz. }
  rewrite !S, Ec, Ef. cbn [with_comments d_comments d_footnotes d_body]. 
  rewrite (bad_incl _ _ (written_all _) B1). cbn [orb].
  assert (Cm : bad (flat_map BuildSpec.written (flat_map snd (dp_comments (update_dependencies (d_body d1) {| dp_comments := d_comments d1; dp_ext := ext; dp_has_comments := r_comments (k_doc_rels (op_pkg op)); dp_links := [] |})))) = false).
  { eapply bad_incl; [apply written_all|]. destruct (DepsProofs.collected_exactly (d_body d1) {| dp_comments := d_comments d1; dp_ext := ext; dp_has_comments := r_comments (k_doc_rels (op_pkg op)); dp_links := [] |}) as (-> & _).
    destruct (flat_map DepsSpec.paras_of_comment (DepsSpec.seen_comments (d_body d1))).
    - cbn [dp_comments]. rewrite <- B3, <- (all_wipe (flat_map snd (d_comments d1))), <- (all_wipe (flat_map snd (d_comments (k_doc (op_pkg op))))).
      unfold ParaIdSpec.wipe_docx in Wd. injection Wd as _ _ _ Wc _. f_equal. f_equal.
      revert Wc. generalize (d_comments (k_doc (op_pkg op))). generalize (d_comments d1). induction l as [|u l IH]; intros [|v m] Z; try discriminate Z; [reflexivity|]. cbn [map] in Z. injection Z as Z1 Z2 Z. cbn [flat_map]. rewrite !map_app, Z2, (IH _ Z). reflexivity.
    - eapply bad_incl; [|exact B1']. intros x Hx. apply in_flat_map in Hx. destruct Hx as (y & Hy & Hx). apply in_flat_map in Hy. destruct Hy as (cm & Hc & Hy). apply in_flat_map in Hc. destruct Hc as (cm' & Hc' & Hc).
      unfold DepsProofs.copies in Hc. apply repeat_spec in Hc. subst cm. apply (seen_in _ _ Hc'). apply in_flat_map. eauto. }
  rewrite Cm. cbn [orb].
  assert (Nt : flat_map snd (d_footnotes d1 ++ footnotes_in (d_body d1)) = []).
  { unfold ParaIdSpec.wipe_docx in Wd. injection Wd as Wb _ _ _ Wf. rewrite (ao_notes _ O) in Wf. apply map_eq_nil in Wf. rewrite Wf.
    assert (Af : forall n, foot_at (ParaIdSpec.wipe n) = foot_at n) by (intros []; reflexivity).
    change (footnotes_in (d_body d1)) with (own_of foot_at (d_body d1)). rewrite <- (own_of_wipe _ Af (d_body d1)), Wb, (own_of_wipe _ Af).
    change (own_of foot_at (d_body (k_doc (op_pkg op)))) with (footnotes_in (d_body (k_doc (op_pkg op)))). rewrite no_notes; [reflexivity|].
    eapply Forall_impl; [|exact (ao_body _ O)]. now intros ? []. }
  rewrite Nt. reflexivity.
Qed.

From Coq Require Import NArith List Bool Lia.
From Verif Require Import Str ListFacts Props Ast Pass PassFacts MediaModel MediaSpec MediaProofs TreeModel TreeSpec.
Import ListNotations.

(** * Items met by the visitor *)
Inductive item := IPic (p : pic) | IFoot (id : N) (content : list node).
Fixpoint visited (n : node) : list item :=
  match n with
  | NPic p => [IPic p]
  | NFootRef id _ content => [IFoot id content]
  | NRun _ ch => flat_map (fun c => if run_visits c then visited c else []) ch
  | NPara _ _ _ ch | NLink _ _ ch => flat_map (fun c => if para_visits c then visited c else []) ch
  | NIns _ ch | NMoveTo _ ch => flat_map (fun c => if ins_visits c then visited c else []) ch
  | NDel _ ch | NMoveFrom _ ch => flat_map (fun c => if del_visits c then visited c else []) ch
  | NSdt _ _ ch => flat_map (fun c => if sdt_visits c then visited c else []) ch
  | NTable _ _ _ rows => flat_map (fun c => if is_row c then visited c else []) rows
  | NRow _ _ cells => flat_map (fun c => if is_cell c then visited c else []) cells
  | NCell _ _ ch | NSection _ _ _ ch => flat_map (fun c => if section_visits c then visited c else []) ch
  | NToc _ b a => flat_map (fun c => if block_visits c then visited c else []) b ++
                  flat_map (fun c => if block_visits c then visited c else []) a
  | NPart _ _ _ ch => flat_map (fun c => if part_visits c then visited c else []) ch
  | _ => []
  end.
(** [wipe_pics] without the headers and footers of sections *)
Fixpoint wipe_own (n : node) : node :=
  match n with
  | NPic p => NPic (wipe_pic p)
  | NPara i p nb ch => NPara i p nb (map wipe_own ch)
  | NRun p ch => NRun p (map wipe_own ch)
  | NIns a ch => NIns a (map wipe_own ch)
  | NDel a ch => NDel a (map wipe_own ch)
  | NMoveFrom a ch => NMoveFrom a (map wipe_own ch)
  | NMoveTo a ch => NMoveTo a (map wipe_own ch)
  | NLink l h ch => NLink l h (map wipe_own ch)
  | NSdt p nb ch => NSdt p nb (map wipe_own ch)
  | NTable p g nb ch => NTable p g nb (map wipe_own ch)
  | NRow p nb ch => NRow p nb (map wipe_own ch)
  | NCell p nb ch => NCell p nb (map wipe_own ch)
  | NToc d b a => NToc d (map wipe_own b) (map wipe_own a)
  | NSection p parts nb ch => NSection p parts nb (map wipe_own ch)
  | NPart k r nb ch => NPart k r nb (map wipe_own ch)
  | _ => n
  end.

Lemma wipe_pics_own n : wipe_pics (wipe_own n) = wipe_pics n.
Proof.
  induction n as [n IH] using node_tree_ind.
  assert (G : forall l, Forall (fun n => wipe_pics (wipe_own n) = wipe_pics n) l -> map wipe_pics (map wipe_own l) = map wipe_pics l).
  { intros l Hl. rewrite map_map. apply map_ext_in. now apply Forall_forall. }
  destruct n; cbn [wipe_own wipe_pics children] in *; try reflexivity;
    try (apply Forall_app in IH; destruct IH as [IH1 IH2]); rewrite ?G by assumption; reflexivity.
Qed.

Section Visit.
  Variable crc : string -> N.
  Variable prefix : option string.
  Definition on_item (i : item) (s : part_state) : option (item * part_state) :=
    match i with
    | IPic p => then_ (on_picture crc prefix p s) IPic
    | IFoot id content => Some (IFoot id content, on_footnote id content s)
    end.
  Local Notation tracks := (tracks on_item).

  Ltac same_kind := let c := fresh in let c' := fresh in let E := fresh in intros c c'; destruct c, c'; cbn [wipe_own]; intros E; (reflexivity || discriminate E).
  Ltac kinds := intros []; reflexivity.
  Ltac simple_case vc k :=
    eapply (tracks_then _ _ _ (map wipe_own) k); [reflexivity|reflexivity|reflexivity| |
      apply (tracks_children _ (visit crc prefix) visited wipe_own vc vc); [kinds|same_kind|assumption]]; cbn [wipe_own]; intros z ->; reflexivity.

  Lemma visit_tracks n : tracks (visit crc prefix) visited wipe_own n.
  Proof.
    induction n as [n IH] using node_tree_ind.
    destruct n; try (intros ?; split; reflexivity); cbn [children] in IH.
    - simple_case run_visits (NRun p).
    - intros s. cbn [visit visited pass on_item]. unfold then_, on_picture.
      destruct (visit_picture crc prefix (ps_registry s) (ps_collector s) (pic_id p) (pic_image p)) as [((id & r) & c)|]; [|reflexivity].
      split; reflexivity.
    - simple_case ins_visits (NIns a).
    - simple_case del_visits (NDel a).
    - simple_case del_visits (NMoveFrom a).
    - simple_case ins_visits (NMoveTo a).
    - simple_case para_visits (NLink l history).
    - simple_case sdt_visits (NSdt p numbering).
    - simple_case para_visits (NPara id p numbering).
    - simple_case is_row (NTable p grid numbering).
    - simple_case is_cell (NRow p numbering).
    - simple_case section_visits (NCell p numbering).
    - apply Forall_app in IH. destruct IH as [Hb Ha].
      eapply (tracks_then _ _ _ (fun p => (map wipe_own (fst p), map wipe_own (snd p))) (fun p => NToc d (fst p) (snd p)));
        [| | | |apply tracks_pair; apply (tracks_children _ (visit crc prefix) visited wipe_own block_visits block_visits); [kinds|same_kind|exact Hb|kinds|same_kind|exact Ha]].
      + intros s. cbn [visit fst snd]. destruct (pass _ before s) as [(b' & s1)|]; [|reflexivity].
        unfold then_. destruct (pass _ after s1) as [(a' & s2)|]; reflexivity.
      + reflexivity.
      + intros (b & a). reflexivity.
      + intros (b & a) E. cbn in *. now injection E as -> ->.
    - apply Forall_app in IH. destruct IH as [IH _]. simple_case section_visits (NSection p parts numbering).
    - simple_case part_visits (NPart s rid numbering).
  Qed.
  Lemma visit_body_tracks l : tracks (visit_body crc prefix) (flat_map (fun c => if doc_visits c then visited c else [])) (map wipe_own) l.
  Proof.
    apply (tracks_children _ (visit crc prefix) visited wipe_own doc_visits doc_visits); [kinds|same_kind|].
    apply Forall_forall. intros n _. apply visit_tracks.
  Qed.

  Definition item_pics (l : list item) : list pic := flat_map (fun i => match i with IPic p => [p] | _ => [] end) l.
  Definition item_foots (l : list item) : list (N * list node) := flat_map (fun i => match i with IFoot id c => [(id, c)] | _ => [] end) l.

  Lemma items_ok l : forall s, inv crc (ps_registry s) -> cinv (ps_registry s) (ps_collector s) ->
    exists l' s' t t', pass on_item l s = Some (l', s') /\ inv crc (ps_registry s') /\ cinv (ps_registry s') (ps_collector s')
      /\ media (ps_registry s') = media (ps_registry s) ++ t /\ rels (ps_collector s') = rels (ps_collector s) ++ t'
      /\ ps_footnotes s' = ps_footnotes s ++ item_foots l /\ item_foots l' = item_foots l
      /\ Forall2 (fun p p' => leads (rels (ps_collector s')) (media (ps_registry s')) (pic_id p') (pic_image p)) (item_pics l) (item_pics l').
  Proof.
    induction l as [|[p|id c] l IH]; intros s Hi Hc; cbn [pass on_item].
    - exists [], s, [], []. rewrite !app_nil_r. repeat split; auto; try apply Hi; try apply Hc; constructor.
    - unfold on_picture.
      destruct (visit_ok crc prefix (ps_registry s) (ps_collector s) (pic_id p) (pic_image p) Hi Hc)
        as (nid & r1 & c1 & t1 & u1 & -> & I1 & C1 & M1 & R1 & L1). cbn [then_].
      destruct (IH {| ps_registry := r1; ps_collector := c1; ps_footnotes := ps_footnotes s |} I1 C1)
        as (l' & s' & t2 & u2 & -> & I2 & C2 & M2 & R2 & F2 & G2 & L2). cbn [ps_registry ps_collector ps_footnotes] in *.
      exists (IPic (set_pic p nid "") :: l'), s', (t1 ++ t2), (u1 ++ u2).
      split; [reflexivity|]. split; [exact I2|]. split; [exact C2|]. split; [now rewrite M2, M1, app_assoc|].
      split; [now rewrite R2, R1, app_assoc|]. split; [exact F2|]. split; [exact G2|].
      cbn [item_pics flat_map app]. constructor; [|exact L2]. cbn [pic_id set_pic]. rewrite R2, M2. now apply leads_ext.
    - destruct (IH (on_footnote id c s) Hi Hc) as (l' & s' & t2 & u2 & -> & I2 & C2 & M2 & R2 & F2 & G2 & L2).
      cbn [on_footnote ps_registry ps_collector ps_footnotes] in *.
      exists (IFoot id c :: l'), s', t2, u2. cbn [item_foots item_pics flat_map app].
      split; [reflexivity|]. split; [exact I2|]. split; [exact C2|]. split; [exact M2|]. split; [exact R2|].
      split; [now rewrite F2, <- app_assoc|]. split; [exact (f_equal (cons (id, c)) G2)|exact L2].
  Qed.
End Visit.

(** * What the visitor meets is what belongs to the part *)
Definition own_item (n : node) : list item := match n with NPic p => [IPic p] | NFootRef id _ c => [IFoot id c] | _ => [] end.
Definition own_items (l : list node) : list item := flat_map own_item (flat_map own_nodes l).
Definition own_ok (n : node) : Prop := Forall (fun m => local_ok m = true) (own_nodes n).
Definition own_children (n : node) : list node :=
  match n with NTextBox _ | NFootRef _ _ _ | NCommentStart _ _ => [] | NSection _ _ _ ch => ch | _ => children n end.
Lemma own_nodes_eq n : own_nodes n = n :: flat_map own_nodes (own_children n).
Proof. destruct n; cbn [own_nodes own_children children flat_map]; rewrite ?flat_map_app; reflexivity. Qed.
Lemma own_children_sub n : incl (own_children n) (children n).
Proof. destruct n; cbn [own_children children]; try apply incl_refl; try (intros x []). apply incl_appl, incl_refl. Qed.
Lemma well_formed_own n : well_formed n -> own_ok n.
Proof.
  unfold own_ok, well_formed. induction n as [n IH] using node_tree_ind. intros H.
  assert (E : all_nodes n = n :: flat_map all_nodes (children n)) by (destruct n; cbn [all_nodes children flat_map]; rewrite ?flat_map_app; reflexivity).
  rewrite E in H. rewrite own_nodes_eq. inversion H as [|? ? H1 H2]; subst. constructor; [exact H1|].
  rewrite Forall_forall in *. intros m Hm. apply in_flat_map in Hm. destruct Hm as (c & Hc & Hm).
  apply own_children_sub in Hc. specialize (IH c Hc). rewrite Forall_forall in IH.
  assert (A : forall x, In x (all_nodes c) -> local_ok x = true) by (intros x Hx; apply H2, in_flat_map; eauto).
  specialize (IH A). rewrite Forall_forall in IH. now apply IH.
Qed.
Lemma visited_list kind vc l :
  (forall c, kind c = true -> vc c = false -> own_items [c] = []) ->
  forallb kind l = true -> Forall (fun c => visited c = own_items [c]) l ->
  flat_map (fun c => if vc c then visited c else []) l = own_items l.
Proof.
  intros Hv Hk H. unfold own_items. rewrite flat_map_flat_map. apply flat_map_in_ext.
  rewrite forallb_forall in Hk. rewrite Forall_forall in *. intros c Hc. specialize (Hv c (Hk c Hc)). specialize (H c Hc).
  unfold own_items in *. cbn [flat_map] in *. rewrite app_nil_r in *. destruct (vc c) eqn:E; [exact H|symmetry; auto].
Qed.
Ltac leafs_k := let K := fresh in let E := fresh in intros [] K E; first [discriminate K | discriminate E | reflexivity].

Lemma own_items_app l m : own_items (l ++ m) = own_items l ++ own_items m.
Proof. unfold own_items. now rewrite !flat_map_app. Qed.
Lemma visited_own n : own_ok n -> visited n = own_items [n].
Proof.
  induction n as [n IH] using node_tree_ind. intros Hok.
  assert (IH' : Forall (fun c => visited c = own_items [c]) (own_children n)).
  { unfold own_ok in Hok. rewrite own_nodes_eq in Hok. inversion Hok as [|? ? _ H]; subst.
    rewrite Forall_forall in *. intros c Hin. apply IH; [now apply own_children_sub|]. apply Forall_forall. intros m Hm.
    apply H, in_flat_map. eauto. }
  unfold own_ok in Hok. rewrite own_nodes_eq in Hok. inversion Hok as [|? ? Hl _]; subst. clear IH Hok.
  assert (E : own_items [n] = own_item n ++ own_items (own_children n)).
  { unfold own_items at 1. cbn [flat_map]. rewrite app_nil_r, own_nodes_eq. reflexivity. }
  rewrite E. clear E.
  destruct n; try reflexivity; cbn [own_children children visited own_item app] in *; cbn [local_ok] in Hl.
  - apply (visited_list run_child); [leafs_k|exact Hl|exact IH'].
  - apply (visited_list ins_child); [leafs_k|exact Hl|exact IH'].
  - apply (visited_list del_child); [leafs_k|exact Hl|exact IH'].
  - apply (visited_list del_child); [leafs_k|exact Hl|exact IH'].
  - apply (visited_list ins_child); [leafs_k|exact Hl|exact IH'].
  - apply (visited_list para_child); [leafs_k|exact Hl|exact IH'].
  - apply (visited_list sdt_child); [leafs_k|exact Hl|exact IH'].
  - apply (visited_list para_child); [leafs_k|exact Hl|exact IH'].
  - apply (visited_list is_row); [leafs_k|exact Hl|exact IH'].
  - apply (visited_list is_cell); [leafs_k|exact Hl|exact IH'].
  - apply (visited_list cell_child); [leafs_k|exact Hl|exact IH'].
  - apply andb_true_iff in Hl. destruct Hl as [H1 H2]. apply Forall_app in IH'. destruct IH' as [I1 I2].
    rewrite own_items_app. f_equal; (apply (visited_list plain_block); [leafs_k|assumption|assumption]).
  - apply andb_true_iff in Hl. destruct Hl as [H1 H2]. apply (visited_list section_child); [leafs_k|exact H2|exact IH'].
  - apply (visited_list part_child); [leafs_k|exact Hl|exact IH'].
Qed.
Lemma own_items_pics l : item_pics (own_items l) = pics_in l.
Proof. unfold item_pics, own_items, pics_in. rewrite flat_map_flat_map. apply flat_map_in_ext, Forall_forall. intros [] _; reflexivity. Qed.
Lemma own_items_foots l : item_foots (own_items l) = footnotes_in l.
Proof. unfold item_foots, own_items, footnotes_in. rewrite flat_map_flat_map. apply flat_map_in_ext, Forall_forall. intros [] _; reflexivity. Qed.
Lemma visited_body l : forallb doc_child l = true -> Forall own_ok l ->
  flat_map (fun c => if doc_visits c then visited c else []) l = own_items l.
Proof.
  intros H1 H2. apply (visited_list doc_child); [leafs_k|exact H1|]. eapply Forall_impl; [|exact H2]. apply visited_own.
Qed.

(** well-typedness under [wipe_own] *)
Lemma wipe_own_kind (v : node -> bool) l : (forall c, v (wipe_own c) = v c) -> forallb v (map wipe_own l) = forallb v l.
Proof. intros H. induction l as [|c l IH]; cbn; [reflexivity|]. now rewrite H, IH. Qed.
Lemma local_ok_wipe_own n : local_ok (wipe_own n) = local_ok n.
Proof. destruct n; cbn [wipe_own local_ok]; rewrite ?wipe_own_kind; try reflexivity; intros []; reflexivity. Qed.
Lemma own_nodes_wipe n : own_nodes (wipe_own n) = map wipe_own (own_nodes n).
Proof.
  induction n as [n IH] using node_tree_ind. rewrite (own_nodes_eq n), (own_nodes_eq (wipe_own n)). cbn [map]. f_equal.
  assert (E : own_children (wipe_own n) = map wipe_own (own_children n))
    by (destruct n; cbn [wipe_own own_children children map]; rewrite ?map_app; reflexivity).
  rewrite E, flat_map_map, map_flat_map. apply flat_map_in_ext. rewrite Forall_forall in *. intros c Hc. apply IH. now apply own_children_sub.
Qed.
Lemma own_ok_wipe n : own_ok (wipe_own n) <-> own_ok n.
Proof.
  unfold own_ok. rewrite own_nodes_wipe, Forall_map. split; intros H; (eapply Forall_impl; [|exact H]); intros m Hm; cbn in *.
  - now rewrite local_ok_wipe_own in Hm.
  - now rewrite local_ok_wipe_own.
Qed.
Lemma own_ok_same l l' : map wipe_own l' = map wipe_own l -> Forall own_ok l -> Forall own_ok l'.
Proof.
  intros E H. assert (A : Forall own_ok (map wipe_own l)).
  { rewrite Forall_map. eapply Forall_impl; [|exact H]. intros n Hn. now apply own_ok_wipe. }
  rewrite <- E, Forall_map in A. eapply Forall_impl; [|exact A]. intros n Hn. exact (proj1 (own_ok_wipe n) Hn).
Qed.

(** * Headers and footers *)
Definition part_leads (m : list (string * string)) (n n' : node) (rels : list (string * string)) : Prop :=
  NoDup (map fst rels) /\ Forall2 (fun p p' => leads rels m (pic_id p') (pic_image p)) (pics_in [n]) (pics_in [n']).
Lemma part_leads_ext m t n n' rels : part_leads m n n' rels -> part_leads (m ++ t) n n' rels.
Proof.
  intros [H1 H2]. split; [exact H1|]. eapply Forall2_impl; [|exact H2]. intros p p' H. rewrite <- (app_nil_r rels). now apply leads_ext.
Qed.
Section Parts.
  Variable crc : string -> N.
  Variable prefix : string.

  Lemma collect_part_ok n r acc : own_ok n -> inv crc r ->
    exists n' r' rl t, collect_part crc prefix n (r, acc) = Some (n', (r', acc ++ [rl])) /\ inv crc r' /\ media r' = media r ++ t /\
      part_leads (media r') n n' rl /\ wipe_own n' = wipe_own n.
  Proof.
    intros Hok Hi. unfold collect_part. cbn [fst snd].
    pose proof (visit_tracks crc (Some prefix) n (start_part r)) as T.
    destruct (items_ok crc (Some prefix) (visited n) (start_part r) Hi (cinv_empty crc r))
      as (l' & s' & t & t' & E & I1 & C1 & M1 & R1 & F1 & G1 & L1).
    rewrite E in T. destruct (visit crc (Some prefix) n (start_part r)) as [(n' & s1)|]; [|discriminate T].
    destruct T as [T W]. injection T as E1 E2. subst l' s1.
    exists n', (ps_registry s'), (rels (ps_collector s')), t. split; [reflexivity|]. split; [exact I1|]. split; [exact M1|].
    split; [|exact W]. split; [apply C1|].
    assert (Hok' : own_ok n') by (apply own_ok_wipe; rewrite W; now apply own_ok_wipe).
    rewrite (visited_own n Hok), (visited_own n' Hok'), !own_items_pics in L1. exact L1.
  Qed.

  Lemma collect_parts_ok l : forall r acc, Forall own_ok l -> inv crc r ->
    exists l' r' rl t, pass (collect_part crc prefix) l (r, acc) = Some (l', (r', acc ++ rl)) /\ inv crc r' /\ media r' = media r ++ t /\
      List.length rl = List.length l /\ map wipe_own l' = map wipe_own l /\
      Forall2 (fun n x => part_leads (media r') n (fst x) (snd x)) l (combine l' rl).
  Proof.
    induction l as [|n l IH]; intros r acc Hok Hi; cbn [pass].
    - exists [], r, [], []. rewrite !app_nil_r. repeat split; auto; try apply Hi; constructor.
    - inversion Hok as [|? ? H1 H2]; subst.
      destruct (collect_part_ok n r acc H1 Hi) as (n' & r1 & rl & t1 & -> & I1 & M1 & L1 & W1).
      destruct (IH r1 (acc ++ [rl]) H2 I1) as (l' & r2 & rls & t2 & -> & I2 & M2 & N2 & W2 & L2).
      exists (n' :: l'), r2, (rl :: rls), (t1 ++ t2). rewrite <- app_assoc. split; [reflexivity|]. split; [exact I2|].
      split; [now rewrite M2, M1, app_assoc|]. split; [cbn; congruence|]. split; [cbn; congruence|].
      cbn [combine]. constructor; [|exact L2]. cbn [fst snd]. rewrite M2. now apply part_leads_ext.
  Qed.
End Parts.

(** Everything about a document that the loop over headers (footers) keeps *)
Definition body_skeleton (l : list node) : list node :=
  map (fun n => match n with NSection p parts nb ch => NSection p (map wipe_own parts) nb ch | _ => n end) l.
Definition kept (header : bool) (d : docx) :=
  (body_skeleton (d_body d), map wipe_own (d_parts d), doc_parts (negb header) d, (d_sect d, d_comments d, d_footnotes d)).

Definition which_of (header : bool) : node -> bool := if header then is_header else is_footer.
Lemma parts_of_which b l : parts_of b l = filter (which_of b) l.
Proof. unfold parts_of. apply filter_ext. intros []; destruct b; try reflexivity; destruct s; reflexivity. Qed.

Section OnParts.
  Variable b : bool.
  Variable f : node -> registry * rels_list -> option (node * (registry * rels_list)).
  Hypothesis f_wipe : forall n s n' s', f n s = Some (n', s') -> wipe_own n' = wipe_own n.
  Let step c s := if which_of b c then f c s else Some (c, s).

  Lemma which_wipe b' n n' : wipe_own n' = wipe_own n -> which_of b' n' = which_of b' n.
  Proof. intros E. destruct b', n, n'; try reflexivity; try discriminate E; cbn [wipe_own] in E; injection E; intros; now subst. Qed.

  Lemma which_excl n : which_of b n = true -> which_of (negb b) n = false.
  Proof. destruct b, n; cbn; try discriminate; try reflexivity; destruct s; (reflexivity || discriminate). Qed.

  Lemma step_list l : tracks f (pass step) (filter (which_of b)) (fun l => (map wipe_own l, filter (which_of (negb b)) l)) l.
  Proof.
    induction l as [|n l IH]; intros s; cbn [pass filter map]; [split; reflexivity|].
    unfold step at 1. destruct (which_of b n) eqn:E.
    - cbn [pass]. destruct (f n s) as [(n' & s1)|] eqn:Ef; [|reflexivity]. apply f_wipe in Ef.
      specialize (IH s1). destruct (pass step l s1) as [(l' & s2)|]; [|now rewrite IH]. destruct IH as [-> IH].
      cbn [filter map]. rewrite (which_wipe b n n' Ef), E. split; [reflexivity|].
      rewrite (which_wipe (negb b) n n' Ef), (which_excl n E). injection IH as I1 I2. now rewrite Ef, I1, I2.
    - specialize (IH s). destruct (pass step l s) as [(l' & s2)|]; [|exact IH]. destruct IH as [-> IH].
      cbn [filter map]. rewrite E. split; [reflexivity|]. injection IH as I1 I2. now rewrite I1, I2.
  Qed.

  Lemma on_parts_tracks d : tracks f (on_parts (which_of b) f) (doc_parts b) (kept b) d.
  Proof.
    intros s. unfold on_parts, doc_parts. rewrite parts_of_which, pass_app. fold step.
    pose proof (step_list (d_parts d) s) as H. destruct (pass step (d_parts d) s) as [(parts & s1)|]; [|now rewrite H].
    destruct H as [-> W]. injection W as W1 W2.
    set (sec := fun c s => match c with NSection p ps nb ch => then_ (pass step ps s) (fun ps' => NSection p ps' nb ch) | _ => Some (c, s) end).
    assert (T : tracks f (pass sec)
       (flat_map (fun n => match n with NSection _ ps _ _ => parts_of b ps | _ => [] end))
       (map (fun n => (match n with NSection p ps nb ch => NSection p (map wipe_own ps) nb ch | _ => n end,
                       match n with NSection _ ps _ _ => parts_of (negb b) ps | _ => [] end))) (d_body d)).
    { apply tracks_list, Forall_forall. intros n _ s'. destruct n; try (split; reflexivity). cbn [sec].
      rewrite !parts_of_which. pose proof (step_list parts0 s') as H. unfold then_. destruct (pass step parts0 s') as [(ps & s2)|]; [|exact H].
      destruct H as [H1 H2]. injection H2 as H2 H3. rewrite !parts_of_which. split; [exact H1|]. now rewrite H2, H3. }
    specialize (T s1). destruct (pass sec (d_body d) s1) as [(body & s2)|]; unfold then_; [|now rewrite T].
    destruct T as [-> W]. cbn [d_parts d_body]. rewrite parts_of_which. split; [reflexivity|].
    unfold kept, doc_parts, body_skeleton. cbn [d_body d_parts d_sect d_comments d_footnotes].
    assert (Wa := f_equal (map fst) W). assert (Wb := f_equal (map snd) W). rewrite !map_map in Wa, Wb. cbn in Wa, Wb.
    rewrite W1. rewrite !parts_of_which, W2. do 3 f_equal.
    - rewrite Wa. reflexivity.
    - rewrite !flat_map_concat_map. now rewrite Wb.
  Qed.
End OnParts.
Lemma collect_part_wipe crc prefix n s n' s' : collect_part crc prefix n s = Some (n', s') -> wipe_own n' = wipe_own n.
Proof.
  unfold collect_part. pose proof (visit_tracks crc (Some prefix) n (start_part (fst s))) as T.
  destruct (visit crc (Some prefix) n (start_part (fst s))) as [(n1 & st)|]; [|discriminate]. intros H. injection H as <- _. apply T.
Qed.

(** * The whole document *)
Lemma pics_skeleton l : pics_in (body_skeleton l) = pics_in l.
Proof.
  unfold pics_in, body_skeleton. rewrite flat_map_map, !flat_map_flat_map. apply flat_map_in_ext, Forall_forall. intros [] _; reflexivity.
Qed.
Lemma wipe_skeleton l : map wipe_pics (body_skeleton l) = map wipe_pics l.
Proof.
  unfold body_skeleton. rewrite map_map. apply map_ext. intros []; try reflexivity. cbn [wipe_pics]. f_equal.
  rewrite map_map. apply map_ext. apply wipe_pics_own.
Qed.
Lemma wipe_pics_same l l' : map wipe_own l' = map wipe_own l -> map wipe_pics l' = map wipe_pics l.
Proof.
  intros E. assert (G : forall l, map wipe_pics (map wipe_own l) = map wipe_pics l).
  { intros m. rewrite map_map. apply map_ext, wipe_pics_own. }
  rewrite <- (G l'), E. apply G.
Qed.
Lemma wipe_own_sections l l' : map wipe_own l' = map wipe_own l -> forall b,
  flat_map (fun n => match n with NSection _ parts _ _ => parts_of b parts | _ => [] end) l' =
  flat_map (fun n => match n with NSection _ parts _ _ => parts_of b parts | _ => [] end) l.
Proof.
  intros E b.
  assert (G : forall l, flat_map (fun n => match n with NSection _ parts _ _ => parts_of b parts | _ => [] end) (map wipe_own l) =
     flat_map (fun n => match n with NSection _ parts _ _ => parts_of b parts | _ => [] end) l).
  { intros m. rewrite flat_map_map. apply flat_map_in_ext, Forall_forall. intros [] _; reflexivity. }
  now rewrite <- (G l'), E, G.
Qed.
Lemma doc_parts_ok b d : forallb is_part (d_parts d) = true -> forallb doc_child (d_body d) = true ->
  Forall well_formed (doc_roots d) -> Forall own_ok (doc_parts b d).
Proof.
  intros _ _ H. unfold doc_roots in H. rewrite !Forall_app in H. destruct H as (B & P & _). unfold doc_parts. apply Forall_app. split.
  - rewrite Forall_forall in *. intros n Hn. unfold parts_of in Hn. apply filter_In in Hn. apply well_formed_own, P. tauto.
  - rewrite Forall_forall in *. intros n Hn. apply in_flat_map in Hn. destruct Hn as (c & Hc & Hn). destruct c; try (destruct Hn; fail).
    apply filter_In in Hn. destruct Hn as [Hn _]. specialize (B _ Hc). apply well_formed_own. unfold well_formed in *.
    rewrite Forall_forall in *. intros m Hm. apply B. cbn [all_nodes]. right. apply in_app_iff. right. apply in_flat_map. eauto.
Qed.
Lemma Forall2_follow rels m l l' : NoDup (map fst rels) -> NoDup (map fst m) ->
  Forall2 (fun p p' => leads rels m (pic_id p') (pic_image p)) l l' -> part_resolves rels m l l'.
Proof. intros H1 H2 H. split; [exact H1|]. eapply Forall2_impl; [|exact H]. intros p p' L. now apply follow_leads. Qed.

Lemma collect_package_ok crc d : doc_well_formed d -> exists d' c, collect_package crc d = Some (d', c) /\
  NoDup (map fst (c_media c)) /\ NoDup (map snd (c_media c)) /\
  part_resolves (c_rels c) (c_media c) (pics_in (d_body d)) (pics_in (d_body d')) /\
  parts_resolve (c_header_rels c) (c_media c) (doc_parts true d) (doc_parts true d') /\
  parts_resolve (c_footer_rels c) (c_media c) (doc_parts false d) (doc_parts false d') /\
  map wipe_pics (d_body d') = map wipe_pics (d_body d) /\ map wipe_pics (d_parts d') = map wipe_pics (d_parts d) /\
  d_sect d' = d_sect d /\ d_comments d' = d_comments d /\
  d_footnotes d' = d_footnotes d ++ footnotes_in (d_body d) /\
  (c_has_footnotes c = true <-> footnotes_in (d_body d) <> []).
Proof.
  intros (W1 & W2 & W3 & W4 & W5). unfold collect_package.
  assert (Hb : Forall own_ok (d_body d)).
  { unfold doc_roots in W5. apply Forall_app in W5. destruct W5 as [W5 _]. eapply Forall_impl; [|exact W5]. apply well_formed_own. }
  pose proof (visit_body_tracks crc None (d_body d) (start_part empty_registry)) as T.
  rewrite (visited_body _ W1 Hb) in T.
  destruct (items_ok crc None (own_items (d_body d)) (start_part empty_registry) (inv_empty crc) (cinv_empty crc empty_registry))
    as (l' & s' & t & t' & E & I1 & C1 & M1 & R1 & F1 & G1 & L1).
  rewrite E in T. destruct (visit_body crc None (d_body d) (start_part empty_registry)) as [(body & s1)|]; [|discriminate T].
  destruct T as [T Wb]. injection T as E1 E2. subst l' s1.
  assert (Hb' : Forall own_ok body) by now apply (own_ok_same (d_body d)).
  assert (W1' : forallb doc_child body = true).
  { rewrite <- W1. rewrite <- (wipe_own_kind doc_child body), Wb by (intros []; reflexivity). apply wipe_own_kind. intros []; reflexivity. }
  rewrite (visited_body _ W1' Hb') in L1, G1. rewrite !own_items_pics in L1. rewrite own_items_foots in F1, G1. rewrite own_items_foots in G1.
  cbn [start_part ps_footnotes app] in F1.
  set (d1 := {| d_body := body; d_sect := d_sect d; d_parts := d_parts d; d_comments := d_comments d; d_footnotes := d_footnotes d |}).
  assert (Ep : forall b, doc_parts b d1 = doc_parts b d).
  { intros b. unfold doc_parts. cbn [d1 d_parts d_body]. f_equal. now apply wipe_own_sections. }
  pose proof (doc_parts_ok true d W2 W1 W5) as Oh. pose proof (doc_parts_ok false d W2 W1 W5) as Of.
  (* headers *)
  pose proof (on_parts_tracks true (collect_part crc "header") (collect_part_wipe crc "header") d1 (ps_registry s', [])) as T.
  rewrite Ep in T.
  destruct (collect_parts_ok crc "header" (doc_parts true d) (ps_registry s') [] Oh I1) as (hs & r2 & hrels & t2 & E2 & I2 & M2 & N2 & Wh & L2).
  rewrite E2 in T. change (which_of true) with is_header in T.
  destruct (on_parts is_header (collect_part crc "header") d1 (ps_registry s', [])) as [(d2 & (r2' & hrels'))|]; [|discriminate T].
  destruct T as [T K2]. cbn [app] in T. injection T as H1 H2 H3. subst hs r2' hrels'.
  injection K2 as K2a K2b K2c K2d K2e K2f. cbn [negb] in K2c. rewrite Ep in K2c. cbn [d1 d_body d_parts d_sect d_comments d_footnotes] in *.
  (* footers *)
  pose proof (on_parts_tracks false (collect_part crc "footer") (collect_part_wipe crc "footer") d2 (r2, [])) as T.
  rewrite K2c in T.
  destruct (collect_parts_ok crc "footer" (doc_parts false d) r2 [] Of I2) as (fs & r3 & frels & t3 & E3 & I3 & M3 & N3 & Wf & L3).
  rewrite E3 in T. change (which_of false) with is_footer in T.
  destruct (on_parts is_footer (collect_part crc "footer") d2 (r2, [])) as [(d3 & (r3' & frels'))|]; [|discriminate T].
  destruct T as [T K3]. cbn [app] in T. injection T as H1 H2 H3. subst fs r3' frels'.
  injection K3 as K3a K3b K3c K3d K3e K3f. cbn [negb] in K3c.
  eexists _, _. split; [reflexivity|]. cbn [c_media c_rels c_header_rels c_footer_rels c_has_footnotes d_body d_parts d_sect d_comments d_footnotes].
  assert (Eb : pics_in (d_body d3) = pics_in body).
  { rewrite <- (pics_skeleton (d_body d3)), K3a, pics_skeleton. now rewrite <- (pics_skeleton (d_body d2)), K2a, pics_skeleton. }
  split; [apply I3|]. split; [apply I3|]. split.
  { rewrite Eb. apply Forall2_follow; [apply C1|apply I3|]. eapply Forall2_impl; [|exact L1]. intros p p' L.
    rewrite M3, M2, <- app_assoc. rewrite <- (app_nil_r (rels (ps_collector s'))). now apply leads_ext. }
  assert (PR : forall (l l' : list node) (rl : rels_list) m, NoDup (map fst m) -> List.length rl = List.length l -> map wipe_own l' = map wipe_own l ->
     Forall2 (fun n x => part_leads m n (fst x) (snd x)) l (combine l' rl) -> parts_resolve rl m l l').
  { intros l l' rl m Hm Hn Hw H. split; [|split; [|exact Hn]].
    - rewrite <- (map_length wipe_own l'), Hw. apply map_length.
    - eapply Forall2_impl; [|exact H]. intros n x [A B]. now apply Forall2_follow. }
  split.
  { assert (Eh : forall d3' , d3' = {| d_body := d_body d3; d_sect := d_sect d3; d_parts := d_parts d3; d_comments := d_comments d3;
        d_footnotes := d_footnotes d3 ++ ps_footnotes s' |} -> doc_parts true d3' = doc_parts true d2).
    { intros d3' ->. rewrite <- K3c. reflexivity. }
    rewrite (Eh _ eq_refl). apply PR; auto; [apply I3|]. eapply Forall2_impl; [|exact L2]. intros n x H. rewrite M3. now apply part_leads_ext. }
  split. { change (doc_parts false {| d_body := d_body d3; d_sect := d_sect d3; d_parts := d_parts d3; d_comments := d_comments d3;
        d_footnotes := d_footnotes d3 ++ ps_footnotes s' |}) with (doc_parts false d3). apply PR; auto. apply I3. }
  split. { rewrite <- (wipe_skeleton (d_body d3)), K3a, wipe_skeleton, <- (wipe_skeleton (d_body d2)), K2a, wipe_skeleton. now apply wipe_pics_same. }
  split. { rewrite (wipe_pics_same _ _ K3b). now rewrite (wipe_pics_same _ _ K2b). }
  split; [congruence|]. split; [congruence|]. split; [now rewrite K3f, K2f, F1|].
  rewrite F1. destruct (footnotes_in (d_body d)); split; congruence.
Qed.

Lemma collect_footnotes_ok d : doc_well_formed d -> exists d1, collect_footnotes d = Some d1 /\
  d_body d1 = d_body d /\ d_footnotes d1 = d_footnotes d ++ footnotes_in (d_body d).
Proof.
  intros (W1 & W2 & W3 & W4 & W5). unfold collect_footnotes.
  assert (Hb : Forall own_ok (d_body d)).
  { unfold doc_roots in W5. apply Forall_app in W5. destruct W5 as [W5 _]. eapply Forall_impl; [|exact W5]. apply well_formed_own. }
  pose proof (visit_body_tracks (fun _ => 0%N) None (d_body d) (start_part empty_registry)) as T.
  rewrite (visited_body _ W1 Hb) in T.
  destruct (items_ok (fun _ => 0%N) None (own_items (d_body d)) (start_part empty_registry) (inv_empty _) (cinv_empty (fun _ => 0%N) empty_registry))
    as (l' & s' & t & t' & E & I1 & C1 & M1 & R1 & F1 & G1 & L1).
  rewrite E in T. destruct (visit_body _ None (d_body d) (start_part empty_registry)) as [(body & s1)|]; [|discriminate T].
  destruct T as [T Wb]. injection T as E1 E2. subst l' s1. eexists. split; [reflexivity|]. split; [reflexivity|].
  cbn [d_footnotes]. now rewrite F1, own_items_foots.
Qed.

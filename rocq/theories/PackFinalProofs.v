(** The package made by a sequence of calls and then prepared. *)
From Coq Require Import NArith List Bool Lia Sorting.Sorted.
From Verif Require Import Str StrFacts ListFacts Props Ast IdsModel MediaSpec ParaIdModel ParaIdSpec ParaIdProofs TreeModel TreeSpec TreeProofs DepsModel DepsSpec DepsProofs
  TocModel TocSpec TocProofs PackModel PackSpec PackProofs PackRelsProofs PackTypesProofs PackOrderProofs PrepareModel PrepareProofs.
Import ListNotations.

(** ** Typed calls make typed documents *)
Lemma typed_keeps l : typed_calls l -> keeps_document l.
Proof.
  apply Forall_impl. intros a H. destruct a; try exact I; cbn in H; [|destruct H]. destruct n; try exact I. destruct H as [H _]. discriminate H.
Qed.
Definition typed_part (n : node) : Prop := is_part n = true /\ well_formed n.
Lemma attach_typed x c s : typed_content c -> Forall typed_part (snd (snd s)) -> Forall typed_part (snd (snd (attach x c s))).
Proof.
  intros [T W] F. destruct s as [[r t] [p parts]]. cbn [attach fst snd] in *. apply put_forall; [|exact F]. split; [reflexivity|].
  apply well_formed_iff. split; [exact T|exact W].
Qed.
Lemma attach_all_typed s st : (forall x c, sa_pending s x = Some c -> typed_content c) -> Forall typed_part (snd (snd st)) ->
  Forall typed_part (snd (snd (attach_all s st))).
Proof.
  intros T. unfold attach_all. revert st. induction all_slots as [|x xs IH]; intros st F; [exact F|]. cbn [fold_left]. apply IH.
  destruct (sa_pending s x) as [c|] eqn:E; [|exact F]. cbn [attach_if]. apply attach_typed; [eapply T; exact E|exact F].
Qed.
Lemma push_typed d n : doc_well_formed d -> doc_child n = true -> well_formed n -> doc_well_formed (push_body d n).
Proof.
  intros (A & B & C & D & E) K W. unfold doc_well_formed, doc_roots in *. cbn [push_body d_body d_parts d_comments d_footnotes].
  rewrite forallb_app, A. cbn [forallb]. rewrite K. rewrite !Forall_app in *. repeat split; try tauto. constructor; [exact W|constructor].
Qed.
Lemma typed_document l : typed_calls l -> doc_well_formed (k_doc (calls l)).
Proof.
  induction l as [|a l IH] using rev_ind; intros T.
  - repeat split; constructor.
  - apply Forall_app in T. destruct T as [T Ta]. inversion Ta as [|? ? Ha _]; subst. specialize (IH T). rewrite calls_snoc. set (k := calls l) in *.
    destruct a; cbn [call typed_call] in *; try exact IH; try contradiction.
    + cbn [add_block set_doc k_doc]. apply push_typed; [exact IH| |tauto]. destruct n; try reflexivity; destruct Ha as [Ha _]; discriminate Ha.
    + rewrite add_section_eq. destruct Ha as (A & B & C).
      pose proof (attach_all_typed s (number_if (sa_numbering s) (k_doc_rels k), k_types k, (sa_prop s, [])) C (Forall_nil _)) as F.
      destruct (attach_all s _) as [[r t] [p parts]]. cbn [fst snd] in F. cbn [set_types set_doc k_doc]. apply push_typed; [exact IH|reflexivity|].
      apply well_formed_iff. cbn [local_ok children]. rewrite A, andb_true_r, Forall_app. split; [|split; [exact B|]].
      * apply forallb_forall. intros n I. rewrite Forall_forall in F. now apply F.
      * eapply Forall_impl; [|exact F]. intros n H. apply H.
    + pose proof (set_part_parts x c k) as S.
      pose proof (attach_typed x c (k_doc_rels k, k_types k, (d_sect (k_doc k), d_parts (k_doc k))) Ha) as F.
      assert (Sc : d_comments (k_doc (set_part x c k)) = d_comments (k_doc k) /\ d_footnotes (k_doc (set_part x c k)) = d_footnotes (k_doc k)) by (split; reflexivity).
      destruct (attach x c _) as [[r t] [p parts]]. destruct S as (_ & _ & S3 & S4 & S5 & _). destruct Sc as [S6 S7].
      destruct IH as (A & B & C & D & E). unfold doc_well_formed, doc_roots in *. rewrite S4, S5, S6, S7. rewrite !Forall_app in *. cbn [fst snd] in F.
      assert (F' : Forall typed_part parts).
      { apply F. apply Forall_forall. intros n I. rewrite forallb_forall in B. destruct E as (_ & E & _). rewrite Forall_forall in E. split; auto. }
      repeat split; try tauto.
      * apply forallb_forall. intros n I. rewrite Forall_forall in F'. now apply F'.
      * eapply Forall_impl; [|exact F']. intros n H. apply H.
Qed.

(** ** What preparation leaves as it was *)
Section Found.
  Context {X : Type} (at_ : node -> list X).
  Hypothesis at_wipe : forall n, at_ (wipe n) = at_ n.
  Lemma all_of_wipe l : all_of at_ (map wipe l) = all_of at_ l.
  Proof.
    assert (N : forall n, all_of at_ [wipe n] = all_of at_ [n]).
    { unfold all_of. induction n as [n IH] using node_tree_ind. cbn [flat_map]. rewrite !app_nil_r, !all_nodes_children. cbn [flat_map]. rewrite at_wipe. f_equal.
      destruct (wipe_children n) as [-> | ->]; [|reflexivity]. rewrite !flat_map_flat_map.
      induction IH as [|m ms Hm _ IHm]; [reflexivity|]. cbn [map flat_map]. rewrite IHm. cbn [flat_map] in Hm. rewrite !app_nil_r in Hm. now rewrite Hm. }
    unfold all_of in *. rewrite flat_map_flat_map, flat_map_map, flat_map_flat_map. apply flat_map_ext. intros n. specialize (N n). cbn [flat_map] in N. now rewrite !app_nil_r in N.
  Qed.
  Definition own_of (l : list node) : list X := flat_map at_ (flat_map own_nodes l).
  Lemma own_of_wipe l : own_of (map wipe l) = own_of l.
  Proof.
    assert (L : forall l, Forall (fun n => flat_map at_ (own_nodes (wipe n)) = flat_map at_ (own_nodes n)) l ->
              flat_map at_ (flat_map own_nodes (map wipe l)) = flat_map at_ (flat_map own_nodes l)).
    { induction 1 as [|m ms Hm _ IHm]; [reflexivity|]. cbn [map flat_map]. now rewrite !flat_map_app, Hm, IHm. }
    apply L. apply Forall_forall. intros n _. clear l. induction n as [n IH] using node_tree_ind.
    pose proof (at_wipe n) as A. rewrite Forall_forall in IH.
    assert (S : forall l, incl l (children n) -> flat_map at_ (flat_map own_nodes (map wipe l)) = flat_map at_ (flat_map own_nodes l)).
    { intros l I. apply L. apply Forall_forall. intros m J. apply IH, I, J. }
    destruct n; cbn [wipe own_nodes children flat_map] in *; rewrite ?flat_map_app; first [reflexivity|rewrite A; f_equal; try reflexivity; try (apply S; apply incl_refl)].
    - rewrite !S; [reflexivity|apply incl_appr, incl_refl|apply incl_appl, incl_refl].
    - rewrite !S; [reflexivity|]. first [apply incl_appr, incl_refl|apply incl_appl, incl_refl].
  Qed.
End Found.

(** Expansion adds bookmark marks and items only. *)
Lemma changed_children B lv n m n' : changed lv B n m n' ->
  n' = n \/ (exists id p nb ch, n = NPara id p nb ch /\ n' = NPara id p nb (between m ch)) \/
  (exists d b a items, n = NToc d b a /\ n' = NToc (set_items d items) b a).
Proof.
  intros C. destruct n; cbn [changed] in C; try (left; apply C).
  - right. left. do 4 eexists. split; [reflexivity|exact C].
  - destruct C as [_ C]. destruct (to_fill _); [|now left]. destruct C as (items & -> & _). right. right. do 4 eexists. split; reflexivity.
Qed.
Section Expanded.
  Context {X : Type} (at_ : node -> list X).
  Hypothesis at_marks : forall id k, at_ (NBookmarkStart id k) = [] /\ at_ (NBookmarkEnd id) = [].
  Hypothesis at_para : forall id p nb ch ch', at_ (NPara id p nb ch) = at_ (NPara id p nb ch').
  Hypothesis at_toc : forall d items b a, at_ (NToc (set_items d items) b a) = at_ (NToc d b a).
  Variable nodes : node -> list node.
  Hypothesis nodes_marks : forall id k, nodes (NBookmarkStart id k) = [NBookmarkStart id k] /\ nodes (NBookmarkEnd id) = [NBookmarkEnd id].
  Hypothesis nodes_para : forall id p nb ch, nodes (NPara id p nb ch) = NPara id p nb ch :: flat_map nodes ch.
  Hypothesis nodes_toc : forall d b a, nodes (NToc d b a) = NToc d b a :: flat_map nodes b ++ flat_map nodes a.
  Lemma starts_of l : flat_map at_ (flat_map nodes (map (fun q : N * string => NBookmarkStart (fst q) (snd q)) l)) = [].
  Proof. induction l as [|q r IH]; [reflexivity|]. cbn [map flat_map]. rewrite (proj1 (nodes_marks _ _)). cbn [app flat_map]. now rewrite (proj1 (at_marks _ _)), IH. Qed.
  Lemma ends_of l : flat_map at_ (flat_map nodes (map (fun q : N * string => NBookmarkEnd (fst q)) l)) = [].
  Proof. induction l as [|q r IH]; [reflexivity|]. cbn [map flat_map]. rewrite (proj2 (nodes_marks _ "")). cbn [app flat_map]. now rewrite (proj2 (at_marks _ "")), IH. Qed.
  Lemma expand_of styles body n body' n' has : expand_auto_tocs styles body n = Some (body', n', has) ->
    flat_map at_ (flat_map nodes body') = flat_map at_ (flat_map nodes body).
  Proof.
    intros E. apply toc_expansion_proof in E. destruct E as (marks & F & _). revert F. generalize body at 1. intros B F.
    induction F as [|a m a' l ms l' C _ IH]; [reflexivity|]. cbn [flat_map]. rewrite !flat_map_app, IH. f_equal.
    apply changed_children in C. destruct C as [->|[(id & p & nb & ch & -> & ->)|(d & b & a0 & items & -> & ->)]]; [reflexivity| |].
    - rewrite !nodes_para. cbn [flat_map]. rewrite (at_para _ _ _ _ ch). f_equal. unfold between. now rewrite !flat_map_app, starts_of, ends_of, app_nil_r.
    - rewrite !nodes_toc. cbn [flat_map]. now rewrite at_toc.
  Qed.
End Expanded.

Definition pic_at (n : node) : list pic := match n with NPic p => [p] | _ => [] end.
Definition foot_at (n : node) : list (N * list node) := match n with NFootRef id _ content => [(id, content)] | _ => [] end.
Lemma prepare_found crc styles ext n k k' c ext' : doc_well_formed (k_doc k) ->
  prepare_package crc styles ext n k = Some (k', c, ext') ->
  exists d1 d comments links, k' = prepared k d comments links c /\ layout d = layout (k_doc k) /\
    collect_package crc d1 = Some (d, c) /\ doc_well_formed d1 /\
    pics_in (d_body d1) = pics_in (d_body (k_doc k)) /\ footnotes_in (d_body d1) = footnotes_in (d_body (k_doc k)) /\
    links = dp_links (update_dependencies (d_body d1) {| dp_comments := []; dp_ext := []; dp_has_comments := false; dp_links := [] |}) /\
    all_of link_at (d_body d1) = all_of link_at (d_body (k_doc k)).
Proof.
  intros W E. destruct (prepare_shape _ _ _ _ _ _ _ _ W E) as (d1 & d & comments & links & A & L & _ & W1 & _ & Q & (body & n1 & has & X & Wp & _) & K).
  exists d1, d, comments, links. split; [exact A|]. split; [exact L|]. split; [exact Q|]. split; [exact W1|].
  assert (Ap : forall n, pic_at (wipe n) = pic_at n) by (intros []; reflexivity).
  assert (Af : forall n, foot_at (wipe n) = foot_at n) by (intros []; reflexivity).
  assert (Al : forall n, link_at (wipe n) = link_at n) by (intros []; reflexivity).
  split; [|split; [|split; [exact K|]]].
  - change (own_of pic_at (d_body d1) = own_of pic_at (d_body (k_doc k))). rewrite <- (own_of_wipe _ Ap (d_body d1)), Wp, (own_of_wipe _ Ap).
    unfold own_of. eapply expand_of; [..|exact X]; intros; try split; reflexivity.
  - change (own_of foot_at (d_body d1) = own_of foot_at (d_body (k_doc k))). rewrite <- (own_of_wipe _ Af (d_body d1)), Wp, (own_of_wipe _ Af).
    unfold own_of. eapply expand_of; [..|exact X]; intros; try split; reflexivity.
  - rewrite <- (all_of_wipe _ Al (d_body d1)), Wp, (all_of_wipe _ Al). unfold all_of. eapply expand_of; [..|exact X]; intros; try split; reflexivity.
Qed.

(** ** The relationships after the calls *)
Lemma attach_all_rels s st : let r := fst (fst st) in let r' := fst (fst (attach_all s st)) in
  r_custom r' = r_custom r /\ r_footnotes r' = r_footnotes r /\ r_links r' = r_links r /\ r_comments r' = r_comments r.
Proof.
  cbn zeta. unfold attach_all. revert st. induction all_slots as [|x xs IH]; intros st; [auto|]. cbn [fold_left]. rewrite !(proj1 (IH _)), !(proj1 (proj2 (IH _))).
  destruct (IH (attach_if x (sa_pending s x) st)) as (A & B & C & D). rewrite C, D.
  destruct (sa_pending s x) as [c|]; [|auto]. destruct st as [[r t] [p parts]]. repeat split.
Qed.
Lemma calls_rels l : keeps_document l -> r_footnotes (k_doc_rels (calls l)) = false /\ r_links (k_doc_rels (calls l)) = [] /\
  (r_custom (k_doc_rels (calls l)) = 0%N <-> ~ Exists is_custom l).
Proof.
  induction l as [|a l IH] using rev_ind; intros K.
  - repeat split. intros _ H. inversion H.
  - apply keeps_snoc in K. destruct K as [K Ka]. destruct (IH K) as (A & B & C). rewrite calls_snoc. set (k := calls l) in *.
    assert (N : ~ is_custom a -> (r_custom (k_doc_rels k) = 0%N <-> ~ Exists is_custom (l ++ [a]))).
    { intros Na. rewrite C, Exists_app. split; intros H.
      - intros [H1|H1]; [now apply H|]. inversion H1 as [? ? H2|? ? H2]; subst; [now apply Na|inversion H2].
      - intros H1. apply H. now left. }
    destruct a; cbn [call is_custom] in *.
    + split; [exact A|]. split; [exact B|]. apply N. tauto.
    + rewrite add_section_eq. pose proof (attach_all_rels s (number_if (sa_numbering s) (k_doc_rels k), k_types k, (sa_prop s, []))) as R.
      destruct (attach_all s _) as [[r t] [p parts]]. cbn [fst] in R. destruct R as (R1 & R2 & R3 & _). cbn [set_types set_doc k_doc_rels]. rewrite R1, R2, R3.
      split; [exact A|]. split; [exact B|]. apply N. tauto.
    + split; [exact A|]. split; [exact B|]. apply N. tauto.
    + split; [exact A|]. split; [exact B|]. apply N. tauto.
    + split; [exact A|]. split; [exact B|]. apply N. tauto.
    + split; [exact A|]. split; [exact B|]. cbn [add_custom k_doc_rels r_custom]. split; [lia|]. intros H. exfalso. apply H. apply Exists_app. right. now constructor.
    + destruct Ka.
Qed.

Lemma all_links_seen body x : In x (seen_links body) -> In x (all_of link_at body).
Proof.
  unfold seen_links, all_of. intros I. apply in_flat_map in I. destruct I as (p & Ip & I). unfold links_in in I. apply in_flat_map in I. destruct I as (m & Im & I).
  apply in_flat_map. exists m. split; [|exact I]. unfold seen_paras in Ip. apply in_flat_map in Ip. destruct Ip as (n & In_ & Ip). apply in_flat_map. exists n. split; [exact In_|].
  assert (Pn : In p (all_nodes n)). { apply paras_below_incl. destruct n; try destruct Ip; try exact Ip. now left. right; assumption. }
  clear -Pn Im. revert Pn. induction n as [n IH] using node_tree_ind. intros Pn. rewrite all_nodes_children in *. destruct Pn as [->|Pn].
  - right. apply in_flat_map. exists m. split; [exact Im|]. rewrite all_nodes_children. now left.
  - right. apply in_flat_map in Pn. destruct Pn as (q & Iq & Pn). apply in_flat_map. exists q. split; [exact Iq|]. rewrite Forall_forall in IH. now apply IH.
Qed.

(** C27 *)
Lemma relationship_ids_unique_proof crc styles ext n l k' c ext' : typed_calls l ->
  prepare_package crc styles ext n (calls l) = Some (k', c, ext') ->
  Forall (fun p => starts_with "rIdImage" (pic_id p) = true) (pics_in (d_body (k_doc (calls l)))) ->
  Forall (fun x => starts_with "rIdHyperlink" (fst x) = true) (all_of link_at (d_body (k_doc (calls l)))) ->
  (NoDup (map rel_id (written_rels (k_doc_rels k'))) <-> footnotes_in (d_body (k_doc (calls l))) = [] \/ ~ Exists is_custom l).
Proof.
  intros T E Hp Hl. destruct (calls_rels l (typed_keeps l T)) as (F0 & L0 & C0).
  destruct (prepare_found _ _ _ _ _ _ _ _ (typed_document l T) E) as (d1 & d & comments & links & -> & _ & Q & W & Ep & Ef & El & Ea).
  destruct (collect_package_ok crc d1 W) as (d2 & c2 & Q2 & _ & _ & (Nr & _) & _ & _ & _ & _ & _ & _ & _ & Hf). rewrite Q in Q2. injection Q2 as <- <-.
  destruct (collected_exactly (d_body d1) {| dp_comments := []; dp_ext := []; dp_has_comments := false; dp_links := [] |}) as (_ & _ & _ & lk & Lk & Nl & Il & _).
  rewrite <- El in Lk. cbn [dp_links app] in Lk.
  pose proof (collected_ids_prefix crc "rIdImage" d1 d c W Q) as Pi. rewrite Ep in Pi. specialize (Pi Hp).
  rewrite ids_unique.
  - cbn [prepared set_types set_doc k_doc_rels r_footnotes r_custom]. rewrite F0. cbn [orb]. rewrite Ef in Hf. rewrite C0. split; intros H.
    + destruct (footnotes_in (d_body (k_doc (calls l)))); [now left|]. right. apply H. apply Hf. discriminate.
    + intros Hc. destruct H as [H|H]; [|exact H]. apply Hf in Hc. contradiction.
  - intros id I. unfold given_ids in I. cbn [prepared set_types set_doc k_doc_rels r_images r_links] in I. rewrite L0, Lk in I. cbn [app] in I. apply in_app_iff in I. destruct I as [I|I].
    + apply image_not_reserved. rewrite Forall_forall in Pi. now apply Pi.
    + apply link_not_reserved. unfold external in I. rewrite map_map in I. cbn [fst] in I. apply in_map_iff in I. destruct I as (x & <- & I).
      rewrite Forall_forall in Hl. apply Hl. rewrite <- Ea. apply all_links_seen, Il, I.
  - unfold given_ids. cbn [prepared set_types set_doc k_doc_rels r_images r_links]. rewrite L0, Lk. cbn [app]. unfold external. rewrite map_map. cbn [fst].
    change (map (fun x : string * string => fst x) lk) with (map fst lk). apply NoDup_app_intro; [exact Nr|exact Nl|].
    intros id I1 I2. rewrite Forall_forall in Pi. apply Pi in I1. apply in_map_iff in I2. destruct I2 as (x & <- & I2).
    rewrite Forall_forall in Hl. assert (H : starts_with "rIdHyperlink" (fst x) = true). { apply Hl. rewrite <- Ea. apply all_links_seen, Il, I2. }
    apply starts_with_spec in I1, H. destruct I1 as (a & I1), H as (b & H). rewrite I1 in H. discriminate H.
Qed.

(** C29 *)
Lemma entry_names_distinct_proof crc styles ext n l k' c ext' St (render : renderer St) m : typed_calls l ->
  prepare_package crc styles ext n (calls l) = Some (k', c, ext') ->
  NoDup (map entry_name (fst (pack render k' c m))).
Proof.
  intros T E. destruct (prepare_found _ _ _ _ _ _ _ _ (typed_document l T) E) as (d1 & d & comments & links & -> & _ & Q & W & _).
  destruct (collect_package_ok crc d1 W) as (d2 & c2 & Q2 & N & _). rewrite Q in Q2. injection Q2 as <- <-.
  unfold pack. rewrite names_of_entries. now apply entry_names_distinct.
Qed.

(** C28 *)
Lemma same_counts l d : layout d = layout (k_doc (calls l)) -> length (headers d) = length (headers (k_doc (calls l))) /\ length (footers d) = length (footers (k_doc (calls l))).
Proof.
  intros L. assert (H : forall h, length (side_parts h d) = length (side_parts h (k_doc (calls l)))).
  { intros h. rewrite !side_parts_nodes, !map_length. rewrite <- (map_length sh), <- (map_length sh (side_nodes h (k_doc _))). now rewrite (layout_side h _ _ L). }
  split; [exact (H true)|exact (H false)].
Qed.
Lemma content_types_proof crc styles ext n l k' c ext' : typed_calls l -> prepare_package crc styles ext n (calls l) = Some (k', c, ext') ->
  (forall s ty, In s (stream_steps k' c) -> right_type s = Some ty -> is_item_props s = false ->
     (is_footnotes s = true -> footnotes_in (d_body (k_doc (calls l))) <> []) -> type_in (k_types k') (step_name s) = Some ty) /\
  (type_in (k_types k') "word/footnotes.xml" = right_type (SXml "word/footnotes.xml" (PFixed XFootnotes)) <-> footnotes_in (d_body (k_doc (calls l))) <> []) /\
  (forall i id, type_in (k_types k') (nth_name "customXml/itemProps" i ".xml") = right_type (SXml (nth_name "customXml/itemProps" i ".xml") (PItemProps id)) <->
     exists l1 id xml l2, l = l1 ++ ACustom id xml :: l2 /\ webs l1 = i).
Proof.
  intros T E. destruct (prepare_found _ _ _ _ _ _ _ _ (typed_document l T) E) as (d1 & d & comments & links & -> & L & Q & W & _ & Ef & _).
  destruct (collect_package_ok crc d1 W) as (d2 & c2 & Q2 & _ & _ & _ & _ & _ & _ & _ & _ & _ & _ & Hf). rewrite Q in Q2. injection Q2 as <- <-. rewrite Ef in Hf.
  destruct (same_counts l d L) as [Lh Lf]. split; [|split].
  - intros s ty I R P F. apply types_right; auto; [now apply typed_keeps|]. intros X. apply Hf. auto.
  - rewrite <- Hf. apply notes_right.
  - intros i id. apply props_right.
Qed.

(** C26 *)
Lemma prepared_counts l d comments links c h : side_count h (k_doc_rels (prepared (calls l) d comments links c)) = side_count h (k_doc_rels (calls l)).
Proof. destruct h; reflexivity. Qed.
Lemma parts_shown_proof crc styles ext n l k' c ext' : typed_calls l -> prepare_package crc styles ext n (calls l) = Some (k', c, ext') ->
  (in_order l <-> forall place x, intended l place x <> None -> shown (k_doc k') (k_doc_rels k') (stream_steps k' c) place x).
Proof.
  intros T E. destruct (prepare_found _ _ _ _ _ _ _ _ (typed_document l T) E) as (d1 & d & comments & links & -> & L & _).
  apply shown_in_order; [now apply typed_keeps|exact L|]. intros h. apply prepared_counts.
Qed.

(** What is shown is what was asked for, apart from paragraph ids and pictures. *)
Lemma wipes_commute n : wipe (wipe_pics n) = wipe_pics (wipe n).
Proof.
  induction n as [n IH] using node_tree_ind. rewrite Forall_forall in IH.
  assert (S : forall l, incl l (children n) -> map wipe (map wipe_pics l) = map wipe_pics (map wipe l)).
  { intros l I. rewrite !map_map. apply map_ext_in. intros m J. apply IH, I, J. }
  destruct n; cbn [wipe wipe_pics children] in *; try reflexivity; f_equal; try (apply S; apply incl_refl);
    first [apply S, incl_appl, incl_refl|apply S, incl_appr, incl_refl].
Qed.
Definition sec_parts (n : node) : option (list node) := match n with NSection _ ps _ _ => Some ps | _ => None end.
Lemma sec_bare n : sec_parts (bare n) = option_map (map bare) (sec_parts n).
Proof. destruct n; try reflexivity. cbn. now rewrite map_map. Qed.
Definition somes {A} (l : list (option A)) : list A := flat_map (fun o => match o with Some x => [x] | None => [] end) l.
Lemma sections_somes d : map snd (sections_of d) = somes (map sec_parts (d_body d)).
Proof. unfold sections_of, somes. induction (d_body d) as [|n b IH]; [reflexivity|]. cbn [flat_map map]. rewrite map_app, IH. f_equal. destruct n; reflexivity. Qed.
Lemma parts_at_list d place : parts_at d place = match nth_error (d_parts d :: map snd (sections_of d)) place with Some ps => ps | None => [] end.
Proof. destruct place as [|i]; [reflexivity|]. cbn [parts_at nth_error]. rewrite nth_error_map. destruct (nth_error (sections_of d) i); reflexivity. Qed.
Lemma somes_map {A B} (f : A -> B) l : somes (map (option_map f) l) = map f (somes l).
Proof. unfold somes. induction l as [|[x|] l IH]; cbn; congruence. Qed.
Lemma bare_parts d d' : map bare (d_parts d) = map bare (d_parts d') ->
  map (option_map (map bare)) (map sec_parts (d_body d)) = map (option_map (map bare)) (map sec_parts (d_body d')) ->
  forall place, map bare (parts_at d place) = map bare (parts_at d' place).
Proof.
  intros A B place. rewrite !parts_at_list, !sections_somes. apply (f_equal somes) in B. rewrite !somes_map in B.
  assert (C : map (map bare) (d_parts d :: somes (map sec_parts (d_body d))) = map (map bare) (d_parts d' :: somes (map sec_parts (d_body d')))) by (cbn [map]; congruence).
  apply (f_equal (fun l => nth_error l place)) in C. rewrite !nth_error_map in C.
  destruct (nth_error (d_parts d :: _) place), (nth_error (d_parts d' :: _) place); cbn in C; try discriminate; [now injection C|reflexivity].
Qed.
Lemma bare_sections b b' : map bare b = map bare b' -> map (option_map (map bare)) (map sec_parts b) = map (option_map (map bare)) (map sec_parts b').
Proof.
  intros E. assert (X : forall b, map (option_map (map bare)) (map sec_parts b) = map sec_parts (map bare b)).
  { intros c. rewrite !map_map. apply map_ext. intros n. now rewrite sec_bare. }
  now rewrite !X, E.
Qed.
Lemma expand_sections styles body n body' n' has : expand_auto_tocs styles body n = Some (body', n', has) -> map sec_parts body' = map sec_parts body.
Proof.
  intros E. apply toc_expansion_proof in E. destruct E as (marks & F & _). revert F. generalize body at 1. intros B F.
  induction F as [|a m a' l ms l' C _ IH]; [reflexivity|]. cbn [map]. rewrite IH. f_equal.
  apply changed_children in C. destruct C as [->|[(id & p & nb & ch & -> & ->)|(d & b & a0 & items & -> & ->)]]; reflexivity.
Qed.
Lemma find_bare x : forall a b, map bare a = map bare b -> option_map bare (List.find (has_slot x) a) = option_map bare (List.find (has_slot x) b).
Proof.
  assert (H : forall n, has_slot x (bare n) = has_slot x n) by (intros []; reflexivity).
  induction a as [|n a IH]; intros [|n' b] E; try discriminate E; [reflexivity|]. cbn [map] in E. injection E as E1 E2. cbn [List.find].
  rewrite <- (H n), <- (H n'), E1. destruct (has_slot x (bare n')); cbn [option_map]; [now rewrite E1|now apply IH].
Qed.
Lemma shown_content_proof crc styles ext n l k' c ext' place x m : typed_calls l -> prepare_package crc styles ext n (calls l) = Some (k', c, ext') ->
  part_at (k_doc k') place x = Some m -> exists rid nb ch ch', m = NPart x rid nb ch /\ intended l place x = Some (nb, ch') /\ map bare ch = map bare ch'.
Proof.
  intros T E P. pose proof (typed_document l T) as W. pose proof (held l (typed_keeps l T) place x) as Hl.
  assert (B : forall place, map bare (parts_at (k_doc k') place) = map bare (parts_at (k_doc (calls l)) place)).
  { destruct (prepare_shape _ _ _ _ _ _ _ _ W E) as (d1 & d & comments & links & -> & _ & _ & W1 & _ & Q & (body & n1 & has & X & Wp & Wq) & _).
    destruct (collect_package_ok crc d1 W1) as (d2 & c2 & Q2 & _ & _ & _ & _ & _ & Pb & Pp & _). rewrite Q in Q2. injection Q2 as <- <-.
    cbn [prepared set_types set_doc k_doc]. 
    assert (M1 : forall a b, map wipe_pics a = map wipe_pics b -> map bare a = map bare b).
    { intros a b H. unfold bare. rewrite <- !(map_map wipe_pics wipe). now rewrite H. }
    assert (M2 : forall a b, map wipe a = map wipe b -> map bare a = map bare b).
    { intros a b H. unfold bare. rewrite !(map_ext _ _ wipes_commute). rewrite <- !(map_map wipe wipe_pics). now rewrite H. }
    apply bare_parts.
    - rewrite (M1 _ _ Pp). now apply M2.
    - rewrite (bare_sections _ _ (M1 _ _ Pb)), (bare_sections _ _ (M2 _ _ Wp)). now rewrite (expand_sections _ _ _ _ _ _ X). }
  specialize (B place). apply (find_bare x) in B. unfold part_at in *. rewrite P in B. cbn [option_map] in B.
  destruct (List.find (has_slot x) (parts_at (k_doc (calls l)) place)) as [m0|] eqn:F0; [|discriminate B]. cbn [option_map] in *.
  injection B as B. apply find_some in F0, P. destruct F0 as [_ F0], P as [_ P]. destruct m0; try discriminate F0. destruct m; try discriminate P.
  cbn in B. injection B as -> -> -> B. exists rid, numbering, ch0, ch. split.
  - cbn in P. f_equal. destruct s, x; try reflexivity; discriminate P.
  - split; [now rewrite <- Hl|]. unfold bare. rewrite !map_map in B. exact B.
Qed.

(** C45 *)
Lemma targets_exist_proof crc styles ext n l k' c ext' : typed_calls l -> prepare_package crc styles ext n (calls l) = Some (k', c, ext') ->
  (no_slot_twice l <-> Forall (target_exists (stream_steps k' c)) (part_rels (k_doc_rels k'))).
Proof.
  intros T E. destruct (prepare_found _ _ _ _ _ _ _ _ (typed_document l T) E) as (d1 & d & comments & links & -> & L & _).
  apply targets_exist; [now apply typed_keeps|exact L|]. intros h. apply prepared_counts.
Qed.

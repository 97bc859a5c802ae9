(** Custom items in a saved archive. *)
From Coq Require Import NArith List Bool Lia.
From Verif Require Import Str PackModel IdsModel ParaIdModel PrepareModel RenderModel OpenSpec OpenParts TreeModel OpenFiles TocModel WholeProofs XmlParser ItemModel ItemSpec ItemProofs.
From Verif Require Import DepsModel.
Import ListNotations.
Open Scope list_scope.

(** ** In a saved archive *)
Lemma call_items k a : k_custom (call k a) = k_custom k ++ match a with ACustom id x => [(id, x)] | _ => [] end.
Proof.
  destruct a as [n|s|x c| |e|id x|d]; cbn [call]; try (symmetry; apply app_nil_r); try reflexivity.
  - unfold add_section. destruct (attach_if _ _ _) as [[r t] [p parts]]. cbn. now rewrite app_nil_r.
Qed.
Lemma calls_items l : k_custom (calls l) = items_of l.
Proof.
  assert (G : forall k, k_custom (fold_left call l k) = k_custom k ++ items_of l).
  { induction l as [|a l IH]; intros k; cbn [fold_left]; [symmetry; apply app_nil_r|]. rewrite IH, call_items, <- app_assoc. reflexivity. }
  apply G.
Qed.
Lemma prepared_items crc styles ext n k k' c e : prepare_package crc styles ext n k = Some (k', c, e) -> k_custom k' = k_custom k.
Proof.
  unfold prepare_package. destruct (expand_auto_tocs _ _ _) as [[[body u] v]|]; [|discriminate].
  destruct (prepare_ids _) as [d1|]; [|discriminate]. destruct (collect_package crc _) as [[d2 c']|]; [|discriminate]. intros H. injection H as <- _ _. reflexivity.
Qed.
Lemma item_step_there : forall l i j id x, nth_error l j = Some (id, x) -> In (SXml (nth_name "customXml/item" (i + j) ".xml") (PItem x)) (item_steps i l).
Proof.
  induction l as [|[id0 x0] l IH]; intros i j id x H; [destruct j; discriminate|]. destruct j as [|j]; cbn [nth_error item_steps] in *.
  - injection H as -> ->. rewrite Nat.add_0_r. right. now left.
  - do 3 right. rewrite Nat.add_succ_r. exact (IH (S i) j id x H).
Qed.
Lemma item_stored l o k c es i id x : saved l o k c es -> nth_error (items_of l) i = Some (id, x) ->
  In (File (nth_name "customXml/item" i ".xml") x) es.
Proof.
  intros (_ & (crc & styles & ext & m & Hprep) & s & s' & Hpack) Hi.
  rewrite <- calls_items, <- (prepared_items _ _ _ _ _ _ _ _ Hprep) in Hi.
  assert (Hin : In (SXml (nth_name "customXml/item" i ".xml") (PItem x)) (stream_steps k c)).
  { unfold stream_steps. rewrite !in_app_iff. repeat right. exact (item_step_there _ 0 i id x Hi). }
  destruct (step_entries _ _ _ _ _ _ (ran _ _ _ _ _ _ Hpack)) as [A _].
  destruct (A _ _ Hin) as (s1 & s2 & t & Ht & Hf). now rewrite (rendered_plain _ _ _ _ _ _ Ht eq_refl) in Hf.
Qed.
Lemma item_comes_back l o k c es i id s v : saved l o k c es -> Forall plain_item v -> keep s = Kept v ->
  nth_error (items_of l) i = Some (id, show_items v) ->
  exists t, In (File (nth_name "customXml/item" i ".xml") t) es /\ answers t (flat_map told (map as_node v)) /\ keep t = Kept v.
Proof.
  intros Hs Hv Hk Hi. exists (show_items v). split; [now apply (item_stored l o k c es i id)|]. split; [now apply stored_answers | now apply stored_again].
Qed.
Lemma unchanged s v : Forall plain_item v -> answers s (flat_map told (map as_node v)) ->
  keep s = Kept v /\ answers (show_items v) (flat_map told (map as_node v)).
Proof.
  intros Hv Ha. split; [|now apply stored_answers]. apply keep_iff. exists (map as_node v). split; [|split; [exact Ha|symmetry; now apply kept_nodes]].
  apply Forall_forall. intros n Hn. apply in_map_iff in Hn as ([? ? ? ?] & <- & _). exact I.
Qed.

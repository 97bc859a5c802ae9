(** What a package that was made by calls always has: its content types and relationships
    are plain strings, and its references have the type of their slot. *)
From Coq Require Import NArith List Bool Lia.
From Verif Require Import Str StrFacts Props Ast TreeModel DepsModel PackModel PackSpec PrepareModel WellSpec WellProofs WellRest RestSpec.
From Verif Require ParaIdModel PackFinalProofs.
Import ListNotations.
Open Scope list_scope.

Definition pl (e : string * string) : Prop := plain (fst e) = true /\ plain (snd e) = true.
Lemma insert_plain k v m : pl (k, v) -> Forall pl m -> Forall pl (bt_insert k v m).
Proof.
  intros H Hm. induction Hm as [|[k' v'] m Hx Hm IH]; cbn [bt_insert]; [auto|]. destruct (String.compare k k'); constructor; auto.
Qed.
Lemma put_plain t k v : pl (k, v) -> Forall pl (t_map t) -> Forall pl (t_map (t_put t k v)).
Proof. apply insert_plain. Qed.
Lemma numbered_plain a n b : plain a = true -> plain b = true -> plain (a +++ show_N n +++ b) = true.
Proof. apply plain_numbered. Qed.
Lemma typed_plain x t : Forall pl (t_map t) -> Forall pl (t_map (typed x t)).
Proof.
  intros H. unfold typed. destruct (is_header_slot x); (apply insert_plain; [|exact H]); (split; [now apply numbered_plain | reflexivity]).
Qed.
Definition rel_plain (r : rel) : Prop := plain (rel_id r) = true /\ plain (rel_kind r) = true /\ plain (rel_target r) = true.
Definition plain_pkg (k : pkg) : Prop := Forall pl (t_map (k_types k)) /\ Forall rel_plain (k_rels k) /\ Forall rel_plain (k_pane_rels k).
Lemma attach_plain x c s : Forall pl (t_map (snd (fst s))) -> Forall pl (t_map (snd (fst (attach x c s)))).
Proof. destruct s as [[r t] [p ps]]. cbn [attach fst snd]. apply typed_plain. Qed.
Lemma attach_if_plain x c s : Forall pl (t_map (snd (fst s))) -> Forall pl (t_map (snd (fst (attach_if x c s)))).
Proof. destruct c; [apply attach_plain | auto]. Qed.
Lemma call_plain k a : plain_pkg k -> plain_pkg (call k a).
Proof.
  intros (H1 & H2 & H3). destruct a as [n|s|x c| |e|i m|d]; cbn [call].
  - now repeat split.
  - unfold add_section. match goal with |- context [attach_if FEven ?a ?b] => assert (H : Forall pl (t_map (snd (fst (attach_if FEven a b))))) by (repeat apply attach_if_plain; exact H1);
      destruct (attach_if FEven a b) as [[r t] [p ps]] end. now repeat split.
  - unfold set_part. match goal with |- context [attach ?x0 ?c0 ?s0] => assert (H : Forall pl (t_map (snd (fst (attach x0 c0 s0))))) by (apply attach_plain; exact H1);
      destruct (attach x0 c0 s0) as [[r t] [p ps]] end. now repeat split.
  - repeat split; [apply put_plain; [split; reflexivity | exact H1] | | exact H3]. cbn [with_taskpanes k_rels]. apply Forall_app. split; [exact H2|].
    constructor; [|constructor]. repeat split. cbn [rel_id mk_rel]. rewrite plain_app. apply plain_N.
  - repeat split; [apply (put_plain (k_types k)); [split; [now apply numbered_plain | reflexivity] | exact H1] | exact H2 |]. cbn [add_web k_pane_rels]. apply Forall_app. split; [exact H3|].
    constructor; [|constructor]. repeat split; cbn [rel_id rel_target mk_rel]; [rewrite plain_app; apply plain_N | now apply numbered_plain].
  - repeat split; [apply (put_plain (k_types k)); [split; [now apply numbered_plain | reflexivity] | exact H1] | exact H2 | exact H3].
  - now repeat split.
Qed.
Lemma new_plain : plain_pkg pkg_new.
Proof. repeat split; repeat constructor. Qed.
Lemma calls_plain l : plain_pkg (calls l).
Proof.
  unfold calls. generalize pkg_new new_plain. induction l as [|a l IH]; intros k H; [exact H|]. cbn [fold_left]. apply IH. now apply call_plain.
Qed.
Lemma prepared_plain k d b ls c : plain_pkg k -> plain_pkg (prepared k d b ls c).
Proof.
  intros (H1 & H2 & H3). repeat split; try assumption. cbn [prepared set_types k_types]. destruct (c_has_footnotes c); [|exact H1].
  apply put_plain; [split; reflexivity | exact H1].
Qed.
Lemma prepare_is crc styles ext n k k' c ext' : prepare_package crc styles ext n k = Some (k', c, ext') -> exists d b ls, k' = prepared k d b ls c.
Proof.
  unfold prepare_package. destruct (TocModel.expand_auto_tocs _ _ _) as [[[body ?] ?]|]; [|discriminate]. destruct (ParaIdModel.prepare_ids _) as [d1|]; [|discriminate].
  destruct (collect_package _ _) as [[d2 c2]|]; [|discriminate]. intros H. injection H as <- <- _. eauto.
Qed.
Lemma types_readable k : plain_pkg k -> Forall readable (in_types (k_types k)).
Proof.
  intros (H & _). unfold in_types. apply Forall_flat_map. eapply Forall_impl; [|exact H]. intros [a b] [Ha Hb]. repeat constructor; now apply readable_value.
Qed.
Lemma rels_readable l : Forall rel_plain l -> Forall readable (in_package_rels l).
Proof.
  intros H. unfold in_package_rels. apply Forall_flat_map. eapply Forall_impl; [|exact H]. intros r (Ha & Hb & Hc). repeat constructor; now apply readable_value.
Qed.
(** The relationships of the package begin with the four that are always there, and none
    of the others has one of their types. *)
Definition taskpanes_type : string := "http://schemas.microsoft.com/office/2011/relationships/webextensiontaskpanes".
Lemma calls_rels_shape l : exists m, k_rels (calls l) = rels_default ++ m.
Proof.
  unfold calls. assert (G : forall k, (exists m, k_rels k = rels_default ++ m) -> exists m, k_rels (fold_left call l k) = rels_default ++ m); [|apply G; now exists []].
  induction l as [|a l IH]; intros k H; [exact H|]. cbn [fold_left]. apply IH. destruct H as (m & Hm). destruct a as [n|s|x c| |e|i y|d]; cbn [call].
  - now exists m.
  - unfold add_section. match goal with |- context [attach_if FEven ?a ?b] => destruct (attach_if FEven a b) as [[r t] [p ps]] end. now exists m.
  - unfold set_part. match goal with |- context [attach ?x0 ?c0 ?s0] => destruct (attach x0 c0 s0) as [[r t] [p ps]] end. now exists m.
  - cbn [with_taskpanes k_rels]. rewrite Hm. eexists. now rewrite <- app_assoc.
  - now exists m.
  - now exists m.
  - now exists m.
Qed.

(** ** References *)
Definition refs_typed (p : sectpr) : Prop := forall x r, ref_of p x = Some r -> pr_type r = ref_type x.
Lemma set_ref_typed x rid p : refs_typed p -> refs_typed (set_ref x rid p).
Proof.
  intros H y r. destruct x, y; cbn [ref_of set_ref sp_header sp_first_header sp_even_header sp_footer sp_first_footer sp_even_footer]; intros E;
    first [injection E as <-; reflexivity | exact (H _ _ E) | idtac].
  all: first [exact (H HDefault _ E) | exact (H HFirst _ E) | exact (H HEven _ E) | exact (H FDefault _ E) | exact (H FFirst _ E) | exact (H FEven _ E)].
Qed.
Lemma calls_refs l : keeps_document l -> refs_typed (d_sect (k_doc (calls l))).
Proof.
  unfold calls. assert (G : forall k, refs_typed (d_sect (k_doc k)) -> keeps_document l -> refs_typed (d_sect (k_doc (fold_left call l k)))).
  { induction l as [|a l IH]; intros k H Hl; [exact H|]. inversion Hl as [|? ? Ha Hl']; subst. cbn [fold_left]. apply IH; [|exact Hl'].
    destruct a as [n|s|x c| |e|i y|d]; cbn [call]; try exact H; try contradiction.
    - unfold add_section. match goal with |- context [attach_if FEven ?a ?b] => destruct (attach_if FEven a b) as [[r t] [p ps]] end. exact H.
    - unfold set_part. cbn [attach]. apply set_ref_typed. exact H. }
  apply G. intros x r. destruct x; discriminate.
Qed.
(** The ids of the references are those of the relationships: plain. *)
Definition refs_plain (p : sectpr) : Prop := forall x r, ref_of p x = Some r -> exists n, pr_id r = (if is_head x then header_rid n else footer_rid n).
Lemma set_ref_plain x rid p : refs_plain p -> (exists n, rid = if is_head x then header_rid n else footer_rid n) -> refs_plain (set_ref x rid p).
Proof.
  intros H Hr y r. destruct x, y; cbn [ref_of set_ref sp_header sp_first_header sp_even_header sp_footer sp_first_footer sp_even_footer is_head] in *; intros E;
    first [injection E as <-; exact Hr | idtac].
  all: first [exact (H HDefault _ E) | exact (H HFirst _ E) | exact (H HEven _ E) | exact (H FDefault _ E) | exact (H FFirst _ E) | exact (H FEven _ E)].
Qed.
Lemma calls_refs_plain l : keeps_document l -> refs_plain (d_sect (k_doc (calls l))).
Proof.
  unfold calls. assert (G : forall k, refs_plain (d_sect (k_doc k)) -> keeps_document l -> refs_plain (d_sect (k_doc (fold_left call l k)))).
  { induction l as [|a l IH]; intros k H Hl; [exact H|]. inversion Hl as [|? ? Ha Hl']; subst. cbn [fold_left]. apply IH; [|exact Hl'].
    destruct a as [n|s|x c| |e|i y|d]; cbn [call]; try exact H; try contradiction.
    - unfold add_section. match goal with |- context [attach_if FEven ?a ?b] => destruct (attach_if FEven a b) as [[r t] [p ps]] end. exact H.
    - unfold set_part. cbn [attach]. apply set_ref_plain; [exact H|]. unfold next_rid. destruct x; cbn [is_header_slot is_head]; eexists; reflexivity. }
  apply G. intros x r. destruct x; discriminate.
Qed.

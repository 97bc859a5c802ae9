(** References to headers and footers. *)
From Coq Require Import NArith List Bool Lia Sorting.Sorted Relations.
From Verif Require Import Str StrFacts ListFacts Props Ast TreeModel PackModel PackSpec PackProofs PackRelsProofs PackTypesProofs.
Import ListNotations.

(** ** Lists *)
Section Lists.
  Context {A : Type} (R : A -> A -> Prop).
  Hypothesis irr : forall a, ~ R a a.
  Hypothesis trans : forall a b c, R a b -> R b c -> R a c.

  Lemma sorted_nodup l : StronglySorted R l -> NoDup l.
  Proof. induction 1 as [|a l _ IH H]; constructor; [|exact IH]. intros I. rewrite Forall_forall in H. exact (irr _ (H _ I)). Qed.
  Lemma sorted_unique l : forall m, StronglySorted R l -> StronglySorted R m -> (forall a, In a l <-> In a m) -> l = m.
  Proof.
    induction l as [|a l IH]; intros [|b m] L M E; [reflexivity|destruct (proj2 (E b)); left; reflexivity|destruct (proj1 (E a)); left; reflexivity|].
    apply StronglySorted_inv in L. destruct L as [L La]. apply StronglySorted_inv in M. destruct M as [M Mb]. rewrite Forall_forall in *.
    assert (a = b) as <-.
    { destruct (proj1 (E a)) as [->|I]; [left; reflexivity|reflexivity|]. destruct (proj2 (E b)) as [->|J]; [left; reflexivity|reflexivity|].
      destruct (irr a). eapply trans; [exact (La _ J)|exact (Mb _ I)]. }
    f_equal. apply IH; [exact L|exact M|]. intros x. specialize (E x). cbn in E. split; intros I.
    - destruct (proj1 E (or_intror I)) as [->|J]; [destruct (irr _ (La _ I))|exact J].
    - destruct (proj2 E (or_intror I)) as [->|J]; [destruct (irr _ (Mb _ I))|exact J].
  Qed.

  (** [j] is the last place of [a]. *)
  Definition last_at (l : list A) (a : A) (j : nat) : Prop :=
    nth_error l j = Some a /\ forall i, j < i -> nth_error l i <> Some a.
  Lemma nth_error_ext (l m : list A) : (forall i, nth_error l i = nth_error m i) -> l = m.
  Proof.
    revert m. induction l as [|a l IH]; intros [|b m] H; [reflexivity|specialize (H 0); discriminate|specialize (H 0); discriminate|].
    pose proof (H 0) as H0. injection H0 as ->. f_equal. apply IH. intros i. exact (H (S i)).
  Qed.
  (** A sorted list with the same elements shows them at their last places just when
      the list is sorted itself. *)
  Lemma last_places l m : StronglySorted R m -> (forall a, In a l <-> In a m) ->
    ((forall j a, nth_error m j = Some a -> last_at l a j) <-> StronglySorted R l).
  Proof.
    intros M E. split.
    - intros H. assert (X : l = m); [|now rewrite X].
      assert (Le : length m <= length l) by (apply NoDup_incl_length; [now apply sorted_nodup|intros a; apply E]).
      assert (Ge : length l <= length m).
      { destruct l as [|x l0] using rev_ind; [cbn; lia|]. clear IHl0.
        assert (I : In x m) by (apply E, in_app_iff; right; left; reflexivity).
        apply In_nth_error in I. destruct I as (j & I). destruct (H _ _ I) as [_ L].
        rewrite app_length. cbn. assert (j < length m) by (apply nth_error_Some; congruence).
        destruct (Nat.lt_ge_cases j (length l0)) as [Lt|]; [|lia].
        destruct (L (length l0) Lt). rewrite nth_error_app2, Nat.sub_diag by lia. reflexivity. }
      apply nth_error_ext. intros i. destruct (nth_error m i) as [a|] eqn:N; [apply (H _ _ N)|].
      apply nth_error_None in N. apply nth_error_None. lia.
    - intros L. assert (X : l = m) by now apply sorted_unique. subst m. intros j a N. split; [exact N|].
      intros i Lt K. assert (i = j); [|lia]. apply (proj1 (NoDup_nth_error l) (sorted_nodup _ L)); [apply nth_error_Some; congruence|congruence].
  Qed.
End Lists.

Lemma before_irr a : ~ before a a.
Proof. unfold before. lia. Qed.
Lemma before_trans a b c : before a b -> before b c -> before a c.
Proof. unfold before. lia. Qed.

(** ** The log *)
Definition item := (nat * slot * content)%type.
Definition key_eqb (a b : nat * slot) : bool := Nat.eqb (fst a) (fst b) && slot_eqb (snd a) (snd b).
Lemma slot_eqb_spec a b : slot_eqb a b = true <-> a = b.
Proof. destruct a, b; cbn; split; congruence. Qed.
Lemma key_eqb_spec a b : key_eqb a b = true <-> a = b.
Proof.
  destruct a as [i x], b as [j y]. unfold key_eqb. cbn [fst snd]. rewrite andb_true_iff, Nat.eqb_eq, slot_eqb_spec.
  split; [intros [-> ->]; reflexivity|intros E; injection E; auto].
Qed.
Lemma key_eqb_refl a : key_eqb a a = true.
Proof. now apply key_eqb_spec. Qed.
Definition side (h : bool) (a : item) : bool := eqb (is_head (snd (fst a))) h.
Definition tally (h : bool) (log : list item) : N := N.of_nat (length (filter (side h) log)).
Definition side_rid (h : bool) (n : N) : string := if h then header_rid n else footer_rid n.
(** The id and content last given to a key. *)
Fixpoint latest (rl : list item) (key : nat * slot) : option (string * content) :=
  match rl with
  | [] => None
  | (k, c) :: r => if key_eqb k key then Some (side_rid (is_head (snd k)) (tally (is_head (snd k)) r + 1), c) else latest r key
  end.
Definition last_given (log : list item) (key : nat * slot) := latest (rev log) key.
Lemma tally_app h a b : tally h (a ++ b) = (tally h a + tally h b)%N.
Proof. unfold tally. rewrite filter_app, app_length. lia. Qed.
Lemma tally_rev h a : tally h (rev a) = tally h a.
Proof.
  induction a as [|x a IH]; [reflexivity|]. cbn [rev]. rewrite tally_app, IH. change (x :: a) with ([x] ++ a). rewrite tally_app. lia.
Qed.
Lemma last_given_snoc log k c key : last_given (log ++ [(k, c)]) key =
  if key_eqb k key then Some (side_rid (is_head (snd k)) (tally (is_head (snd k)) log + 1), c) else last_given log key.
Proof. unfold last_given. rewrite rev_unit. cbn [latest]. rewrite tally_rev. reflexivity. Qed.
Lemma last_given_none log key : ~ In key (map fst log) -> last_given log key = None.
Proof.
  induction log as [|[k c] log IH] using rev_ind; [reflexivity|]. rewrite map_app, in_app_iff. cbn. intros H. rewrite last_given_snoc.
  destruct (key_eqb k key) eqn:E; [apply key_eqb_spec in E; subst; tauto|]. apply IH. tauto.
Qed.
Lemma last_given_some log key : In key (map fst log) -> last_given log key <> None.
Proof.
  induction log as [|[k c] log IH] using rev_ind; [intros []|]. rewrite map_app, in_app_iff. cbn. intros H. rewrite last_given_snoc.
  destruct (key_eqb k key) eqn:E; [discriminate|]. apply IH. destruct H as [H|[->|[]]]; [exact H|]. rewrite key_eqb_refl in E. discriminate.
Qed.
Definition side_keys (h : bool) (log : list item) : list (nat * slot) := map fst (filter (side h) log).
Lemma side_keys_in h log key : In key (side_keys h log) <-> In key (map fst log) /\ is_head (snd key) = h.
Proof.
  unfold side_keys. rewrite !in_map_iff. split.
  - intros (x & <- & H). apply filter_In in H. destruct H as [H S]. split; [eauto|]. now apply eqb_prop in S.
  - intros [(x & <- & H) S]. exists x. split; [reflexivity|]. apply filter_In. split; [exact H|]. unfold side. rewrite S. apply eqb_reflx.
Qed.
(** Ids are numbered by the place in the log. *)
Lemma last_given_at log key rid c : last_given log key = Some (rid, c) ->
  exists j, last_at (side_keys (is_head (snd key)) log) key j /\ rid = side_rid (is_head (snd key)) (N.of_nat j + 1).
Proof.
  induction log as [|[k c0] log IH] using rev_ind; [discriminate|]. rewrite last_given_snoc. unfold side_keys. rewrite filter_app, map_app.
  destruct (key_eqb k key) eqn:E.
  - apply key_eqb_spec in E. subst k. intros H. injection H as <- <-. cbn [filter]. unfold side at 2. cbn [fst]. rewrite eqb_reflx. cbn [map fst].
    exists (length (filter (side (is_head (snd key))) log)). split; [|reflexivity].
    split; [rewrite nth_error_app2; rewrite map_length; [rewrite Nat.sub_diag; reflexivity|lia]|].
    intros i L. rewrite (proj2 (nth_error_None _ _)); [discriminate|]. rewrite app_length, map_length. cbn. lia.
  - intros H. destruct (IH H) as (j & [Nj Lj] & ->). exists j. split; [|reflexivity].
    assert (j < length (side_keys (is_head (snd key)) log)) by (apply nth_error_Some; congruence).
    split; [rewrite nth_error_app1 by assumption; exact Nj|]. intros i L. fold (side_keys (is_head (snd key)) log).
    destruct (Nat.lt_ge_cases i (length (side_keys (is_head (snd key)) log))) as [Li|Li].
    + rewrite nth_error_app1 by assumption. now apply Lj.
    + rewrite nth_error_app2 by assumption. match goal with |- nth_error _ ?x <> _ => generalize x end. intros m.
      cbn [filter]. destruct (side (is_head (snd key)) (k, c0)); cbn [map fst].
      * destruct m as [|[|m]]; cbn; try discriminate. intros X. injection X as ->.
        rewrite key_eqb_refl in E. discriminate.
      * destruct m; discriminate.
Qed.

(** ** One place *)
Definition ranked (l : list node) : Prop := StronglySorted (fun a b => (part_rank a < part_rank b)%N) l /\ Forall (fun n => is_part n = true) l.
Lemma rank_inj x y : rank x = rank y -> x = y.
Proof. destruct x, y; cbn; congruence. Qed.
Lemma put_forall (Q : node -> Prop) n l : Q n -> Forall Q l -> Forall Q (put_part n l).
Proof. intros H. induction 1 as [|z l Z F IH]; [repeat constructor; exact H|]. cbn [put_part]. destruct (N.compare _ _); auto. Qed.
Lemma put_ranked x rid c l : ranked l -> ranked (put_part (NPart x rid (fst c) (snd c)) l).
Proof.
  intros [S P]. split; [|now apply put_forall]. clear P. set (n := NPart x rid (fst c) (snd c)).
  induction S as [|z l S IH F]; [constructor; [constructor|constructor]|]. cbn [put_part].
  destruct (N.compare_spec (part_rank n) (part_rank z)) as [E|L|G].
  - constructor; [exact S|]. eapply Forall_impl; [|exact F]. cbn beta. intros. lia.
  - constructor; [constructor; assumption|]. constructor; [exact L|]. eapply Forall_impl; [|exact F]. cbn beta. intros. lia.
  - constructor; [exact IH|]. now apply put_forall.
Qed.
Lemma has_slot_rank y n : is_part n = true -> has_slot y n = N.eqb (part_rank n) (rank y).
Proof. destruct n; try discriminate. intros _. match goal with x : slot |- _ => destruct x, y; reflexivity end. Qed.
Lemma find_put x rid c l y : ranked l -> List.find (has_slot y) (put_part (NPart x rid (fst c) (snd c)) l) =
  if slot_eqb x y then Some (NPart x rid (fst c) (snd c)) else List.find (has_slot y) l.
Proof.
  intros [S P]. induction l as [|z l IH]; [cbn; now destruct (slot_eqb x y)|]. inversion P; subst. apply StronglySorted_inv in S. destruct S as [S F].
  cbn [put_part]. set (n := NPart x rid (fst c) (snd c)) in *.
  assert (Hn : has_slot y n = slot_eqb x y) by reflexivity.
  destruct (N.compare_spec (part_rank n) (part_rank z)) as [E|L|G]; cbn [List.find]; rewrite ?Hn.
  - destruct (slot_eqb x y) eqn:X; [reflexivity|]. rewrite (has_slot_rank y z) by assumption. rewrite <- E.
    destruct (N.eqb_spec (part_rank n) (rank y)) as [K|K]; [|reflexivity]. apply rank_inj in K. subst y. destruct x; discriminate X.
  - reflexivity.
  - rewrite (has_slot_rank y z) by assumption. destruct (N.eqb_spec (part_rank z) (rank y)) as [K|K]; [|now apply IH].
    destruct (slot_eqb x y) eqn:X; [|reflexivity]. apply slot_eqb_spec in X. subst y. rewrite K in G. cbn [part_rank n] in G. lia.
Qed.
Lemma ref_of_set x rid p y : ref_of (set_ref x rid p) y = if slot_eqb x y then Some {| pr_type := type_of x; pr_id := rid |} else ref_of p y.
Proof. destruct x, y; reflexivity. Qed.

Definition tallies (log : list item) (r : doc_rels) : Prop := r_headers r = tally true log /\ r_footers r = tally false log.
(** The parts and the property of a place agree with the log. *)
Record place_ok (log : list item) (place : nat) (p : sectpr) (parts : list node) : Prop := {
  o_ranked : ranked parts;
  o_parts : forall x, List.find (has_slot x) parts =
     match last_given log (place, x) with Some (rid, c) => Some (NPart x rid (fst c) (snd c)) | None => None end;
  o_refs : forall x rid c, last_given log (place, x) = Some (rid, c) -> ref_of p x = Some {| pr_type := type_of x; pr_id := rid |} }.
Lemma attach_ok log place x c r t p parts r' t' p' parts' :
  attach x c (r, t, (p, parts)) = (r', t', (p', parts')) -> tallies log r -> place_ok log place p parts ->
  tallies (log ++ [((place, x), c)]) r' /\ place_ok (log ++ [((place, x), c)]) place p' parts'.
Proof.
  intros E [T1 T2] [O1 O2 O3]. unfold attach in E. injection E as <- _ <- <-.
  assert (Rid : next_rid x (number_if (fst c) r) = side_rid (is_head x) (tally (is_head x) log + 1)).
  { unfold next_rid. cbn [number_if r_headers r_footers]. rewrite T1, T2. destruct x; reflexivity. }
  rewrite Rid. split; [|constructor].
  - unfold tallies. rewrite !tally_app. cbn [count_part number_if r_headers r_footers]. rewrite T1, T2. destruct x; cbn; split; lia.
  - now apply put_ranked.
  - intros y. rewrite find_put by assumption. rewrite last_given_snoc. unfold key_eqb. cbn [fst snd]. rewrite Nat.eqb_refl. cbn [andb].
    destruct (slot_eqb x y) eqn:X; [|apply O2]. apply slot_eqb_spec in X. now subst y.
  - intros y rid c'. rewrite last_given_snoc. unfold key_eqb. cbn [fst snd]. rewrite Nat.eqb_refl. cbn [andb]. rewrite ref_of_set.
    destruct (slot_eqb x y) eqn:X; [|apply O3]. apply slot_eqb_spec in X. subst y. intros K. injection K as <- <-. reflexivity.
Qed.
Lemma place_ok_other log place' x c place p parts : place' <> place -> place_ok log place p parts -> place_ok (log ++ [((place', x), c)]) place p parts.
Proof.
  intros N [O1 O2 O3].
  assert (X : forall y, last_given (log ++ [((place', x), c)]) (place, y) = last_given log (place, y)).
  { intros y. rewrite last_given_snoc. unfold key_eqb. cbn [fst snd]. destruct (Nat.eqb_spec place' place); [contradiction|reflexivity]. }
  constructor; [exact O1| |]; intros y; [|intros rid c']; rewrite X; [apply O2|apply O3].
Qed.

(** ** The whole document *)
Definition sections_in (l : list api) : nat := length (filter (fun a => match a with ASection _ => true | _ => false end) l).
Definition pending (s : section_arg) (place : nat) (xs : list slot) : list item :=
  flat_map (fun x => match sa_pending s x with Some c => [(place, x, c)] | None => [] end) xs.
Lemma attachments_app l m n : attachments n (l ++ m) = attachments n l ++ attachments (n + sections_in l) m.
Proof.
  revert n; induction l as [|a l IH]; intros n; [cbn; now rewrite Nat.add_0_r|].
  destruct a; unfold sections_in; cbn [attachments app filter length]; rewrite ?IH; fold (sections_in l); rewrite ?Nat.add_succ_r, <- ?app_assoc; reflexivity.
Qed.
Lemma attach_all_pending s place : forall xs log r t p parts r' t' p' parts',
  fold_left (fun st x => attach_if x (sa_pending s x) st) xs (r, t, (p, parts)) = (r', t', (p', parts')) ->
  tallies log r -> place_ok log place p parts ->
  tallies (log ++ pending s place xs) r' /\ place_ok (log ++ pending s place xs) place p' parts'.
Proof.
  induction xs as [|x xs IH]; intros log r t p parts r' t' p' parts' E T O.
  - cbn in E. injection E as <- <- <- <-. cbn. rewrite app_nil_r. auto.
  - cbn [fold_left] in E. unfold pending. cbn [flat_map]. fold (pending s place xs).
    destruct (sa_pending s x) as [c|] eqn:P; cbn [attach_if] in E; [|eapply IH; eassumption].
    destruct (attach x c (r, t, (p, parts))) as [[r1 t1] [p1 parts1]] eqn:A.
    destruct (attach_ok _ _ _ _ _ _ _ _ _ _ _ _ A T O) as [T1 O1].
    rewrite app_assoc. eapply IH; eassumption.
Qed.
Lemma place_ok_pending log s place' place p parts xs : place' <> place -> place_ok log place p parts -> place_ok (log ++ pending s place' xs) place p parts.
Proof.
  intros N. revert log. induction xs as [|x xs IH]; intros log O; [cbn; now rewrite app_nil_r|]. unfold pending. cbn [flat_map]. fold (pending s place' xs).
  destruct (sa_pending s x) as [c|]; [|now apply IH]. rewrite app_assoc. apply IH. now apply place_ok_other.
Qed.

Record doc_ok (l : list api) (d : docx) (r : doc_rels) : Prop := {
  w_tallies : tallies (attachments 0 l) r;
  w_sections : length (sections_of d) = sections_in l;
  w_document : place_ok (attachments 0 l) 0 (d_sect d) (d_parts d);
  w_section : forall i p ps, nth_error (sections_of d) i = Some (p, ps) -> place_ok (attachments 0 l) (S i) p ps;
  w_places : Forall (fun a => fst (fst a) <= sections_in l) (attachments 0 l) }.

Lemma sections_push d n : sections_of (push_body d n) = sections_of d ++ match n with NSection p ps _ _ => [(p, ps)] | _ => [] end.
Proof. unfold sections_of, push_body. cbn [d_body]. rewrite flat_map_app. cbn [flat_map]. now rewrite app_nil_r. Qed.
Lemma place_ok_empty place p : place_ok [] place p [].
Proof. constructor; [repeat constructor|reflexivity|discriminate]. Qed.

Lemma calls_doc_ok l : keeps_document l -> doc_ok l (k_doc (calls l)) (k_doc_rels (calls l)).
Proof.
  induction l as [|a l IH] using rev_ind.
  - intros _. constructor; [repeat split|reflexivity|apply place_ok_empty|intros [|i] p ps; discriminate|constructor].
  - intros K. apply keeps_snoc in K. destruct K as [K Ka]. specialize (IH K). rewrite calls_snoc. set (k := calls l) in *.
    destruct IH as [T S D Se P].
    assert (At : attachments 0 (l ++ [a]) = attachments 0 l ++ attachments (sections_in l) [a]) by apply attachments_app.
    assert (Si : sections_in (l ++ [a]) = sections_in l + match a with ASection _ => 1 | _ => 0 end)
      by (unfold sections_in; rewrite filter_app, app_length; destruct a; reflexivity).
    destruct a; cbn [call attachments] in *; rewrite ?app_nil_r in At; rewrite ?Nat.add_0_r in Si.
    + constructor; rewrite ?At, ?Si; cbn [add_block set_doc k_doc k_doc_rels]; auto.
      * rewrite sections_push, app_length, S. destruct n; try contradiction; cbn; lia.
      * intros i p ps H. apply Se. rewrite sections_push in H. destruct n; try contradiction; now rewrite app_nil_r in H.
    + rewrite add_section_eq. destruct (attach_all s _) as [[r t] [p parts]] eqn:E. unfold attach_all in E.
      set (place := Datatypes.S (sections_in l)) in *.
      assert (New : place_ok (attachments 0 l) place (sa_prop s) []).
      { assert (X : forall x, last_given (attachments 0 l) (place, x) = None).
        { intros x. apply last_given_none. intros I. apply in_map_iff in I. destruct I as (a & Ea & I). rewrite Forall_forall in P. specialize (P _ I).
          rewrite Ea in P. cbn in P. unfold place in P. lia. }
        constructor; [repeat constructor| |]; intros x; [|intros rid c]; rewrite X; [reflexivity|discriminate]. }
      assert (T0 : tallies (attachments 0 l) (number_if (sa_numbering s) (k_doc_rels k))) by exact T.
      destruct (attach_all_pending s place _ _ _ _ _ _ _ _ _ _ E T0 New) as [T1 N1].
      constructor; rewrite ?At, ?Si; cbn [set_types set_doc k_doc k_doc_rels push_body d_sect d_parts]; fold (pending s place all_slots); auto.
      * change {| d_body := _; d_sect := _; d_parts := _; d_comments := _; d_footnotes := _ |} with (push_body (k_doc k) (NSection p parts (sa_numbering s) (sa_children s))).
        rewrite sections_push, app_length, S. reflexivity.
      * apply place_ok_pending; [discriminate|exact D].
      * intros i p0 ps H.
        change {| d_body := _; d_sect := _; d_parts := _; d_comments := _; d_footnotes := _ |} with (push_body (k_doc k) (NSection p parts (sa_numbering s) (sa_children s))) in H.
        rewrite sections_push in H. destruct (Nat.lt_ge_cases i (length (sections_of (k_doc k)))) as [L|L].
        -- rewrite nth_error_app1 in H by assumption. apply place_ok_pending; [unfold place; lia|]. now apply Se.
        -- rewrite nth_error_app2 in H by assumption. destruct (i - _) as [|m] eqn:M; [|destruct m; discriminate H]. injection H as <- <-.
           assert (i = sections_in l) as -> by lia. exact N1.
      * apply Forall_app. split; [eapply Forall_impl; [|exact P]; cbn; intros; lia|].
        unfold pending. apply Forall_forall. intros q Hq. apply in_flat_map in Hq. destruct Hq as (x & _ & Hq). destruct (sa_pending s x); [|destruct Hq].
        destruct Hq as [<-|[]]. cbn. unfold place. lia.
    + pose proof (set_part_parts x c k) as SP. destruct (attach x c _) as [[r t] [p parts]] eqn:E. destruct SP as (S1 & S2 & S3 & S4 & S5 & S6 & S7).
      destruct (attach_ok _ 0 _ _ _ _ _ _ _ _ _ _ E T D) as [T1 D1].
      assert (Sc : sections_of (k_doc (set_part x c k)) = sections_of (k_doc k)) by (unfold sections_of; now rewrite S5).
      constructor; rewrite ?At, ?Si, ?S1, ?S3, ?S4, ?Sc; auto.
      * intros i p0 ps H. apply place_ok_other; [discriminate|]. now apply Se.
      * apply Forall_app. split; [exact P|]. repeat constructor. cbn. lia.
    + constructor; rewrite ?At, ?Si; auto.
    + constructor; rewrite ?At, ?Si; auto.
    + constructor; rewrite ?At, ?Si; auto.
    + destruct Ka.
Qed.

(** ** Order of the files *)
Fixpoint loc_from (i : nat) (pss : list (list node)) : list (nat * node) :=
  match pss with [] => [] | ps :: r => map (pair i) ps ++ loc_from (S i) r end.
Definition located (d : docx) : list (nat * node) := map (pair 0) (d_parts d) ++ loc_from 1 (map snd (sections_of d)).
Definition on_side (h : bool) (q : nat * option (slot * string)) : bool := match snd q with Some (x, _) => eqb (is_head x) h | None => false end.
Definition sh (q : nat * node) : nat * option (slot * string) := (fst q, shape (snd q)).
Definition side_nodes (h : bool) (d : docx) : list (nat * node) := filter (fun q => on_side h (sh q)) (located d).
Definition side_parts (h : bool) (d : docx) : list node := if h then headers d else footers d.
Definition key_of (q : nat * option (slot * string)) : nat * slot := (fst q, match snd q with Some (x, _) => x | None => HDefault end).

Lemma filter_map {A B} (f : A -> B) p l : filter p (map f l) = map f (filter (fun a => p (f a)) l).
Proof. induction l as [|a l IH]; [reflexivity|]. cbn. destruct (p (f a)); cbn; now rewrite IH. Qed.
Lemma filter_ext_all {A} (p q : A -> bool) l : (forall a, p a = q a) -> filter p l = filter q l.
Proof. intros H. induction l as [|a l IH]; [reflexivity|]. cbn. rewrite H, IH. reflexivity. Qed.
Lemma side_parts_nodes h d : side_parts h d = map snd (side_nodes h d).
Proof.
  assert (W : forall which, (forall n, which n = match shape n with Some (x, _) => eqb (is_head x) h | None => false end) ->
            parts_where which d = map snd (side_nodes h d)).
  { intros which H. unfold parts_where, side_nodes, located. rewrite filter_app, map_app. f_equal.
    - rewrite filter_map, map_map. cbn [snd]. rewrite map_id. now apply filter_ext_all.
    - unfold sections_of. generalize 1. induction (d_body d) as [|n b IH]; intros i; [reflexivity|]. cbn [flat_map].
      destruct n; try apply IH. cbn [app map snd loc_from]. rewrite filter_app, map_app. f_equal; [|apply IH].
      rewrite filter_map, map_map. cbn [snd]. rewrite map_id. now apply filter_ext_all. }
  destruct h; apply W; intros n; destruct n; try reflexivity; match goal with x : slot |- _ => destruct x; reflexivity end.
Qed.
Lemma loc_from_in pss : forall i q, In q (loc_from i pss) <-> exists j, fst q = i + j /\ match nth_error pss j with Some ps => In (snd q) ps | None => False end.
Proof.
  induction pss as [|ps pss IH]; intros i [pl n]; cbn [loc_from fst snd].
  - split; [intros []|intros (j & _ & H); destruct j; exact H].
  - rewrite in_app_iff, in_map_iff, IH. cbn [fst snd]. split.
    + intros [(m & E & I)|(j & -> & I)]; [injection E as <- <-; exists 0; rewrite Nat.add_0_r; auto|exists (S j); rewrite Nat.add_succ_r; auto].
    + intros (j & -> & I). destruct j as [|j]; [left; exists n; rewrite Nat.add_0_r; auto|right; exists j; rewrite Nat.add_succ_r; auto].
Qed.
Lemma located_in d q : In q (located d) <-> In (snd q) (parts_at d (fst q)).
Proof.
  unfold located. rewrite in_app_iff, in_map_iff, loc_from_in. destruct q as [pl n]. cbn [fst snd]. split.
  - intros [(m & E & I)|(j & -> & I)]; [injection E as <- <-; exact I|]. cbn. rewrite nth_error_map in I.
    destruct (nth_error (sections_of d) j); exact I.
  - intros I. destruct pl as [|j]; [left; exists n; auto|]. right. exists j. split; [reflexivity|]. rewrite nth_error_map. cbn in I.
    destruct (nth_error (sections_of d) j); exact I.
Qed.
Lemma sorted_app {A} (R : A -> A -> Prop) l m : StronglySorted R l -> StronglySorted R m -> (forall a b, In a l -> In b m -> R a b) -> StronglySorted R (l ++ m).
Proof.
  intros L M H. induction L as [|a l L IH F]; [exact M|]. cbn. constructor; [apply IH; intros; apply H; [right|]; assumption|].
  apply Forall_app. split; [exact F|]. apply Forall_forall. intros b B. apply H; [left; reflexivity|exact B].
Qed.
Lemma place_sorted h i ps : ranked ps -> StronglySorted before (map key_of (map sh (filter (fun q => on_side h (sh q)) (map (pair i) ps)))).
Proof.
  intros [S P]. induction S as [|n ps S IH F]; [constructor|]. inversion P; subst. cbn [map filter].
  destruct (on_side h (sh (i, n))) eqn:O; [|now apply IH]. cbn [map]. constructor; [now apply IH|]. apply Forall_forall. intros k K.
  rewrite !map_map, in_map_iff in K. destruct K as (q & <- & K). apply filter_In in K. destruct K as [K O'].
  apply in_map_iff in K. destruct K as (m & <- & K). rewrite Forall_forall in F. specialize (F _ K).
  destruct n; try discriminate O. destruct m; try discriminate O'. right. cbn in *.
  match goal with x : slot, y : slot |- _ => destruct h, x, y; cbn in *; try discriminate; split; lia end.
Qed.
Lemma keys_sorted h d : (forall place, ranked (parts_at d place)) -> StronglySorted before (map key_of (map sh (side_nodes h d))).
Proof.
  intros R. unfold side_nodes, located. rewrite filter_app, !map_app. 
  assert (Ge : forall pss i k, In k (map key_of (map sh (filter (fun q => on_side h (sh q)) (loc_from i pss)))) -> i <= fst k).
  { intros pss i k K. rewrite map_map, in_map_iff in K. destruct K as (q & <- & K). apply filter_In in K. destruct K as [K _].
    apply loc_from_in in K. destruct K as (j & E & _). cbn. lia. }
  apply sorted_app; [apply place_sorted, (R 0)| |].
  - assert (A : forall pss i, Forall ranked pss -> StronglySorted before (map key_of (map sh (filter (fun q => on_side h (sh q)) (loc_from i pss))))).
    { induction pss as [|ps pss IH]; intros i F; [constructor|]. inversion F; subst. cbn [loc_from]. rewrite filter_app, !map_app.
      apply sorted_app; [now apply place_sorted|now apply IH|]. intros a b Ia Ib. apply Ge in Ib. left.
      rewrite map_map, in_map_iff in Ia. destruct Ia as (q & <- & K). apply filter_In in K. destruct K as [K _]. apply in_map_iff in K.
      destruct K as (m & <- & _). cbn. lia. }
    apply A. apply Forall_forall. intros ps I. apply in_map_iff in I. destruct I as ([p ps'] & <- & I). apply In_nth_error in I. destruct I as (j & I).
    specialize (R (S j)). cbn in R. now rewrite I in R.
  - intros a b Ia Ib. apply Ge in Ib. left. rewrite map_map, in_map_iff in Ia. destruct Ia as (q & <- & K). apply filter_In in K. destruct K as [K _]. apply in_map_iff in K.
    destruct K as (m & <- & _). cbn. lia.
Qed.

(** ** Layout *)
Lemma layout_sh d d' : layout d = layout d' -> map sh (located d) = map sh (located d').
Proof.
  unfold layout. intros E. injection E as _ E1 E2. unfold located. rewrite !map_app. f_equal.
  - rewrite !map_map. change (fun x => sh (0, x)) with (fun x => (0, shape x)). rewrite <- (map_map shape (pair 0)), E1, map_map. reflexivity.
  - assert (A : forall l l' i, map (fun s : sectpr * list node => (fst s, map shape (snd s))) l = map (fun s => (fst s, map shape (snd s))) l' ->
                map sh (loc_from i (map snd l)) = map sh (loc_from i (map snd l'))).
    { induction l as [|s l IH]; intros [|s' l'] i E; try discriminate E; [reflexivity|]. cbn [map] in E. injection E as _ Es El.
      cbn [map loc_from]. rewrite !map_app. f_equal; [|now apply IH].
      rewrite !map_map. change (fun x => sh (i, x)) with (fun x => (i, shape x)). rewrite <- (map_map shape (pair i)), Es, map_map. reflexivity. }
    now apply A.
Qed.
Lemma layout_side h d d' : layout d = layout d' -> map sh (side_nodes h d) = map sh (side_nodes h d').
Proof. intros E. unfold side_nodes. rewrite <- !(filter_map sh (on_side h)). now rewrite (layout_sh _ _ E). Qed.
Lemma layout_property d d' place : layout d = layout d' -> property_at d place = property_at d' place.
Proof.
  unfold layout. intros E. injection E as E0 _ E2. destruct place as [|i]; cbn; [now rewrite E0|].
  assert (A : forall b, flat_map (fun n => match n with NSection p _ _ _ => [p] | _ => [] end) b =
      map fst (map (fun s : sectpr * list node => (fst s, map shape (snd s))) (flat_map (fun n => match n with NSection p ps _ _ => [(p, ps)] | _ => [] end) b))).
  { induction b as [|n b IH]; [reflexivity|]. cbn [flat_map]. rewrite IH, !map_app. f_equal. destruct n; reflexivity. }
  rewrite !A. unfold sections_of in E2. now rewrite E2.
Qed.
Lemma layout_parts d d' place : layout d = layout d' -> map shape (parts_at d place) = map shape (parts_at d' place).
Proof.
  unfold layout. intros E. injection E as _ E1 E2. destruct place as [|i]; cbn; [exact E1|].
  assert (X : nth_error (map (fun s : sectpr * list node => (fst s, map shape (snd s))) (sections_of d)) i =
              nth_error (map (fun s => (fst s, map shape (snd s))) (sections_of d')) i) by now rewrite E2.
  rewrite !nth_error_map in X. destruct (nth_error (sections_of d) i), (nth_error (sections_of d') i); try discriminate X; [|reflexivity].
  cbn in X. now injection X.
Qed.
Lemma find_shape x a : forall b, map shape a = map shape b -> option_map shape (List.find (has_slot x) a) = option_map shape (List.find (has_slot x) b).
Proof.
  induction a as [|n a IH]; intros [|m b] E; try discriminate E; [reflexivity|]. cbn [map] in E. injection E as En E. cbn [List.find].
  assert (has_slot x n = has_slot x m) as -> by (destruct n, m; try discriminate En; cbn in *; congruence).
  destruct (has_slot x m); [cbn; congruence|now apply IH].
Qed.

Lemma part_steps_has kind : forall parts i rels j n, nth_error parts j = Some n ->
  In (SXml (nth_name ("word/" +++ kind) (i + j) ".xml") (PPart n)) (part_steps kind i parts rels).
Proof.
  induction parts as [|m parts IH]; intros i rels [|j] n H; try discriminate H.
  - injection H as ->. rewrite Nat.add_0_r. left. reflexivity.
  - cbn [part_steps]. right. rewrite Nat.add_succ_r. change (S (i + j)) with (S i + j).
    destruct rels as [|[a b] rels]; [now apply IH|]. destruct (Nat.eqb a i); [right|]; now apply IH.
Qed.
Definition side_name (h : bool) (j : nat) : string := nth_name (if h then "word/header" else "word/footer") j ".xml".
Lemma side_name_inj h i j : side_name h i = side_name h j -> i = j.
Proof. unfold side_name, nth_name. intros E. apply key_inj in E. lia. Qed.
Lemma side_file k c h j n : file_of (stream_steps k c) (side_name h j) n <-> nth_error (side_parts h (k_doc k)) j = Some n.
Proof.
  unfold file_of, stream_steps. split.
  - intros H. rewrite !in_app_iff in H. destruct H as [H|[H|[H|[H|[H|[H|[H|H]]]]]]].
    + apply in_map_iff in H. destruct H as (x & E & _). discriminate E.
    + apply in_map_iff in H. destruct H as (x & E & _). discriminate E.
    + apply part_steps_in in H. destruct H as [(i & m & N & E)|(i & m & E)]; [|discriminate E]. injection E as E ->.
      destruct h; [|unfold side_name, nth_name in E; discriminate E]. apply (side_name_inj true j i) in E. now subst i.
    + apply part_steps_in in H. destruct H as [(i & m & N & E)|(i & m & E)]; [|discriminate E]. injection E as E ->.
      destruct h; [unfold side_name, nth_name in E; discriminate E|]. apply (side_name_inj false j i) in E. now subst i.
    + destruct (c_media c); [destruct H|]. destruct H as [E|H]; [discriminate E|]. apply in_map_iff in H. destruct H as (x & E & _). discriminate E.
    + destruct (k_taskpanes k); [|destruct H]. destruct H as [E|[E|[E|[E|H]]]]; try discriminate E. apply web_steps_in in H. destruct H as (? & ? & _ & E). discriminate E.
    + destruct (k_custom k); [destruct H|]. destruct H as [E|[]]. discriminate E.
    + apply item_steps_in in H. destruct H as (? & ? & ? & _ & [E|[E|E]]); discriminate E.
  - intros H. apply in_app_iff. right. apply in_app_iff. right. destruct h.
    + apply in_app_iff. left. apply (part_steps_has "header" _ 0 _ j n H).
    + apply in_app_iff. right. apply in_app_iff. left. apply (part_steps_has "footer" _ 0 _ j n H).
Qed.
Lemma side_rid_inj h a b : side_rid h a = side_rid h b -> a = b.
Proof. destruct h; cbn [side_rid]; unfold header_rid, footer_rid; intros E; apply append_inj_l in E; now apply show_N_inj in E. Qed.
Definition side_count (h : bool) (r : doc_rels) : N := if h then r_headers r else r_footers r.
Lemma upto_in n i : In i (upto n) <-> (i < n)%N.
Proof. unfold upto. rewrite in_map_iff. setoid_rewrite in_seq. split; [intros (x & <- & H); lia|intros H; exists (N.to_nat i); split; lia]. Qed.
Lemma leads_side r x rid name : leads_to r x rid name <->
  exists j, (N.of_nat j < side_count (is_head x) r)%N /\ rid = side_rid (is_head x) (N.of_nat j + 1) /\ name = side_name (is_head x) j.
Proof.
  unfold leads_to, written_rels. split.
  - intros (e & I & K & <- & ->). rewrite !in_app_iff in I.
    destruct I as [I|[I|[I|[I|[I|[I|[I|[I|I]]]]]]]].
    + cbn in I. destruct I as [<-|[<-|[<-|[<-|[]]]]]; destruct (is_head x); discriminate K.
    + destruct (r_comments r); [|destruct I]. destruct I as [<-|[]]. destruct (is_head x); discriminate K.
    + destruct (r_numberings r); [|destruct I]. destruct I as [<-|[]]. destruct (is_head x); discriminate K.
    + destruct (r_footnotes r); [|destruct I]. destruct I as [<-|[]]. destruct (is_head x); discriminate K.
    + apply in_map_iff in I. destruct I as (i & <- & I). apply upto_in in I. destruct (is_head x); [|discriminate K].
      exists (N.to_nat i). unfold side_name, nth_name. cbn [rel_id rel_target mk_rel side_rid side_count]. rewrite N2Nat.id. auto.
    + apply in_map_iff in I. destruct I as (i & <- & I). apply upto_in in I. destruct (is_head x); [discriminate K|].
      exists (N.to_nat i). unfold side_name, nth_name. cbn [rel_id rel_target mk_rel side_rid side_count]. rewrite N2Nat.id. auto.
    + apply in_map_iff in I. destruct I as (i & <- & I). destruct (is_head x); discriminate K.
    + apply in_map_iff in I. destruct I as (i & <- & I). destruct (is_head x); discriminate K.
    + apply in_map_iff in I. destruct I as (i & <- & I). destruct (is_head x); discriminate K.
  - intros (j & L & -> & ->). destruct (is_head x); cbn [side_count side_rid] in *.
    + exists (mk_rel (header_rid (N.of_nat j + 1)) "header" ("header" +++ show_N (N.of_nat j + 1) +++ ".xml")). repeat split.
      do 4 (apply in_app_iff; right). apply in_app_iff; left. apply in_map_iff. exists (N.of_nat j). split; [reflexivity|]. now apply upto_in.
    + exists (mk_rel (footer_rid (N.of_nat j + 1)) "footer" ("footer" +++ show_N (N.of_nat j + 1) +++ ".xml")). repeat split.
      do 5 (apply in_app_iff; right). apply in_app_iff; left. apply in_map_iff. exists (N.of_nat j). split; [reflexivity|]. now apply upto_in.
Qed.

(** ** The theorem *)
Lemma intended_given l place x : intended l place x = option_map snd (last_given (attachments 0 l) (place, x)).
Proof.
  unfold intended, last_given.
  assert (A : forall rl : list item, match filter (fun a : item => Nat.eqb (fst (fst a)) place && slot_eqb (snd (fst a)) x) rl with a :: _ => Some (snd a) | [] => None end
                                     = option_map snd (latest rl (place, x))); [|apply A].
  induction rl as [|[[i y] c] r IH]; [reflexivity|]. cbn [filter latest fst snd].
  unfold key_eqb. cbn [fst snd]. destruct (Nat.eqb i place && slot_eqb y x); [reflexivity|exact IH].
Qed.

Section Order.
  Variables (l : list api) (k : pkg) (c : collected).
  Hypothesis keeps : keeps_document l.
  Hypothesis same : layout (k_doc k) = layout (k_doc (calls l)).
  Hypothesis counts : forall h, side_count h (k_doc_rels k) = side_count h (k_doc_rels (calls l)).
  Let log := attachments 0 l.
  Let d0 := k_doc (calls l).
  Let keys' (h : bool) := map key_of (map sh (side_nodes h d0)).

  Lemma place_all place : exists p, property_at d0 place = Some p /\ place_ok log place p (parts_at d0 place) \/ parts_at d0 place = [] /\ forall x, last_given log (place, x) = None.
  Proof.
    destruct (calls_doc_ok l keeps) as [T S D Se P]. fold d0 log in T, S, D, Se, P. destruct place as [|i]; [exists (d_sect d0); left; auto|].
    cbn [property_at parts_at]. destruct (nth_error (sections_of d0) i) as [[p ps]|] eqn:N.
    - exists p. left. split; [|now apply Se]. unfold sections_of in N. revert i N. clear. 
      induction (d_body d0) as [|n b IH]; intros i N; [destruct i; discriminate N|]. cbn [flat_map] in *. destruct n; try now apply IH.
      cbn [app] in *. destruct i as [|i]; [cbn in *; congruence|]. apply IH. exact N.
    - exists (d_sect d0). right. split; [reflexivity|]. intros x. apply last_given_none. intros I. apply in_map_iff in I. destruct I as (a & Ea & I).
      rewrite Forall_forall in P. specialize (P _ I). rewrite Ea in P. cbn in P. apply nth_error_None in N. lia.
  Qed.
  Lemma all_ranked place : ranked (parts_at d0 place).
  Proof. destruct (place_all place) as (p & [[_ O]|[-> _]]); [apply O|repeat constructor]. Qed.
  Lemma find_given place x : List.find (has_slot x) (parts_at d0 place) =
    match last_given log (place, x) with Some (rid, c) => Some (NPart x rid (fst c) (snd c)) | None => None end.
  Proof. destruct (place_all place) as (p & [[_ O]|[-> ->]]); [apply O|reflexivity]. Qed.
  Lemma ref_given place x rid c0 : last_given log (place, x) = Some (rid, c0) ->
    exists p, property_at d0 place = Some p /\ ref_of p x = Some {| pr_type := type_of x; pr_id := rid |}.
  Proof. intros H. destruct (place_all place) as (p & [[E O]|[_ N]]); [|rewrite N in H; discriminate]. exists p. split; [exact E|]. eapply o_refs; eassumption. Qed.
  (** What stands at a place of the list was last given there. *)
  Lemma ranked_find ps n x : ranked ps -> In n ps -> has_slot x n = true -> List.find (has_slot x) ps = Some n.
  Proof.
    intros [S P] I X. induction S as [|m ps S IH F]; [destruct I|]. inversion P; subst. cbn. destruct I as [->|I]; [now rewrite X|].
    destruct (has_slot x m) eqn:Y; [|now apply IH]. rewrite Forall_forall in F. specialize (F _ I). rewrite Forall_forall in *.
    rewrite has_slot_rank in X, Y by auto. apply N.eqb_eq in X, Y. lia.
  Qed.
  Lemma located_given place n : In (place, n) (located d0) -> exists x rid nb ch, n = NPart x rid nb ch /\ last_given log (place, x) = Some (rid, (nb, ch)).
  Proof.
    intros I. apply located_in in I. cbn [fst snd] in I. destruct (all_ranked place) as [S P]. pose proof P as P'. rewrite Forall_forall in P. specialize (P _ I).
    destruct n; try discriminate P. exists s, rid, numbering, ch. split; [reflexivity|].
    pose proof (ranked_find _ _ s (conj S P') I) as F. cbn [has_slot] in F. rewrite (proj2 (slot_eqb_spec s s) eq_refl) in F. specialize (F eq_refl).
    rewrite find_given in F. destruct (last_given log (place, s)) as [[r [nb c0]]|]; [|discriminate]. injection F as -> -> ->. reflexivity.
  Qed.
  Lemma keys'_in h key : In key (keys' h) <-> In key (side_keys h log).
  Proof.
    rewrite side_keys_in. unfold keys'. rewrite map_map, in_map_iff. split.
    - intros ([pl n] & <- & I). apply filter_In in I. destruct I as [I O]. destruct (located_given _ _ I) as (x & rid & nb & ch & -> & G).
      cbn in *. split; [|now apply eqb_prop in O]. destruct (in_dec (fun a b => match key_eqb a b as b0 return key_eqb a b = b0 -> {a = b} + {a <> b} with
         | true => fun E => left (proj1 (key_eqb_spec a b) E) | false => fun E => right (fun X => eq_true_false_abs _ (proj2 (key_eqb_spec a b) X) E) end eq_refl) (pl, x) (map fst log)) as [Y|N]; [exact Y|].
      apply last_given_none in N. rewrite N in G. discriminate.
    - intros [I H]. destruct key as [pl x]. cbn [snd] in H. apply last_given_some in I. pose proof (find_given pl x) as F.
      destruct (last_given log (pl, x)) as [[rid [nb ch]]|]; [|contradiction]. exists (pl, NPart x rid nb ch). split; [reflexivity|].
      apply filter_In. split; [|cbn; subst h; apply eqb_reflx]. apply located_in. apply find_some in F. apply F.
  Qed.
  Lemma keys'_sorted h : StronglySorted before (keys' h).
  Proof. apply keys_sorted, all_ranked. Qed.

  Lemma side_prepared h j q : nth_error (map sh (side_nodes h d0)) j = Some q ->
    exists n, nth_error (side_parts h (k_doc k)) j = Some n /\ shape n = snd q.
  Proof.
    intros H. unfold d0 in H. rewrite <- (layout_side h _ _ same), nth_error_map in H. rewrite side_parts_nodes, nth_error_map.
    destruct (nth_error (side_nodes h (k_doc k)) j) as [[pl n]|]; [|discriminate H]. injection H as <-. exists n. auto.
  Qed.

  Lemma given_rid place x rid c0 : last_given log (place, x) = Some (rid, c0) ->
    exists n', part_at (k_doc k) place x = Some n' /\ shape n' = Some (x, rid).
  Proof.
    intros G. pose proof (find_given place x) as F. rewrite G in F.
    pose proof (find_shape x _ _ (layout_parts _ _ place same)) as X. fold d0 in X. rewrite F in X. unfold part_at.
    destruct (List.find (has_slot x) (parts_at (k_doc k) place)) as [n'|]; [|discriminate X]. exists n'. split; [reflexivity|]. cbn in X. congruence.
  Qed.

  Lemma shown_iff place x : last_given log (place, x) <> None ->
    (shown (k_doc k) (k_doc_rels k) (stream_steps k c) place x <->
     exists j, nth_error (keys' (is_head x)) j = Some (place, x) /\ last_at (side_keys (is_head x) log) (place, x) j).
  Proof.
    intros G. destruct (last_given log (place, x)) as [[rid c0]|] eqn:L; [|contradiction]. clear G.
    destruct (last_given_at _ _ _ _ L) as (j0 & At & Rid). cbn [snd] in *.
    destruct (ref_given _ _ _ _ L) as (p & Pp & Pr). destruct (given_rid _ _ _ _ L) as (n' & Pn & Sn).
    split.
    - intros (p' & rid' & name & n & Pp' & Pr' & Le & Pn' & Fi). rewrite (layout_property _ _ _ same) in Pp'. fold d0 in Pp'.
      rewrite Pp in Pp'. injection Pp' as <-. rewrite Pr in Pr'. injection Pr' as <-. rewrite Pn in Pn'. injection Pn' as <-.
      apply leads_side in Le. destruct Le as (j & _ & Rj & ->). rewrite Rid in Rj. apply side_rid_inj in Rj. assert (j = j0) as -> by lia.
      apply side_file in Fi. exists j0. split; [|exact At].
      rewrite side_parts_nodes, nth_error_map in Fi. destruct (nth_error (side_nodes (is_head x) (k_doc k)) j0) as [[pl m]|] eqn:Q; [|discriminate Fi].
      injection Fi as ->. assert (Q' : nth_error (map sh (side_nodes (is_head x) d0)) j0 = Some (pl, Some (x, rid))).
      { unfold d0. rewrite <- (layout_side _ _ _ same), nth_error_map, Q. cbn. unfold sh. cbn [fst snd]. now rewrite Sn. }
      unfold keys'. rewrite nth_error_map, Q'. cbn.
      (* the place is the right one *)
      rewrite nth_error_map in Q'. destruct (nth_error (side_nodes (is_head x) d0) j0) as [[pl0 m]|] eqn:Q0; [|discriminate Q']. injection Q' as -> Sm.
      apply nth_error_In in Q0. apply filter_In in Q0. destruct Q0 as [Q0 _]. destruct (located_given _ _ Q0) as (y & rid' & nb & ch & -> & G).
      cbn in Sm. injection Sm as -> ->. destruct (last_given_at _ _ _ _ G) as (j1 & At1 & Rid1). cbn [snd] in *. rewrite Rid in Rid1. apply side_rid_inj in Rid1.
      assert (j1 = j0) as -> by lia. destruct At as [A _], At1 as [A1 _]. rewrite A in A1. injection A1 as <-. reflexivity.
    - intros (j & Kj & Lj).
      assert (j = j0) as ->.
      { destruct At as [A B], Lj as [A' B']. destruct (Nat.lt_trichotomy j j0) as [Lt|[E|Lt]]; [destruct (B' _ Lt A)|exact E|destruct (B _ Lt A')]. }
      unfold keys' in Kj. rewrite nth_error_map in Kj. destruct (nth_error (map sh (side_nodes (is_head x) d0)) j0) as [q|] eqn:Q; [|discriminate Kj].
      assert (Kq : key_of q = (place, x)) by (cbn [option_map] in Kj; congruence). clear Kj. destruct (side_prepared _ _ _ Q) as (m & Nm & Sm).
      exists p, rid, (side_name (is_head x) j0), n'. rewrite (layout_property _ _ _ same). fold d0. repeat split; try assumption.
      + apply leads_side. exists j0. repeat split; [|exact Rid]. rewrite counts.
        destruct (calls_doc_ok l keeps) as [[T1 T2] _ _ _ _]. destruct At as [A _].
        assert (Lt : j0 < length (side_keys (is_head x) log)) by (apply nth_error_Some; congruence). unfold side_keys in Lt. rewrite map_length in Lt.
        assert (SC : forall h, side_count h (k_doc_rels (calls l)) = tally h log) by (intros []; [exact T1|exact T2]).
        rewrite SC. unfold tally. change (nat * slot * content)%type with item in Lt. lia.
      + apply side_file. rewrite Nm. f_equal.
        (* the only part of the place with this slot *)
        rewrite nth_error_map in Q. destruct (nth_error (side_nodes (is_head x) d0) j0) as [[pl0 m0]|] eqn:Q0; [|discriminate Q].
        injection Q as <-. pose proof Q0 as Q1. apply nth_error_In in Q0. apply filter_In in Q0. destruct Q0 as [Q0 _].
        destruct (located_given _ _ Q0) as (y & rid' & nb & ch & -> & G). cbn in Kq, Sm. injection Kq as -> ->. rewrite L in G. injection G as <- ->.
        assert (I : In m (parts_at (k_doc k) place)).
        { rewrite side_parts_nodes, nth_error_map in Nm. destruct (nth_error (side_nodes (is_head x) (k_doc k)) j0) as [[pl1 m1]|] eqn:Q2; [|discriminate Nm]. injection Nm as ->.
          assert (pl1 = place) as ->.
          { pose proof (layout_side (is_head x) _ _ same) as Y. fold d0 in Y. assert (Z : nth_error (map sh (side_nodes (is_head x) (k_doc k))) j0 = nth_error (map sh (side_nodes (is_head x) d0)) j0) by now rewrite Y.
            rewrite !nth_error_map, Q1, Q2 in Z. cbn in Z. injection Z. auto. }
          apply nth_error_In in Q2. apply filter_In in Q2. destruct Q2 as [Q2 _]. apply located_in in Q2. exact Q2. }
        assert (Rk : ranked (parts_at (k_doc k) place)).
        { pose proof (layout_parts _ _ place same) as Y. fold d0 in Y. pose proof (all_ranked place) as R0. revert Y R0. clear.
          generalize (parts_at (k_doc k) place) (parts_at d0 place). intros a b E [S P]. revert a E. induction S as [|n b S IH F]; intros a E.
          - destruct a; [repeat constructor|discriminate E].
          - destruct a as [|m a]; [discriminate E|]. cbn [map] in E. injection E as Em E. inversion P; subst. destruct (IH H2 _ E) as [Sa Pa].
            assert (Rm : part_rank m = part_rank n) by (destruct m, n; try discriminate Em; cbn in *; try discriminate; congruence).
            split; constructor; auto.
            + rewrite Rm. clear - E F. revert a E. induction F as [|y b Y F IH]; intros [|z a] E; try discriminate E; constructor.
              * cbn [map] in E. injection E as Ez _. assert (part_rank z = part_rank y) as -> by (destruct z, y; try discriminate Ez; cbn in *; try reflexivity; congruence). exact Y.
              * cbn [map] in E. injection E as _ E. now apply IH.
            + destruct m, n; try discriminate; reflexivity. }
        pose proof (ranked_find _ _ x Rk I) as F. assert (Hx : has_slot x m = true) by (destruct m; try discriminate Sm; cbn in *; injection Sm as -> ->; apply slot_eqb_spec; reflexivity).
        specialize (F Hx). unfold part_at in Pn. congruence.
  Qed.

  Theorem shown_in_order : in_order l <->
    forall place x, intended l place x <> None -> shown (k_doc k) (k_doc_rels k) (stream_steps k c) place x.
  Proof.
    assert (Lp : forall h, (forall j a, nth_error (keys' h) j = Some a -> last_at (side_keys h log) a j) <-> StronglySorted before (side_keys h log)).
    { intros h. apply (last_places before before_irr before_trans); [apply keys'_sorted|]. intros a. symmetry. apply keys'_in. }
    split.
    - intros O place x I. rewrite intended_given in I. fold log in I. assert (G : last_given log (place, x) <> None) by (intros Z; apply I; rewrite Z; reflexivity).
      apply shown_iff; [exact G|]. specialize (O (is_head x)). change (StronglySorted before (side_keys (is_head x) log)) in O. pose proof (proj2 (Lp (is_head x)) O) as O'. clear O.
      assert (K : In (place, x) (keys' (is_head x))).
      { apply keys'_in. apply side_keys_in. split; [|reflexivity]. destruct (last_given log (place, x)) as [[rid c0]|] eqn:L; [|contradiction].
        destruct (last_given_at _ _ _ _ L) as (j & [A _] & _). apply nth_error_In in A. apply side_keys_in in A. apply A. }
      apply In_nth_error in K. destruct K as (j & K). exists j. split; [exact K|exact (O' _ _ K)].
    - intros S h. change (StronglySorted before (side_keys h log)). apply (proj1 (Lp h)). intros j [place x] K.
      assert (K' : In (place, x) (side_keys h log)) by (apply keys'_in; eapply nth_error_In; exact K).
      apply side_keys_in in K'. destruct K' as [I Hx]. cbn in Hx. subst h. apply last_given_some in I.
      assert (Sh : shown (k_doc k) (k_doc_rels k) (stream_steps k c) place x).
      { apply S. rewrite intended_given. fold log. destruct (last_given log (place, x)); [discriminate|contradiction]. }
      apply shown_iff in Sh; [|exact I]. destruct Sh as (j' & K2 & At). assert (j' = j) as ->; [|exact At].
      apply (proj1 (NoDup_nth_error (keys' (is_head x))) (sorted_nodup before before_irr _ (keys'_sorted _))); [apply nth_error_Some; congruence|congruence].
  Qed.

  (** Every relationship has a file just when no slot was filled twice. *)
  Lemma NoDup_same_length {A} (a b : list A) : NoDup a -> (forall x, In x a <-> In x b) -> (length b <= length a <-> NoDup b).
  Proof.
    intros N S. split; intros H.
    - apply (NoDup_incl_NoDup N H). intros x Hx. now apply S.
    - apply (NoDup_incl_length H). intros x Hx. now apply S.
  Qed.
  Lemma no_slot_twice_sides : no_slot_twice l <-> forall h, NoDup (side_keys h log).
  Proof.
    unfold no_slot_twice. fold log. split.
    - intros N h. unfold side_keys. clear -N. induction log as [|a r IH]; [constructor|]. cbn [map] in N. inversion N as [|? ? N1 N2]; subst. cbn [filter].
      destruct (side h a); [|now apply IH]. cbn [map]. constructor; [|now apply IH]. intros I. apply N1. apply in_map_iff in I. destruct I as (y & <- & I).
      apply filter_In in I. apply in_map. tauto.
    - intros N. pose proof (N true) as N1. pose proof (N false) as N2. clear -N1 N2. unfold side_keys in *.
      induction log as [|a r IH]; [constructor|]. cbn [filter map] in *. constructor.
      + intros I. apply in_map_iff in I. destruct I as (y & Ey & I).
        destruct (side true a) eqn:Sa.
        * cbn [map] in N1. inversion N1 as [|? ? X _]; subst. apply X. rewrite <- Ey. apply in_map, filter_In. split; [exact I|]. unfold side in *. now rewrite Ey.
        * assert (Sf : side false a = true) by (unfold side in *; destruct (is_head (snd (fst a))); [discriminate|reflexivity]).
          rewrite Sf in N2. cbn [map] in N2. inversion N2 as [|? ? X _]; subst. apply X. rewrite <- Ey. apply in_map, filter_In. split; [exact I|]. unfold side in *. now rewrite Ey.
      + apply IH.
        * destruct (side true a); [cbn [map] in N1; now inversion N1|exact N1].
        * destruct (side false a); [cbn [map] in N2; now inversion N2|exact N2].
  Qed.
  Lemma part_rels_in e : In e (part_rels (k_doc_rels k)) <->
    exists h j, (N.of_nat j < side_count h (k_doc_rels k))%N /\ rel_kind e = (if h then "header" else "footer") /\
      "word/" +++ rel_target e = side_name h j /\ rel_id e = side_rid h (N.of_nat j + 1).
  Proof.
    unfold part_rels. rewrite filter_In, orb_true_iff, !String.eqb_eq. split.
    - intros [I [K|K]].
      + destruct (proj1 (leads_side (k_doc_rels k) HDefault (rel_id e) ("word/" +++ rel_target e))) as (j & A & B & C); [exists e; auto|].
        exists true, j. auto.
      + destruct (proj1 (leads_side (k_doc_rels k) FDefault (rel_id e) ("word/" +++ rel_target e))) as (j & A & B & C); [exists e; auto|].
        exists false, j. auto.
    - intros (h & j & A & K & B & C). split; [|rewrite K; destruct h; auto].
      destruct (proj2 (leads_side (k_doc_rels k) (if h then HDefault else FDefault) (rel_id e) ("word/" +++ rel_target e))) as (e' & I & K' & R & N).
      { exists j. destruct h; auto. }
      assert (e = e'); [|now subst]. destruct e as [ei ek et], e' as [fi fk ft]. cbn [rel_id rel_kind rel_target] in *. apply append_inj_l in N. destruct h; cbn in K'; congruence.
  Qed.
  Theorem targets_exist : no_slot_twice l <-> Forall (target_exists (stream_steps k c)) (part_rels (k_doc_rels k)).
  Proof.
    rewrite no_slot_twice_sides.
    assert (Cnt : forall h, side_count h (k_doc_rels k) = N.of_nat (length (side_keys h log))).
    { intros h. rewrite counts. destruct (calls_doc_ok l keeps) as [[T1 T2] _ _ _ _]. unfold side_keys. rewrite map_length. destruct h; [exact T1|exact T2]. }
    assert (Len : forall h, length (side_parts h (k_doc k)) = length (keys' h)).
    { intros h. unfold keys'. rewrite side_parts_nodes, !map_length, <- (map_length sh), <- (map_length sh (side_nodes h d0)). unfold d0. now rewrite (layout_side h _ _ same). }
    assert (Eq : forall h, length (side_keys h log) <= length (side_parts h (k_doc k)) <-> NoDup (side_keys h log)).
    { intros h. rewrite Len. apply NoDup_same_length; [exact (sorted_nodup before before_irr _ (keys'_sorted h))|apply keys'_in]. }
    assert (Has : forall h j, (exists n, file_of (stream_steps k c) (side_name h j) n) <-> j < length (side_parts h (k_doc k))).
    { intros h j. rewrite <- nth_error_Some. setoid_rewrite side_file. split; [intros (n & ->); discriminate|].
      destruct (nth_error (side_parts h (k_doc k)) j) as [n|]; [eauto|congruence]. }
    rewrite Forall_forall. unfold target_exists. split.
    - intros H e I. apply part_rels_in in I. destruct I as (h & j & A & _ & B & _). rewrite B. apply Has. rewrite Cnt in A. pose proof (proj2 (Eq h) (H h)). lia.
    - intros H h. apply Eq. destruct (length (side_keys h log)) as [|j] eqn:Z; [lia|].
      specialize (H (mk_rel (side_rid h (N.of_nat j + 1)) (if h then "header" else "footer") ((if h then "header" else "footer") +++ show_N (N.of_nat j + 1) +++ ".xml"))).
      assert (X : exists n, file_of (stream_steps k c) (side_name h j) n).
      { replace (side_name h j) with ("word/" +++ ((if h then "header" else "footer") +++ show_N (N.of_nat j + 1) +++ ".xml")) by (destruct h; reflexivity).
        apply H. apply part_rels_in. exists h, j. split; [rewrite Cnt, Z; lia|]. destruct h; repeat split; reflexivity. }
      apply Has in X. lia.
  Qed.

  (** What is held for a slot is what was asked for. *)
  Theorem held place x : option_map (fun n => match n with NPart _ _ nb ch => (nb, ch) | _ => (false, []) end) (part_at d0 place x) = intended l place x.
  Proof. rewrite intended_given. unfold part_at. rewrite find_given. fold log. destruct (last_given log (place, x)) as [[rid [nb ch]]|]; reflexivity. Qed.
End Order.

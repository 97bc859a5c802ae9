(** What the files of relationships say and which files that leads to. *)
From Coq Require Import NArith ZArith List Bool Lia String.
From Verif Require Import Str StrFacts XmlParser XmlProofs ZipNameModel PathModel PackModel ReadBase ReadProps ReadModel OpenModel ReadSpec RenderModel ArchiveSpec ArchiveProofs OpenPath OpenRels ReadProg TargetSpec.
From Verif Require ArchiveReads.
Import ListNotations.
Open Scope list_scope.

(** ** Events of a text *)
Lemma build_start_event n a e : build_start n a = Some e -> e <> EDocEnd.
Proof. unfold build_start, option_map. intros H X. subst e. destruct (build_attributes a); discriminate. Qed.
Lemma text_no_end t : text_event t <> EDocEnd.
Proof. unfold text_event. intros X. repeat match goal with H : context [match ?x with _ => _ end] |- _ => destruct x end; discriminate. Qed.
Lemma drain_no_end ts : forall txt, ~ In EDocEnd (drain txt ts).
Proof.
  induction ts as [|k ts IH]; intros txt; cbn [drain].
  - destruct txt as [t|]; [|intros []]. intros [H|[]]. now apply text_no_end in H.
  - assert (B : ~ In EDocEnd (match txt with Some t => [text_event t] | None => [] end)).
    { destruct txt as [t|]; [|intros []]. intros [H|[]]. now apply text_no_end in H. }
    assert (C : forall l, ~ In EDocEnd l -> ~ In EDocEnd (match txt with Some t => [text_event t] | None => [] end ++ l)).
    { intros l Hl H. apply in_app_or in H as [H|H]; auto. }
    assert (D : forall e l, e <> EDocEnd -> ~ In EDocEnd l -> ~ In EDocEnd (e :: l)) by (intros e l He Hl [H|H]; auto).
    destruct k.
    all: repeat match goal with
                | |- context [match resolve_ref ?n with _ => _ end] => destruct (resolve_ref n)
                | |- context [match build_start ?n ?a with _ => _ end] => let Q := fresh "Q" in destruct (build_start n a) eqn:Q; [apply build_start_event in Q|]
                end.
    all: repeat first [apply IH | apply C | apply D; [solve [discriminate | assumption] |] | intros []; discriminate | solve [auto]].
Qed.
Lemma text_no_doc_end t : ~ In EDocEnd (events_of t).
Proof. apply drain_no_end. Qed.

(** ** Attributes *)
Lemma read_rel_says atts : ar_type (read_rel atts) = value "Type" atts /\ ar_id (read_rel atts) = value "Id" atts /\
  ar_target (read_rel atts) = value "Target" atts /\ ar_mode (read_rel atts) = last_value "TargetMode" atts.
Proof.
  unfold read_rel, each_attr, value.
  assert (G : forall r, let r' := fold_left (fun a qv => rel_attr a (q_local (fst qv)) (snd qv)) atts r in
    ar_type r' = match last_value "Type" atts with Some v => v | None => ar_type r end /\
    ar_id r' = match last_value "Id" atts with Some v => v | None => ar_id r end /\
    ar_target r' = match last_value "Target" atts with Some v => v | None => ar_target r end /\
    ar_mode r' = match last_value "TargetMode" atts with Some v => Some v | None => ar_mode r end).
  { induction atts as [|[q v] l IH]; intros r; [now repeat split|]. cbn [fold_left fst snd last_value].
    specialize (IH (rel_attr r (q_local q) v)). cbn zeta in IH |- *. destruct IH as (I1 & I2 & I3 & I4). rewrite I1, I2, I3, I4.
    unfold rel_attr. destruct (String.eqb_spec (q_local q) "Type") as [H1|H1]; [rewrite H1|].
    { cbn. repeat split; match goal with |- context [last_value ?n l] => destruct (last_value n l) end; reflexivity. }
    destruct (String.eqb_spec (q_local q) "Target") as [H2|H2]; [rewrite H2|].
    { cbn. repeat split; match goal with |- context [last_value ?n l] => destruct (last_value n l) end; reflexivity. }
    destruct (String.eqb_spec (q_local q) "Id") as [H3|H3]; [rewrite H3|].
    { cbn. repeat split; match goal with |- context [last_value ?n l] => destruct (last_value n l) end; reflexivity. }
    destruct (String.eqb_spec (q_local q) "TargetMode") as [H4|H4].
    { cbn [ar_type ar_id ar_target ar_mode]. repeat split; match goal with |- context [last_value ?n l] => destruct (last_value n l) end; reflexivity. }
    repeat split; match goal with |- context [last_value ?n l] => destruct (last_value n l) end; reflexivity. }
  specialize (G no_rel). cbn zeta in G. destruct G as (G1 & G2 & G3 & G4). rewrite G1, G2, G3, G4. repeat split. now destruct (last_value "TargetMode" atts).
Qed.

(** ** The package *)
Fixpoint kids (l : list event) (d : Z) : list (list attribute) :=
  match l with
  | [] => []
  | EStart _ atts :: r => (if (d =? 1)%Z then [atts] else []) ++ kids r (d + 1)
  | EEnd _ :: r => kids r (d - 1)
  | _ :: r => kids r d
  end.
Lemma kids_app l m : forall d, kids (l ++ m) d = kids l d ++ kids m (fold_left step l d).
Proof.
  induction l as [|e l IH]; intros d; [reflexivity|]. cbn [app fold_left]. destruct e; cbn [kids step]; rewrite IH; auto. now rewrite app_assoc.
Qed.
Lemma kids_in l : forall d atts, In atts (kids l d) -> exists before q after, l = before ++ EStart q atts :: after /\ fold_left step before d = 1%Z.
Proof.
  induction l as [|e l IH]; intros d atts H; [destruct H|].
  assert (N : forall d', step d e = d' -> In atts (kids l d') -> exists before q after, e :: l = before ++ EStart q atts :: after /\ fold_left step before d = 1%Z).
  { intros d' Hd Hi. destruct (IH d' atts Hi) as (b & q & a & -> & Hb). exists (e :: b), q, a. split; [reflexivity|]. cbn [fold_left]. now rewrite Hd. }
  destruct e as [q0 at0|q0|x|x| |]; cbn [kids] in H; try (eapply N; [reflexivity|exact H]).
  apply in_app_or in H as [H|H]; [|eapply N; [reflexivity|exact H]].
  destruct (d =? 1)%Z eqn:D; [|destruct H]. destruct H as [<-|[]]. exists [], q0, l. split; [reflexivity|]. now apply Z.eqb_eq in D.
Qed.
Definition as_rel (atts : list attribute) : PackModel.rel := mk_rel (value "Id" atts) (value "Type" atts) (value "Target" atts).
Lemma children_kids l : ~ In EErr l -> ~ In EDocEnd l -> forall d acc,
  children_of_root (fun l atts => let r := read_rel atts in Some (l ++ [mk_rel (ar_id r) (ar_type r) (ar_target r)])) l d acc = Some (acc ++ map as_rel (kids l d), false).
Proof.
  induction l as [|e l IH]; intros He Hd d acc; [cbn; now rewrite app_nil_r|].
  assert (IH' := IH (fun H => He (or_intror H)) (fun H => Hd (or_intror H))). clear IH.
  destruct e as [q0 at0|q0|x|x| |]; cbn [children_of_root kids]; try apply IH'.
  - destruct (d =? 1)%Z; [|apply IH']. cbn zeta. rewrite IH'. cbn [app map]. rewrite <- app_assoc. unfold as_rel at 2.
    destruct (read_rel_says at0) as (-> & -> & -> & _). reflexivity.
  - exfalso. apply Hd. now left.
  - exfalso. apply He. now left.
Qed.
Lemma package_kids a t : read_zip a "_rels/.rels" = Some t -> ~ In EErr (events_of t) -> package_of a = map as_rel (kids (events_of t) 0).
Proof.
  intros Ht He. unfold package_of, read_as. rewrite Ht. unfold read_package_rels. cbn [rs_events].
  now rewrite (children_kids (events_of t) He (text_no_doc_end t)).
Qed.
Lemma find_none_of_type l ty : none_of_type l ty -> forall m, find_target ty (map as_rel (kids l 0) ++ m) = find_target ty m.
Proof.
  intros H m. assert (K : forall atts, In atts (kids l 0) -> value "Type" atts <> ty).
  { intros atts Hi. destruct (kids_in _ _ _ Hi) as (b & q & af & -> & Hb). apply (H b). now exists q, af. }
  unfold find_target. induction (kids l 0) as [|x k IH]; [reflexivity|]. cbn [map app List.find].
  change (rel_kind (as_rel x)) with (value "Type" x). destruct (String.eqb_spec (value "Type" x) ty) as [Q|_]; [exfalso; now apply (K x (or_introl eq_refl))|].
  apply IH. intros atts Hi. apply K. now right.
Qed.
Theorem package_first a t ty target : read_zip a "_rels/.rels" = Some t -> ~ In EErr (events_of t) -> first_of_type t ty target ->
  exists r, find_target ty (package_of a) = Some r /\ rel_target r = target.
Proof.
  intros Ht He (before & atts & (q & after & Hl & Hd) & Hn & Hty & Htg). rewrite (package_kids a t Ht He), Hl, kids_app, map_app.
  rewrite find_none_of_type by exact Hn. unfold depth in Hd. rewrite Hd. cbn [kids]. change (1 =? 1)%Z with true. cbn [app map].
  exists (as_rel atts). unfold find_target. cbn [List.find]. change (rel_kind (as_rel atts)) with (value "Type" atts). rewrite Hty, String.eqb_refl. now split.
Qed.
Theorem package_none a t ty : read_zip a "_rels/.rels" = Some t -> ~ In EErr (events_of t) -> none_of_type (events_of t) ty ->
  find_target ty (package_of a) = None.
Proof.
  intros Ht He Hn. rewrite (package_kids a t Ht He). rewrite <- (app_nil_r (map as_rel (kids (events_of t) 0))). now rewrite find_none_of_type.
Qed.

(** ** The relationships of a part *)
Fixpoint elems (l : list event) : list (list attribute) :=
  match l with
  | [] => []
  | EStart q atts :: r => if q_local q =s "Relationship" then atts :: elems r else elems r
  | EEnd q :: r => if q_local q =s "Relationships" then [] else elems r
  | _ :: r => elems r
  end.
Lemma rels_turns_val dir l : forall fuel a c x s', turns fuel (rels_turn dir) a {| rs_events := l; rs_para := c |} = Val x s' -> x = fold_left (add_rel_read dir) (elems l) a.
Proof.
  induction l as [|e l IH]; intros [|fuel] a c x s' H; cbn [turns rs_events rs_para] in H; try discriminate.
  destruct e as [q atts|q|y|y| |]; cbn [rels_turn bind ret fail] in H; cbn [elems]; try discriminate; try (eapply IH; exact H).
  - apply IH in H. destruct (q_local q =s "Relationship"); exact H.
  - destruct (q_local q =s "Relationships"); [now injection H as <- _|]. eapply IH; exact H.
Qed.
Lemma rels_read dir t : ~ In EErr (events_of t) -> closes_one "Relationships" t ->
  read_as (read_rels_xml dir) t [] = fold_left (add_rel_read dir) (elems (events_of t)) [].
Proof.
  intros He (q & Hq & Hn). unfold read_as. change (read_rels_xml dir) with (loop (rels_turn dir) []). unfold loop. cbn [rs_events rs_para].
  destruct (ArchiveReads.rels_returns dir {| rs_events := events_of t; rs_para := 0 |} He (ex_intro _ q (conj Hq Hn))) as (x & s' & H).
  change (read_rels_xml dir) with (loop (rels_turn dir) []) in H. unfold loop in H. cbn [rs_events rs_para] in H. rewrite H.
  now apply rels_turns_val in H.
Qed.
Lemma elems_in l : forall atts, In atts (elems l) <-> exists before q after, l = before ++ EStart q atts :: after /\ q_local q = "Relationship"%string /\
    (forall p, In (EEnd p) before -> q_local p <> "Relationships"%string).
Proof.
  induction l as [|e l IH]; intros atts.
  - split; [intros []|]. intros ([|x b] & q & af & H & _); discriminate.
  - assert (F : (forall p, e = EEnd p -> q_local p <> "Relationships"%string) -> In atts (elems l) -> exists before q after, e :: l = before ++ EStart q atts :: after /\ q_local q = "Relationship"%string /\
      (forall p, In (EEnd p) before -> q_local p <> "Relationships"%string)).
    { intros Hp Hi. apply IH in Hi as (b & q & af & -> & Hq & Hb). exists (e :: b), q, af. repeat split; auto. intros p [H|H]; auto. }
    assert (B : forall before q after, e :: l = before ++ EStart q atts :: after -> q_local q = "Relationship"%string ->
      (forall p, In (EEnd p) before -> q_local p <> "Relationships"%string) -> (e = EStart q atts /\ before = []) \/ ((forall p, e = EEnd p -> q_local p <> "Relationships"%string) /\ In atts (elems l))).
    { intros [|x b] q af H Hq Hb; cbn [app] in H; injection H as -> ->; [now left|]. right. split; [intros p ->; apply Hb; now left|].
      apply IH. exists b, q, af. repeat split; auto. intros p Hp. apply Hb. now right. }
    destruct e as [q0 at0|q0|y|y| |]; cbn [elems].
    1: { destruct (String.eqb_spec (q_local q0) "Relationship") as [Q|Q]; split.
         - intros [<-|H]; [exists [], q0, l; repeat split; auto|]. apply F; [discriminate|exact H].
         - intros (b & q & af & H & Hq & Hb). destruct (B b q af H Hq Hb) as [[X _]|[_ X]]; [injection X as -> ->; now left|now right].
         - intros H. apply F; [discriminate|exact H].
         - intros (b & q & af & H & Hq & Hb). destruct (B b q af H Hq Hb) as [[X _]|[_ X]]; [injection X as -> ->; contradiction|exact X]. }
    1: { destruct (String.eqb_spec (q_local q0) "Relationships") as [Q|Q]; split.
         - intros [].
         - intros (b & q & af & H & Hq & Hb). destruct (B b q af H Hq Hb) as [[X _]|[X _]]; [discriminate|exfalso; exact (X q0 eq_refl Q)].
         - intros H. apply F; [intros p X; now injection X as <-|exact H].
         - intros (b & q & af & H & Hq & Hb). destruct (B b q af H Hq Hb) as [[X _]|[_ X]]; [discriminate|exact X]. }
    all: split; [intros H; apply F; [discriminate|exact H]|]; intros (b & q & af & H & Hq & Hb); destruct (B b q af H Hq Hb) as [[X _]|[_ X]]; [discriminate|exact X].
Qed.
(** ** Sets *)
Lemma insert_keeps x s y : In y s -> In y (set_insert x s).
Proof.
  induction s as [|z s IH]; intros H; [destruct H|]. cbn [set_insert]. destruct (compare_target x z); [exact H|now right|].
  destruct H as [->|H]; [now left|right; auto].
Qed.
Lemma insert_has x s : exists y, In y (set_insert x s) /\ (y = x \/ compare_target x y = Eq).
Proof.
  induction s as [|z s IH]; cbn [set_insert]; [exists x; split; [now left|now left]|]. destruct (compare_target x z) eqn:C.
  - exists z. split; [now left|now right].
  - exists x. split; [now left|now left].
  - destruct IH as (y & Hy & Q). exists y. split; [now right|exact Q].
Qed.
Lemma set_of_has l x : In x l -> exists y, In y (set_of l) /\ (y = x \/ compare_target x y = Eq).
Proof.
  unfold set_of. assert (K : forall l s y, In y s -> In y (fold_left (fun s x => set_insert x s) l s)).
  { clear. induction l as [|z l IH]; intros s y H; [exact H|]. cbn [fold_left]. apply IH. now apply insert_keeps. }
  generalize (@nil target). induction l as [|z l IH]; intros s H; [destruct H|]. cbn [fold_left]. destruct H as [->|H]; [|now apply IH].
  destruct (insert_has x s) as (y & Hy & Q). exists y. split; [now apply K|exact Q].
Qed.
Lemma compare_list_eq A (f : A -> A -> comparison) : (forall a b, f a b = Eq -> a = b) -> forall l m, compare_list f l m = Eq -> l = m.
Proof.
  intros Hf. induction l as [|a l IH]; intros [|b m] H; cbn [compare_list] in H; try discriminate; [reflexivity|].
  destruct (f a b) eqn:C; try discriminate. f_equal; [now apply Hf|now apply IH].
Qed.
Lemma compare_component_eq a b : compare_component a b = Eq -> a = b.
Proof. destruct a, b; cbn; try discriminate; try reflexivity. intros H. f_equal. now apply String.compare_eq_iff. Qed.
Lemma compare_mode_eq a b : compare_mode a b = Eq -> a = b.
Proof. destruct a, b; cbn; try discriminate; try reflexivity. intros H. f_equal. now apply String.compare_eq_iff. Qed.
Lemma cut_segments s : cut_at_slash s = segments s.
Proof.
  induction s as [|c s IH]; [reflexivity|]. cbn [cut_at_slash segments]. rewrite IH. change "/"%char with ch_slash. destruct (c =c ch_slash); [reflexivity|].
  pose proof (segments_nonempty s). destruct (segments s); [contradiction|reflexivity].
Qed.
Lemma rooted_root s : rooted s <-> has_root s = true.
Proof.
  split; [intros (r & ->); reflexivity|]. destruct s as [|c s]; [discriminate|]. cbn [has_root]. intros H. apply Ascii.eqb_eq in H. subst c. now exists s.
Qed.
Definition move_of (c : component) : list string := match c with CRoot | CCur => [] | CParent => [".."%string] | CName s => [s] end.
Lemma moves_components p : moves p = flat_map move_of (components p).
Proof.
  unfold components. rewrite !flat_map_app.
  assert (R : flat_map move_of (if has_root p then [CRoot] else []) = []) by now destruct (has_root p).
  assert (D : flat_map move_of (if has_dot p then [CCur] else []) = []) by now destruct (has_dot p).
  rewrite R, D. cbn [app].
  assert (F : forall l, flat_map move_of (map (fun x => if x =s ".." then CParent else CName x) (filter (fun x => negb (passed_over x)) l)) =
     filter (fun x => negb (x =s "") && negb (x =s "."))%string l).
  { induction l as [|x l IH]; [reflexivity|]. cbn [filter]. unfold passed_over at 1. rewrite negb_orb.
    destruct (negb (x =s "") && negb (x =s "."))%string; [|exact IH]. cbn [map flat_map]. rewrite IH.
    destruct (String.eqb_spec x "..") as [->|]; reflexivity. }
  rewrite F. unfold moves. rewrite cut_segments. unfold path_body. destruct (has_root p) eqn:Hr.
  - destruct p as [|c p]; [discriminate|]. cbn [orb segments]. cbn [has_root] in Hr. rewrite Hr. reflexivity.
  - destruct (has_dot p) eqn:Hd; [|reflexivity]. cbn [orb]. destruct p as [|c [|d p]]; [discriminate| |].
    + cbn [has_dot] in Hd. apply Ascii.eqb_eq in Hd. subst c. reflexivity.
    + cbn [has_dot] in Hd. apply andb_true_iff in Hd as [H1 H2]. apply Ascii.eqb_eq in H1, H2. subst c d. reflexivity.
Qed.
Lemma components_root p : has_root p = match components p with CRoot :: _ => true | _ => false end.
Proof.
  unfold components. destruct (has_root p); [reflexivity|]. destruct (has_dot p); [reflexivity|]. cbn [app].
  destruct (filter _ _) as [|x l]; [reflexivity|]. cbn [map]. now destruct (x =s "..").
Qed.
Lemma path_eq p q : compare_path p q = Eq -> same_path p q.
Proof.
  intros H. apply (compare_list_eq _ _ compare_component_eq) in H. split; [|now rewrite !moves_components, H].
  rewrite !rooted_root, !components_root, H. tauto.
Qed.
Lemma same_path_refl p : same_path p p.
Proof. now split. Qed.
Lemma target_eq x y : y = x \/ compare_target x y = Eq -> fst (fst y) = fst (fst x) /\ snd y = snd x /\ same_path (snd (fst y)) (snd (fst x)).
Proof.
  intros [->|H]; [repeat split; apply same_path_refl || auto; tauto|]. unfold compare_target in H. destruct (String.compare _ _) eqn:C1; try discriminate.
  destruct (compare_path _ _) eqn:C2; try discriminate. apply String.compare_eq_iff in C1. apply compare_mode_eq in H. apply path_eq in C2. destruct C2 as [C2 C3].
  repeat split; auto; tauto.
Qed.

(** ** How a target is taken *)
Lemma append_slash_ends d : ends_in_slash (d +++ "/") = true.
Proof. induction d as [|c d IH]; [reflexivity|]. cbn [append ends_in_slash]. destruct (d +++ "/") eqn:Q; [destruct d; discriminate|exact IH]. Qed.
Lemma ends_slash s : ends_in_slash s = true -> exists d, s = d +++ "/".
Proof.
  induction s as [|c s IH]; [discriminate|]. cbn [ends_in_slash]. destruct s as [|e s].
  - intros H. apply Ascii.eqb_eq in H. subst c. now exists ""%string.
  - intros H. destruct (IH H) as (d & ->). now exists (String c d).
Qed.
Lemma closed_dir_dec dir : closed_dir dir <-> dir = ""%string \/ ends_in_slash dir = true.
Proof.
  unfold closed_dir. split; (intros [H|H]; [now left|right]); [destruct H as (d & ->); apply append_slash_ends|now apply ends_slash].
Qed.
Lemma ends_with_append p a : ends_with p (a +++ p) = true.
Proof.
  unfold ends_with. rewrite append_length. assert (H : Nat.leb (String.length p) (String.length a + String.length p) = true) by (apply Nat.leb_le; lia).
  rewrite H. replace (String.length a + String.length p - String.length p)%nat with (String.length a) by lia.
  assert (S : substring (String.length a) (String.length p) (a +++ p) = p); [|rewrite S; apply String.eqb_refl].
  induction a as [|c a IH]; cbn [append String.length].
  - induction p as [|c p IH]; [reflexivity|]. cbn [substring String.length]. now rewrite IH.
  - cbn [substring]. apply IH. apply Nat.leb_le. lia.
Qed.
Lemma substring_tail s : forall n, exists a, (n <= String.length s)%nat -> s = a +++ substring n (String.length s - n) s.
Proof.
  induction s as [|c s IH]; intros n.
  - exists ""%string. intros H. cbn in H. replace n with O by lia. reflexivity.
  - destruct n as [|n].
    + exists ""%string. intros _. cbn [String.length Nat.sub append substring]. f_equal. destruct (IH O) as (a & H). clear IH H.
      induction s as [|e s IH]; [reflexivity|]. cbn [String.length substring]. f_equal. exact IH.
    + destruct (IH n) as (a & H). exists (String c a). intros Hn. cbn [String.length Nat.sub append substring] in *. f_equal. apply H. lia.
Qed.
Lemma link_ends ty : is_link ty <-> ends_with "hyperlink" ty = true.
Proof.
  split; [intros (a & ->); apply ends_with_append|]. unfold ends_with. destruct (Nat.leb _ _) eqn:L; [|discriminate]. apply Nat.leb_le in L. intros H.
  apply String.eqb_eq in H. destruct (substring_tail ty (String.length ty - String.length "hyperlink")) as (a & Ha). exists a.
  specialize (Ha ltac:(lia)). replace (String.length ty - (String.length ty - String.length "hyperlink"))%nat with (String.length "hyperlink") in Ha by lia.
  rewrite H in Ha. exact Ha.
Qed.
Lemma join_taken dir ty target : taken dir ty target (if ends_with "hyperlink" ty then join "" target else join dir target).
Proof.
  destruct (ends_with "hyperlink" ty) eqn:L.
  - apply link_ends in L. unfold join. assert (Q : (if has_root target then target else target) = target) by now destruct (has_root target).
    rewrite Q. apply as_it_is. now left.
  - assert (NL : ~ is_link ty) by (intros H; apply link_ends in H; congruence). unfold join. destruct (has_root target) eqn:R.
    + apply as_it_is. right. now apply rooted_root.
    + assert (NR : ~ rooted target) by (intros H; apply rooted_root in H; congruence).
      destruct dir as [|c d]; [apply (right_after "" ty target NL NR); now left|].
      destruct (ends_in_slash (String c d)) eqn:Q.
      * apply right_after; auto. apply closed_dir_dec. now right.
      * apply after_slash; auto. intros H. apply closed_dir_dec in H as [H|H]; [discriminate|congruence].
Qed.
Lemma taken_one dir ty target p q : taken dir ty target p -> taken dir ty target q -> p = q.
Proof. intros [H|H1 H2 H3|H1 H2 H3] [G|G1 G2 G3|G1 G2 G3]; try reflexivity; tauto. Qed.
Lemma taken_is dir ty target p : taken dir ty target p -> p = if ends_with "hyperlink" ty then join "" target else join dir target.
Proof. intros H. exact (taken_one _ _ _ _ _ H (join_taken dir ty target)). Qed.

(** ** The relationships of a part *)
Section Rels.
Context (a : archive) (part dir n t : string) (Hdir : parent part = Some dir) (Hn : rels_name part = Some n) (Ht : read_zip a n = Some t)
  (sound : ~ In EErr (events_of t)) (closed : closes_one "Relationships" t).
Lemma part_targets ty : targets (rels_of a part) ty = set_of (of_type ty (map (rd dir) (elems (events_of t)))).
Proof. unfold rels_of. rewrite Hdir, Hn, Ht, (rels_read dir t sound closed). apply targets_read. Qed.
Lemma rd_says atts : rd dir atts = (value "Type" atts, (value "Id" atts, if ends_with "hyperlink" (value "Type" atts) then join "" (value "Target" atts) else join dir (value "Target" atts), last_value "TargetMode" atts)).
Proof. unfold rd. destruct (read_rel_says atts) as (-> & -> & -> & ->). reflexivity. Qed.
Lemma in_of_type ty x : In x (of_type ty (map (rd dir) (elems (events_of t)))) <-> exists target, says_rel t ty (fst (fst x)) target (snd x) /\ taken dir ty target (snd (fst x)).
Proof.
  unfold of_type. rewrite in_map_iff. split.
  - intros (y & <- & Hy). apply filter_In in Hy as [Hy Hk]. apply in_map_iff in Hy as (atts & <- & Hi). rewrite rd_says in *. cbn [fst snd] in *. apply String.eqb_eq in Hk. subst ty.
    exists (value "Target" atts). split; [|apply join_taken]. apply elems_in in Hi as (b & q & af & Hl & Hq & Hb). exists b, q, atts, af. auto 10.
  - intros (target & (b & q & atts & af & Hl & Hq & Hb & <- & Hid & Htg & Hmd) & Htk). exists (rd dir atts). split.
    + rewrite rd_says. cbn [snd]. destruct x as [[id p] md]. cbn [fst snd] in *. subst. f_equal. f_equal. symmetry. now apply taken_is.
    + apply filter_In. split; [apply in_map; apply elems_in; exists b, q, af; auto|]. rewrite rd_says. cbn [fst]. apply String.eqb_refl.
Qed.
Theorem target_comes_from ty id p mode : In (id, p, mode) (targets (rels_of a part) ty) -> exists target, says_rel t ty id target mode /\ taken dir ty target p.
Proof. rewrite part_targets. intros H. apply set_of_in in H. now apply in_of_type in H. Qed.
Theorem target_is_read ty id target mode : says_rel t ty id target mode ->
  exists p q, In (id, p, mode) (targets (rels_of a part) ty) /\ taken dir ty target q /\ same_path p q.
Proof.
  intros H. rewrite part_targets. pose proof (join_taken dir ty target) as Htk. set (q := if ends_with "hyperlink" ty then join "" target else join dir target) in *.
  destruct (set_of_has (of_type ty (map (rd dir) (elems (events_of t)))) (id, q, mode)) as (y & Hy & Q).
  { apply in_of_type. exists target. auto. }
  apply target_eq in Q as (Q1 & Q2 & Q3). destruct y as [[i p] md]. cbn [fst snd] in *. subst. exists p, q. auto.
Qed.
End Rels.

(** ** Of several relationships of a type the one with the least id comes first *)
Definition at_most (x y : string) : Prop := String.compare x y <> Gt.
Lemma ascii_compare_lt a b : Ascii.compare a b = Lt <-> (Ascii.N_of_ascii a < Ascii.N_of_ascii b)%N.
Proof. unfold Ascii.compare. apply N.compare_lt_iff. Qed.
Lemma at_most_trans x : forall y z, at_most x y -> at_most y z -> at_most x z.
Proof.
  unfold at_most. induction x as [|a x IH]; intros [|b y] [|c z] H1 H2; cbn [String.compare] in *; try congruence.
  destruct (Ascii.compare a b) eqn:C1; [apply Ascii.compare_eq_iff in C1; subst b| |congruence].
  - destruct (Ascii.compare a c) eqn:C2; [|congruence|congruence]. eapply IH; eauto.
  - destruct (Ascii.compare b c) eqn:C2; [apply Ascii.compare_eq_iff in C2; subst c; rewrite C1; congruence| |congruence].
    apply ascii_compare_lt in C1, C2. assert (C3 : Ascii.compare a c = Lt) by (apply ascii_compare_lt; exact (N.lt_trans _ _ _ C1 C2)). rewrite C3. congruence.
Qed.
Definition id_of (t : target) : string := fst (fst t).
Lemma compare_lt_ids x y : compare_target x y = Lt -> at_most (id_of x) (id_of y).
Proof. unfold compare_target, at_most, id_of. destruct (String.compare _ _); congruence. Qed.
Lemma compare_gt_ids x y : compare_target x y = Gt -> at_most (id_of y) (id_of x).
Proof. unfold compare_target, at_most, id_of. rewrite (String.compare_antisym (fst (fst x)) (fst (fst y))). destruct (String.compare (fst (fst y)) (fst (fst x))); cbn; congruence. Qed.
Inductive by_id : list target -> Prop :=
| bi_nil : by_id []
| bi_cons x l : Forall (fun y => at_most (id_of x) (id_of y)) l -> by_id l -> by_id (x :: l).
Lemma insert_by_id x s : by_id s -> by_id (set_insert x s).
Proof.
  induction 1 as [|y l Hy Hl IH]; cbn [set_insert]; [constructor; constructor|]. destruct (compare_target x y) eqn:C; [now constructor| |].
  - apply compare_lt_ids in C. constructor; [|now constructor]. constructor; [exact C|]. eapply Forall_impl; [|exact Hy]. intros z Hz. eapply at_most_trans; eauto.
  - apply compare_gt_ids in C. constructor; [|exact IH]. apply Forall_forall. intros z Hz. apply insert_in in Hz as [->|Hz]; [exact C|]. rewrite Forall_forall in Hy. auto.
Qed.
Lemma set_of_by_id l : by_id (set_of l).
Proof.
  unfold set_of. assert (G : forall s, by_id s -> by_id (fold_left (fun s x => set_insert x s) l s)); [|apply G; constructor].
  induction l as [|x l IH]; intros s H; [exact H|]. cbn [fold_left]. apply IH. now apply insert_by_id.
Qed.

(** ** Paths of plain names *)
Lemma plain_is_name s : plain_name s -> is_name s.
Proof. intros (H1 & H2 & H3 & H4 & _). repeat split; auto. Qed.
Lemma plain_names l : Forall plain_name l -> Forall is_name l.
Proof. apply Forall_impl, plain_is_name. Qed.
Lemma at_join l : at_ l = join_segments l.
Proof. unfold at_. induction l as [|x l IH]; [reflexivity|]. cbn [String.concat join_segments]. destruct l as [|y l]; [reflexivity|]. now rewrite IH. Qed.
Definition start_of (s : string) : Prop := s = ""%string \/ s = "/"%string.
Lemma names_no_root l : Forall is_name l -> has_root (join_segments l) = false.
Proof.
  intros H. destruct l as [|d l]; [reflexivity|]. rewrite <- (append_nil_r (join_segments (d :: l))). apply relative; [exact H|discriminate].
Qed.
Lemma names_no_dot l : Forall is_name l -> has_dot (join_segments l) = false.
Proof.
  intros H. destruct l as [|d l]; [reflexivity|]. inversion H as [|? ? (H1 & H2 & H3 & H4) Hl]; subst. destruct l as [|e l].
  - cbn [join_segments]. destruct d as [|c [|c2 d]]; [reflexivity| |].
    + cbn [has_dot]. apply not_true_is_false. intros Q. apply Ascii.eqb_eq in Q. subst c. now apply H2.
    + cbn [has_dot]. unfold no_slash in H4. cbn [has_char] in H4. apply orb_false_iff in H4 as [_ H4]. apply orb_false_iff in H4 as [H4 _]. rewrite H4. apply andb_false_r.
  - change (join_segments (d :: e :: l)) with (join_segments [d] +++ String ch_slash (join_segments (e :: l))). apply undotted; [|discriminate]. constructor; [now repeat split|constructor].
Qed.
Lemma names_end s l : start_of s -> Forall is_name l -> from_the_end (s +++ join_segments l) = rev l.
Proof.
  intros Hs Hl. unfold from_the_end, path_body.
  assert (B : match l with [] => from_the_end (s +++ join_segments l) = rev l | _ => drop_passed (rev (segments (join_segments l))) = rev l end).
  { destruct l as [|d l]; [destruct Hs as [->| ->]; reflexivity|]. rewrite segments_join; [|now apply slashless|discriminate]. now apply names_back. }
  destruct l as [|d l]; [exact B|]. destruct Hs as [->| ->]; cbn [append].
  - rewrite names_no_root, names_no_dot by exact Hl. exact B.
  - change (has_root (String "/" (join_segments (d :: l)))) with true. cbn [orb]. exact B.
Qed.
Lemma names_start s l : start_of s -> Forall is_name l -> path_start (s +++ join_segments l) = s.
Proof.
  intros Hs Hl. unfold path_start. destruct Hs as [->| ->]; [|reflexivity]. cbn [append]. now rewrite names_no_root, names_no_dot.
Qed.
Lemma names_parent s ds f : start_of s -> Forall is_name ds -> is_name f -> parent (s +++ join_segments (ds ++ [f])) = Some (s +++ join_segments ds).
Proof.
  intros Hs Hd Hf. assert (Ha : Forall is_name (ds ++ [f])) by (apply Forall_app; auto). unfold parent. rewrite names_end, names_start by assumption. rewrite rev_app_distr. cbn [rev app].
  assert (X : drop_passed (rev ds) = rev ds) by now apply names_back. now rewrite X, rev_involutive.
Qed.
Lemma names_file s ds f : start_of s -> Forall is_name ds -> is_name f -> file_name (s +++ join_segments (ds ++ [f])) = Some f.
Proof.
  intros Hs Hd Hf. assert (Ha : Forall is_name (ds ++ [f])) by (apply Forall_app; auto). unfold file_name. rewrite names_end by assumption. rewrite rev_app_distr. cbn [rev app].
  destruct Hf as (_ & _ & H & _). apply String.eqb_neq in H. now rewrite H.
Qed.
Lemma join_app ds ts : ds <> [] -> ts <> [] -> join_segments (ds ++ ts) = join_segments ds +++ "/" +++ join_segments ts.
Proof.
  intros Hd Ht. induction ds as [|d ds IH]; [contradiction|]. destruct ds as [|e ds].
  - destruct ts as [|t ts]; [contradiction|]. reflexivity.
  - change (d +++ String ch_slash (join_segments ((e :: ds) ++ ts)) = (d +++ String ch_slash (join_segments (e :: ds))) +++ "/" +++ join_segments ts).
    rewrite IH by discriminate. now rewrite append_assoc.
Qed.
Lemma names_join s ds ts : start_of s -> Forall is_name ds -> ts <> [] -> has_root (join_segments ts) = false -> join (s +++ join_segments ds) (join_segments ts) = s +++ join_segments (ds ++ ts).
Proof.
  intros Hs Hd Ht Hr. destruct ds as [|d ds].
  - unfold join. rewrite Hr. destruct Hs as [->| ->]; reflexivity.
  - rewrite join_app by (discriminate || exact Ht). pose proof (join_name (d :: ds) Hd ltac:(discriminate) (join_segments ts) Hr) as J.
    destruct Hs as [->| ->]; [exact J|]. unfold join in *. rewrite Hr in *.
    assert (E1 : join_segments (d :: ds) <> ""%string).
    { inversion Hd as [|? ? (X & _) _]; subst. destruct d; [contradiction|]. destruct ds; discriminate. }
    assert (E2 : ends_in_slash ("/" +++ join_segments (d :: ds)) = ends_in_slash (join_segments (d :: ds))) by (cbn [append ends_in_slash]; destruct (join_segments (d :: ds)); [contradiction|reflexivity]).
    assert (E3 : ends_in_slash (join_segments (d :: ds)) = false) by (apply no_end_slash; [exact Hd|discriminate]).
    rewrite E2, E3. reflexivity.
Qed.
(** The file in which relationships are looked for. *)
Lemma rels_name_of s ds f : start_of s -> Forall is_name ds -> is_name f -> is_name (stem_of f) ->
  rels_name (s +++ join_segments (ds ++ [f])) = Some (s +++ join_segments (ds ++ ["_rels"%string; stem_of (stem_of f) +++ ".xml.rels"])).
Proof.
  intros Hs Hd Hf Hg. unfold rels_name, file_stem. rewrite names_parent, names_file by assumption. cbn [option_map].
  assert (Hr : is_name "_rels"%string) by (repeat split; discriminate).
  pose proof (names_join s ds ["_rels"%string] Hs Hd ltac:(intros X; discriminate X) eq_refl) as J1. cbn [join_segments] in J1. rewrite J1.
  assert (Hds : Forall is_name (ds ++ ["_rels"%string])) by (apply Forall_app; auto).
  pose proof (names_join s _ [stem_of f] Hs Hds ltac:(discriminate) (name_relative _ Hg)) as J2. cbn [join_segments] in J2. rewrite J2.
  unfold with_extension. rewrite names_file, names_end, names_start by (auto; apply Forall_app; auto). rewrite rev_app_distr. cbn [rev app]. rewrite rev_app_distr. cbn [rev app]. rewrite rev_involutive, <- app_assoc.
  f_equal. f_equal. cbn [app]. clear. induction ds as [|d ds IH].
  - cbn [app join_segments]. now rewrite !append_assoc.
  - change ((d :: ds) ++ ?l) with (d :: (ds ++ l)). destruct ds as [|e ds].
    + cbn [app join_segments]. now rewrite !append_assoc.
    + change ((d +++ String ch_slash (join_segments ((e :: ds) ++ ["_rels"%string; stem_of (stem_of f)]))) +++ "." +++ "xml.rels" =
              d +++ String ch_slash (join_segments ((e :: ds) ++ ["_rels"%string; stem_of (stem_of f) +++ ".xml.rels"]))).
      rewrite append_assoc. cbn [append]. f_equal. f_equal. exact IH.
Qed.
Lemma no_dot_before s : has_char "." s = false <-> before_last_dot s = None.
Proof.
  induction s as [|c s IH]; [now split|]. cbn [has_char before_last_dot]. rewrite orb_false_iff, IH. split.
  - intros [H ->]. now rewrite H.
  - destruct (before_last_dot s); [discriminate|]. destruct (c =c "."); [discriminate|]. auto.
Qed.
Lemma last_dot b r : has_char "." r = false -> before_last_dot (b +++ String "." r) = Some b.
Proof.
  intros H. apply no_dot_before in H. induction b as [|c b IH]; cbn [append before_last_dot]; [now rewrite H|]. now rewrite IH.
Qed.
Lemma stem_xml b : b <> ""%string -> stem_of (b +++ ".xml") = b.
Proof. intros H. unfold stem_of. change ".xml"%string with (String "." "xml"). rewrite last_dot by reflexivity. now destruct b. Qed.
Lemma stem_same b : b <> ""%string -> (stem_of b = b <-> forall c r, b = String c r -> has_char "." r = false).
Proof.
  intros Hb. unfold stem_of. split.
  - intros H c r ->. cbn [before_last_dot] in H. destruct (before_last_dot r) as [x|] eqn:Q; [|now apply no_dot_before].
    exfalso. apply before_last_dot_app in Q as (y & Q). injection H as H. rewrite H in Q. apply (f_equal String.length) in Q. rewrite append_length in Q. cbn in Q. lia.
  - intros H. destruct b as [|c r]; [contradiction|]. specialize (H c r eq_refl). apply no_dot_before in H. cbn [before_last_dot]. rewrite H. now destruct (c =c ".").
Qed.
Lemma stem_nonempty f : f <> ""%string -> stem_of f <> ""%string.
Proof. intros H. unfold stem_of. destruct (before_last_dot f) as [[|c b]|]; auto. discriminate. Qed.
Lemma stem_no_slash f : no_slash f -> no_slash (stem_of f).
Proof.
  intros H. unfold stem_of. destruct (before_last_dot f) as [[|c b]|] eqn:Q; auto. apply before_last_dot_app in Q as (r & Q). rewrite Q in H. eapply no_slash_prefix; exact H.
Qed.
Lemma append_inj_l a b c : a +++ b = a +++ c -> b = c.
Proof. induction a as [|x a IH]; [auto|]. cbn [append]. intros H. injection H as H. auto. Qed.
Lemma append_inj_r a b c : a +++ c = b +++ c -> a = b.
Proof.
  revert b. induction a as [|x a IH]; intros [|y b] H; [reflexivity| | |].
  - exfalso. apply (f_equal String.length) in H. cbn [append String.length] in H. rewrite append_length in H. lia.
  - exfalso. apply (f_equal String.length) in H. cbn [append String.length] in H. rewrite append_length in H. lia.
  - cbn [append] in H. injection H as -> H. f_equal. auto.
Qed.
Lemma join_inj l m : Forall no_slash l -> Forall no_slash m -> l <> [] -> m <> [] -> join_segments l = join_segments m -> l = m.
Proof. intros Hl Hm Nl Nm H. rewrite <- (segments_join l Hl Nl), <- (segments_join m Hm Nm). now rewrite H. Qed.
Lemma end_with s ds x : start_of s -> Forall is_name ds -> ds <> [] -> no_slash x -> from_the_end (s +++ join_segments (ds ++ [x])) = drop_passed (x :: rev ds).
Proof.
  intros Hs Hd Hn Hx. unfold from_the_end, path_body. rewrite join_app by (exact Hn || discriminate). change ("/" +++ join_segments [x]) with (String ch_slash x).
  assert (S : segments (join_segments ds +++ String ch_slash x) = ds ++ [x]) by (rewrite segments_slash, segments_join, segments_plain; auto; now apply slashless).
  destruct Hs as [->| ->]; cbn [append].
  - rewrite relative, undotted by assumption. cbn [orb]. now rewrite S, rev_app_distr.
  - change (has_root (String "/" (join_segments ds +++ String ch_slash x))) with true. cbn [orb]. now rewrite S, rev_app_distr.
Qed.
Lemma start_with s ds x : start_of s -> Forall is_name ds -> ds <> [] -> path_start (s +++ join_segments (ds ++ [x])) = s.
Proof.
  intros Hs Hd Hn. unfold path_start. rewrite join_app by (exact Hn || discriminate). change ("/" +++ join_segments [x]) with (String ch_slash x).
  destruct Hs as [->| ->]; [|reflexivity]. cbn [append]. now rewrite relative, undotted.
Qed.
Theorem rels_found_iff s ds f : start_of s -> Forall plain_name ds -> plain_name f ->
  (rels_name (s +++ at_ (ds ++ [f])) = Some (s +++ at_ (ds ++ ["_rels"%string; f +++ ".rels"])) <-> xml_name f).
Proof.
  intros Hs Hd Hf. apply plain_names in Hd. apply plain_is_name in Hf. rewrite !at_join.
  assert (Hr : is_name "_rels"%string) by (repeat split; discriminate).
  assert (Hds : Forall is_name (ds ++ ["_rels"%string])) by (apply Forall_app; auto).
  assert (Hne : ds ++ ["_rels"%string] <> []) by now destruct ds.
  assert (SL : no_slash (f +++ ".rels")).
  { destruct Hf as (_ & _ & _ & H). unfold no_slash in *. induction f as [|c f IH]; [reflexivity|]. cbn [append has_char] in *. apply orb_false_iff in H as [-> H]. now apply IH. }
  assert (SD : forall l, Forall no_slash l -> Forall no_slash (ds ++ l)) by (intros l Hl; apply Forall_app; split; [now apply slashless|exact Hl]).
  assert (CA : is_name (stem_of f) \/ stem_of f = "."%string \/ stem_of f = ".."%string).
  { destruct Hf as (H1 & H2 & H3 & H4). destruct (string_dec (stem_of f) "."); [auto|]. destruct (string_dec (stem_of f) ".."); [auto|]. left. repeat split; auto using stem_nonempty, stem_no_slash. }
  split.
  - intros H. destruct CA as [Hg|CA].
    + rewrite rels_name_of in H by assumption. injection H as H. apply append_inj_l in H.
      assert (X : no_slash (stem_of (stem_of f) +++ ".xml.rels")).
      { destruct Hg as (_ & _ & _ & Hg). apply stem_no_slash in Hg. unfold no_slash in *. clear - Hg. induction (stem_of (stem_of f)) as [|c x IH]; [reflexivity|]. cbn [append has_char] in *. apply orb_false_iff in Hg as [-> Hg]. now apply IH. }
      apply join_inj in H; [|apply SD; repeat constructor; assumption|apply SD; repeat constructor; assumption|now destruct ds|now destruct ds].
      apply app_inv_head in H. injection H as H.
      change ".xml.rels"%string with (".xml" +++ ".rels") in H. rewrite <- append_assoc in H. apply append_inj_r in H.
      assert (Nb : stem_of (stem_of f) <> ""%string) by (apply stem_nonempty, stem_nonempty; apply Hf). set (b := stem_of (stem_of f)) in *.
      assert (Sf : stem_of f = b) by (rewrite <- H; now apply stem_xml). assert (Sb : stem_of b = b) by (rewrite <- Sf at 1; reflexivity).
      exists b. repeat split; auto; [|now apply stem_same]. rewrite <- Sf. apply Hg.
    + exfalso. unfold rels_name, file_stem in H. rewrite names_parent, names_file in H by assumption. cbn [option_map] in H.
      pose proof (names_join s ds ["_rels"%string] Hs Hd ltac:(intros X; discriminate X) eq_refl) as J1. cbn [join_segments] in J1. rewrite J1 in H.
      assert (J2 : forall x, has_root x = false -> join (s +++ join_segments (ds ++ ["_rels"%string])) x = s +++ join_segments ((ds ++ ["_rels"%string]) ++ [x])).
      { intros x Hx. exact (names_join s _ [x] Hs Hds ltac:(intros X; discriminate X) Hx). }
      unfold with_extension, file_name in H. destruct CA as [Q|Q]; rewrite Q in H; rewrite J2 in H by reflexivity; rewrite end_with, ?start_with in H by (assumption || reflexivity).
      * cbn [drop_passed passed_over] in H. change (passed_over ".") with true in H. cbn iota in H. rewrite rev_app_distr in H. cbn [rev app drop_passed] in H. change (passed_over "_rels") with false in H. cbn iota in H.
        change ("_rels" =s "..") with false in H. cbn iota in H. injection H as H. apply append_inj_l in H. cbn [rev] in H. rewrite rev_involutive in H. change (stem_of "_rels") with "_rels"%string in H.
        assert (Y : join_segments (ds ++ ["_rels"%string]) +++ ".xml.rels" = join_segments (ds ++ ["_rels.xml.rels"%string])).
        { destruct ds as [|d ds']; [reflexivity|]. rewrite !join_segments_app by discriminate. rewrite append_assoc. reflexivity. }
        rewrite Y in H. apply join_inj in H; [|apply SD; repeat constructor|apply SD; repeat constructor; assumption|now destruct ds|now destruct ds].
        apply app_inv_head in H. discriminate.
      * change (drop_passed (".."%string :: rev (ds ++ ["_rels"%string]))) with (".."%string :: rev (ds ++ ["_rels"%string])) in H. cbn iota in H. change (".." =s "..") with true in H. cbn iota in H.
        injection H as H. apply append_inj_l in H. rewrite <- app_assoc in H. apply join_inj in H; [|apply SD; repeat constructor|apply SD; repeat constructor; assumption|now destruct ds|now destruct ds].
        apply app_inv_head in H. injection H as H. destruct f as [|c [|c2 [|]]]; discriminate.
  - intros (b & -> & H1 & H2 & H3). assert (Sf : stem_of (b +++ ".xml") = b) by now apply stem_xml. assert (Sb : stem_of b = b) by now apply stem_same.
    destruct CA as [Hg|[CA|CA]]; [|congruence|]; [|rewrite Sf in CA; subst b; specialize (H3 "."%char "."%string eq_refl); discriminate].
    rewrite rels_name_of by assumption. rewrite Sf, Sb. rewrite append_assoc. reflexivity.
Qed.

(** ** The file a target leads to *)
Lemma names_no_back l : Forall plain_name l -> has_char ch_back (join_segments l) = false.
Proof.
  assert (A : forall a b, has_char ch_back a = false -> has_char ch_back b = false -> has_char ch_back (a +++ b) = false).
  { intros a b Ha Hb. induction a as [|c a IH]; [exact Hb|]. cbn [append has_char] in *. apply orb_false_iff in Ha as [-> Ha]. now apply IH. }
  induction 1 as [|x l (_ & _ & _ & _ & Hx) Hl IH]; [reflexivity|]. cbn [join_segments]. destruct l as [|y l]; [exact Hx|]. apply A; [exact Hx|exact IH].
Qed.
Lemma zip_path_names s l : start_of s -> Forall plain_name l -> zip_path (s +++ join_segments l) = join_segments l.
Proof.
  intros Hs Hl. pose proof (names_no_back l Hl) as B. pose proof (names_no_root l (plain_names l Hl)) as R. unfold zip_path.
  assert (T : trim_slashes (join_segments l) = join_segments l).
  { destruct (join_segments l) as [|c r]; [reflexivity|]. cbn [trim_slashes has_root] in *. now rewrite R. }
  destruct Hs as [->| ->]; cbn [append]; [now rewrite B|]. cbn [has_char]. rewrite B. cbn [trim_slashes]. exact T.
Qed.
Theorem target_file a s ds ty target p f : start_of s -> Forall plain_name ds -> Forall plain_name f -> ~ is_link ty ->
  leads_to ds target f -> taken (s +++ at_ ds) ty target p -> read_zip a p = option_map without_bom (by_name a (at_ f)).
Proof.
  intros Hs Hd Hf Hl L T. apply taken_is in T. assert (X : ends_with "hyperlink" ty = false) by (apply not_true_is_false; intros Q; apply Hl; now apply link_ends). rewrite X in T. subst p.
  unfold read_zip. f_equal. f_equal. inversion L as [g Hg|g Hg]; subst.
  - apply Forall_app in Hf as [_ Hg']. rewrite !at_join, names_join; auto using plain_names, names_no_root. apply zip_path_names; [exact Hs|]. apply Forall_app; auto.
  - rewrite !at_join. unfold join. change (has_root ("/" +++ join_segments f)) with true. cbn iota. apply zip_path_names; [now right|exact Hf].
Qed.
Lemma has_step_trim p : has_step p -> has_step (trim_slashes p).
Proof.
  intros (a & b & st & Hst & -> & Ha & Hb). assert (D : trim_slashes (st +++ b) = st +++ b) by (destruct Hst as [->| ->]; reflexivity).
  induction a as [|c a IH].
  - cbn [append]. rewrite D. exists ""%string, b, st. cbn [append]. auto.
  - cbn [append trim_slashes]. destruct (c =c ch_slash) eqn:C.
    + apply IH. destruct Ha as [Ha|([|c' a'] & Ha)]; [discriminate| |]; cbn [append] in Ha; injection Ha as _ ->; [now left|]. right. now exists a'.
    + exists (String c a), b, st. auto.
Qed.
Lemma back_app a b : back_to_slash (a +++ b) = back_to_slash a +++ back_to_slash b.
Proof. induction a as [|c a IH]; [reflexivity|]. cbn [append back_to_slash]. now rewrite IH. Qed.
Lemma has_step_back p : has_step p -> has_step (back_to_slash p).
Proof.
  intros (a & b & st & Hst & -> & Ha & Hb). rewrite !back_app. exists (back_to_slash a), (back_to_slash b), st. split; [exact Hst|]. split.
  - f_equal. f_equal. destruct Hst as [->| ->]; reflexivity.
  - split; [destruct Ha as [->|(a' & ->)]; [now left|]|destruct Hb as [->|(b' & ->)]; [now left|]]; right.
    + exists (back_to_slash a'). now rewrite back_app.
    + now exists (back_to_slash b').
Qed.
Lemma has_step_after d p : closed_dir d -> has_step p -> has_step (d +++ p).
Proof.
  intros Hd (a & b & st & Hst & -> & Ha & Hb). exists (d +++ a), b, st. split; [exact Hst|]. split; [now rewrite append_assoc|]. split; [|exact Hb].
  destruct Ha as [->|(a' & ->)]; [rewrite append_nil_r; exact Hd|]. right. exists (d +++ a'). now rewrite append_assoc.
Qed.
Lemma by_name_in a n d : by_name a n = Some d -> In (n, d) a.
Proof.
  induction a as [|[m e] a IH]; [discriminate|]. cbn [by_name]. destruct (by_name a n) as [x|].
  - intros H. injection H as ->. right. now apply IH.
  - destruct (String.eqb_spec m n) as [->|]; [|discriminate]. intros H. injection H as ->. now left.
Qed.
Theorem step_finds_nothing a dir ty target p : (forall n d, In (n, d) a -> ~ has_step n) -> ~ is_link ty -> has_step target -> taken dir ty target p -> read_zip a p = None.
Proof.
  intros Ha Hl Ht T. assert (Hp : has_step p).
  { destruct T as [_|_ _ C|_ _ C]; [exact Ht|now apply has_step_after|]. rewrite <- append_assoc. apply has_step_after; [|exact Ht]. right. now exists dir. }
  unfold read_zip. assert (Hz : has_step (zip_path p)).
  { unfold zip_path. destruct (has_char ch_back p); apply has_step_trim; [now apply has_step_back|exact Hp]. }
  destruct (by_name a (zip_path p)) as [d|] eqn:Q; [|reflexivity]. exfalso. apply by_name_in in Q. exact (Ha _ _ Q Hz).
Qed.

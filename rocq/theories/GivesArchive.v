(** What opening an archive gives, whatever the archive. *)
From Coq Require Import NArith List Bool Lia Sorting.Sorted.
From Verif Require Import Str TypesModel Props Ast TreeModel DepsModel PackModel PackSpec PackOrderProofs ZipNameModel ReadBase ReadModel RenderModel OpenModel GivesSpec GivesProofs.
Import ListNotations.
Open Scope list_scope.

(** ** Storing the texts of comments *)
Lemma came_over n : came_from_reading n <-> local_ok n = true /\ as_read n = true /\ Forall came_from_reading (children n).
Proof.
  unfold came_from_reading.
  destruct n; cbn [all_nodes children]; rewrite Forall_cons_iff, ?Forall_app, ?Forall_flat_map, and_assoc; try tauto;
    split; intros (A & B & _); (split; [exact A|split; [exact B|constructor]]).
Qed.
Lemma came_map (k : node -> bool) f ch : forallb k ch = true -> Forall came_from_reading ch -> (forall n, In n ch -> came_from_reading n -> came_from_reading (f n)) ->
  (forall n, k (f n) = k n) -> forallb k (map f ch) = true /\ Forall came_from_reading (map f ch).
Proof.
  intros K C Hc Hk. split.
  - rewrite forallb_forall in *. intros m I. apply in_map_iff in I. destruct I as (n & <- & I). rewrite Hk. auto.
  - rewrite Forall_forall in *. intros m I. apply in_map_iff in I. destruct I as (n & <- & I). auto.
Qed.
Section Store.
  Variable l : list comment.
  Hypothesis good : Forall (fun c => kinds is_para (snd c)) l.
  Lemma last_such_in {A B} (f : A -> option B) (xs : list A) y : last_such f xs = Some y -> exists x, In x xs /\ f x = Some y.
  Proof.
    induction xs as [|x xs IH]; [discriminate|]. cbn [last_such]. destruct (last_such f xs); intros H.
    - destruct (IH H) as (z & I & Z). exists z. split; [now right|exact Z].
    - exists x. split; [now left|exact H].
  Qed.
  Lemma start_came n : came_from_reading n -> came_from_reading (store_start l n).
  Proof.
    intros H. destruct n; try exact H. cbn [store_start]. destruct (comment_by_id l (cd_id c)) as [x|] eqn:X; [|exact H].
    apply last_such_in in X. destruct X as (y & I & Y). destruct (N.eqb _ _); [|discriminate Y]. injection Y as <-.
    rewrite Forall_forall in good. specialize (good _ I). apply came_over. split; [|split; [reflexivity|]].
    - cbn [local_ok]. apply forallb_forall. intros m J. unfold kinds in good. rewrite Forall_forall in good. destruct (good _ J) as [P _]. now destruct m.
    - cbn [children]. unfold kinds in good. eapply Forall_impl; [|exact good]. intros m M. apply M.
  Qed.
  Ltac open_node H := let L := fresh "L" in let A := fresh "A" in let C := fresh "C" in
    apply came_over in H; destruct H as (L & A & C); cbn [local_ok as_read children] in *.
  Lemma start_kind (k : node -> bool) : (forall d ch d' ch', k (NCommentStart d ch) = k (NCommentStart d' ch')) -> forall n, k (store_start l n) = k n.
  Proof. intros H n. destruct n; try reflexivity. cbn [store_start]. destruct (comment_by_id l (cd_id c)); [apply H|reflexivity]. Qed.
  Lemma child_came n : came_from_reading n -> came_from_reading (store_child l n).
  Proof.
    intros H. destruct n; try (now apply start_came); cbn [store_child].
    - open_node H. destruct (came_map ins_child (store_start l) ch) as [K1 K2]; auto; [intros; now apply start_came|now apply start_kind|].
      apply came_over. cbn [local_ok as_read children]. auto.
    - open_node H. destruct (came_map del_child (store_start l) ch) as [K1 K2]; auto; [intros; now apply start_came|now apply start_kind|].
      apply came_over. cbn [local_ok as_read children]. auto.
  Qed.
  Lemma top_child_came n : came_from_reading n -> came_from_reading (store_top_child l n).
  Proof.
    intros H. destruct n; try (now apply start_came); cbn [store_top_child].
    - open_node H. set (f := fun c => match c with NDel b dl => NDel b (map (store_start l) dl) | _ => store_start l c end).
      assert (F : forall m, came_from_reading m -> came_from_reading (f m)).
      { intros m Hm. destruct m; try (now apply start_came). open_node Hm. unfold f.
        destruct (came_map del_child (store_start l) ch0) as [K1 K2]; auto; [intros; now apply start_came|now apply start_kind|].
        apply came_over. cbn [local_ok as_read children]. auto. }
      destruct (came_map ins_child f ch) as [K1 K2]; auto.
      { intros m. destruct m; try reflexivity. unfold f. apply start_kind. reflexivity. }
      apply came_over. cbn [local_ok as_read children]. auto.
    - open_node H. destruct (came_map del_child (store_start l) ch) as [K1 K2]; auto; [intros; now apply start_came|now apply start_kind|].
      apply came_over. cbn [local_ok as_read children]. auto.
  Qed.
  Lemma child_kind n : para_child (store_child l n) = para_child n.
  Proof. destruct n; try reflexivity. now apply start_kind. Qed.
  Lemma top_child_kind n : para_child (store_top_child l n) = para_child n.
  Proof. destruct n; try reflexivity. now apply start_kind. Qed.
  Lemma block_came n : came_from_reading n -> came_from_reading (store_block l n).
  Proof.
    induction n as [n IH] using node_tree_ind. intros H. destruct n; try exact H; cbn [store_block]; open_node H; try discriminate A; rewrite Forall_forall in IH; apply came_over; cbn [local_ok as_read children].
    - destruct (came_map sdt_child (fun c => if block_walks c then store_block l c else c) ch) as [K1 K2]; auto.
      + intros m I Hm. destruct (block_walks m); auto.
      + intros m. destruct m; reflexivity.
    - destruct (came_map para_child (store_child l) ch) as [K1 K2]; auto; [intros; now apply child_came|exact child_kind].
    - destruct (came_map is_row (store_block l) rows) as [K1 K2]; auto. intros m. destruct m; reflexivity.
    - destruct (came_map is_cell (store_block l) cells) as [K1 K2]; auto. intros m. destruct m; reflexivity.
    - destruct (came_map cell_child (store_block l) ch) as [K1 K2]; auto. intros m. destruct m; reflexivity.
  Qed.
  Lemma comments_came body : kinds section_child body -> kinds section_child (store_comments l body).
  Proof.
    unfold kinds, store_comments. rewrite !Forall_forall. intros H m I. apply in_map_iff in I. destruct I as (n & <- & I). destruct (H _ I) as [K C].
    destruct n; try (split; [exact K|exact C]).
    - split; [reflexivity|]. open_node C. destruct (came_map para_child (store_top_child l) ch) as [K1 K2]; auto; [intros; now apply top_child_came|exact top_child_kind|].
      apply came_over. cbn [local_ok as_read children]. auto.
    - split; [reflexivity|]. now apply block_came.
  Qed.
End Store.
Lemma threaded_kinds ext l : Forall (fun c : comment => kinds is_para (snd c)) l -> Forall (fun c : comment => kinds is_para (snd c)) (threaded ext l).
Proof.
  intros H. unfold threaded, thread_comments. destruct l as [|c l]; [constructor|]. destruct ext; [exact H|].
  rewrite Forall_forall in *. intros x I. apply in_map_iff in I. destruct I as (y & <- & I). exact (H _ I).
Qed.

(** ** Parts of the archive *)
Lemma gives_on_text A (P : A -> Prop) m t : gives P m -> gives P (on_text m t).
Proof. intros H s a s'. unfold on_text. destruct (m _) eqn:M; try easy. intros [= <- _]. exact (H _ _ _ M). Qed.
Lemma gives_named A (P : A -> Prop) a rels ty m x : gives P m -> P x -> gives P (named_part_if_there a rels ty m x).
Proof.
  intros H Hx. unfold named_part_if_there. destruct (first_path rels ty); [|now apply gives_ret].
  destruct (read_zip a s); [now apply gives_on_text|now apply gives_ret].
Qed.
Definition good_parts (l : list (string * part_read)) : Prop := Forall (fun p => kinds part_child (fst (snd p))) l.
Lemma parts_give a l : gives good_parts (read_parts a l).
Proof.
  induction l as [|[[rid path] mode] l IH]; cbn [read_parts]; [apply gives_ret; constructor|].
  apply gives_bind with (Q := maybe (kinds part_child)).
  - apply gives_attempt. eapply gives_bind; [apply gives_any|]. intros d _. apply gives_on_text, header_gives.
  - intros [ch|] Hch; [|exact IH]. eapply gives_bind; [apply gives_any|]. intros rels _. eapply gives_bind; [exact IH|]. intros more Hm.
    apply gives_ret. constructor; [exact Hch|exact Hm].
Qed.

(** ** Headers and footers *)
(** The package after the headers and footers of the slots [xs] were looked for. *)
Definition side_of (h : bool) (n : node) : bool := match shape n with Some (x, _) => eqb (is_head x) h | None => false end.
Record assigned (xs : list slot) (body : list node) (k : pkg) : Prop := {
  as_body : d_body (k_doc k) = body;
  as_ranked : ranked (d_parts (k_doc k));
  as_came : Forall came_from_reading (d_parts (k_doc k));
  as_comments : d_comments (k_doc k) = [];
  as_notes : d_footnotes (k_doc k) = [];
  as_refs : forall x rid nb ch, In (NPart x rid nb ch) (d_parts (k_doc k)) -> In x xs /\ ref_of (d_sect (k_doc k)) x = Some {| pr_type := type_of x; pr_id := rid |};
  as_counts : forall h, side_count h (k_doc_rels k) = N.of_nat (length (filter (side_of h) (d_parts (k_doc k))));
  as_rels : k_doc_rels k = {| r_comments := r_comments doc_rels_default; r_numberings := r_numberings doc_rels_default; r_footnotes := r_footnotes doc_rels_default;
     r_images := r_images doc_rels_default; r_links := r_links doc_rels_default; r_custom := r_custom doc_rels_default;
     r_headers := r_headers (k_doc_rels k); r_footers := r_footers (k_doc_rels k) |};
  as_rest : k_rels k = k_rels pkg_new /\ k_taskpanes k = k_taskpanes pkg_new /\ k_web k = k_web pkg_new /\ k_custom k = k_custom pkg_new }.
Lemma put_in m n l : In m (put_part n l) -> m = n \/ In m l.
Proof.
  induction l as [|z l IH]; cbn [put_part]; [intros [->|[]]; now left|]. destruct (N.compare _ _); cbn [In]; intros H; [| |destruct H as [->|H]; [auto|destruct (IH H); auto]]; intuition.
Qed.
Lemma put_filter p n l : Forall (fun m => part_rank m <> part_rank n) l -> length (filter p (put_part n l)) = (length (filter p l) + if p n then 1 else 0)%nat.
Proof.
  induction 1 as [|z l Z F IH]; cbn [put_part filter]; [destruct (p n); reflexivity|].
  destruct (N.compare_spec (part_rank n) (part_rank z)) as [Q|L|G]; [congruence| |]; cbn [filter].
  - destruct (p n), (p z); cbn [length]; lia.
  - destruct (p z); cbn [length]; rewrite IH; lia.
Qed.
Lemma part_by_id_kinds rid parts ch rels : good_parts parts -> part_by_id rid parts = Some (ch, rels) -> kinds part_child ch.
Proof.
  intros G H. apply last_such_in in H. destruct H as (p & I & H). destruct (fst p =s rid); [|discriminate H]. injection H as H.
  unfold good_parts in G. rewrite Forall_forall in G. specialize (G _ I). destruct p as [q [c r]]. cbn in *. now injection H as -> _.
Qed.
Lemma title_ref b p x : ref_of (with_title_pg b p) x = ref_of p x.
Proof. destruct x; reflexivity. Qed.
Lemma assign_assigned xs body x parts k media : good_parts parts -> ~ In x xs -> assigned xs body k -> assigned (x :: xs) body (fst (assign x parts (k, media))).
Proof.
  intros G N [H1 H2 H3 H4 H5 H6 H7 H8 H9]. unfold assign.
  assert (W : assigned (x :: xs) body k).
  { constructor; auto. intros y rid nb ch I. destruct (H6 _ _ _ _ I). split; [now right|assumption]. }
  destruct (slot_ref x (d_sect (k_doc k))) as [r|]; [|exact W]. destruct (part_by_id (pr_id r) parts) as [[ch rels]|] eqn:Hp; [|exact W].
  apply (part_by_id_kinds _ _ _ _ G) in Hp. clear W. cbn [fst].
  constructor; cbn [set_types set_doc k_doc k_doc_rels d_body d_sect d_parts d_comments d_footnotes k_rels k_taskpanes k_web k_custom]; auto.
  - apply (put_ranked x (pr_id r) (part_flag ch, ch)). exact H2.
  - apply put_forall; [|exact H3]. destruct (over (NPart x (pr_id r) (part_flag ch) ch) is_part part_child ch eq_refl Hp eq_refl eq_refl eq_refl) as [_ C]. exact C.
  - intros y rid nb c I. rewrite title_ref, ref_of_set. apply put_in in I. destruct I as [Q|I].
    + injection Q as -> -> _ _. rewrite (proj2 (slot_eqb_spec x x) eq_refl). split; [now left|reflexivity].
    + destruct (H6 _ _ _ _ I) as [J R]. split; [now right|]. destruct (slot_eqb x y) eqn:Q; [|exact R]. apply slot_eqb_spec in Q. now subst y.
  - intros h. rewrite put_filter.
    + rewrite Nat2N.inj_add, <- (H7 h). destruct x, h; cbn; lia.
    + apply Forall_forall. intros m I. destruct H2 as [_ P]. rewrite Forall_forall in P. specialize (P _ I). destruct m; try discriminate P.
      destruct (H6 _ _ _ _ I) as [J _]. cbn [part_rank]. intros Q. apply rank_inj in Q. now subst.
  - rewrite H8. reflexivity.
Qed.

(** ** The archive *)
Record as_opened (k : pkg) : Prop := {
  ao_body : kinds section_child (d_body (k_doc k));
  ao_ranked : ranked (d_parts (k_doc k));
  ao_came : Forall came_from_reading (d_parts (k_doc k));
  ao_comments : Forall (fun c => kinds is_para (snd c)) (d_comments (k_doc k));
  ao_notes : d_footnotes (k_doc k) = [];
  ao_refs : forall x rid nb ch, In (NPart x rid nb ch) (d_parts (k_doc k)) -> ref_of (d_sect (k_doc k)) x = Some {| pr_type := type_of x; pr_id := rid |};
  ao_counts : forall h, side_count h (k_doc_rels k) = N.of_nat (length (filter (side_of h) (d_parts (k_doc k))));
  ao_rels : k_doc_rels k = {| r_comments := r_comments doc_rels_default; r_numberings := r_numberings doc_rels_default; r_footnotes := r_footnotes doc_rels_default;
     r_images := r_images doc_rels_default; r_links := r_links doc_rels_default; r_custom := r_custom doc_rels_default;
     r_headers := r_headers (k_doc_rels k); r_footers := r_footers (k_doc_rels k) |};
  ao_rest : k_rels k = k_rels pkg_new /\ k_taskpanes k = k_taskpanes pkg_new /\ k_web k = k_web pkg_new /\ k_custom k = k_custom pkg_new }.
Lemma opening_gives png preview a : gives (fun op => as_opened (op_pkg op) /\ o_core (op_rest op) = core_new) (open_docx png preview a).
Proof.
  unfold open_docx. do 4 (eapply gives_bind; [apply gives_any|]; intros ? _). cbv zeta. do 2 (eapply gives_bind; [apply gives_any|]; intros ? _).
  eapply gives_bind; [apply parts_give|]. intros hs Hh. eapply gives_bind; [apply parts_give|]. intros fs Hf.
  do 2 (eapply gives_bind; [apply gives_any|]; intros ? _).
  apply gives_bind with (Q := Forall (fun c => kinds is_para (snd c))).
  { eapply gives_bind; [apply gives_named; [apply comments_give|constructor]|]. intros c Hc. apply gives_ret. now apply threaded_kinds. }
  intros comments Hc. eapply gives_bind; [apply gives_any|]. intros ? _.
  eapply gives_bind; [apply gives_on_text, document_gives|]. intros [body sect] Hb. cbn [fst snd] in *.
  set (k0 := set_doc pkg_new _ _).
  assert (A0 : assigned [] body k0).
  { constructor; try reflexivity; try (constructor; fail); auto.
    - repeat constructor.
    - intros x rid nb ch [].
    - intros []; reflexivity. }
  destruct (assign FEven _ _) as [k media] eqn:K.
  assert (A6 : assigned (rev all_slots) body k).
  { change k with (fst (k, media)). rewrite <- K. cbn [all_slots rev app].
    repeat match goal with |- assigned _ _ (fst (assign ?x ?p ?s)) => rewrite (surjective_pairing s); apply assign_assigned; [assumption|cbn; intuition discriminate|] end.
    exact A0. }
  clear K A0. do 4 (eapply gives_bind; [apply gives_any|]; intros ? _). apply gives_ret. cbn [op_pkg op_rest o_core]. split; [|reflexivity].
  destruct A6 as [H1 H2 H3 H4 H5 H6 H7 H8 H9].
  destruct comments as [|c l].
  - constructor; auto; [now rewrite H1|rewrite H4; constructor|]. intros x rid nb ch I. apply (H6 _ _ _ _ I).
  - constructor; cbn [set_doc k_doc k_doc_rels d_body d_sect d_parts d_comments d_footnotes k_rels k_taskpanes k_web k_custom]; auto.
    + rewrite H1. apply comments_came; assumption.
    + intros x rid nb ch I. apply (H6 _ _ _ _ I).
Qed.

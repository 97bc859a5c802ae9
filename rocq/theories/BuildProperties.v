(** Theorems about what is written for the document tree (C21, C31, C46, C47, C48). *)
From Coq Require Import NArith List Bool Permutation.
From Verif Require Import Str StrFacts TypesModel Props Ast IdsModel ParaIdModel BuildModel BuildSpec BuildPartProofs VocabSpec CellProofs.
Import ListNotations.

(** ** A document to try the theorems on *)
Definition mk (id : string) (ch : list node) : node := NPara id ppr_empty false ch.
Definition txt (s : string) : node := NRun rpr_empty [NText s].
Definition me : mark := {| m_author := "me"; m_date := "now" |}.
Definition tbl (cells : list node) : node := NTable tblpr_default [] false [NRow trpr_empty false cells].
Definition body0 : list node :=
  [ mk "0000000A" [NIns me [NRun rpr_empty [NText "x"; NTab]]; NDel me [txt "y"]];
    tbl [NCell tcpr_empty false []; NCell tcpr_empty false [tbl [NCell tcpr_empty false [mk "0000000B" []]]];
         NCell tcpr_empty false [mk "0000000C" []; NSdt sdtpr_empty false [mk "0000000D" []]]] ].
Definition start : ids := {| id_para := 1; id_hist := 0; id_change := 0 |}.
Ltac wf := unfold well_formed; cbn; repeat (apply Forall_cons; [reflexivity|]); apply Forall_nil.
Example body0_wf : Forall well_formed body0.
Proof. repeat (apply Forall_cons; [wf|]). apply Forall_nil. Qed.

(** ** C46: building a part fails exactly when it contains something that cannot be
    written or an id counter runs out; and it takes exactly the ids it needs. *)
Theorem document_builds_iff : forall body p s,
  (exists x s', b_document body p s = Some (x, s')) <->
  (forall n, In n (flat_map written body) -> unwritable n = false) /\ enough s (nodes_spend body).
Proof. intros body p s. rewrite <- writable_iff. apply costs_success, costs_document. Qed.
Print Assumptions document_builds_iff.
Theorem document_takes : forall body p s x s', b_document body p s = Some (x, s') -> s' = after s (nodes_spend body).
Proof. intros body p s x s'. apply (costs_after _ _ _ _ _ _ (costs_document body p)). Qed.
Print Assumptions document_takes.
Theorem part_builds_iff : forall sl rid nb ch s,
  (exists x s', b_part (NPart sl rid nb ch) s = Some (x, s')) <->
  (forall n, In n (flat_map written ch) -> unwritable n = false) /\ enough s (nodes_spend ch).
Proof. intros sl rid nb ch s. rewrite <- writable_iff. apply costs_success, costs_part. Qed.
Print Assumptions part_builds_iff.
Theorem comments_build_iff : forall l s,
  (exists x s', b_comments l s = Some (x, s')) <->
  (forall n, In n (flat_map written (flat_map snd l)) -> unwritable n = false) /\ enough s (nodes_spend (flat_map snd l)).
Proof. intros l s. rewrite <- writable_iff. apply costs_success, costs_comments. Qed.
Print Assumptions comments_build_iff.
Theorem footnotes_build_iff : forall l s,
  (exists x s', b_footnotes l s = Some (x, s')) <->
  (forall n, In n (flat_map written (flat_map snd l)) -> unwritable n = false) /\ enough s (footnotes_spend l).
Proof. intros l s. rewrite <- writable_iff. apply costs_success, costs_footnotes. Qed.
Print Assumptions footnotes_build_iff.
Example body0_spend : nodes_spend body0 = {| k_para := 2; k_hist := 2; k_change := 0 |}.
Proof. reflexivity. Qed.
Example body0_builds : exists x s', b_document body0 sectpr_default start = Some (x, s') /\ s' = {| id_para := 3; id_hist := 2; id_change := 0 |}.
Proof. eexists _, _. vm_compute. split; reflexivity. Qed.
(** A document that was read may contain such a node; it cannot be written again. *)
Theorem build_panics_refuted : exists n, well_formed n /\ forall p s, b_document [n] p s = None.
Proof. exists (mk "1" [NRun rpr_empty [NShape]]). split; [wf | reflexivity]. Qed.
Print Assumptions build_panics_refuted.

(** ** C21: the paragraph ids in the written document are those that were stored and
    those that were made while writing, except for one id for each table of contents
    that drops it. *)
Theorem document_paragraph_ids : forall body p s x s', b_document body p s = Some (x, s') ->
  exists lost, List.length lost = List.length (filter drops_id (flat_map written body)) /\
    Permutation (ids_in [x] ++ lost) (stored_ids body ++ next_ids (id_para s) (k_para (nodes_spend body))).
Proof. exact document_ids_perm. Qed.
Print Assumptions document_paragraph_ids.
(** So they are distinct if the stored ones are and none of them is the id of a
    number the counter is about to give ... *)
Theorem document_ids_distinct : forall body p s x s', b_document body p s = Some (x, s') ->
  NoDup (stored_ids body) ->
  (forall n, (id_para s <= n < id_para s + k_para (nodes_spend body))%N -> ~ In (pad0 8 (show_hex n)) (stored_ids body)) ->
  NoDup (ids_in [x]).
Proof. exact document_ids_distinct_lemma. Qed.
Print Assumptions document_ids_distinct.
(** ... and, where no id is dropped, only then. *)
Theorem document_ids_distinct_iff : forall body p s x s', b_document body p s = Some (x, s') ->
  (forall n, In n (flat_map written body) -> drops_id n = false) ->
  (NoDup (ids_in [x]) <-> NoDup (stored_ids body) /\
    forall n, (id_para s <= n < id_para s + k_para (nodes_spend body))%N -> ~ In (pad0 8 (show_hex n)) (stored_ids body)).
Proof. exact document_ids_distinct_iff_lemma. Qed.
Print Assumptions document_ids_distinct_iff.
Example body0_ids : forall x s', b_document body0 sectpr_default start = Some (x, s') ->
  ids_in [x] = ["0000000A"; "00000001"; "0000000B"; "00000002"; "0000000C"; "0000000D"].
Proof. intros x s' H. vm_compute in H. injection H as <- _. reflexivity. Qed.
(** The claim is false of the library: the counter starts again at 1 when the package
    is prepared, and the first paragraph a program makes has the id 00000001. *)
Theorem new_paragraph_ids_refuted : exists d d' c x s',
  doc_well_formed d /\ refresh_duplicate_ids d (reset_id 0) = Some (d', c) /\
  b_document (d_body d') (d_sect d') {| id_para := c; id_hist := 0; id_change := 0 |} = Some (x, s') /\
  ~ NoDup (ids_in [x]).
Proof.
  pose (d := {| d_body := [mk "00000001" [txt "x"]; tbl [NCell tcpr_empty false []]]; d_sect := sectpr_default; d_parts := [];
                d_comments := []; d_footnotes := [] |}).
  exists d, d, 1%N. eexists _, _. split; [|split; [reflexivity | split; [vm_compute; reflexivity|]]].
  - unfold doc_well_formed. repeat split; try constructor; repeat (apply Forall_cons; [wf|]); try apply Forall_nil; wf.
  - intros H. vm_compute in H. inversion H as [|? ? Hn _]. apply Hn. now left.
Qed.
Print Assumptions new_paragraph_ids_refuted.

(** ** C31: every written cell consists of its properties and at least one block. *)
Theorem cells_have_blocks : forall body p s x s', Forall well_formed body -> b_document body p s = Some (x, s') ->
  forall y, In y (elements x) -> xname y = "w:tc" -> has_blocks y.
Proof. exact document_cells. Qed.
Print Assumptions cells_have_blocks.
(** It ends in a paragraph, possibly inside a structured tag, exactly when the
    content of the cell is empty, a single table, or ends in a paragraph. *)
Theorem cell_ends_in_paragraph_iff : forall p nb ch s a s', well_formed (NCell p nb ch) -> b_node (NCell p nb ch) s = Some (a, s') ->
  exists rest, a = [E "w:tc" [] (x_tcpr p :: rest)] /\ last_is closes rest = cell_closes ch.
Proof. exact cell_built. Qed.
Print Assumptions cell_ends_in_paragraph_iff.
Theorem cells_end_in_paragraph : forall body p s x s', Forall well_formed body ->
  (forall q nb ch, In (NCell q nb ch) (flat_map all_nodes body) -> cell_closes ch = true) ->
  b_document body p s = Some (x, s') ->
  forall y, In y (elements x) -> xname y = "w:tc" -> last_is closes (xchildren y) = true.
Proof. exact document_cells_close. Qed.
Print Assumptions cells_end_in_paragraph.
Example body0_cells : forall q nb ch, In (NCell q nb ch) (flat_map all_nodes body0) -> cell_closes ch = true.
Proof. intros q nb ch H. cbn in H. repeat (destruct H as [H|H]; [inversion H; subst; reflexivity|]). destruct H. Qed.
(** In general it is false: a paragraph followed by a table. *)
Theorem cell_ending_refuted : exists n s a s', well_formed n /\ b_node n s = Some (a, s') /\
  exists y, In y (flat_map elements a) /\ xname y = "w:tc" /\ last_is closes (xchildren y) = false.
Proof.
  exists (NCell tcpr_empty false [mk "00000001" []; tbl [NCell tcpr_empty false [mk "00000002" []]]]), start. eexists _, _.
  split; [wf|]. split; [vm_compute; reflexivity|]. eexists. split; [left; reflexivity|]. split; reflexivity.
Qed.
Print Assumptions cell_ending_refuted.

(** ** C47: insertions, deletions and moves are numbered one after the other in the
    order of the document, and so are the recorded former paragraph properties. *)
Theorem changes_numbered_in_order : forall body p s x s', b_document body p s = Some (x, s') ->
  change_ids [x] = numbers (id_hist s) (k_hist (nodes_spend body)) /\
  former_ids [x] = numbers (id_change s) (k_change (nodes_spend body)).
Proof. exact document_marks. Qed.
Print Assumptions changes_numbered_in_order.
Theorem change_ids_distinct : forall body p s x s', b_document body p s = Some (x, s') ->
  NoDup (change_ids [x]) /\ NoDup (former_ids [x]).
Proof.
  intros body p s x s' H. destruct (document_marks _ _ _ _ _ H) as [-> ->]. split; apply numbers_NoDup.
Qed.
Print Assumptions change_ids_distinct.
Example body0_changes : forall x s', b_document body0 sectpr_default start = Some (x, s') -> change_ids [x] = ["0"; "1"].
Proof. intros x s' H. vm_compute in H. injection H as <- _. reflexivity. Qed.
(** The two kinds share their numbers: an insertion and a recorded property both get 0. *)
Theorem change_ids_across_kinds_refuted : exists n x s', well_formed n /\
  b_document [n] sectpr_default start = Some (x, s') /\ exists i, In i (change_ids [x]) /\ In i (former_ids [x]).
Proof.
  exists (NPara "1" (PPr ppr_base_empty (Some (PChange "me" "now" ppr_empty))) false [NIns me [txt "x"]]). eexists _, _.
  split; [wf|]. split; [vm_compute; reflexivity|]. exists "0". split; left; reflexivity.
Qed.
Print Assumptions change_ids_across_kinds_refuted.

(** ** C48: only elements and attributes of the listed vocabulary are written. *)
Theorem document_vocabulary : forall body p s x s', Forall well_formed body -> b_document body p s = Some (x, s') ->
  exists c, x = E "w:document" document_attrs [E "w:body" [] c] /\ Forall known (flat_map elements c).
Proof. exact document_known. Qed.
Print Assumptions document_vocabulary.
Theorem part_vocabulary : forall n s x s', well_formed n -> b_part n s = Some (x, s') ->
  exists root c, x = E root part_attrs c /\ Forall known (flat_map elements c).
Proof. exact part_known. Qed.
Print Assumptions part_vocabulary.
Example vocabulary_size : List.length vocabulary = 160%nat.
Proof. vm_compute. reflexivity. Qed.

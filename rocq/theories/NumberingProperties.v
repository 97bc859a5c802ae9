(** C30: the numbering part is declared exactly for documents that use it. *)
From Coq Require Import NArith List Bool.
From Verif Require Import Str Props Ast TypesModel TreeModel DepsModel TocModel PackModel PackSpec PrepareModel NumberingModel NumberingSpec NumberingProofs PackProperties.
Import ListNotations.

(** For documents put together with the methods of the library, where numbered
    paragraphs are not handed to one of the methods that ignore them, the numbering
    relationship is written if and only if a paragraph refers to a numbering. *)
Theorem numbering_declared : forall crc styles ext n l k' c ext',
  typed_calls l -> Forall (built_call false) l ->
  prepare_package crc styles ext n (calls l) = Some (k', c, ext') ->
  (In numbering_rel (written_rels (k_doc_rels k')) <-> Exists (fun a => uses_numbering (handed_over a)) l).
Proof. exact numbering_declared_proof. Qed.
Print Assumptions numbering_declared.

(** A numbered paragraph in a table in a table, one in a section's header. *)
Definition numbered : node := para_numbering 1 0 para_new.
Definition in_table (n : node) : node := table_new tblpr_default [row_new [cell_add n cell_new]].
Definition nested_numbering : list api :=
  [ABlock para_new; ABlock (in_table (in_table numbered));
   ASection (section_part HFirst (part_add numbered part_new) (section_add para_new section_new))].
Lemma para_built any : built any para_new.
Proof. apply BPara. Qed.
Lemma numbered_built any : built any numbered.
Proof. apply BNumbering, para_built. Qed.
Lemma in_table_built any n : built any n -> built any (in_table n).
Proof.
  intros H. apply BTable. intros r [<-|[]]. apply BRow. intros c [<-|[]]. apply BCellAdd; [apply BCell|exact H].
Qed.
Example numbering_case : typed_calls nested_numbering /\ Forall (built_call false) nested_numbering /\
  Exists (fun a => uses_numbering (handed_over a)) nested_numbering /\
  once_prepared nested_numbering (fun k c => In numbering_rel (written_rels (k_doc_rels k))).
Proof.
  split; [typed|]. split; [|split].
  - repeat apply Forall_cons; try apply Forall_nil; cbn [built_call].
    + apply para_built.
    + apply in_table_built, in_table_built, numbered_built.
    + apply BSectionPart; [apply BSectionAdd; [apply BSection|apply para_built]|apply BPartAdd; [apply BPart|apply numbered_built]].
  - apply Exists_cons_tl, Exists_cons_hd. unfold uses_numbering. cbn. repeat (apply Exists_cons_hd || apply Exists_cons_tl). discriminate.
  - prepared_case. vm_compute. tauto.
Qed.
Example no_numbering_case : Forall (built_call false) [ABlock (in_table para_new)] /\
  once_prepared [ABlock (in_table para_new)] (fun k c => ~ In numbering_rel (written_rels (k_doc_rels k))).
Proof.
  split; [constructor; [apply in_table_built, para_built|constructor]|]. prepared_case. vm_compute. intuition discriminate.
Qed.

(** The methods that ignore numbered paragraphs. *)
Definition undeclared (n : node) : Prop :=
  typed_calls [ABlock n] /\ built true n /\ uses_numbering [n] /\
  once_prepared [ABlock n] (fun k c => ~ In numbering_rel (written_rels (k_doc_rels k))).
Ltac undeclared := split; [typed|]; split; [|split; [unfold uses_numbering; cbn; apply Exists_exists; exists numbered; split; [cbn; tauto|discriminate]
                                             |prepared_case; vm_compute; intuition discriminate]].
Theorem row_added_later_refuted : undeclared (table_add_row (row_new [cell_add numbered cell_new]) (table_new tblpr_default [])).
Proof.
  undeclared. apply BTableRow; [apply BTable; intros ? []| |now left]. apply BRow. intros c [<-|[]]. apply BCellAdd; [apply BCell|apply numbered_built].
Qed.
Print Assumptions row_added_later_refuted.
Definition controlled (n : node) : node := sdt_add n (NSdt sdtpr_empty false []).
Lemma controlled_built any n : built any n -> built any (controlled n).
Proof. intros H. apply BSdtAdd; [apply BSdt|exact H]. Qed.
Definition one_cell (c : node) : node := table_new tblpr_default [row_new [c]].
Lemma one_cell_built any c : built any c -> built any (one_cell c).
Proof. intros H. apply BTable. intros r [<-|[]]. apply BRow. intros x [<-|[]]. exact H. Qed.
Theorem control_in_cell_refuted : undeclared (one_cell (cell_push (controlled numbered) cell_new)).
Proof. undeclared. apply one_cell_built, BCellPush; [apply BCell|apply controlled_built, numbered_built|now left]. Qed.
Print Assumptions control_in_cell_refuted.
Theorem control_in_paragraph_refuted : undeclared (para_push (controlled numbered) para_new).
Proof. undeclared. apply BParaPush; [apply BPara|apply controlled_built, numbered_built|now left]. Qed.
Print Assumptions control_in_paragraph_refuted.
Theorem control_in_link_refuted : undeclared (para_push (link_push (controlled numbered) (NLink (Anchor "a") None [])) para_new).
Proof. undeclared. apply BParaPush; [apply BPara| |now left]. apply BLinkPush; [apply BLink|apply controlled_built, numbered_built|now left]. Qed.
Print Assumptions control_in_link_refuted.
Definition contents_data : toc_data :=
  {| td_instr := {| it_heading := Some (1, 3)%N; it_tc_level := None; it_omit_page := None; it_bookmark := None; it_styles := [];
       it_entry_sep := None; it_seq_sep := None; it_caption := None; it_caption_numbers := None;
       it_seq_prefix := None; it_tc_id := None; it_hyperlink := false; it_preserve_tab := false;
       it_preserve_nl := false; it_line_level := false; it_hide_web := false |};
     td_items := []; td_auto := false; td_dirty := false; td_without_sdt := false;
     td_alias := None; td_page_placeholder := None; td_delete := None; td_ppr := None |}.
Theorem before_contents_refuted : undeclared (toc_add_before numbered (NToc contents_data [] [])).
Proof. undeclared. apply BTocBefore; [apply BToc|apply numbered_built|now left]. Qed.
Print Assumptions before_contents_refuted.
Theorem after_contents_refuted : undeclared (toc_add_after numbered (NToc contents_data [] [])).
Proof. undeclared. apply BTocAfter; [apply BToc|apply numbered_built|now left]. Qed.
Print Assumptions after_contents_refuted.
(** Replacing the whole document looks at the paragraphs of the old one. *)
Theorem document_replaced_refuted :
  once_prepared [ADocument {| d_body := [numbered]; d_sect := sectpr_default; d_parts := []; d_comments := []; d_footnotes := [] |}]
    (fun k c => Exists refers_to_numbering (flat_map paras_of (d_body (k_doc k))) /\ ~ In numbering_rel (written_rels (k_doc_rels k))).
Proof.
  prepared_case. split; [|vm_compute; intuition discriminate]. apply Exists_exists. eexists. split; [cbn; now left|discriminate].
Qed.
Print Assumptions document_replaced_refuted.

(** Theorems about paragraph ids (C18, C19, C20). *)
From Coq Require Import NArith ZArith List Bool.
From Verif Require Import Str IdsModel Props Ast ParaIdModel ParaIdSpec ParaIdProofs.
Import ListNotations.

(** C18: after preparation all paragraphs outside footnote references and text
    boxes have distinct non-empty ids. *)
Theorem prepared_ids_unique : forall d d', doc_well_formed d -> prepare_ids d = Some d' ->
  ids_unique (open_para_ids d').
Proof. intros d d' Hw H. exact (proj1 (proj2 (proj1 (prepare_spec d d' Hw H)))). Qed.
Print Assumptions prepared_ids_unique.

(** C18: if nothing is inside footnote references or text boxes then that is all
    paragraphs of the document. *)
Theorem prepared_ids_unique_everywhere : forall d d', doc_well_formed d -> nothing_hidden d ->
  prepare_ids d = Some d' -> ids_unique (all_para_ids d').
Proof. intros d d' Hw Hh H. exact (proj1 (proj2 (prepare_all d d' Hw Hh H))). Qed.
Print Assumptions prepared_ids_unique_everywhere.

(** A document with nesting: ids "a" repeated in the body, in a table cell, inside
    a content control, in the text of a comment, in a header, and an empty one. *)
Definition para (id : string) (ch : list node) : node := NPara id ppr_empty false ch.
Definition sample : docx :=
  {| d_body := [ para "a" [NRun rpr_empty [NText "x"]];
                 NTable tblpr_default [] false [NRow trpr_empty false [NCell tcpr_empty false [para "a" []; para "b" []]]];
                 NSdt sdtpr_empty false [para "" [NIns {| m_author := "u"; m_date := "d" |} [NRun rpr_empty []]]];
                 para "00000001" [NCommentStart {| cd_id := 1; cd_author := ""; cd_date := ""; cd_parent := None |} [para "b" []]] ];
     d_sect := sectpr_default;
     d_parts := [NPart HDefault "rIdHeader1" false [para "c" []]];
     d_comments := []; d_footnotes := [] |}.
Example sample_ok : doc_well_formed sample /\ nothing_hidden sample.
Proof.
  unfold doc_well_formed, nothing_hidden, well_formed. cbn.
  repeat split; repeat (apply Forall_cons; [try reflexivity; try exact I; repeat (apply Forall_cons; [reflexivity|]); apply Forall_nil|]); try apply Forall_nil.
Qed.
Example sample_prepared :
  option_map all_para_ids (prepare_ids sample) =
  Some ["a"; "00000006"; "b"; "00000002"; "00000001"; "00000003"; "c"].
Proof. vm_compute. reflexivity. Qed.

(** C18 is false with footnotes: the paragraphs of a footnote reference are not
    visited, so the id they share with a body paragraph stays. *)
Theorem prepared_ids_footnote_refuted : exists d d', doc_well_formed d /\ prepare_ids d = Some d' /\
  ~ ids_unique (all_para_ids d').
Proof.
  pose (d := {| d_body := [para "a" [NRun rpr_empty [NFootRef 1 "FootnoteReference" [para "a" []]]]];
                d_sect := sectpr_default; d_parts := []; d_comments := []; d_footnotes := [] |}).
  exists d, d. split; [|split; [vm_compute; reflexivity|]].
  - unfold doc_well_formed, well_formed. cbn.
    repeat split; repeat (apply Forall_cons; [try reflexivity; repeat (apply Forall_cons; [reflexivity|]); apply Forall_nil|]); try apply Forall_nil.
  - intros [H _]. vm_compute in H. inversion H as [|? ? Hn _]. apply Hn. now left.
Qed.
Print Assumptions prepared_ids_footnote_refuted.

(** C19: an already unique document is left alone. *)
Theorem unique_ids_kept : forall d, doc_well_formed d -> ids_unique (open_para_ids d) -> prepare_ids d = Some d.
Proof. exact prepare_keeps. Qed.
Print Assumptions unique_ids_kept.

(** C19: in general the first carrier of an id keeps it, all others get unused
    ids, and nothing but ids changes. *)
Theorem prepared_ids_renewed : forall d d', doc_well_formed d -> prepare_ids d = Some d' ->
  renews (open_para_ids d) (open_para_ids d') /\ wipe_docx d' = wipe_docx d.
Proof. exact prepare_spec. Qed.
Print Assumptions prepared_ids_renewed.

(** C20: the search ends with an unused id whatever is taken; the only failure
    is the exhausted counter. *)
Theorem free_id_search : forall (taken : list string) (c : N), NoDup taken ->
  (exists id, next_unique taken c = Some (id, (c + 1)%N) /\ ~ In id taken /\ id <> "") \/
  ((4294967296 <= c + 1)%N /\ next_unique taken c = None).
Proof. exact next_unique_total. Qed.
Print Assumptions free_id_search.

(** C20: so preparing a document succeeds exactly when fewer than 2^32 - 1 ids
    have to be given afresh. *)
Theorem preparation_succeeds : forall d, doc_well_formed d ->
  ((exists d', prepare_ids d = Some d') <-> (N.of_nat (to_renew (open_para_ids d)) < 4294967295)%N).
Proof. exact prepare_total. Qed.
Print Assumptions preparation_succeeds.
Example sample_to_renew : to_renew (open_para_ids sample) = 3.
Proof. vm_compute. reflexivity. Qed.

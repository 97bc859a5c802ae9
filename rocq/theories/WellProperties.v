(** Theorems about when a written part is XML (C49) and which calls keep it so (C50). *)
From Coq Require Import NArith ZArith List Bool.
From Verif Require Import Str StrFacts TypesModel Props Ast IdsModel EscapeModel EscapeSpec EscapeProofs InstrModel WriterModel XmlParser XmlSpec
  BuildModel BuildSpec BuildProperties WellSpec WellProofs WellPartProofs SetterModel SetterSpec.
From Verif Require XmlProperties ReadBase ReadModel ReadProperties.
Import ListNotations.

(** ** C49 *)
(** The document part is well-formed exactly when all stored strings are legal, and an
    XML reader can make sense of it exactly when they are readable. *)
Theorem document_well_formed_iff : forall body sp s x s', b_document body sp s = Some (x, s') ->
  (well_formed_xml x <-> Forall legal (in_document body sp)).
Proof. intros body sp s x s' H. exact (proj2 (document_well body sp s x s' H)). Qed.
Print Assumptions document_well_formed_iff.
Theorem document_readable_iff : forall body sp s x s', b_document body sp s = Some (x, s') ->
  ((exists evs, doc_reported (part_calls x) = Some evs) <-> Forall readable (in_document body sp)).
Proof. intros body sp s x s' H. exact (proj1 (document_well body sp s x s' H)). Qed.
Print Assumptions document_readable_iff.
Theorem part_well_formed_iff : forall sl rid nb ch s x s', b_part (NPart sl rid nb ch) s = Some (x, s') ->
  (well_formed_xml x <-> Forall legal (in_body ch)) /\
  ((exists evs, doc_reported (part_calls x) = Some evs) <-> Forall readable (in_body ch)).
Proof. intros sl rid nb ch s x s' H. apply and_comm. exact (part_well sl rid nb ch s x s' H). Qed.
Print Assumptions part_well_formed_iff.
Theorem comments_well_formed_iff : forall l s x s', b_comments l s = Some (x, s') ->
  (well_formed_xml x <-> Forall legal (in_comments l)) /\
  ((exists evs, doc_reported (part_calls x) = Some evs) <-> Forall readable (in_comments l)).
Proof. intros l s x s' H. apply and_comm. exact (comments_well l s x s' H). Qed.
Print Assumptions comments_well_formed_iff.
Theorem footnotes_well_formed_iff : forall l s x s', b_footnotes l s = Some (x, s') ->
  (well_formed_xml x <-> Forall legal (in_footnotes l)) /\
  ((exists evs, doc_reported (part_calls x) = Some evs) <-> Forall readable (in_footnotes l)).
Proof. intros l s x s' H. apply and_comm. exact (footnotes_well l s x s' H). Qed.
Print Assumptions footnotes_well_formed_iff.
(** Strings that went through [escape] are legal. *)
Theorem escaped_is_legal : forall s, legal (Value (escape s)) /\ legal (Content (escape s)).
Proof. intros s. split; [apply legal_escaped_value | apply legal_escaped]. Qed.
Print Assumptions escaped_is_legal.

Definition named (name : string) : list node := [mk "1" [NBookmarkStart 1 name; txt (escape "R&D"); NBookmarkEnd 1]].
Example named_builds : exists x s', b_document (named "here") sectpr_default start = Some (x, s').
Proof. eexists _, _. vm_compute. reflexivity. Qed.
Example named_legal : Forall legal (in_document (named "here") sectpr_default).
Proof. apply all_legal. vm_compute. reflexivity. Qed.
(** The claim that what the library builds is XML is false: the name of a bookmark is
    not escaped.  With an ampersand in it the part cannot be read ... *)
Theorem bookmark_name_breaks_document_refuted : exists name x s' w, b_document (named name) sectpr_default start = Some (x, s') /\
  ~ well_formed_xml x /\ w_run w_init (part_calls x) = WOk w /\
  exists r', ReadModel.read_document (ReadProperties.from_text (WriterModel.out w)) = ReadBase.Err r'.
Proof.
  assert (B : exists x s' w, b_document (named "R&D") sectpr_default start = Some (x, s') /\ w_run w_init (part_calls x) = WOk w /\
    exists r', ReadModel.read_document (ReadProperties.from_text (WriterModel.out w)) = ReadBase.Err r').
  { eexists _, _, _. split; [vm_compute; reflexivity|]. split; [vm_compute; reflexivity|]. eexists. vm_compute. reflexivity. }
  destruct B as (x & s' & w & Hb & Hw & Hr). exists "R&D"%string, x, s', w. split; [exact Hb|]. split; [|auto].
  rewrite (document_well_formed_iff _ _ _ _ _ Hb), <- all_legal. vm_compute. discriminate.
Qed.
Print Assumptions bookmark_name_breaks_document_refuted.
(** ... with a quotation mark in it, it may even say something else. *)
Theorem comment_author_changes_meaning_refuted : exists author x s' w r', author <> "me"%string /\
  b_comments [({| cd_id := 1; cd_author := author; cd_date := "d"; cd_parent := None |}, [])] start = Some (x, s') /\
  w_run w_init (part_calls x) = WOk w /\
  ReadModel.read_comments (ReadProperties.from_text (WriterModel.out w)) =
    ReadBase.Val [({| cd_id := 1; cd_author := "me"; cd_date := "d"; cd_parent := None |}, [])] r'.
Proof.
  exists ("me" +++ str1 ch_quot +++ " x=" +++ str1 ch_quot)%string. eexists _, _, _, _. split; [discriminate|].
  split; [vm_compute; reflexivity|]. split; [vm_compute; reflexivity|]. vm_compute. reflexivity.
Qed.
Print Assumptions comment_author_changes_meaning_refuted.

(** ** C50: these calls, and no others, take any string without harm. *)
Theorem safe_setters_iff : forall c, escapes c = true <-> forall s, legal (piece_of c s).
Proof.
  assert (V : forall s, legal (Value (escape_owned s))) by (intros s; rewrite escape_owned_escape; apply legal_escaped_value).
  assert (C : forall s, legal (Content (escape_owned s))) by (intros s; rewrite escape_owned_escape; apply legal_escaped).
  intros c. split.
  - intros H s. destruct c; try discriminate H; cbn [piece_of]; try apply V; try apply C.
    unfold print_tc, tc_new. cbn [tc_text tc_item tc_level tc_omit].
    repeat (apply legal_content_app; [first [apply C | apply legal_b_iff; reflexivity]|]). apply legal_b_iff. reflexivity.
  - intros H. destruct c; try reflexivity; exfalso; specialize (H "&"%string); apply legal_b_iff in H; vm_compute in H; discriminate H.
Qed.
Print Assumptions safe_setters_iff.
(** A text of any kind, put into a run and written, is read by an XML reader as the text
    without line ends; a bookmark name with an ampersand cannot be read. *)
Example setters_case : legal (piece_of Run_add_text ("<&" +++ s_nl)) /\ ~ legal (piece_of BookmarkStart_new "a&b").
Proof. rewrite <- !legal_b_iff. vm_compute. split; [reflexivity | discriminate]. Qed.

(** C25: writing a document straight into an archive ([Docx::pack]) and building the
    texts of its parts first ([Docx::build], [XMLDocx::pack]). *)
From Coq Require Import NArith List Bool Lia.
From Verif Require Import Str StrFacts Props Ast TypesModel IdsModel TreeModel DepsModel TocModel BuildModel BuildSpec BuildProofs BuildPartProofs StyleModel
  PackModel PackSpec PackProofs PrepareModel PackProperties RenderModel RenderSpec RenderProofs.
Import ListNotations.

(** ** Samples *)
Definition start_ids : ids := {| id_para := 1; id_hist := 100; id_change := 100 |}.
Definition rest_ : rest := {|
  o_core := core_new; o_custom := [("author", "someone")]; o_styles := {| ss_rpr := rpr_empty; ss_ppr := ppr_empty; ss_list := [] |};
  o_settings := settings_default; o_numberings := {| ns_abstracts := []; ns_nums := [] |}; o_ext := [];
  o_web := fun e => web_property "p" "v" (web_new e "ref" "1.0" "store" "OMEX") |}.
Definition row_ (cells : list (list node)) : node := NTable tblpr_default [] false [NRow trpr_empty false (map (NCell tcpr_empty false) cells)].
Definition tracked_ : node := para_ [NIns {| m_author := "a"; m_date := "d" |} [NRun rpr_empty [NText "new"]]].
(** A header with a tracked change, a document with an empty cell. *)
Definition mixed : list api := sample ++ [APart HDefault (false, [tracked_]); ABlock (row_ [[]; [text_ "y"]])].
(** A header and a document with an empty cell each. *)
Definition clash : list api := [APart HDefault (false, [row_ [[]]]); ABlock (row_ [[]])].
Lemma samples_typed : typed_calls mixed /\ typed_calls clash.
Proof. split; typed. Qed.

(** ** Both ways write, or neither: exactly if everything in the parts can be written and
    the counters can give the ids; they then leave the counters with the same values. *)
Definition can_write (k : pkg) (o : rest) (s : ids) : Prop :=
  (forall n, In n (flat_map written (content_of k)) -> unwritable n = false) /\ enough s (plus (main_spend k o) (side_spend k)).
Theorem streaming_writes_iff : forall k o c s, (exists r, pack_docx k o c s = Some r) <-> can_write k o s.
Proof. intros. unfold can_write. rewrite <- writable_iff. apply pack_writes. Qed.
Print Assumptions streaming_writes_iff.
Theorem buffering_writes_iff : forall k o c s, (exists r, build_docx k o c s = Some r) <-> can_write k o s.
Proof. intros. unfold can_write. rewrite <- writable_iff. apply build_writes. Qed.
Print Assumptions buffering_writes_iff.
Theorem counters_after_writing : forall k o c s e1 e2 s1 s2,
  pack_docx k o c s = Some (e1, s1) -> build_docx k o c s = Some (e2, s2) ->
  s1 = after s (plus (main_spend k o) (side_spend k)) /\ s2 = s1.
Proof.
  intros k o c s e1 e2 s1 s2 H1 H2. destruct (proj1 (pack_writes k o c s) (ex_intro _ _ H1)) as [W N].
  destruct (both_write k o c s W N) as (d1 & d2 & D1 & D2 & _). rewrite D1 in H1. rewrite D2 in H2. inversion H1. inversion H2. subst. now split.
Qed.
Print Assumptions counters_after_writing.

(** ** The same entries, in the same order, with the same content apart from ids: each
    id that differs was taken from a counter, in both cases at the same place of the
    same part. *)
Theorem streamed_same_but_ids : forall k o c s e1 e2 s1 s2,
  pack_docx k o c s = Some (e1, s1) -> build_docx k o c s = Some (e2, s2) ->
  map entry_name e1 = map entry_name e2 /\ Forall2 (same_entry s) e1 e2.
Proof.
  intros k o c s e1 e2 s1 s2 H1 H2. destruct (proj1 (pack_writes k o c s) (ex_intro _ _ H1)) as [W N].
  destruct (both_write k o c s W N) as (d1 & d2 & D1 & D2 & F & _). rewrite D1 in H1. rewrite D2 in H2. inversion H1. inversion H2. subst.
  split; [|exact F]. clear -F. induction F as [|x y l m H _ IH]; [reflexivity|]. cbn [map]. f_equal; [|exact IH].
  destruct H as [->|(n & t1 & t2 & _ & _ & _ & _ & _ & _ & -> & -> & _)]; reflexivity.
Qed.
Print Assumptions streamed_same_but_ids.
(** Equal, if no kind of id is taken both for headers or footers and for another part,
    nor both for the document and for its styles. *)
Theorem streamed_equal : forall k o c s,
  apart (main_spend k o) (side_spend k) -> apart (document_spend k) (styles_spend (o_styles o)) ->
  pack_docx k o c s = build_docx k o c s.
Proof.
  intros k o c s A B. destruct (pack_docx k o c s) as [[e1 s1]|] eqn:H1.
  - destruct (proj1 (pack_writes k o c s) (ex_intro _ _ H1)) as [W N].
    destruct (both_write k o c s W N) as (d1 & d2 & D1 & D2 & _ & Q). specialize (Q A B). congruence.
  - destruct (build_docx k o c s) as [[e2 s2]|] eqn:H2; [|reflexivity].
    assert (X := ex_intro (fun r => build_docx k o c s = Some r) _ H2). apply build_writes, (pack_writes k o c s) in X as [r X]. congruence.
Qed.
Print Assumptions streamed_equal.

(** Ids are taken for the header and for the document, of different kinds. *)
Example mixed_case : once_prepared mixed (fun k c =>
  main_spend k rest_ = {| k_para := 2; k_hist := 0; k_change := 0 |} /\ side_spend k = {| k_para := 0; k_hist := 1; k_change := 0 |} /\
  styles_spend (o_styles rest_) = nothing /\ can_write k rest_ start_ids /\
  pack_docx k rest_ c start_ids = build_docx k rest_ c start_ids).
Proof.
  assert (W : once_prepared mixed (fun k c => main_spend k rest_ = {| k_para := 2; k_hist := 0; k_change := 0 |} /\
    side_spend k = {| k_para := 0; k_hist := 1; k_change := 0 |} /\ styles_spend (o_styles rest_) = nothing /\
    match pack_docx k rest_ c start_ids with Some _ => true | None => false end = true)) by (prepared_case; vm_compute; repeat split).
  destruct W as (k & c & ext & H & A & B & C & D). exists k, c, ext. split; [exact H|]. split; [exact A|]. split; [exact B|]. split; [exact C|].
  split.
  - apply (streaming_writes_iff k rest_ c). destruct (pack_docx k rest_ c start_ids); [eauto | discriminate].
  - apply streamed_equal; [rewrite A, B | rewrite C]; unfold apart; cbn; auto.
Qed.
(** With an empty cell in a header and one in the document, the two texts of the
    document differ, and so do those of the header. *)
Definition file_at (name : string) (l : list entry) : list string :=
  flat_map (fun e => match e with File n t => if n =s name then [t] else [] | Dir _ => [] end) l.
Theorem streamed_equal_refuted : typed_calls clash /\ once_prepared clash (fun k c => exists e1 e2 s',
  pack_docx k rest_ c start_ids = Some (e1, s') /\ build_docx k rest_ c start_ids = Some (e2, s') /\
  file_at "word/document.xml" e1 <> file_at "word/document.xml" e2 /\ file_at "word/header1.xml" e1 <> file_at "word/header1.xml" e2).
Proof.
  split; [apply samples_typed|]. prepared_case. do 3 eexists. split; [vm_compute; reflexivity|]. split; [vm_compute; reflexivity|].
  split; vm_compute; discriminate.
Qed.
Print Assumptions streamed_equal_refuted.

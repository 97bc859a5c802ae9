(** Theorems about reading a part: C11, C12, C13. *)
From Verif Require Import Str TypesModel Props PropsSet Ast XmlParser XmlTree XmlProofs FloatModel IdsModel ReadBase ReadProps ReadModel ReadSpec
  ReadProg ReadProofs ReadPartProofs ReadTextProofs ReadCalm.

(** ** C11: reading a complete part returns *)
Theorem document_read_returns : forall s st, reads_from s st -> complete_text s -> returns (read_document st).
Proof. intros s st H1 H2. apply document_returns, closing_complete, (text_complete s); assumption. Qed.
Print Assumptions document_read_returns.
Theorem header_read_returns : forall s st, reads_from s st -> complete_text s -> returns (read_header st).
Proof. intros s st H1 H2. apply header_returns, closing_complete, (text_complete s); assumption. Qed.
Print Assumptions header_read_returns.
Theorem comments_read_returns : forall s st, reads_from s st -> complete_text s -> returns (read_comments st).
Proof. intros s st H1 H2. apply comments_returns, closing_complete, (text_complete s); assumption. Qed.
Print Assumptions comments_read_returns.

(** A reader started behind the start tag of its element leaves the elements around it
    open: it takes nothing of what follows the element that encloses it. *)
Definition still_inside {A} (around : list qname) (o : out A) : Prop :=
  match o with
  | Val _ s' | Err s' => exists inside, still_open (inside ++ around) (rs_events s') = Some []
  | Panic => True
  | Hang | NoFuel => False
  end.
Lemma inside_of A own (m : subs -> R A) : Reader own m -> forall s q around,
  q_local q = own -> still_open (q :: around) (rs_events s) = Some [] -> ~ In EErr (rs_events s) ->
  still_inside around (with_depth m s).
Proof.
  intros Hm s q around Hq Ho Hn.
  pose proof (proj2 shape_closes _ _ _ Hm (readers (S (length (rs_events s)))) (readers_close _) s q around Hq (conj Ho Hn)) as H.
  pose proof (proj2 shape_fueled _ _ _ Hm (readers (S (length (rs_events s)))) (S (length (rs_events s))) (readers_take _)
    (readers_fueled _) s) as F.
  unfold with_depth. destruct (m _ s) as [a s'|s'| | |]; cbn in *; auto.
  - destruct H as [i [H _]]. eauto.
  - destruct H as [i [H _]]. eauto.
  - apply F; [lia | reflexivity].
Qed.
Theorem paragraph_read_stays_inside : forall s q atts around,
  q_local q = "p"%string -> still_open (q :: around) (rs_events s) = Some [] -> ~ In EErr (rs_events s) ->
  still_inside around (with_depth (fun subs => read_para subs atts) s).
Proof. intros s q atts around. apply inside_of, reader_para. Qed.
Print Assumptions paragraph_read_stays_inside.
Theorem table_read_stays_inside : forall s q around,
  q_local q = "tbl"%string -> still_open (q :: around) (rs_events s) = Some [] -> ~ In EErr (rs_events s) ->
  still_inside around (with_depth read_table s).
Proof. intros s q around. apply inside_of, reader_table. Qed.
Print Assumptions table_read_stays_inside.

(** *** Cases *)
Definition sample_doc : string :=
  "<w:document><w:body><w:p><w:pPr><w:jc w:val='left'/></w:pPr><w:r><w:t>x</w:t></w:r></w:p><w:tbl><w:tr><w:tc><w:p/></w:tc></w:tr></w:tbl></w:body></w:document>".
Definition from_text (s : string) : rst := {| rs_events := events_of s; rs_para := 1 |}.
Lemma from_text_reads s : reads_from s (from_text s).
Proof. intros n. symmetry. apply nth_request_events. Qed.
Lemma complete_by_events s : still_open [] (events_of s) = Some [] -> ~ In EErr (events_of s) -> complete_text s.
Proof.
  intros H1 H2. split.
  - intros n E. rewrite nth_request_events in E. destruct (Nat.lt_ge_cases n (length (events_of s))) as [L|L].
    + apply H2. rewrite <- E. now apply nth_In.
    + rewrite nth_overflow in E by assumption. discriminate.
  - exists (length (events_of s)). split.
    + rewrite <- H1. f_equal. symmetry. exact (events_first s (from_text s) (from_text_reads s)).
    + rewrite nth_request_events. now apply nth_overflow.
Qed.
Example sample_doc_complete : complete_text sample_doc /\ reads_from sample_doc (from_text sample_doc).
Proof.
  split; [|apply from_text_reads]. apply complete_by_events; [reflexivity|].
  intros H. vm_compute in H. repeat (destruct H as [H|H]; [discriminate|]). exact H.
Qed.
Example sample_doc_reads : exists a b sp s', read_document (from_text sample_doc) = Val ([NPara "00000001" a false [NRun b [NText "x"]];
  NTable (set_tpr_borders tborders_empty tblpr_default) [] false [NRow trpr_empty false [NCell tcpr_empty false [NPara "00000002" ppr_empty false []]]]], sp) s'.
Proof. vm_compute. do 4 eexists. reflexivity. Qed.

(** ** C12: a part that ends too early *)
(** Cut anywhere inside a paragraph or table of the body, it is never read as if it
    were complete ... *)
Theorem cut_document_not_accepted : forall pre q atts rest c d s,
  ~ In EDocEnd pre -> read_document {| rs_events := pre; rs_para := c |} = Val d s ->
  q_local q = "p"%string \/ q_local q = "tbl"%string -> never_closed (q_local q) rest ->
  forall d2 s2, read_document {| rs_events := pre ++ EStart q atts :: rest; rs_para := c |} <> Val d2 s2.
Proof. exact document_cut. Qed.
Print Assumptions cut_document_not_accepted.

(** ... but the error is not reported either: the beginning of a stream that reads well
    never ends in an error or a panic.  Either the call never returns, or it gives the
    first blocks. *)
Theorem document_prefix_never_fails : forall l more c d s,
  read_document {| rs_events := l ++ more; rs_para := c |} = Val d s ->
  read_document {| rs_events := l; rs_para := c |} = Hang \/
  exists blocks sp s', read_document {| rs_events := l; rs_para := c |} = Val (blocks, sp) s'
    /\ exists rest, fst d = blocks ++ rest.
Proof. exact document_prefix. Qed.
Print Assumptions document_prefix_never_fails.
Theorem header_prefix_never_fails : forall l more c d s,
  read_header {| rs_events := l ++ more; rs_para := c |} = Val d s ->
  read_header {| rs_events := l; rs_para := c |} = Hang \/
  exists blocks s', read_header {| rs_events := l; rs_para := c |} = Val blocks s' /\ exists rest, d = blocks ++ rest.
Proof. exact header_prefix. Qed.
Print Assumptions header_prefix_never_fails.
Theorem comments_prefix_never_fails : forall l more c d s,
  read_comments {| rs_events := l ++ more; rs_para := c |} = Val d s ->
  read_comments {| rs_events := l; rs_para := c |} = Hang \/
  exists first s', read_comments {| rs_events := l; rs_para := c |} = Val first s' /\ exists rest, d = first ++ rest.
Proof. exact comments_prefix. Qed.
Print Assumptions comments_prefix_never_fails.

(** Cut inside a block, such a stream makes the call hang. *)
Theorem cut_document_hangs : forall pre q atts rest more c d s d1 s1,
  ~ In EDocEnd pre -> read_document {| rs_events := pre; rs_para := c |} = Val d1 s1 ->
  q_local q = "p"%string \/ q_local q = "tbl"%string -> never_closed (q_local q) rest ->
  read_document {| rs_events := pre ++ EStart q atts :: rest ++ more; rs_para := c |} = Val d s ->
  read_document {| rs_events := pre ++ EStart q atts :: rest; rs_para := c |} = Hang.
Proof.
  intros pre q atts rest more c d s d1 s1 Hd H1 Hq Hn H.
  destruct (document_prefix (pre ++ EStart q atts :: rest) more c d s) as [E|(b & sp & s' & E & _)]; auto.
  - rewrite <- app_assoc. exact H.
  - exfalso. now apply (document_cut pre q atts rest c d1 s1 Hd H1 Hq Hn (b, sp) s').
Qed.
Print Assumptions cut_document_hangs.

(** *** Cases *)
Definition cut_doc : string := "<w:document><w:body><w:p><w:r><w:t>x</w:t></w:r>".
Definition cut_doc_rest : string := "</w:p></w:body></w:document>".
Example cut_doc_case : exists pre q atts rest more d1 s1 d s,
  events_of cut_doc = pre ++ EStart q atts :: rest /\ ~ In EDocEnd pre /\
  read_document {| rs_events := pre; rs_para := 1 |} = Val d1 s1 /\ q_local q = "p"%string /\ never_closed "p" rest /\
  events_of (cut_doc +++ cut_doc_rest) = pre ++ EStart q atts :: rest ++ more /\
  read_document {| rs_events := pre ++ EStart q atts :: rest ++ more; rs_para := 1 |} = Val d s.
Proof.
  exists (firstn 2 (events_of cut_doc)), {| q_prefix := Some "w"%string; q_local := "p" |}, [], (skipn 3 (events_of cut_doc)),
    (skipn 8 (events_of (cut_doc +++ cut_doc_rest))).
  do 4 eexists. vm_compute. repeat split; try reflexivity.
  - intros [H|[H|H]]; try discriminate; exact H.
  - intros q [H|[H|[H|[H|[H|H]]]]]; try discriminate; try easy; injection H as <-; discriminate.
Qed.
Theorem cut_document_reported_refuted :
  reads_from cut_doc (from_text cut_doc) /\ read_document (from_text cut_doc) = Hang.
Proof. split; [apply from_text_reads | reflexivity]. Qed.
Print Assumptions cut_document_reported_refuted.
(** Nor is XML that is not well-formed always reported: an error below [w:pPr] is
    dropped, and the stream has no more events. *)
Theorem malformed_reported_refuted : exists s,
  reads_from s (from_text s) /\ (exists n, nth_request n (reader_of s) = EErr) /\ read_document (from_text s) = Hang.
Proof.
  exists "<w:document><w:body><w:p><w:pPr></w:p></w:body></w:document>"%string.
  split; [apply from_text_reads|]. split; [exists 4; reflexivity | reflexivity].
Qed.
Print Assumptions malformed_reported_refuted.

(** ** C13: panics *)
Theorem document_read_no_panic : forall s, Forall sound_event (rs_events s) -> ids_suffice s -> read_document s <> Panic.
Proof. exact document_calm. Qed.
Print Assumptions document_read_no_panic.
Theorem header_read_no_panic : forall s, Forall sound_event (rs_events s) -> ids_suffice s -> read_header s <> Panic.
Proof. exact header_calm. Qed.
Print Assumptions header_read_no_panic.
Theorem comments_read_no_panic : forall s, Forall sound_event (rs_events s) -> ids_suffice s -> read_comments s <> Panic.
Proof. exact comments_calm. Qed.
Print Assumptions comments_read_no_panic.

(** *** Cases *)
Example sample_doc_sound : Forall sound_event (rs_events (from_text sample_doc)) /\ ids_suffice (from_text sample_doc).
Proof.
  split; [|unfold ids_suffice; vm_compute; reflexivity].
  let l := eval vm_compute in (rs_events (from_text sample_doc)) in change (rs_events (from_text sample_doc)) with l.
  repeat (apply Forall_cons; [cbn; try exact I; unfold sound_tag; cbn; repeat split; intros; intuition (try discriminate; try congruence)|]).
  apply Forall_nil.
Qed.

(** Every demand of [sound_tag] is needed: whatever follows such a tag, the reader
    panics.  An element of [needs_attribute] without attributes: *)
Definition w (l : string) : qname := {| q_prefix := Some "w"; q_local := l |}.
Definition starts (l : list (string * list attribute)) : list event := map (fun x => EStart (w (fst x)) (snd x)) l.
Theorem read_never_panics_refuted : forall name rest, In name needs_attribute ->
  exists around, read_document {| rs_events := starts around ++ EStart (w name) [] :: rest; rs_para := 1 |} = Panic.
Proof.
  intros name rest H. cbn [needs_attribute In] in H.
  repeat (destruct H as [H|H]; [subst name|]); [..|easy];
    first [ exists [("p", []); ("r", []); ("rPr", [])]%string; reflexivity
          | exists [("p", []); ("pPr", [])]%string; reflexivity
          | exists [("p", []); ("pPr", []); ("numPr", [])]%string; reflexivity ].
Qed.
Print Assumptions read_never_panics_refuted.
(** A width that is not a number: *)
Theorem read_width_panics_refuted : forall name rest, In name needs_width ->
  exists around, read_document {| rs_events := starts around ++ EStart (w name) [(w "w", "x"%string)] :: rest; rs_para := 1 |} = Panic.
Proof.
  intros name rest H. cbn [needs_width In] in H.
  repeat (destruct H as [H|H]; [subst name|]); [..|easy];
    first [ exists [("tbl", []); ("tblPr", [])]%string; reflexivity
          | exists [("tbl", [])]%string; reflexivity
          | exists [("tbl", []); ("tr", [])]%string; reflexivity
          | exists [("tbl", []); ("tblPr", []); ("tblCellMar", [])]%string; reflexivity ].
Qed.
Print Assumptions read_width_panics_refuted.
(** A length in points that is too large (without overflow checks it is wrong instead): *)
Theorem read_points_panics_refuted : forall rest,
  read_document {| rs_events := EStart (w "sectPr") [] :: EStart (w "pgSz") [(w "h", "200000000pt"%string)] :: rest; rs_para := 1 |} = Panic.
Proof. reflexivity. Qed.
Print Assumptions read_points_panics_refuted.
(** A comment without an id: *)
Theorem read_comment_panics_refuted : forall atts rest c, (forall a v, In (a, v) atts -> q_local a <> "id"%string) ->
  read_comments {| rs_events := EStart (w "comment") atts :: rest; rs_para := c |} = Panic.
Proof.
  intros atts rest c H. unfold read_comments, with_depth, read_comments_with, part_loop. cbn [rs_events length part_turns].
  cbn [q_local w]. unfold read_comment, bind at 1 2. 
  replace (attr_get "id" atts) with (@None string); [reflexivity|].
  induction atts as [|[a v] atts IH]; [reflexivity|]. cbn [attr_get].
  destruct (q_local a =s "id") eqn:E.
  - exfalso. apply String.eqb_eq in E. apply (H a v); [now left | exact E].
  - apply IH. intros a' v' Hin. apply (H a' v'). now right.
Qed.
Print Assumptions read_comment_panics_refuted.
(** No id left for a paragraph: *)
Theorem read_para_panics_refuted : forall atts rest,
  read_document {| rs_events := EStart (w "p") atts :: rest; rs_para := 4294967295 |} = Panic.
Proof. reflexivity. Qed.
Print Assumptions read_para_panics_refuted.

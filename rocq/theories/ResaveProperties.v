(** C70: opening an archive and saving what was opened, with nothing called in between.
    [opened_and_saved a op k c]: the archive [a], whoever wrote it, was opened as [op], and
    preparing [op] for saving gave the package [k] and the collected pictures [c]
    (ResaveSpec.v). *)
From Coq Require Import NArith List Bool Lia.
From Verif Require Import Str StrFacts TypesModel Props Ast TreeModel TreeSpec IdsModel ParaIdModel ParaIdSpec DepsModel PackModel PackSpec PrepareModel
  ZipNameModel ReadBase ReadModel BuildSpec RenderModel RenderSpec OpenModel GivesSpec ResaveSpec ResaveProofs MediaBytes.
From Verif Require OpenSpec OpenProperties ArchiveProperties PackProperties RenderProperties GivesArchive.
Import PackProperties (some_crc, counters0, para_, text_, pic_, head_).
Import OpenProperties (k_of, c_of, e_of, written, no_png, rest0, sample).
Import ListNotations.
Open Scope list_scope.

(** ** What opening gives can be saved *)
(** Every element stands where its type may stand, nothing is a table of contents, a
    section, a footnote or a typed field instruction; no footnote is kept. *)
Theorem opening_gives_typed_tree : forall png preview a m op st, read_docx png preview a m = Val op st ->
  doc_well_formed (k_doc (op_pkg op)) /\ Forall came_from_reading (d_body (k_doc (op_pkg op)) ++ d_parts (k_doc (op_pkg op))) /\ d_footnotes (k_doc (op_pkg op)) = [].
Proof.
  intros png preview a m op st H. destruct (GivesArchive.opening_gives _ _ _ _ _ _ H) as [O _]. split; [exact (opened_well_formed _ O)|]. split; [|apply O].
  apply Forall_app. split; [|apply O]. eapply Forall_impl; [|exact (GivesArchive.ao_body _ O)]. now intros ? [].
Qed.
(** Preparing it fails only when the paragraphs to renumber use the counter up. *)
Theorem opened_is_prepared_iff : forall a png preview m op st crc styles ext n, read_docx png preview a m = Val op st ->
  ((exists r, prepare_package crc styles ext n (op_pkg op) = Some r) <-> (N.of_nat (to_renew (open_para_ids (k_doc (op_pkg op)))) < 4294967295)%N).
Proof. exact prepares_iff. Qed.
(** What is prepared can be written, as long as the counters last, if the document has no
    shape, no text box and no empty drawing, ... *)
Theorem opened_is_written : forall a op k c, opened_and_saved a op k c ->
  let d := k_doc (op_pkg op) in
  (forall n, In n (flat_map all_nodes (d_body d ++ flat_map part_content (d_parts d) ++ flat_map snd (d_comments d))) -> unwritable n = false) ->
  forall o s, enough s (plus (main_spend k o) (side_spend k)) -> exists r, pack_docx k o c s = Some r.
Proof. exact resave_writes. Qed.
(** ... and otherwise saving panics, whatever the other parts and the counters. *)
Theorem shape_is_never_written : forall a op k c n, opened_and_saved a op k c ->
  let d := k_doc (op_pkg op) in
  In n (flat_map BuildSpec.written (d_body d ++ flat_map part_content (d_parts d))) -> unwritable n = true ->
  forall o s, pack_docx k o c s = None /\ build_docx k o c s = None.
Proof. exact shape_not_saved. Qed.

(** ** What is kept *)
(** The document, the headers and footers and the section, up to paragraph ids and the ids
    and bytes of pictures. *)
Theorem resaving_keeps_the_tree : forall a op k c, opened_and_saved a op k c ->
  map bare (d_body (k_doc k)) = map bare (d_body (k_doc (op_pkg op))) /\ map bare (d_parts (k_doc k)) = map bare (d_parts (k_doc (op_pkg op))) /\
  d_sect (k_doc k) = d_sect (k_doc (op_pkg op)).
Proof. exact tree_kept. Qed.
(** A header or footer is shown exactly if its id in the opened archive is the one that
    saving numbers it with, ... *)
Theorem resaved_header_shown_iff : forall a op k c x m, opened_and_saved a op k c -> part_at (k_doc (op_pkg op)) 0 x = Some m ->
  exists r, ref_of (d_sect (k_doc (op_pkg op))) x = Some r /\
    (shown (k_doc k) (k_doc_rels k) (stream_steps k c) 0 x <-> pr_id r = listed_id (k_doc (op_pkg op)) x).
Proof. exact parts_shown_resaved. Qed.
(** ... which holds for an archive the library wrote from calls in order. *)
Theorem library_headers_survive : forall l o k c es png preview m op k' c',
  OpenSpec.saved l o k c es -> OpenSpec.reopenable k o c -> OpenSpec.opened_from k es png preview m op -> in_order l ->
  opened_and_saved (as_archive es) op k' c' ->
  forall x, intended l 0 x <> None -> shown (k_doc k') (k_doc_rels k') (stream_steps k' c') 0 x.
Proof. exact library_headers. Qed.

(** ** What is lost, whatever the archive *)
(** Every file of a picture is empty and there is at most one. *)
Theorem resaved_pictures_are_empty : forall a op k c, opened_and_saved a op k c ->
  (forall m, In m (c_media c) -> snd m = "") /\ length (c_media c) <= 1 /\ (forall name bytes, In (SRaw name bytes) (stream_steps k c) -> bytes = "").
Proof. intros a op k c H. destruct (media_empty _ _ _ _ H) as [A B]. split; [exact A|]. split; [exact B|]. intros. eapply files_empty; eassumption. Qed.
(** Every hyperlink leads nowhere. *)
Theorem resaved_links_lead_nowhere : forall a op k c e, opened_and_saved a op k c ->
  In e (written_rels (k_doc_rels k)) -> rel_kind e = "hyperlink" -> rel_target e = "".
Proof. exact links_without_address. Qed.
(** The numberings are in no relationship. *)
Theorem resaved_numberings_unlisted : forall a op k c e, opened_and_saved a op k c ->
  In e (written_rels (k_doc_rels k)) -> rel_kind e <> "numbering".
Proof. exact no_numbering. Qed.
(** No custom XML item and no web extension is written, the core properties are those of a
    new document. *)
Theorem resaved_extras_dropped : forall a op k c, opened_and_saved a op k c ->
  (forall s, In s (stream_steps k c) -> is_extra s = false) /\ o_core (op_rest op) = core_new.
Proof. intros a op k c H. split; [intros s; exact (no_extras _ _ _ _ s H)|]. exact (proj2 (opened_as _ _ _ _ H)). Qed.

(** ** No picture comes from nowhere *)
(** Whatever is collected, every media file holds the bytes of a picture of the document or
    of one of its headers and footers. *)
Theorem media_come_from_pictures : forall crc d d' c, doc_well_formed d -> collect_package crc d = Some (d', c) ->
  forall bytes, In bytes (map snd (c_media c)) ->
  exists x, In x (pics_in (d_body d) ++ flat_map (fun n => pics_in [n]) (doc_parts true d ++ doc_parts false d)) /\ pic_image x = bytes.
Proof. exact bytes_from_pictures. Qed.

(** ** The document of OpenProperties.v, with pictures, a link, comments, headers *)
Definition resaves_to (a : archive) (P : opened -> pkg -> collected -> Prop) : Prop := exists op k c, opened_and_saved a op k c /\ P op k c.
Ltac resaved := do 3 eexists; split;
  [split; [exists no_png, false, 1%N; eexists; vm_compute; reflexivity | exists some_crc, [], [], counters0; eexists; vm_compute; reflexivity]|].
Example sample_resaved : resaves_to (as_archive (written sample rest0)) (fun op k c =>
  length (pics_in (d_body (k_doc k))) = 1 /\
  map (fun m => snd m) (c_media (c_of sample)) = ["bytes"; "other bytes"]%string /\ map (fun m => snd m) (c_media c) = [""%string] /\
  flat_map (fun e => if rel_kind e =s "hyperlink" then [rel_target e] else []) (written_rels (k_doc_rels (k_of sample))) = ["http://a"]%string /\
  flat_map (fun e => if rel_kind e =s "hyperlink" then [rel_target e] else []) (written_rels (k_doc_rels k)) = [""]%string /\
  length (d_comments (k_doc k)) = 2 /\ r_comments (k_doc_rels k) = true).
Proof. resaved. vm_compute. repeat split. Qed.
(** The header of HFirst is shown in what is saved. *)
Example sample_header_shown : resaves_to (as_archive (written sample rest0)) (fun op k c =>
  part_at (k_doc (op_pkg op)) 0 HFirst <> None /\ option_map pr_id (ref_of (d_sect (k_doc (op_pkg op))) HFirst) = Some "rIdHeader2"%string /\
  listed_id (k_doc (op_pkg op)) HFirst = "rIdHeader2"%string).
Proof. resaved. vm_compute. repeat split. discriminate. Qed.
(** It has no shape, its counters last. *)
Example sample_rewritten : resaves_to (as_archive (written sample rest0)) (fun op k c =>
  forallb (fun n => negb (unwritable n)) (flat_map all_nodes (d_body (k_doc (op_pkg op)) ++ flat_map part_content (d_parts (k_doc (op_pkg op))) ++ flat_map snd (d_comments (k_doc (op_pkg op))))) = true /\
  exists r, pack_docx k (op_rest op) c RenderProperties.start_ids = Some r).
Proof. resaved. split; [vm_compute; reflexivity|]. eexists. vm_compute. reflexivity. Qed.

(** ** Archives of other programs *)
Import ArchiveProperties (types_file, package_file, relations_file, rel_, main_file, header_file, styles_file, small).
(** Its header has the id [h]: after saving, no relationship leads there. *)
Lemma small_resaved : exists k c op m, opened_and_saved small op k c /\ part_at (k_doc (op_pkg op)) 0 HDefault = Some m /\
  option_map pr_id (ref_of (d_sect (k_doc (op_pkg op))) HDefault) = Some "h"%string /\ listed_id (k_doc (op_pkg op)) HDefault = "rIdHeader1"%string.
Proof.
  do 4 eexists. split; [split; [exists no_png, false, 1%N; eexists; vm_compute; reflexivity | exists some_crc, [], [], counters0; eexists; vm_compute; reflexivity]|].
  split; [vm_compute; reflexivity|]. vm_compute. split; reflexivity.
Qed.
Theorem resaving_keeps_headers_refuted : ~ forall a op k c x, opened_and_saved a op k c -> part_at (k_doc (op_pkg op)) 0 x <> None ->
  shown (k_doc k) (k_doc_rels k) (stream_steps k c) 0 x.
Proof.
  intros H. destruct small_resaved as (k & c & op & m & O & P & R & L). destruct (parts_shown_resaved _ _ _ _ _ _ O P) as (r & Hr & S).
  rewrite Hr in R. cbn [option_map] in R. injection R as R. assert (Q : pr_id r = listed_id (k_doc (op_pkg op)) HDefault) by (apply S, (H small op); [exact O|congruence]).
  rewrite R, L in Q. discriminate Q.
Qed.
(** A document with a shape opens, is prepared and cannot be written. *)
Definition with_shape : archive :=
  [types_file; package_file; relations_file [rel_ "s" "styles" "s.xml"];
   ("word/main.xml", "<w:document><w:body><w:p><w:r><w:pict><v:shape><v:imagedata/></v:shape></w:pict></w:r></w:p></w:body></w:document>")%string; styles_file].
Example shape_opens : resaves_to with_shape (fun op k c =>
  In NShape (flat_map BuildSpec.written (d_body (k_doc (op_pkg op)) ++ flat_map part_content (d_parts (k_doc (op_pkg op))))) /\
  pack_docx k (op_rest op) c RenderProperties.start_ids = None).
Proof. resaved. split; [vm_compute; tauto|]. vm_compute. reflexivity. Qed.

Definition all_proved := conj opening_gives_typed_tree (conj opened_is_prepared_iff (conj opened_is_written (conj shape_is_never_written (conj resaving_keeps_the_tree
  (conj resaved_header_shown_iff (conj library_headers_survive (conj resaved_pictures_are_empty (conj resaved_links_lead_nowhere (conj resaved_numberings_unlisted
  (conj resaved_extras_dropped (conj media_come_from_pictures (conj sample_resaved (conj sample_header_shown (conj sample_rewritten (conj small_resaved (conj resaving_keeps_headers_refuted shape_opens)))))))))))))))).
Print Assumptions all_proved.

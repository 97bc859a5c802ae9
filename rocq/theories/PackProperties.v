(** C26 to C29, C45: the package.  [calls l] is the record after the calls [l] on a
    new document, [prepare_package] what a build does before it writes. *)
From Coq Require Import NArith List Bool Lia Sorting.Sorted.
From Verif Require Import Str StrFacts Props Ast TypesModel TreeModel DepsModel DepsSpec TreeSpec ParaIdSpec TocModel PackModel PackSpec PackProofs PrepareModel PackFinalProofs PackKeysProofs.
Import ListNotations.

(** ** Samples *)
Definition some_crc (s : string) : N := N.of_nat (String.length s).
Definition counters0 : counters := {| k_toc := 0; k_bookmark := 1 |}.
Definition prepare (l : list api) : option (pkg * collected * list comment_ext) := prepare_package some_crc [] [] counters0 (calls l).
Definition para_ (ch : list node) : node := NPara "x" ppr_empty false ch.
Definition text_ (s : string) : node := para_ [NRun rpr_empty [NText s]].
Definition pic_ (id bytes : string) : node :=
  NPic {| pic_id := id; pic_image := bytes; pic_size := (1, 1)%N; pic_anchor := false; pic_simple_pos := false;
          pic_simple_x := 0; pic_simple_y := 0; pic_layout_in_cell := false; pic_relative_height := 0;
          pic_overlap := false; pic_h := Offset 0; pic_v := Offset 0;
          pic_from_h := RelativeFromHType_Character; pic_from_v := RelativeFromVType_Line;
          pic_dist_t := 0; pic_dist_b := 0; pic_dist_l := 0; pic_dist_r := 0; pic_rot := 0 |}.
Definition note_ : node := NFootRef 1 "FootnoteReference" [text_ "note"].
Definition head_ (s : string) : content := (false, [text_ s]).
Definition section_ (parts : slot -> option content) : api :=
  ASection {| sa_prop := sectpr_default; sa_numbering := false; sa_children := [text_ "in section"]; sa_pending := parts |}.
(** Two headers and a footer of the document, a section with a header and a footer, a
    picture, a hyperlink, a footnote, a web extension. *)
Definition sample : list api :=
  [APart HDefault (head_ "h"); APart FEven (head_ "f"); APart HFirst (head_ "first");
   ABlock (para_ [NRun rpr_empty [pic_ "rIdImage1" "bytes"]; NRun rpr_empty [note_]]);
   section_ (fun x => match x with HEven | FDefault => Some (head_ "section") | _ => None end);
   ABlock (para_ [NLink (External "rIdHyperlink1" "http://a") None [NRun rpr_empty [NText "link"]]]);
   ATaskpanes; AWeb "e"].
Ltac typed1 :=
  repeat (apply Forall_cons || apply Forall_nil || match goal with |- _ /\ _ => split | |- typed_call _ => progress cbn [typed_call section_ sa_children sa_pending sa_prop] | |- typed_content _ => split end);
  try exact I; try reflexivity.
Ltac typed := typed1; try (let x := fresh in let H := fresh in intros x ? H; destruct x; inversion H; subst; typed1).
Lemma sample_typed : typed_calls sample.
Proof. typed. Qed.
Ltac distinct := repeat constructor; cbn; intuition discriminate.
(** What holds of a successful preparation of [l]. *)
Definition once_prepared (l : list api) (P : pkg -> collected -> Prop) : Prop :=
  exists k c ext, prepare l = Some (k, c, ext) /\ P k c.
Ltac prepared_case := do 3 eexists; split; [vm_compute; reflexivity|].

(** ** C26 *)
(** Every header and footer asked for is shown -- the reference of its slot leads to
    the file that holds it -- if and only if headers, and footers, were attached in
    the order of the package, none twice. *)
Theorem headers_shown : forall crc styles ext n l k' c ext',
  typed_calls l -> prepare_package crc styles ext n (calls l) = Some (k', c, ext') ->
  (in_order l <-> forall place x, intended l place x <> None -> shown (k_doc k') (k_doc_rels k') (stream_steps k' c) place x).
Proof. exact parts_shown_proof. Qed.
Print Assumptions headers_shown.
(** What is held for a slot is the content last given for it, apart from paragraph
    ids and pictures. *)
Theorem headers_held : forall crc styles ext n l k' c ext' place x m,
  typed_calls l -> prepare_package crc styles ext n (calls l) = Some (k', c, ext') ->
  part_at (k_doc k') place x = Some m ->
  exists rid nb ch ch', m = NPart x rid nb ch /\ intended l place x = Some (nb, ch') /\ map bare ch = map bare ch'.
Proof. exact shown_content_proof. Qed.
Print Assumptions headers_held.
Example headers_case : in_order sample /\
  attachments 0 sample = [(0, HDefault, head_ "h"); (0, FEven, head_ "f"); (0, HFirst, head_ "first");
                          (1, HEven, head_ "section"); (1, FDefault, head_ "section")] /\
  once_prepared sample (fun k c => exists n, part_at (k_doc k) 1 FDefault = Some n /\
    file_of (stream_steps k c) "word/footer2.xml" n /\ leads_to (k_doc_rels k) FDefault "rIdFooter2" "word/footer2.xml").
Proof.
  split; [|split; [reflexivity|]].
  - intros []; cbn; repeat (apply SSorted_cons || apply SSorted_nil || apply Forall_cons || apply Forall_nil); unfold before; cbn; lia.
  - prepared_case. eexists. split; [reflexivity|]. split; [vm_compute; tauto|].
    exists (mk_rel "rIdFooter2" "footer" "footer2.xml"). split; [vm_compute; tauto|]. repeat split.
Qed.
(** The first page header attached before the default one: each shows the other. *)
Theorem headers_swapped_refuted : exists l k c ext n, typed_calls l /\ no_slot_twice l /\ prepare l = Some (k, c, ext) /\
  intended l 0 HDefault = Some (head_ "default") /\
  ref_of (d_sect (k_doc k)) HDefault = Some {| pr_type := "default"; pr_id := "rIdHeader2" |} /\
  leads_to (k_doc_rels k) HDefault "rIdHeader2" "word/header2.xml" /\
  part_at (k_doc k) 0 HFirst = Some n /\ file_of (stream_steps k c) "word/header2.xml" n.
Proof.
  exists [APart HFirst (head_ "first"); APart HDefault (head_ "default")]. do 4 eexists.
  split; [typed|]. split; [distinct|]. split; [vm_compute; reflexivity|]. split; [reflexivity|]. split; [reflexivity|].
  split; [exists (mk_rel "rIdHeader2" "header" "header2.xml"); split; [vm_compute; tauto|]; repeat split|].
  split; [reflexivity|vm_compute; tauto].
Qed.
Print Assumptions headers_swapped_refuted.

(** ** C45 *)
(** Every header and footer relationship has a target in the package if and only if
    no slot was filled twice. *)
Theorem header_targets_exist : forall crc styles ext n l k' c ext',
  typed_calls l -> prepare_package crc styles ext n (calls l) = Some (k', c, ext') ->
  (no_slot_twice l <-> Forall (target_exists (stream_steps k' c)) (part_rels (k_doc_rels k'))).
Proof. exact targets_exist_proof. Qed.
Print Assumptions header_targets_exist.
Example header_targets_case : no_slot_twice sample /\ once_prepared sample (fun k c =>
  map rel_target (part_rels (k_doc_rels k)) = ["header1.xml"; "header2.xml"; "header3.xml"; "footer1.xml"; "footer2.xml"]).
Proof. split; [distinct|]. prepared_case. reflexivity. Qed.
Theorem header_replaced_refuted : exists l k c ext, typed_calls l /\ prepare l = Some (k, c, ext) /\
  In (mk_rel "rIdHeader2" "header" "header2.xml") (written_rels (k_doc_rels k)) /\ ~ In "word/header2.xml" (map step_name (stream_steps k c)).
Proof.
  exists [APart HDefault (head_ "a"); APart HDefault (head_ "b")]. do 3 eexists. split; [typed|]. split; [vm_compute; reflexivity|].
  split; [vm_compute; tauto|]. vm_compute. intuition discriminate.
Qed.
Print Assumptions header_replaced_refuted.

(** ** C27 *)
(** If pictures and hyperlinks have ids of the usual form, the relationships of the
    main part have distinct ids if and only if there is no footnote or no custom
    item. *)
Theorem relationship_ids_unique : forall crc styles ext n l k' c ext',
  typed_calls l -> prepare_package crc styles ext n (calls l) = Some (k', c, ext') ->
  Forall (fun p => starts_with "rIdImage" (pic_id p) = true) (pics_in (d_body (k_doc (calls l)))) ->
  Forall (fun x => starts_with "rIdHyperlink" (fst x) = true) (all_of link_at (d_body (k_doc (calls l)))) ->
  (NoDup (map rel_id (written_rels (k_doc_rels k'))) <-> footnotes_in (d_body (k_doc (calls l))) = [] \/ ~ Exists is_custom l).
Proof. exact relationship_ids_unique_proof. Qed.
Print Assumptions relationship_ids_unique.
Example relationship_ids_case :
  Forall (fun p => starts_with "rIdImage" (pic_id p) = true) (pics_in (d_body (k_doc (calls sample)))) /\
  Forall (fun x => starts_with "rIdHyperlink" (fst x) = true) (all_of link_at (d_body (k_doc (calls sample)))) /\
  length (pics_in (d_body (k_doc (calls sample)))) = 1 /\ length (all_of link_at (d_body (k_doc (calls sample)))) = 1 /\
  ~ Exists is_custom sample /\
  once_prepared sample (fun k c => map rel_id (written_rels (k_doc_rels k)) =
    ["rId1"; "rId2"; "rId3"; "rId5"; "rId8"; "rIdHeader1"; "rIdHeader2"; "rIdHeader3"; "rIdFooter1"; "rIdFooter2"; "rIdImage1"; "rIdHyperlink1"]).
Proof.
  repeat split; try (cbn; repeat constructor).
  - intros H. repeat (apply Exists_cons in H; destruct H as [H|H]; [exact H|]). apply Exists_nil in H. exact H.
  - prepared_case. reflexivity.
Qed.
Theorem custom_item_and_footnote_refuted : exists l k c ext, typed_calls l /\ prepare l = Some (k, c, ext) /\
  In (mk_rel "rId8" "footnotes" "footnotes.xml") (written_rels (k_doc_rels k)) /\
  In (mk_rel "rId8" "customXml" "../customXml/item1.xml") (written_rels (k_doc_rels k)).
Proof.
  exists [ABlock (para_ [NRun rpr_empty [note_]]); ACustom "id" "<a/>"]. do 3 eexists. split; [typed|]. split; [vm_compute; reflexivity|].
  split; vm_compute; tauto.
Qed.
Print Assumptions custom_item_and_footnote_refuted.
(** A picture may be given any id. *)
Theorem picture_id_clash_refuted : exists l k c ext, typed_calls l /\ prepare l = Some (k, c, ext) /\
  In (mk_rel "rId1" "styles" "styles.xml") (written_rels (k_doc_rels k)) /\
  In (mk_rel "rId1" "image" "media/rId1.png") (written_rels (k_doc_rels k)).
Proof.
  exists [ABlock (para_ [NRun rpr_empty [pic_ "rId1" "bytes"]])]. do 3 eexists. split; [typed|]. split; [vm_compute; reflexivity|].
  split; vm_compute; tauto.
Qed.
Print Assumptions picture_id_clash_refuted.

(** ** C28 *)
(** The content types give every part written the type the format prescribes, apart
    from the properties of custom items and the footnotes; these have it if and only
    if there are footnotes, the i-th properties if and only if some custom item was
    added after exactly i web extensions. *)
Theorem content_types_right : forall crc styles ext n l k' c ext',
  typed_calls l -> prepare_package crc styles ext n (calls l) = Some (k', c, ext') ->
  (forall s ty, In s (stream_steps k' c) -> right_type s = Some ty -> is_item_props s = false ->
     (is_footnotes s = true -> footnotes_in (d_body (k_doc (calls l))) <> []) -> type_in (k_types k') (step_name s) = Some ty) /\
  (type_in (k_types k') "word/footnotes.xml" = right_type (SXml "word/footnotes.xml" (PFixed XFootnotes)) <-> footnotes_in (d_body (k_doc (calls l))) <> []) /\
  (forall i id, type_in (k_types k') (nth_name "customXml/itemProps" i ".xml") = right_type (SXml (nth_name "customXml/itemProps" i ".xml") (PItemProps id)) <->
     exists l1 id xml l2, l = l1 ++ ACustom id xml :: l2 /\ webs l1 = i).
Proof. exact content_types_proof. Qed.
Print Assumptions content_types_right.
(** No part is given a type twice. *)
Theorem content_types_once : forall crc styles ext n l k' c ext',
  typed_calls l -> prepare_package crc styles ext n (calls l) = Some (k', c, ext') -> NoDup (map fst (t_map (k_types k'))).
Proof. exact types_once. Qed.
Print Assumptions content_types_once.
Example content_types_case : once_prepared sample (fun k c =>
  length (filter (fun s => match right_type s with Some _ => negb (is_item_props s) | None => false end) (stream_steps k c)) = 22 /\
  type_in (k_types k) "word/media/rIdImage1.png" = Some "image/png" /\
  type_in (k_types k) "word/footer2.xml" = Some "application/vnd.openxmlformats-officedocument.wordprocessingml.footer+xml").
Proof. prepared_case. vm_compute. repeat split. Qed.
(** Two custom items: the properties of the second have no type of their own. *)
Theorem custom_item_type_refuted : exists l k c ext, typed_calls l /\ prepare l = Some (k, c, ext) /\
  In (SXml "customXml/itemProps2.xml" (PItemProps "id2")) (stream_steps k c) /\
  type_in (k_types k) "customXml/itemProps2.xml" = Some "application/xml".
Proof.
  exists [ACustom "id1" "<a/>"; ACustom "id2" "<b/>"]. do 3 eexists. split; [typed|]. split; [vm_compute; reflexivity|].
  split; [vm_compute; tauto|reflexivity].
Qed.
Print Assumptions custom_item_type_refuted.
(** Every package has a footnotes part; without footnotes its type is not declared. *)
Theorem footnotes_type_refuted : exists k c ext, prepare [] = Some (k, c, ext) /\
  In (SXml "word/footnotes.xml" (PFixed XFootnotes)) (stream_steps k c) /\ type_in (k_types k) "word/footnotes.xml" = Some "application/xml".
Proof. do 3 eexists. split; [vm_compute; reflexivity|]. split; [vm_compute; tauto|reflexivity]. Qed.
Print Assumptions footnotes_type_refuted.

(** ** C29 *)
Theorem entry_names_unique : forall crc styles ext n l k' c ext' St (render : renderer St) m,
  typed_calls l -> prepare_package crc styles ext n (calls l) = Some (k', c, ext') ->
  NoDup (map entry_name (fst (pack render k' c m))).
Proof. intros. eapply entry_names_distinct_proof; eassumption. Qed.
Print Assumptions entry_names_unique.
(** A renderer for the example. *)
Definition toy : renderer unit := fun _ c => ("<x/>", c).
Example entry_names_case : once_prepared (sample ++ [ACustom "id1" "<a/>"; ACustom "id2" "<b/>"]) (fun k c =>
  length (fst (pack toy k c tt)) = 37 /\ In "customXml/itemProps2.xml" (map entry_name (fst (pack toy k c tt)))).
Proof. prepared_case. vm_compute. split; [reflexivity|tauto]. Qed.

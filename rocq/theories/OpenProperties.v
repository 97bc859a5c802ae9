(** C57 to C63: saving a document and opening the archive.
    [saved l o k c es]: the document made by the calls [l] with the other parts [o] was
    prepared and written; [es] are the entries of the archive, [k] is what was written.
    [opened_from k es png preview m op]: opening them gives [op].
    [reopenable]: the strings can be read, the elements are of the kinds that reading
    keeps in their place, the numbers in the ranges of the format (OpenSpec.v). *)
From Coq Require Import NArith ZArith List Bool Lia Permutation Sorting.Sorted.
From Verif Require Import Str StrFacts TypesModel Props Ast IdsModel TreeModel TreeSpec DepsModel DepsSpec XmlParser XmlSpec ReadBase ReadModel StyleModel StyleSpec
  ZipNameModel PackModel PackSpec PrepareModel PackFinalProofs RenderModel OpenModel WellSpec RestSpec RoundSpec SurviveSpec RoundTextProofs OpenSpec OpenProofs OpenFinal OpenImages OpenTexts.
From Verif Require WellPartProofs PackProperties RenderProperties RoundProperties WellProperties ParaIdSpec SurviveProofs.
Import PackProperties (some_crc, counters0, para_, text_, pic_, head_).
Import ListNotations.
Open Scope list_scope.

(** ** A document *)
Definition rest_ (ext : list comment_ext) : rest := {|
  o_core := core_new; o_custom := [("author", "someone"); ("R&amp;D", " &lt;x&gt; "); ("blank", " ")]%string;
  o_styles := {| ss_rpr := rpr_empty; ss_ppr := ppr_empty; ss_list := [] |};
  o_settings := settings_default; o_numberings := {| ns_abstracts := []; ns_nums := [] |}; o_ext := ext; o_web := o_web rest_new |}.
Definition note_on (i : N) (parent : option N) (id s : string) : node :=
  NCommentStart {| cd_id := i; cd_author := "a"; cd_date := "d"; cd_parent := parent |} [NPara id ppr_empty false [NRun rpr_empty [NText s]]].
(** Two headers, one with a picture, a footer, a picture, a comment with an answer and a
    hyperlink in the document. *)
Definition sample : list api :=
  [APart HDefault (head_ "h"); APart FEven (head_ "f"); APart HFirst (false, [para_ [NRun rpr_empty [pic_ "p1" "other bytes"]]]);
   ABlock (para_ [NRun rpr_empty [pic_ "rIdImage1" "bytes"]; note_on 1 None "A1" "first"; note_on 2 (Some 1%N) "A2" "answer";
                  NRun rpr_empty [NText "a &lt; b"]; NCommentEnd 2; NCommentEnd 1]);
   ABlock (para_ [NLink (External "rIdHyperlink1" "http://a") None [NRun rpr_empty [NText "link"]]])]%string.
Definition prepared_ (l : list api) : pkg * collected * list comment_ext :=
  match prepare_package some_crc [] [] counters0 (calls l) with
  | Some r => r
  | None => (pkg_new, {| c_rels := []; c_header_rels := []; c_footer_rels := []; c_media := []; c_has_footnotes := false |}, [])
  end.
Definition k_of (l : list api) : pkg := fst (fst (prepared_ l)).
Definition c_of (l : list api) : collected := snd (fst (prepared_ l)).
Definition e_of (l : list api) : list comment_ext := snd (prepared_ l).
Definition written (l : list api) (o : rest) : list entry :=
  match pack_docx (k_of l) o (c_of l) RenderProperties.start_ids with Some (es, _) => es | None => [] end.
Lemma is_saved l o : typed_calls l ->
  match prepare_package some_crc [] [] counters0 (calls l) with Some _ => true | None => false end = true ->
  match pack_docx (k_of l) o (c_of l) RenderProperties.start_ids with Some _ => true | None => false end = true ->
  o_ext o = e_of l -> saved l o (k_of l) (c_of l) (written l o).
Proof.
  intros T H1 H2 He. split; [exact T|]. split.
  - exists some_crc, [], [], counters0. rewrite He. unfold k_of, c_of, e_of, prepared_. destruct (prepare_package _ _ _ _ _) as [[[k c] e]|]; [reflexivity|discriminate].
  - unfold written. destruct (pack_docx (k_of l) o (c_of l) RenderProperties.start_ids) as [[es s']|] eqn:E; [|discriminate]. eauto.
Qed.
Definition rest0 : rest := rest_ (e_of sample).
Lemma sample_saved : saved sample rest0 (k_of sample) (c_of sample) (written sample rest0).
Proof. apply is_saved; [PackProperties.typed|vm_compute; reflexivity|vm_compute; reflexivity|reflexivity]. Qed.
Ltac in_range := RoundProperties.in_range.
Ltac computed t := let x := eval vm_compute in t in replace t with x by (vm_compute; reflexivity).
Lemma sample_reopenable : reopenable (k_of sample) rest0 (c_of sample).
Proof.
  split.
  - apply WellPartProofs.all_readable. vm_compute. reflexivity.
  - split; [vm_compute; reflexivity|]. computed (d_body (k_doc (k_of sample))). unfold fits. cbn [all_nodes flat_map app]. in_range.
  - computed (d_sect (k_doc (k_of sample))). in_range.
  - computed (parts_of (k_doc (k_of sample))). repeat (apply Forall_cons || apply Forall_nil); (split; [vm_compute; reflexivity|]); unfold fits; cbn [part_content all_nodes flat_map app]; in_range.
  - split; [vm_compute; reflexivity|]. computed (d_comments (k_doc (k_of sample))). repeat (apply Forall_cons || apply Forall_nil); unfold fits_comment, fits; cbn [snd all_nodes flat_map app]; in_range.
  - in_range.
  - in_range.
  - in_range.
Qed.
(** The number of ids the document needs is far below the bound. *)
Lemma sample_room : (1 + ids_taken (k_of sample) < 4294967296)%N.
Proof. vm_compute. reflexivity. Qed.
Definition no_png (s : string) : option string := None.

(** ** C57: what was saved opens *)
(** Reading neither fails nor panics nor goes round for ever, whether images are previewed
    or not and whatever the counter of paragraph ids, as long as it has room. *)
Theorem saved_archive_opens : forall l o k c es png preview m,
  saved l o k c es -> reopenable k o c -> (m + ids_taken k < 4294967296)%N ->
  exists op, opened_from k es png preview m op.
Proof.
  intros l o k c es png preview m S Re Room. destruct (saved_opens l o k c es png preview m S Re Room) as (heads & foots & _ & _ & op & st & H & _).
  exists op. split; [exact Room|]. now exists st.
Qed.
Lemma sample_opens : exists op, opened_from (k_of sample) (written sample rest0) no_png false 1 op.
Proof. exact (saved_archive_opens _ _ _ _ _ _ _ _ sample_saved sample_reopenable sample_room). Qed.
(** The value of a custom property is written as it is given.  With an [&] the saved
    file cannot be opened: reading it never ends. *)
Definition with_custom (e : string * string) : rest := {|
  o_core := core_new; o_custom := [e]; o_styles := o_styles (rest_ []); o_settings := settings_default; o_numberings := o_numberings (rest_ []); o_ext := []; o_web := o_web rest_new |}.
Theorem ampersand_in_property_refuted : exists l o k c es, saved l o k c es /\ o_custom o = [("company", "R&D")]%string /\
  forall png preview m, read_docx png preview (as_archive es) m = Hang.
Proof.
  exists [], (with_custom ("company", "R&D")%string). do 3 eexists. split; [apply is_saved; [PackProperties.typed|vm_compute; reflexivity|vm_compute; reflexivity|reflexivity]|].
  split; [reflexivity|]. intros png preview m. vm_compute. reflexivity.
Qed.

(** ** C58: the body and the other parts *)
(** The body comes back as its elements are read one by one, apart from the ids of
    paragraphs and the ids and bytes of pictures, which are given anew when it is saved;
    the texts of comments are put into it. *)
Theorem body_comes_back : forall l o k c es png preview m op,
  saved l o k c es -> reopenable k o c -> opened_from k es png preview m op ->
  exists packed, map bare packed = map bare (d_body (k_doc (calls l))) /\
    d_body (k_doc (op_pkg op)) = store_comments (d_comments (k_doc (op_pkg op))) (flat_map (reread InDocument) packed) /\
    d_sect (k_doc (op_pkg op)) = reread_sectpr (d_sect (k_doc (calls l))).
Proof. exact body_back. Qed.
(** All texts are there, in their order, as they are read. *)
Theorem texts_come_back : forall l o k c es png preview m op us,
  saved l o k c es -> reopenable k o c -> opened_from k es png preview m op ->
  flat_map (texts InDocument) (d_body (k_doc (calls l))) = map as_stored us ->
  flat_map (texts InDocument) (d_body (k_doc (op_pkg op))) = flat_map as_read us.
Proof.
  intros l o k c es png preview m op us S Re O Hu. rewrite (body_texts_back _ _ _ _ _ _ _ _ _ S Re O), Hu, flat_map_concat_map, map_map, <- flat_map_concat_map.
  apply flat_map_ext. intros u. apply back_stored.
Qed.
(** Where no elements lose anything (RoundProperties, C39) and there are no comments, the
    body is the one that was saved. *)
Theorem surviving_body_comes_back : forall l o k c es png preview m op,
  saved l o k c es -> reopenable k o c -> opened_from k es png preview m op ->
  Forall (survives InDocument) (d_body (k_doc k)) -> seen_comments (d_body (k_doc k)) = [] ->
  d_body (k_doc (op_pkg op)) = d_body (k_doc k) /\ map bare (d_body (k_doc k)) = map bare (d_body (k_doc (calls l))).
Proof.
  intros l o k c es png preview m op S Re O Hs Hc. split; [|exact (body_given _ _ _ _ _ S Re)].
  pose proof (comments_back _ _ _ _ _ _ _ _ _ S Re O) as H. cbv zeta in H. rewrite Hc in H.
  destruct H as [_ ->]; try constructor. cbn [map]. rewrite OpenAssign.store_nil. now apply SurviveProofs.survives_nodes.
Qed.
(** Styles, numberings and settings come back as they are read; the numberings only if
    some paragraph uses one (then there is a relationship to them). *)
Theorem other_parts_come_back : forall l o k c es png preview m op,
  saved l o k c es -> reopenable k o c -> opened_from k es png preview m op ->
  o_styles (op_rest op) = reread_styles (o_styles o) /\
  o_numberings (op_rest op) = (if r_numberings (k_doc_rels k) then reread_numberings (o_numberings o) else {| ns_abstracts := []; ns_nums := [] |}) /\
  o_settings (op_rest op) = reread_settings (with_even (k_even k) (o_settings o)).
Proof.
  intros l o k c es png preview m op S Re O. destruct (rest_back _ _ _ _ _ _ _ _ _ S Re O) as (_ & H1 & H2 & H3 & _). auto.
Qed.
(** ** C59: headers and footers *)
(** If headers, and footers, are attached in the order of the package, none twice, each
    comes back in its slot, as its elements are read, and there are no others. *)
Theorem headers_come_back : forall l o k c es png preview m op,
  saved l o k c es -> reopenable k o c -> opened_from k es png preview m op -> in_order l ->
  forall x, match intended l 0 x with
            | None => part_at (k_doc (op_pkg op)) 0 x = None
            | Some given => exists rid packed, map bare packed = map bare (snd given) /\
                part_at (k_doc (op_pkg op)) 0 x = Some (NPart x rid (part_flag (flat_map (reread InPart) packed)) (flat_map (reread InPart) packed))
            end.
Proof. exact header_back. Qed.
(** ** C60: comments *)
(** The comments of the document, each with its text, author, date and the comment it
    answers. *)
Theorem comments_come_back : forall l o k c es png preview m op,
  saved l o k c es -> reopenable k o c -> opened_from k es png preview m op ->
  let cs := seen_comments (d_body (k_doc k)) in
  Forall single cs -> NoDup (comment_ids cs) -> NoDup (map seen (flat_map paras_of_comment cs)) ->
  Forall (fun c => match cd_parent (fst c) with None => True | Some q => In q (comment_ids cs) end) cs ->
  d_comments (k_doc (op_pkg op)) = map reread_thread cs /\
  map (fun c => (fst c, map ParaIdSpec.wipe (snd c))) cs = map (fun c => (fst c, map ParaIdSpec.wipe (snd c))) (seen_comments (d_body (k_doc (calls l)))).
Proof.
  intros l o k c es png preview m op S Re O cs H1 H2 H3 H4. split; [exact (proj1 (comments_back _ _ _ _ _ _ _ _ _ S Re O H1 H2 H3 H4))|].
  exact (comments_given _ _ _ _ _ S Re).
Qed.
(** ** C61: custom properties *)
Theorem custom_properties_come_back : forall l o k c es png preview m op,
  saved l o k c es -> reopenable k o c -> opened_from k es png preview m op ->
  NoDup (map (fun e => seen (fst e)) (o_custom o)) ->
  o_custom (op_rest op) = flat_map reread_custom (o_custom o).
Proof. intros l o k c es png preview m op S Re O. exact (proj2 (proj2 (proj2 (proj2 (rest_back _ _ _ _ _ _ _ _ _ S Re O))))). Qed.
(** ** C62: pictures *)
Theorem body_images_come_back : forall l o k c es png preview m op,
  saved l o k c es -> reopenable k o c -> opened_from k es png preview m op ->
  names_plain l -> links_hold (d_body (k_doc k)) -> Forall (image_lasts png preview) (pics_in (d_body (k_doc (calls l)))) ->
  Forall2 (comes_as (op_images op)) (pics_in (d_body (k_doc (calls l)))) (pics_in (d_body (k_doc (op_pkg op)))) /\
  (Forall (fun p => starts_with "rIdImage" (pic_id p) = true) (pics_in (d_body (k_doc (calls l)))) ->
   Forall2 (clearly_as (op_images op)) (pics_in (d_body (k_doc (calls l)))) (pics_in (d_body (k_doc (op_pkg op))))).
Proof. exact body_images. Qed.
Theorem header_images_come_back : forall l o k c es png preview m op,
  saved l o k c es -> reopenable k o c -> opened_from k es png preview m op ->
  names_plain l -> Forall (fun n => links_hold (part_content n)) (parts_of (k_doc k)) -> in_order l ->
  forall x given, intended l 0 x = Some given -> Forall (image_lasts png preview) (pics_in (snd given)) ->
  exists rid nb ch, part_at (k_doc (op_pkg op)) 0 x = Some (NPart x rid nb ch) /\ Forall2 (comes_as (op_images op)) (pics_in (snd given)) (pics_in ch).
Proof. exact part_images. Qed.
(** ** C63: hyperlinks *)
Theorem links_come_back : forall l o k c es png preview m op,
  saved l o k c es -> reopenable k o c -> opened_from k es png preview m op ->
  let links := seen_links (d_body (k_doc (calls l))) in NoDup (map (fun x => seen (fst x)) links) ->
  Permutation (op_links op) (map (fun x => (seen (fst x), seen (snd x), "External"%string)) links).
Proof. exact links_back. Qed.

(** ** The document above meets the hypotheses *)
Ltac each := repeat match goal with |- Forall _ (_ :: _) => apply Forall_cons | |- Forall _ [] => apply Forall_nil end.
Example sample_in_order : in_order sample /\ intended sample 0 HDefault = Some (head_ "h") /\ intended sample 0 FFirst = None.
Proof.
  split; [|split; reflexivity]. intros []; cbn; repeat (apply SSorted_cons || apply SSorted_nil || apply Forall_cons || apply Forall_nil); unfold before; cbn; lia.
Qed.
Example sample_pictures : names_plain sample /\ length (pics_in (d_body (k_doc (calls sample)))) = 1 /\
  Forall (fun p => starts_with "rIdImage" (pic_id p) = true) (pics_in (d_body (k_doc (calls sample)))) /\
  links_hold (d_body (k_doc (k_of sample))) /\ Forall (fun n => links_hold (part_content n)) (parts_of (k_doc (k_of sample))) /\
  Forall (image_lasts no_png false) (pics_in (d_body (k_doc (calls sample)))).
Proof.
  split. { split; [computed (pics_in (d_body (k_doc (calls sample)))); each; reflexivity|]. computed (parts_of (k_doc (calls sample))).
    each; cbn beta; match goal with |- Forall _ ?a => computed a end; each; reflexivity. }
  split; [vm_compute; reflexivity|]. split; [computed (pics_in (d_body (k_doc (calls sample)))); each; reflexivity|].
  split; [computed (d_body (k_doc (k_of sample))); unfold links_hold; cbn [all_nodes flat_map app]; each; cbn [flat_map all_nodes app]; each; exact I|].
  split; [computed (parts_of (k_doc (k_of sample))); each; unfold links_hold; cbn [part_content all_nodes flat_map app]; each; cbn [flat_map all_nodes app]; each; exact I|].
  apply Forall_forall. intros p _. left. reflexivity.
Qed.
Example sample_comments : let cs := seen_comments (d_body (k_doc (k_of sample))) in
  Forall single cs /\ length cs = 2 /\ NoDup (comment_ids cs) /\ NoDup (map seen (flat_map paras_of_comment cs)) /\
  Forall (fun c => match cd_parent (fst c) with None => True | Some q => In q (comment_ids cs) end) cs.
Proof.
  computed (seen_comments (d_body (k_doc (k_of sample)))). cbv zeta. split; [each; unfold single; repeat eexists|]. split; [reflexivity|].
  split; [PackProperties.distinct|]. split; [vm_compute; PackProperties.distinct|]. each; cbn; tauto.
Qed.
Example sample_custom : NoDup (map (fun e => seen (fst e)) (o_custom rest0)) /\
  flat_map reread_custom (o_custom rest0) = [("author", "someone"); ("R&D", " <x> ")]%string.
Proof. split; [vm_compute; PackProperties.distinct|vm_compute; reflexivity]. Qed.
Example sample_links : seen_links (d_body (k_doc (calls sample))) = [("rIdHyperlink1", "http://a")]%string.
Proof. reflexivity. Qed.
(** What opening it gives. *)
Example sample_opened : exists op st, read_docx no_png false (as_archive (written sample rest0)) 1 = Val op st /\
  map (fun i => (im_id i, im_data i)) (op_images op) = [("headerp1", "other bytes"); ("rIdImage1", "bytes")]%string /\
  map pic_id (pics_in (d_body (k_doc (op_pkg op)))) = ["rIdImage1"]%string /\
  op_links op = [("rIdHyperlink1", "http://a", "External")]%string /\
  map (fun c => (cd_id (fst c), cd_parent (fst c), flat_map (texts InPart) (snd c))) (d_comments (k_doc (op_pkg op))) =
    [(1%N, None, ["first"%string]); (2%N, Some 1%N, ["answer"%string])] /\
  flat_map (texts InDocument) (d_body (k_doc (op_pkg op))) = ["a < b"; "link"]%string /\
  o_custom (op_rest op) = [("author", "someone"); ("R&D", " <x> ")]%string /\
  map shape (d_parts (k_doc (op_pkg op))) = [Some (HDefault, "rIdHeader1"); Some (HFirst, "rIdHeader2"); Some (FEven, "rIdFooter1")]%string.
Proof. do 2 eexists. split; [vm_compute; reflexivity|]. vm_compute. repeat split. Qed.

(** ** What does not come back *)
Definition plain_rest : rest := with_custom ("author", "someone")%string.
Definition opens_to (l : list api) (o : rest) (png : string -> option string) (preview : bool) (P : opened -> Prop) : Prop :=
  exists k c es op st, saved l o k c es /\ read_docx png preview (as_archive es) 1 = Val op st /\ P op.
Ltac opened_case := do 5 eexists; split; [apply is_saved; [PackProperties.typed|vm_compute; reflexivity|vm_compute; reflexivity|reflexivity]|];
  split; [vm_compute; reflexivity|].
(** The first page header attached before the default one: each comes back as the other. *)
Theorem headers_come_back_swapped_refuted :
  opens_to [APart HFirst (head_ "first"); APart HDefault (head_ "default")] plain_rest no_png false (fun op =>
    option_map (fun n => flat_map (texts InPart) (part_content n)) (part_at (k_doc (op_pkg op)) 0 HDefault) = Some ["first"%string] /\
    option_map (fun n => flat_map (texts InPart) (part_content n)) (part_at (k_doc (op_pkg op)) 0 HFirst) = Some ["default"%string]).
Proof. opened_case. split; reflexivity. Qed.
(** The bytes of an image are not those that were given if they begin as a byte order mark. *)
Definition marked : string := String "239" (String "187" (String "191" "rest")).
Theorem marked_image_refuted :
  opens_to [ABlock (para_ [NRun rpr_empty [pic_ "rIdImage1" marked]])] plain_rest no_png false (fun op =>
    map (fun i => (im_id i, im_data i)) (op_images op) = [("rIdImage1", "rest")]%string).
Proof. opened_case. reflexivity. Qed.
(** With previews, an image that cannot be decoded is missing, its picture is not. *)
Theorem undecodable_image_refuted :
  opens_to [ABlock (para_ [NRun rpr_empty [pic_ "rIdImage1" "bytes"]])] plain_rest no_png true (fun op =>
    op_images op = [] /\ map pic_id (pics_in (d_body (k_doc (op_pkg op)))) = ["rIdImage1"]%string).
Proof. opened_case. split; reflexivity. Qed.
(** Two headers whose pictures have the same id and different bytes: after opening, two
    images have the id of both pictures. *)
Theorem header_images_ambiguous_refuted :
  opens_to [APart HDefault (false, [para_ [NRun rpr_empty [pic_ "p" "one"]]]); APart HFirst (false, [para_ [NRun rpr_empty [pic_ "p" "two"]]])]
    plain_rest no_png false (fun op =>
    map (fun i => (im_id i, im_data i)) (op_images op) = [("headerp", "one"); ("headerp", "two")]%string /\
    map (fun n => map pic_id (pics_in [n])) (d_parts (k_doc (op_pkg op))) = [["headerp"]; ["headerp"]]%string).
Proof. opened_case. split; reflexivity. Qed.
(** A picture in a part of a hyperlink that was moved away is gone. *)
Theorem moved_picture_refuted :
  opens_to [ABlock (para_ [NLink (Anchor "a") None [NMoveFrom {| m_author := "a"; m_date := "d" |} [NRun rpr_empty [pic_ "rIdImage1" "bytes"]]]])] plain_rest no_png false (fun op =>
    pics_in (d_body (k_doc (op_pkg op))) = [] /\ map im_id (op_images op) = ["rIdImage1"]%string).
Proof. opened_case. split; reflexivity. Qed.
(** A picture with a reference in its id: its image is not found, since the name of the
    file is not written as a value is. *)
Theorem odd_picture_id_refuted :
  opens_to [ABlock (para_ [NRun rpr_empty [pic_ "a&amp;b" "bytes"]])] plain_rest no_png false (fun op => op_images op = []).
Proof. opened_case. reflexivity. Qed.

Definition all_proved := conj saved_archive_opens (conj ampersand_in_property_refuted (conj body_comes_back (conj texts_come_back (conj surviving_body_comes_back
  (conj other_parts_come_back (conj headers_come_back (conj comments_come_back (conj custom_properties_come_back (conj body_images_come_back
  (conj header_images_come_back (conj links_come_back (conj headers_come_back_swapped_refuted (conj marked_image_refuted (conj undecodable_image_refuted
  (conj header_images_ambiguous_refuted (conj moved_picture_refuted odd_picture_id_refuted)))))))))))))))).
Print Assumptions all_proved.

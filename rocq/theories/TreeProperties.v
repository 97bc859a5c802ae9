(** C22, C23, C24 and C33 for whole documents. *)
From Coq Require Import NArith ZArith List Bool.
From Verif Require Import Str TypesModel Props Ast MediaModel MediaSpec TreeModel TreeSpec TreeProofs.
Import ListNotations.

(** C22 - C24: for every well-typed document, however deeply its pictures are
    nested, packaging succeeds; no two media files share a name or bytes; in the
    main part and in each header and footer no two picture relationships share an id and
    each picture's new id leads to its bytes. *)
Theorem tree_pictures_resolve : forall crc d, doc_well_formed d ->
  exists d' c, collect_package crc d = Some (d', c) /\
    NoDup (map fst (c_media c)) /\ NoDup (map snd (c_media c)) /\
    part_resolves (c_rels c) (c_media c) (pics_in (d_body d)) (pics_in (d_body d')) /\
    parts_resolve (c_header_rels c) (c_media c) (doc_parts true d) (doc_parts true d') /\
    parts_resolve (c_footer_rels c) (c_media c) (doc_parts false d) (doc_parts false d').
Proof.
  intros crc d H. destruct (collect_package_ok crc d H) as (d' & c & A & B & C & D & E & F & _).
  exists d', c. exact (conj A (conj B (conj C (conj D (conj E F))))).
Qed.
Print Assumptions tree_pictures_resolve.

(** C22: nothing in the tree changes but ids and bytes of pictures. *)
Theorem packaging_keeps_tree : forall crc d d' c, doc_well_formed d -> collect_package crc d = Some (d', c) ->
  map wipe_pics (d_body d') = map wipe_pics (d_body d) /\ map wipe_pics (d_parts d') = map wipe_pics (d_parts d) /\
  d_sect d' = d_sect d /\ d_comments d' = d_comments d.
Proof.
  intros crc d d' c H E. destruct (collect_package_ok crc d H) as (d1 & c1 & A & R).
  rewrite A in E. injection E as <- <-. tauto.
Qed.
Print Assumptions packaging_keeps_tree.

(** C33: the footnotes part receives the footnotes of all references of the body,
    in document order, and is declared exactly if there are any. *)
Theorem footnotes_collected : forall crc d d' c, doc_well_formed d -> collect_package crc d = Some (d', c) ->
  d_footnotes d' = d_footnotes d ++ footnotes_in (d_body d) /\
  (c_has_footnotes c = true <-> footnotes_in (d_body d) <> []).
Proof.
  intros crc d d' c H E. destruct (collect_package_ok crc d H) as (d1 & c1 & A & R).
  rewrite A in E. injection E as <- <-. tauto.
Qed.
Print Assumptions footnotes_collected.

(** C33: the public method that collects footnotes adds them as well, so that
    using it before building makes every footnote appear twice. *)
Theorem footnotes_collected_by_method : forall d, doc_well_formed d -> exists d1, collect_footnotes d = Some d1 /\
  d_body d1 = d_body d /\ d_footnotes d1 = d_footnotes d ++ footnotes_in (d_body d).
Proof. exact collect_footnotes_ok. Qed.
Print Assumptions footnotes_collected_by_method.

(** A picture, a nested table with a picture and a footnote, a header with a
    picture with the same id, a section with a footer. *)
Definition picture (id bytes : string) : node :=
  NPic {| pic_id := id; pic_image := bytes; pic_size := (1, 1)%N; pic_anchor := false; pic_simple_pos := false;
          pic_simple_x := 0; pic_simple_y := 0; pic_layout_in_cell := false; pic_relative_height := 0;
          pic_overlap := false; pic_h := Offset 0; pic_v := Offset 0;
          pic_from_h := RelativeFromHType_Character; pic_from_v := RelativeFromVType_Line;
          pic_dist_t := 0; pic_dist_b := 0; pic_dist_l := 0; pic_dist_r := 0; pic_rot := 0 |}.
Definition para (l : list node) : node := NPara "p" ppr_empty false [NRun rpr_empty l].
Definition sample : docx :=
  {| d_body := [ para [picture "i" "AA"];
                 NTable tblpr_default [] false [NRow trpr_empty false [NCell tcpr_empty false
                   [para [picture "i" "BB"; NFootRef 7 "s" [para []]]]]];
                 NSection sectpr_default [NPart FDefault "r" false [para [picture "i" "CC"]]] false [para [picture "x" "BB"]] ];
     d_sect := sectpr_default;
     d_parts := [NPart HDefault "rIdHeader1" false [para [picture "i" "AA"]]];
     d_comments := []; d_footnotes := [] |}.
Example sample_ok : doc_well_formed sample.
Proof.
  unfold doc_well_formed, well_formed. cbn.
  repeat split; repeat (apply Forall_cons; [try reflexivity; repeat (apply Forall_cons; [reflexivity|]); apply Forall_nil|]); try apply Forall_nil.
Qed.
Example sample_collected :
  option_map (fun x => (map pic_id (pics_in (d_body (fst x))), c_rels (snd x), c_media (snd x), c_footer_rels (snd x), d_footnotes (fst x)))
    (collect_package (fun _ => 0%N) sample) =
  Some (["i"; "i_2"; "i_2"], [("i", "media/i.png"); ("i_2", "media/i_2.png")],
        [("i", "AA"); ("i_2", "BB"); ("footeri", "CC")], [[("footeri", "media/footeri.png")]], [(7%N, [para []])]).
Proof. vm_compute. reflexivity. Qed.

(** C22 does not extend to pictures in comments (nor in footnotes): they are
    never registered, so no media file holds their bytes. *)
Theorem comment_picture_lost_refuted : exists crc d d' c p, doc_well_formed d /\ collect_package crc d = Some (d', c) /\
  In (NPic p) (flat_map all_nodes (doc_roots d)) /\ ~ In (pic_image p) (map snd (c_media c)).
Proof.
  pose (d := {| d_body := [NPara "p" ppr_empty false
      [NCommentStart {| cd_id := 1; cd_author := ""; cd_date := ""; cd_parent := None |} [para [picture "i" "AA"]]]];
      d_sect := sectpr_default; d_parts := []; d_comments := []; d_footnotes := [] |}).
  exists (fun _ => 0%N), d, d, {| c_rels := []; c_header_rels := []; c_footer_rels := []; c_media := []; c_has_footnotes := false |}.
  eexists. split; [|split; [vm_compute; reflexivity|split; [|intros []]]].
  - unfold doc_well_formed, well_formed. cbn.
    repeat split; repeat (apply Forall_cons; [try reflexivity; repeat (apply Forall_cons; [reflexivity|]); apply Forall_nil|]); try apply Forall_nil.
  - cbn. right. right. right. right. left. reflexivity.
Qed.
Print Assumptions comment_picture_lost_refuted.

(** C33 does not extend to headers and footers: a footnote reference there gets no
    footnote. *)
Theorem header_footnote_lost_refuted : exists crc d d' c id content, doc_well_formed d /\ collect_package crc d = Some (d', c) /\
  In (NFootRef id "s" content) (flat_map all_nodes (doc_roots d)) /\ d_footnotes d' = [].
Proof.
  pose (d := {| d_body := []; d_sect := sectpr_default;
      d_parts := [NPart HDefault "rIdHeader1" false [para [NFootRef 7 "s" []]]]; d_comments := []; d_footnotes := [] |}).
  exists (fun _ => 0%N), d, d, {| c_rels := []; c_header_rels := [[]]; c_footer_rels := []; c_media := []; c_has_footnotes := false |}.
  exists 7%N, []. split; [|split; [vm_compute; reflexivity|split; [|reflexivity]]].
  - unfold doc_well_formed, well_formed. cbn.
    repeat split; repeat (apply Forall_cons; [try reflexivity; repeat (apply Forall_cons; [reflexivity|]); apply Forall_nil|]); try apply Forall_nil.
  - cbn. auto.
Qed.
Print Assumptions header_footnote_lost_refuted.

(** Opening a saved archive. *)
From Coq Require Import NArith ZArith List Bool Lia Permutation.
From Verif Require Import Str StrFacts ListFacts TypesModel Props Ast TreeModel DepsModel XmlParser XmlSpec ReadBase ReadProps ReadModel StyleModel StyleRead StyleSpec
  ZipNameModel PathModel PackModel PackSpec PackProofs RenderModel OpenModel WellSpec RestSpec RoundSpec RoundNums
  OpenSpec OpenText OpenPath OpenParts OpenRels OpenFiles OpenSides OpenCalls OpenAssign.
From Verif Require BuildModel WellProofs WellRest PackOrderProofs.
Import ListNotations.
Import PackOrderProofs (side_name, side_parts, side_rid, side_count, side_rid_inj).
Import BuildModel (leaf, xcalls, part_calls).
Open Scope list_scope.

Lemma bind_ex A B (m : R A) (f : A -> R B) s a s' (P : B -> Prop) : m s = Val a s' ->
  (exists b st, f a s' = Val b st /\ P b) -> exists b st, bind m f s = Val b st /\ P b.
Proof. intros H X. unfold bind. now rewrite H. Qed.
Lemma get_val a n t r : read_zip a n = Some t -> get a n r = Val t r.
Proof. intros H. unfold get. now rewrite H. Qed.
(** References that were made by calls are read as they are. *)
Lemma refs_same sp : refs_typed sp -> refs_plain sp -> forall x, ref_of (reread_sectpr sp) x = ref_of sp x.
Proof.
  intros Ht Hp x. assert (G : ref_of (reread_sectpr sp) x = option_map reread_ref (ref_of sp x)) by now destruct x. rewrite G. clear G.
  destruct (ref_of sp x) as [r|] eqn:Hr; [|reflexivity]. cbn [option_map]. f_equal. destruct (Hp _ _ Hr) as (n & Hn). apply Ht in Hr. destruct r as [ty id]. cbn [pr_type pr_id] in *. subst.
  unfold reread_ref. cbn [pr_type pr_id]. f_equal.
  destruct (is_head x); [unfold header_rid | unfold footer_rid]; now apply seen_num0.
Qed.
Lemma forall_app3 A (P : A -> Prop) l m : Forall P (l ++ m) -> Forall P l /\ Forall P m.
Proof. apply Forall_app. Qed.

Definition read_comments_as (k : pkg) (o : rest) : list comment :=
  if r_comments (k_doc_rels k) then threaded (reread_exts (o_ext o)) (map reread_comment (d_comments (k_doc k))) else [].
Definition no_numberings : numberings := {| ns_abstracts := []; ns_nums := [] |}.
Section Saved.
  Variables (k : pkg) (o : rest) (c : collected) (s : BuildModel.ids) (es : list entry) (s' : BuildModel.ids).
  Hypothesis packed : pack_docx k o c s = Some (es, s').
  Hypothesis media_apart : NoDup (map fst (c_media c)).
  Hypothesis plain_k : plain_pkg k.
  Hypothesis rels_shape : exists m, k_rels k = rels_default ++ m.
  Hypothesis typed_refs : refs_typed (d_sect (k_doc k)).
  Hypothesis plain_refs : refs_plain (d_sect (k_doc k)).
  Hypothesis parts_are : Forall (fun n => is_part n = true) (parts_of (k_doc k)).
  Hypothesis re : reopenable k o c.
  Notation a := (as_archive es).
  Notation r := (k_doc_rels k).
  Notation sp := (reread_sectpr (d_sect (k_doc k))).
  Lemma strings_are : Forall readable (in_document (d_body (k_doc k)) (d_sect (k_doc k))) /\ Forall readable (flat_map (fun n => in_body (part_content n)) (parts_of (k_doc k))) /\
    Forall readable (in_comments (d_comments (k_doc k))) /\ Forall readable (in_ext (o_ext o)) /\ Forall readable (in_custom (o_custom o)) /\
    Forall readable (in_styles (o_styles o)) /\ Forall readable (in_numberings (o_numberings o)) /\ Forall readable (in_settings (with_even (k_even k) (o_settings o))) /\
    Forall readable (in_doc_rels r) /\ Forall readable (flat_map in_part_rels (c_header_rels c ++ c_footer_rels c)).
  Proof. pose proof (re_strings _ _ _ re) as H. unfold stored in H. rewrite !Forall_app in H. tauto. Qed.
  Lemma good_sides h : Forall good_part (side_parts h (k_doc k)) /\ Forall (fun l => Forall readable (in_part_rels l)) (side_rels h c).
  Proof.
    destruct strings_are as (_ & H1 & _ & _ & _ & _ & _ & _ & _ & H2). pose proof (re_parts _ _ _ re) as H3. rewrite Forall_flat_map in H1, H2.
    unfold parts_of in *. rewrite Forall_app in H1, H2, H3. pose proof parts_are as H4. unfold parts_of in H4. rewrite Forall_app in H4.
    assert (G : forall l, Forall (fun n => Forall readable (in_body (part_content n))) l -> Forall (fun n => forallb (kept InPart) (part_content n) = true /\ Forall fits (part_content n)) l ->
      Forall (fun n => is_part n = true) l -> Forall good_part l).
    { intros l A B C. rewrite Forall_forall in *. intros n Hn. unfold good_part. specialize (A n Hn). specialize (B n Hn). specialize (C n Hn). tauto. }
    destruct h; cbn [side_parts side_rels]; (split; [apply G|]); tauto.
  Qed.
  Definition doc_rels_are : read_rels := fold_left (add_rel_read word) (map meant (map rel_row (written_rels (unlinked r)) ++ map link_row (r_links r))) [].
  Lemma doc_rels_read q : read_rels_of a "word/document.xml" q = Val doc_rels_are q.
  Proof.
    unfold read_rels_of. change (parent "word/document.xml") with (Some word). change (rels_name "word/document.xml") with (Some "word/_rels/document.xml.rels"%string).
    unfold bind, or_fail at 1 2, ret. destruct strings_are as (_ & _ & _ & _ & _ & _ & _ & _ & H & _).
    rewrite (get_val _ _ (text_of ([decl_none] ++ xcalls (x_doc_rels r)))).
    2:{ apply (plain_file k o c s es s' packed media_apart _ XDocRels); [cbn; tauto | reflexivity|]. apply (text_tagged [decl_none]). right. eexists. reflexivity. }
    apply (proj1 (WellRest.doc_rels_well r)) in H. rewrite doc_rels_rows in *. apply (rels_read [decl_none] word); [right; eexists; reflexivity | exact H].
  Qed.
  Lemma doc_rels_targets ty : In ty known_types -> targets doc_rels_are ty = set_of (targets_of r ty).
  Proof. intros H. unfold doc_rels_are. rewrite targets_read. f_equal. now apply doc_targets. Qed.
  Definition heads_ok (l : list (string * part_read)) : Prop :=
    (forall i, (i < r_headers r)%N -> right_entry k c true i l) /\ (forall rid, (forall i, (i < r_headers r)%N -> rid <> header_rid (i + 1)) -> part_by_id rid l = None).
  Definition foots_ok (l : list (string * part_read)) : Prop :=
    (forall i, (i < r_footers r)%N -> right_entry k c false i l) /\ (forall rid, (forall i, (i < r_footers r)%N -> rid <> footer_rid (i + 1)) -> part_by_id rid l = None).
  Variables (png : string -> option string) (preview : bool).
  Definition comes_back (heads foots : list (string * part_read)) (op : opened) : Prop :=
    let d := k_doc (op_pkg op) in let cs := read_comments_as k o in
    d_body d = store_comments cs (flat_map (reread InDocument) (d_body (k_doc k))) /\ d_sect d = sp /\
    (forall x, part_at d 0 x = want sp heads foots x) /\ d_comments d = cs /\ d_footnotes d = [] /\
    o_custom (op_rest op) = fold_left custom_read (o_custom o) [] /\
    o_styles (op_rest op) = reread_styles (o_styles o) /\
    o_numberings (op_rest op) = (if r_numberings r then reread_numberings (o_numberings o) else no_numberings) /\
    o_settings (op_rest op) = reread_settings (with_even (k_even k) (o_settings o)) /\
    o_ext (op_rest op) = match cs with [] => [] | _ => reread_exts (o_ext o) end /\
    op_themes op = [] /\ op_web op = [] /\
    op_images op = add_images png preview a (flat_map (pics sp heads foots) all_slots ++ set_of (map image_target (r_images r))) [] /\
    op_links op = flat_map (fun t : target => match snd t with Some mode => [(fst (fst t), snd (fst t), mode)] | None => [] end) (set_of (map link_target (r_links r))).
  Lemma fixed_plain n f q : In (n, f) fixed_files -> b_noisy k o (PFixed f) = None -> tagged (plain_text k o (PFixed f)) -> get a n q = Val (plain_text k o (PFixed f)) q.
  Proof. intros. apply get_val. now apply (plain_file k o c s es s' packed media_apart _ f). Qed.
  Lemma opens m : (m + ids_taken k < 4294967296)%N ->
    exists heads foots, heads_ok heads /\ foots_ok foots /\ exists op st, read_docx png preview a m = Val op st /\ comes_back heads foots op.
  Proof.
    intros Room. destruct strings_are as (S1 & S2 & S3 & S4 & S5 & S6 & S7 & S8 & S9 & S10). destruct plain_k as (P1 & P2 & P3). destruct rels_shape as (more & Hshape).
    unfold ids_taken, parts_of in Room. rewrite sumN_app in Room.
    set (q0 := {| rs_events := []; rs_para := m |}).
    destruct (good_sides true) as [G1 G2]. destruct (good_sides false) as [G3 G4].
    destruct (side_read k o c s es s' packed media_apart true G1 G2 q0 (r_headers r)) as (heads & nh & Hh & Hnh & Hhead); [change (rs_para q0) with m; cbn [side_parts]; lia|].
    set (q1 := after q0 nh) in *.
    destruct (side_read k o c s es s' packed media_apart false G3 G4 q1 (r_footers r)) as (foots & nf & Hf & Hnf & Hfoot); [change (rs_para q1) with (m + nh)%N; cbn [side_parts] in *; lia|].
    set (q2 := after q1 nf) in *. exists heads, foots. split; [exact Hhead|]. split; [exact Hfoot|].
    unfold read_docx, open_docx. fold q0.
    eapply bind_ex; [apply (fixed_plain _ XTypes); [cbn; tauto | reflexivity | apply (text_tagged [decl_none]); right; eexists; reflexivity]|].
    destruct (types_read (k_types k) q0) as (t' & Ht'). { apply (proj1 (WellRest.types_well _)). now apply types_readable. }
    eapply bind_ex; [exact Ht'|]. cbv beta. clear t' Ht'.
    eapply bind_ex; [apply (fixed_plain _ XRels); [cbn; tauto | reflexivity | apply (text_tagged [decl_none]); right; eexists; reflexivity]|].
    eapply bind_ex. { apply package_rels_read. apply (proj1 (WellRest.package_rels_well _)). now apply rels_readable. }
    rewrite Hshape. rewrite map_app.
    assert (T1 : find_target (office_rel "officeDocument") (map seen_rel rels_default ++ map seen_rel more) =
      Some (mk_rel "rId3" (office_rel "officeDocument") "word/document.xml")) by (vm_compute (map seen_rel rels_default); reflexivity).
    assert (T2 : find_target (office_rel "custom-properties") (map seen_rel rels_default ++ map seen_rel more) =
      Some (mk_rel "rId4" (office_rel "custom-properties") "docProps/custom.xml")) by (vm_compute (map seen_rel rels_default); reflexivity).
    rewrite T1, T2. clear T1 T2. cbv zeta iota. cbn [rel_target mk_rel].
    eapply bind_ex.
    { unfold bind at 1. unfold attempt, bind at 1. rewrite (fixed_plain "docProps/custom.xml" XCustomProps); [|cbn; tauto | reflexivity | apply (text_tagged [BuildModel.decl]), decl_declaring].
      cbn [plain_text]. rewrite custom_text_read by (apply (proj1 (WellRest.custom_well _)); exact S5). reflexivity. }
    eapply bind_ex; [apply doc_rels_read|].
    rewrite !doc_rels_targets by (cbn; tauto).
    change (targets_of r (office_rel "header")) with (map header_target (upto (r_headers r))). rewrite header_targets.
    change (targets_of r (office_rel "footer")) with (map footer_target (upto (r_footers r))). rewrite footer_targets.
    change (targets_of r (office_rel "theme")) with (@nil target). change (set_of []) with (@nil target).
    eapply bind_ex; [exact Hh|]. fold q1. eapply bind_ex; [exact Hf|]. fold q2.
    eapply bind_ex; [reflexivity|].
    assert (F1 : first_path doc_rels_are type_comments_ext = Some "word/commentsExtended.xml"%string).
    { unfold first_path. rewrite doc_rels_targets by (cbn; tauto). reflexivity. }
    assert (F2 : first_path doc_rels_are (office_rel "comments") = if r_comments r then Some "word/comments.xml"%string else None).
    { unfold first_path. rewrite doc_rels_targets by (cbn; tauto). change (targets_of r (office_rel "comments")) with (one (r_comments r) "rId6" "word/comments.xml").
      now destruct (r_comments r). }
    assert (F3 : first_path doc_rels_are (office_rel "styles") = Some "word/styles.xml"%string).
    { unfold first_path. rewrite doc_rels_targets by (cbn; tauto). reflexivity. }
    assert (F4 : first_path doc_rels_are (office_rel "numbering") = if r_numberings r then Some "word/numbering.xml"%string else None).
    { unfold first_path. rewrite doc_rels_targets by (cbn; tauto). change (targets_of r (office_rel "numbering")) with (one (r_numberings r) "rId7" "word/numbering.xml").
      now destruct (r_numberings r). }
    assert (F5 : first_path doc_rels_are (office_rel "settings") = Some "word/settings.xml"%string).
    { unfold first_path. rewrite doc_rels_targets by (cbn; tauto). reflexivity. }
    assert (F6 : first_path doc_rels_are (office_rel "webSettings") = None).
    { unfold first_path. rewrite doc_rels_targets by (cbn; tauto). reflexivity. }
    eapply bind_ex.
    { unfold named_part_if_there. rewrite F1.
      rewrite (plain_file k o c s es s' packed media_apart _ XCommentsExt); [|cbn; tauto | reflexivity | apply (text_tagged []); now left].
      cbn [plain_text]. apply ext_text_read. apply (proj1 (WellRest.ext_well _)). exact S4. }
    set (nc := if r_comments r then paras_in (d_comments (k_doc k)) else 0%N). set (q3 := after q2 nc).
    destruct (re_comments _ _ _ re) as [C1 C2].
    eapply (bind_ex _ _ _ _ _ (read_comments_as k o) q3).
    { unfold bind. unfold named_part_if_there. rewrite F2. unfold read_comments_as, q3, nc. destruct (r_comments r).
      - destruct (fixed_file k o c s es s' packed media_apart "word/comments.xml" XComments ltac:(cbn; tauto)) as (s1 & s2 & t & Hr & Hz).
        destruct (comments_text k o s1 t s2 q2 Hr S3 C1 C2) as [Htag Hread]; [change (rs_para q2) with (m + nh + nf)%N; cbn [side_parts] in *; lia|].
        rewrite Hz, tagged_bom by exact Htag. rewrite Hread. reflexivity.
      - unfold ret. rewrite N.add_0_r. destruct q2; reflexivity. }
    destruct (fixed_file k o c s es s' packed media_apart "word/document.xml" XDocument ltac:(cbn; tauto)) as (s1 & s2 & t & Hr & Hz).
    destruct (re_body _ _ _ re) as [B1 B2].
    assert (Hq3 : (rs_para q3 + sumN paras (d_body (k_doc k)) < 4294967296)%N).
    { change (rs_para q3) with (m + nh + nf + nc)%N. assert (nc <= paras_in (d_comments (k_doc k)))%N by (unfold nc; destruct (r_comments r); lia). cbn [side_parts] in *; lia. }
    destruct (document_text k o s1 t s2 q3 Hr S1 B1 B2 (re_sect _ _ _ re) Hq3) as [Htag Hread].
    eapply bind_ex; [apply get_val; rewrite Hz, tagged_bom by exact Htag; reflexivity|].
    eapply bind_ex; [exact Hread|]. clear Hr Hz Hread Htag t s1 s2. set (q4 := after q3 (sumN paras (d_body (k_doc k)))).
    cbv beta zeta. cbn [fst snd].
    set (d0 := {| d_body := flat_map (reread InDocument) (d_body (k_doc k)); d_sect := sp; d_parts := []; d_comments := []; d_footnotes := [] |}).
    assert (Hrefs : refs_typed sp). { intros x rr Hx. rewrite refs_same in Hx by assumption. now apply typed_refs. }
    pose proof (assign_all sp heads foots Hrefs d0 eq_refl eq_refl (set_doc pkg_new (k_doc_rels pkg_new) d0) eq_refl) as Inv.
    revert Inv. destruct (assign FEven foots _) as [k1 media]. intros ((I1 & I2 & I3 & I4) & _ & I6 & I7). cbn [fst snd] in *.
    set (cs := read_comments_as k o) in *.
    set (k2 := match cs with [] => k1 | _ => _ end).
    assert (K : d_body (k_doc k2) = store_comments cs (flat_map (reread InDocument) (d_body (k_doc k))) /\ d_sect (k_doc k2) = sp /\
                d_parts (k_doc k2) = d_parts (k_doc k1) /\ d_comments (k_doc k2) = cs /\ d_footnotes (k_doc k2) = []).
    { unfold k2. destruct cs as [|c1 cs1].
      - rewrite store_nil. repeat split; assumption.
      - cbn [set_doc k_doc d_body d_sect d_parts d_comments d_footnotes]. rewrite I1. repeat split; assumption. }
    destruct K as (K1 & K2 & K3 & K4 & K5).
    destruct (fixed_file k o c s es s' packed media_apart "word/styles.xml" XStyles ltac:(cbn; tauto)) as (s1 & s2 & t & Hr & Hz).
    assert (Hq4 : (rs_para q4 < 4294967296)%N) by exact Hq3.
    destruct (styles_text k o s1 t s2 q4 Hr S6 (re_styles _ _ _ re) Hq4) as [Htag Hread].
    eapply bind_ex. { unfold named_part. rewrite F3. unfold bind. rewrite (get_val _ _ t) by (rewrite Hz, tagged_bom by exact Htag; reflexivity). exact Hread. }
    clear Hr Hz Hread Htag t s1 s2.
    eapply (bind_ex _ _ _ _ _ (if r_numberings r then reread_numberings (o_numberings o) else no_numberings) q4).
    { unfold named_part. rewrite F4. destruct (r_numberings r); [|reflexivity].
      destruct (fixed_file k o c s es s' packed media_apart "word/numbering.xml" XNumbering ltac:(cbn; tauto)) as (s1 & s2 & t & Hr & Hz).
      destruct (numberings_text k o s1 t s2 q4 Hr S7 (re_numberings _ _ _ re) Hq4) as [Htag Hread].
      unfold bind. rewrite (get_val _ _ t) by (rewrite Hz, tagged_bom by exact Htag; reflexivity). exact Hread. }
    eapply bind_ex.
    { unfold named_part. rewrite F5. unfold bind. rewrite (fixed_plain _ XSettings); [|cbn; tauto | reflexivity | apply (text_tagged [BuildModel.decl]), decl_declaring].
      cbn [plain_text]. apply settings_text; [exact S8 | exact (re_settings _ _ _ re) | exact Hq4]. }
    eapply bind_ex. { unfold named_part. rewrite F6. reflexivity. }
    eexists _, q4. split; [reflexivity|].
    unfold comes_back. cbn [op_pkg op_rest op_themes op_web op_images op_links o_custom o_styles o_numberings o_settings o_ext]. fold cs.
    repeat split; try assumption; try reflexivity.
    - intros x. specialize (I6 x). unfold part_at in *. cbn [parts_at] in *. rewrite K3. rewrite I6. now destruct x.
    - now rewrite I7.
  Qed.
End Saved.

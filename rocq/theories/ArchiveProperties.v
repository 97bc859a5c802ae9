(** C64 to C66: opening any archive, whatever wrote it.
    [main_of], [sides_of], ...: the names of the files that the relationships in the
    archive lead to (ArchiveSpec.v).  [read_zip a n]: what the archive has under the name
    [n].  [c]: the counter of paragraph ids. *)
From Coq Require Import NArith ZArith List Bool Lia Permutation.
From Verif Require Import Str StrFacts TypesModel Props Ast TreeModel TreeSpec XmlParser XmlProofs XmlTree ReadBase ReadModel StyleModel OpenModel ZipNameModel ZipNameProofs PackModel RenderModel ReadSpec StyleSpec RoundSpec SurviveSpec OpenSpec OpenParts
  ArchiveSpec ArchiveProofs ArchiveReturns ArchiveOptional.
From Verif Require ReadProperties.
Import ListNotations.
Open Scope list_scope.

(** ** C64: which files decide *)
(** Only the files the relationships lead to, with the content types, matter: two archives
    that have the same under these names open alike. *)
Theorem only_named_files_matter : forall png preview a b c,
  (forall n, In n (xml_files a ++ image_files a) -> read_zip b n = read_zip a n) ->
  read_docx png preview b c = read_docx png preview a c.
Proof. exact same_outcome. Qed.
(** So one more file, with a name no relationship leads to, changes nothing, ... *)
Lemma by_name_middle a1 e a2 n : fst e <> n -> by_name (a1 ++ e :: a2) n = by_name (a1 ++ a2) n.
Proof.
  intros H. induction a1 as [|[m d] a1 IH]; cbn [app by_name].
  - destruct e as [m d]. cbn [fst] in H. destruct (by_name a2 n); [reflexivity|]. now destruct (String.eqb_spec m n).
  - now rewrite IH.
Qed.
Theorem other_file_does_not_matter : forall png preview before after name data c,
  (forall n, In n (xml_files (before ++ after) ++ image_files (before ++ after)) -> zip_path n <> name) ->
  read_docx png preview (before ++ (name, data) :: after) c = read_docx png preview (before ++ after) c.
Proof.
  intros png preview before after name data c H. apply same_outcome. intros n Hn. unfold read_zip. f_equal. apply by_name_middle. cbn. intros X. now apply (H n Hn).
Qed.
(** ... nor does the order of the entries. *)
Theorem entry_order_does_not_matter : forall png preview a b c,
  NoDup (map fst a) -> Permutation a b -> read_docx png preview b c = read_docx png preview a c.
Proof.
  intros png preview a b c Hn Hp. apply same_outcome. intros n _. unfold read_zip. f_equal.
  assert (Hb : NoDup (map fst b)) by (eapply Permutation_NoDup; [apply Permutation_map; exact Hp|exact Hn]).
  destruct (by_name a (zip_path n)) as [d|] eqn:E.
  - apply by_name_in; [exact Hb|]. apply by_name_spec in E as (p & s & -> & _). eapply Permutation_in; [exact Hp|]. apply in_or_app. right. now left.
  - apply by_name_none. intros X. apply (Permutation_in _ (Permutation_map fst (Permutation_sym Hp))), by_name_some in X as [d X]. congruence.
Qed.

(** ** C65: what has to be there *)
(** An archive that opens has its content types, the relationships of the package, the
    document, its relationships and the styles, numberings, settings and web settings that
    they name. *)
Theorem opening_needs_the_named_parts : forall png preview a c op s',
  read_docx png preview a c = Val op s' -> Forall (present a) (needed_files a).
Proof. exact opening_needs. Qed.
(** Custom properties, headers, footers, themes, comments, their marks and images may be
    missing although relationships name them: if all are, opening is reading the others one
    after the other. *)
Theorem optional_parts_may_be_missing : forall png preview a c,
  Forall (fun n => ~ present a n) (optional_files a) ->
  read_docx png preview a c = document_only a {| rs_events := []; rs_para := c |}.
Proof. exact optional_missing. Qed.

(** ** C66: opening comes back *)
(** If every file that is read is complete XML, the relationships are [Relationships] and
    the styles are [styles], opening does not go round for ever. *)
Theorem archive_read_returns : forall png preview a c,
  each_file a (xml_files a) complete_text ->
  each_file a (rels_files a) (closes_one "Relationships") ->
  each_file a (styles_files a) (root_named "styles") ->
  returns (read_docx png preview a c).
Proof. intros png preview a c H1 H2 H3. now apply opening_returns. Qed.
(** If no content type, extended comment or element of the parts with paragraphs lacks an
    attribute it must have, and there are ids left, opening does not panic, complete or
    not. *)
Theorem archive_read_no_panic : forall png preview a c,
  each_file a ["[Content_Types].xml"%string] types_sound ->
  each_file a (ext_files a) ext_sound ->
  each_file a (main_of a :: sides_of a ++ comment_files a) (sound_text []) ->
  each_file a (styles_files a) (sound_text style_needs) ->
  each_file a (numbering_files a) (sound_text numbering_needs) ->
  (c + events_all a (paragraph_files a) < 4294967296)%N ->
  read_docx png preview a c <> Panic.
Proof. intros png preview a c H1 H2 H3 H4 H5 H6. now apply opening_calm. Qed.
(** Then what is missing is reported. *)
Theorem missing_part_is_reported : forall png preview a c,
  each_file a (xml_files a) complete_text ->
  each_file a (rels_files a) (closes_one "Relationships") ->
  each_file a (styles_files a) (root_named "styles") ->
  each_file a ["[Content_Types].xml"%string] types_sound ->
  each_file a (ext_files a) ext_sound ->
  each_file a (main_of a :: sides_of a ++ comment_files a) (sound_text []) ->
  each_file a (styles_files a) (sound_text style_needs) ->
  each_file a (numbering_files a) (sound_text numbering_needs) ->
  (c + events_all a (paragraph_files a) < 4294967296)%N ->
  (exists n, In n (needed_files a) /\ ~ present a n) -> exists s', read_docx png preview a c = Err s'.
Proof.
  intros png preview a c C1 C2 C3 H1 H2 H3 H4 H5 H6 (n & Hn & Hm).
  pose proof (archive_read_returns png preview a c C1 C2 C3) as R. pose proof (archive_read_no_panic png preview a c H1 H2 H3 H4 H5 H6) as P.
  destruct (read_docx png preview a c) as [op s'|s'| | |] eqn:Eo; try contradiction; [|now exists s'].
  exfalso. apply Hm. exact (proj1 (Forall_forall _ _) (opening_needs _ _ _ _ _ _ Eo) n Hn).
Qed.

(** ** A case *)
Definition types_file : string * string := ("[Content_Types].xml", "<Types><Default Extension='xml' ContentType='application/xml'/></Types>")%string.
Definition rel_ (id kind target : string) : string :=
  "<Relationship Id='" +++ id +++ "' Type='" +++ office_rel kind +++ "' Target='" +++ target +++ "'/>".
Definition rels_ (l : list string) : string := "<Relationships>" +++ String.concat "" l +++ "</Relationships>".
Definition package_file : string * string := ("_rels/.rels", rels_ [rel_ "a" "officeDocument" "word/main.xml"])%string.
Definition relations_file (l : list string) : string * string := ("word/_rels/main.xml.rels", rels_ l)%string.
Definition main_file : string * string :=
  ("word/main.xml", "<w:document><w:body><w:p><w:r><w:t>x</w:t></w:r></w:p><w:sectPr><w:headerReference w:type='default' r:id='h'/></w:sectPr></w:body></w:document>")%string.
Definition header_file : string * string := ("word/top.xml", "<w:hdr><w:p><w:r><w:t>top</w:t></w:r></w:p></w:hdr>")%string.
Definition styles_file : string * string := ("word/s.xml", "<w:styles><w:style w:styleId='A'><w:name w:val='a'/></w:style></w:styles>")%string.
Definition small : archive :=
  [types_file; package_file; relations_file [rel_ "h" "header" "top.xml"; rel_ "s" "styles" "s.xml"]; main_file; header_file; styles_file].
Definition no_png (s : string) : option string := None.
Example small_opens : exists op s', read_docx no_png false small 1 = Val op s' /\
  flat_map (texts InDocument) (d_body (k_doc (op_pkg op))) = ["x"]%string /\ length (ss_list (o_styles (op_rest op))) = 1 /\
  map (fun n => flat_map (texts InPart) (part_content n)) (d_parts (k_doc (op_pkg op))) = [["top"]]%string.
Proof. do 2 eexists. split; [vm_compute; reflexivity|]. vm_compute. repeat split. Qed.
Example small_files : xml_files small ++ image_files small =
  ["[Content_Types].xml"; "_rels/.rels"; "word/main.xml"; "word/_rels/main.xml.rels"; "word/_rels/top.xml.rels"; "word/top.xml"; "word/s.xml"]%string.
Proof. vm_compute. reflexivity. Qed.
(** The hypotheses of [other_file_does_not_matter] and [entry_order_does_not_matter]. *)
Example small_other_file : (forall n, In n (xml_files small ++ image_files small) -> zip_path n <> "docProps/thumbnail.jpeg"%string) /\ NoDup (map fst small).
Proof.
  split; [rewrite small_files; intros n H; repeat destruct H as [<-|H]; try (vm_compute; discriminate); destruct H|].
  vm_compute. repeat constructor; intros H; cbn in H; intuition discriminate.
Qed.
Ltac each_one := intros n t Hn Ht; vm_compute in Hn; repeat (destruct Hn as [<-|Hn]); try destruct Hn; vm_compute in Ht; try discriminate; injection Ht as <-.
Ltac no_error := intros H; vm_compute in H; repeat (destruct H as [H|H]; [discriminate|]); exact H.
Ltac sound_file := unfold sound_text; match goal with |- Forall _ ?l => let v := eval vm_compute in l in change l with v end;
  repeat (apply Forall_cons; [unfold sound_for, sound_event, sound_tag, needs_attribute, needs_width, has_points, style_needs, numbering_needs; cbn [q_local In]; repeat split; intros; intuition (try discriminate; try congruence)|]);
  apply Forall_nil.
Lemma small_complete : each_file small (xml_files small) complete_text.
Proof. each_one; (apply ReadProperties.complete_by_events; [vm_compute; reflexivity|no_error]). Qed.
Lemma small_rels : each_file small (rels_files small) (closes_one "Relationships").
Proof. each_one. eexists. split; [vm_compute; do 5 right; left; reflexivity|reflexivity]. Qed.
Lemma small_styles : each_file small (styles_files small) (root_named "styles").
Proof. each_one. exists 0%nat. do 2 eexists. split; [vm_compute; reflexivity|]. split; [reflexivity|intros m q a X; inversion X]. Qed.
Lemma small_types : each_file small ["[Content_Types].xml"%string] types_sound.
Proof.
  each_one. intros pre q atts post. match goal with |- ?l = _ -> _ => let v := eval vm_compute in l in change l with v end.
  destruct pre as [|e1 [|e2 [|e3 [|e4 [|e5 pre]]]]]; cbn [app]; intros H D; inversion H; subst; try discriminate D; cbn [length]; auto.
Qed.
Lemma small_ext : each_file small (ext_files small) ext_sound.
Proof. intros n t Hn. vm_compute in Hn. destruct Hn. Qed.
Lemma small_sound : each_file small (main_of small :: sides_of small ++ comment_files small) (sound_text []).
Proof. each_one; sound_file. Qed.
Lemma small_styles_sound : each_file small (styles_files small) (sound_text style_needs).
Proof. each_one; sound_file. Qed.
Lemma small_numbering_sound : each_file small (numbering_files small) (sound_text numbering_needs).
Proof. intros n t Hn. vm_compute in Hn. destruct Hn. Qed.
Lemma small_ids : (1 + events_all small (paragraph_files small) < 4294967296)%N.
Proof. vm_compute. reflexivity. Qed.
(** The same archive without its styles meets them too, and opening it is an error. *)
Definition lacking : archive := [types_file; package_file; relations_file [rel_ "h" "header" "top.xml"; rel_ "s" "styles" "s.xml"]; main_file; header_file].
Example lacking_reported : In "word/s.xml"%string (needed_files lacking) /\ ~ present lacking "word/s.xml" /\ exists s', read_docx no_png false lacking 1 = Err s'.
Proof. split; [vm_compute; auto 8|]. split; [intros H; apply H; vm_compute; reflexivity|]. eexists. vm_compute. reflexivity. Qed.
Lemma lacking_types : each_file lacking ["[Content_Types].xml"%string] types_sound.
Proof. intros n t [<-|[]] H. apply (small_types _ t (or_introl eq_refl)). rewrite <- H. vm_compute. reflexivity. Qed.
Example lacking_meets :
  each_file lacking (xml_files lacking) complete_text /\ each_file lacking (rels_files lacking) (closes_one "Relationships") /\
  each_file lacking (styles_files lacking) (root_named "styles") /\ each_file lacking (ext_files lacking) ext_sound /\
  each_file lacking (main_of lacking :: sides_of lacking ++ comment_files lacking) (sound_text []) /\
  each_file lacking (styles_files lacking) (sound_text style_needs) /\ each_file lacking (numbering_files lacking) (sound_text numbering_needs) /\
  (1 + events_all lacking (paragraph_files lacking) < 4294967296)%N.
Proof.
  split; [|split; [|split; [|split; [|split; [|split; [|split]]]]]].
  - each_one; (apply ReadProperties.complete_by_events; [vm_compute; reflexivity|no_error]).
  - each_one. eexists. split; [vm_compute; do 5 right; left; reflexivity|reflexivity].
  - each_one.
  - intros n t Hn. vm_compute in Hn. destruct Hn.
  - each_one; sound_file.
  - each_one.
  - intros n t Hn. vm_compute in Hn. destruct Hn.
  - vm_compute. reflexivity.
Qed.
(** The main part and the styles are there, nothing else that is named: it opens. *)
Definition bare_package : string * string := ("_rels/.rels", rels_ [rel_ "a" "officeDocument" "word/main.xml"; rel_ "b" "custom-properties" "docProps/custom.xml"])%string.
Definition bare : archive := [types_file; bare_package;
  relations_file [rel_ "h" "header" "top.xml"; rel_ "f" "footer" "foot.xml"; rel_ "t" "theme" "t.xml"; rel_ "c" "comments" "c.xml"; rel_ "s" "styles" "s.xml"; rel_ "i" "image" "i.png";
    "<Relationship Id='e' Type='http://schemas.microsoft.com/office/2011/relationships/commentsExtended' Target='e.xml'/>"%string]; main_file; styles_file].
Example bare_opens : length (optional_files bare) = 7 /\ Forall (fun n => ~ present bare n) (optional_files bare) /\
  exists op s', read_docx no_png false bare 1 = Val op s' /\ flat_map (texts InDocument) (d_body (k_doc (op_pkg op))) = ["x"]%string /\
  length (ss_list (o_styles (op_rest op))) = 1.
Proof.
  split; [vm_compute; reflexivity|]. split.
  - match goal with |- Forall _ ?l => let v := eval vm_compute in l in change l with v end. repeat constructor; intros H; apply H; vm_compute; reflexivity.
  - do 2 eexists. split; [vm_compute; reflexivity|]. vm_compute. repeat split.
Qed.
(** Without its header it opens, and the header is left out. *)
Example without_header : exists op s', read_docx no_png false [types_file; package_file; relations_file [rel_ "h" "header" "top.xml"; rel_ "s" "styles" "s.xml"]; main_file; styles_file] 1 = Val op s' /\
  flat_map (texts InDocument) (d_body (k_doc (op_pkg op))) = ["x"]%string /\ d_parts (k_doc (op_pkg op)) = [].
Proof. do 2 eexists. split; [vm_compute; reflexivity|]. vm_compute. repeat split. Qed.

(** ** What goes wrong *)
(** A name that is there twice: the order decides. *)
Definition body_texts (o : out opened) : list string :=
  match o with Val op _ => flat_map (texts InDocument) (d_body (k_doc (op_pkg op))) | _ => [] end.
Theorem repeated_name_refuted : exists a b, Permutation a b /\
  body_texts (read_docx no_png false a 1) = [] /\ body_texts (read_docx no_png false b 1) = ["x"]%string.
Proof.
  exists [types_file; package_file; relations_file []; main_file; ("word/main.xml", "<w:document/>")%string],
    [types_file; package_file; relations_file []; ("word/main.xml", "<w:document/>")%string; main_file].
  split; [do 3 apply perm_skip; apply perm_swap|]. split; vm_compute; reflexivity.
Qed.
(** Relationships of the document with another root: opening goes round for ever. *)
Theorem other_rels_root_refuted : exists a, each_file a (xml_files a) complete_text /\ each_file a (styles_files a) (root_named "styles") /\
  read_docx no_png false a 1 = Hang.
Proof.
  exists [types_file; package_file; ("word/_rels/main.xml.rels", "<none/>")%string; main_file]. split; [|split].
  - each_one; (apply ReadProperties.complete_by_events; [vm_compute; reflexivity|no_error]).
  - intros n t Hn. vm_compute in Hn. destruct Hn.
  - vm_compute. reflexivity.
Qed.
(** So do styles with another root, ... *)
Theorem other_styles_root_refuted : exists a, each_file a (xml_files a) complete_text /\ each_file a (rels_files a) (closes_one "Relationships") /\
  read_docx no_png false a 1 = Hang.
Proof.
  exists [types_file; package_file; relations_file [rel_ "s" "styles" "s.xml"]; main_file; ("word/s.xml", "<none/>")%string]. split; [|split].
  - each_one; (apply ReadProperties.complete_by_events; [vm_compute; reflexivity|no_error]).
  - each_one. eexists. split; [vm_compute; do 3 right; left; reflexivity|reflexivity].
  - vm_compute. reflexivity.
Qed.
(** ... and relationships of the document that are cut short, although they would be
    enough to go on. *)
Theorem cut_rels_refuted : exists a, read_docx no_png false a 1 = Hang /\
  exists t, read_zip a "word/_rels/main.xml.rels" = Some t /\ t +++ "</Relationships>" = rels_ [].
Proof.
  exists [types_file; package_file; ("word/_rels/main.xml.rels", "<Relationships>")%string; main_file]. split; [vm_compute; reflexivity|].
  eexists. split; vm_compute; reflexivity.
Qed.
(** A content type with one attribute, and an extended comment without its paragraph,
    make opening panic. *)
Theorem short_content_type_refuted : exists a, each_file a (xml_files a) complete_text /\ read_docx no_png false a 1 = Panic.
Proof.
  exists [("[Content_Types].xml", "<Types><Default Extension='xml'/></Types>")%string; package_file; relations_file []; main_file]. split.
  - each_one; (apply ReadProperties.complete_by_events; [vm_compute; reflexivity|no_error]).
  - vm_compute. reflexivity.
Qed.
Theorem short_extended_comment_refuted : exists a, each_file a (xml_files a) complete_text /\ read_docx no_png false a 1 = Panic.
Proof.
  exists [types_file; package_file;
    relations_file ["<Relationship Id='e' Type='http://schemas.microsoft.com/office/2011/relationships/commentsExtended' Target='e.xml'/>"%string]; main_file;
    ("word/e.xml", "<w15:commentsEx><w15:commentEx/></w15:commentsEx>")%string]. split.
  - each_one; (apply ReadProperties.complete_by_events; [vm_compute; reflexivity|no_error]).
  - vm_compute. reflexivity.
Qed.

Definition all_proved := conj only_named_files_matter (conj other_file_does_not_matter (conj entry_order_does_not_matter (conj opening_needs_the_named_parts (conj optional_parts_may_be_missing
  (conj archive_read_returns (conj archive_read_no_panic (conj missing_part_is_reported (conj repeated_name_refuted (conj other_rels_root_refuted
  (conj other_styles_root_refuted (conj cut_rels_refuted (conj short_content_type_refuted short_extended_comment_refuted)))))))))))).
Print Assumptions all_proved.

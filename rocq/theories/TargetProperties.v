(** C72: which file of an archive a relationship leads to.
    [says_rel t ty id target mode]: the text [t] has such a relationship; [taken]: how its
    target is joined to the directory of the part; [at_ names]: the names with slashes
    between them; [main_of], [rels_of], [first_of]: ArchiveSpec.v. *)
From Coq Require Import NArith ZArith List Bool String Lia.
From Verif Require Import Str XmlParser XmlProofs ZipNameModel PathModel PackModel ReadBase ReadModel OpenModel ReadSpec RenderModel StyleModel StyleRead ReadProps Ast Props TreeModel DepsModel ArchiveSpec TargetSpec TargetProofs TargetOpens.
From Verif Require ArchiveProperties.
Import ListNotations.
Open Scope list_scope.

(** The main document is the target of the first relationship of the package that has the
    type of documents; if there is none, [word/document.xml]. *)
Theorem main_document_is_first_named : forall a t, read_zip a "_rels/.rels" = Some t -> ~ In EErr (events_of t) ->
  (forall target, first_of_type t (office_rel "officeDocument") target -> main_of a = target) /\
  (none_of_type (events_of t) (office_rel "officeDocument") -> main_of a = "word/document.xml"%string).
Proof.
  intros a t Ht He. unfold main_of. split.
  - intros target H. destruct (package_first a t _ _ Ht He H) as (r & -> & <-). reflexivity.
  - intros H. now rewrite (package_none a t _ Ht He H).
Qed.
(** The file of custom properties likewise; if none is named there is none. *)
Theorem custom_file_is_first_named : forall a t, read_zip a "_rels/.rels" = Some t -> ~ In EErr (events_of t) ->
  (forall target, first_of_type t (office_rel "custom-properties") target -> custom_files a = [target]) /\
  (none_of_type (events_of t) (office_rel "custom-properties") -> custom_files a = []).
Proof.
  intros a t Ht He. unfold custom_files. split.
  - intros target H. destruct (package_first a t _ _ Ht He H) as (r & -> & <-). reflexivity.
  - intros H. now rewrite (package_none a t _ Ht He H).
Qed.

(** The relationships of a part are looked for beside it, in [_rels], under its name with
    [.rels], exactly if its name ends in [.xml] and has no other dot (but in front). *)
Theorem part_relationships_found_iff : forall s ds f, (s = "" \/ s = "/")%string -> Forall plain_name ds -> plain_name f ->
  (rels_name (s +++ at_ (ds ++ [f])) = Some (s +++ at_ (ds ++ ["_rels"%string; f +++ ".rels"])) <-> xml_name f).
Proof. exact rels_found_iff. Qed.

(** What is read from that file, for every type of relationships: each relationship, taken
    from the directory of the part, and nothing else.  (Of two with the same id and mode
    whose targets are the same path one is kept.) *)
Theorem relationships_are_read : forall a s ds f t, (s = "" \/ s = "/")%string -> Forall plain_name ds -> plain_name f -> xml_name f ->
  read_zip a (s +++ at_ (ds ++ ["_rels"%string; f +++ ".rels"])) = Some t -> ~ In EErr (events_of t) -> closes_one "Relationships" t ->
  forall ty,
  (forall id p mode, In (id, p, mode) (targets (rels_of a (s +++ at_ (ds ++ [f]))) ty) ->
     exists target, says_rel t ty id target mode /\ taken (s +++ at_ ds) ty target p) /\
  (forall id target mode, says_rel t ty id target mode ->
     exists p q, In (id, p, mode) (targets (rels_of a (s +++ at_ (ds ++ [f]))) ty) /\ taken (s +++ at_ ds) ty target q /\ same_path p q).
Proof.
  intros a s ds f t Hs Hd Hf Hx Ht He Hc ty. assert (Hn := proj2 (rels_found_iff s ds f Hs Hd Hf) Hx).
  assert (Hp : parent (s +++ at_ (ds ++ [f])) = Some (s +++ at_ ds)) by (rewrite !at_join; apply names_parent; auto using plain_names, plain_is_name).
  split.
  - intros id p mode. exact (target_comes_from a _ _ _ t Hp Hn Ht He Hc ty id p mode).
  - intros id target mode. exact (target_is_read a _ _ _ t Hp Hn Ht He Hc ty id target mode).
Qed.

(** Of several relationships of one type the one with the least id, as a string, is the
    first: for styles, numberings, settings, web settings and comments it alone counts. *)
Theorem least_id_is_first : forall a s ds f t, (s = "" \/ s = "/")%string -> Forall plain_name ds -> plain_name f -> xml_name f ->
  read_zip a (s +++ at_ (ds ++ ["_rels"%string; f +++ ".rels"])) = Some t -> ~ In EErr (events_of t) -> closes_one "Relationships" t ->
  forall ty first others, targets (rels_of a (s +++ at_ (ds ++ [f]))) ty = first :: others ->
  forall id target mode, says_rel t ty id target mode -> String.compare (fst (fst first)) id <> Gt.
Proof.
  intros a s ds f t Hs Hd Hf Hx Ht He Hc ty first others Hl id target mode H. assert (Hn := proj2 (rels_found_iff s ds f Hs Hd Hf) Hx).
  assert (Hp : parent (s +++ at_ (ds ++ [f])) = Some (s +++ at_ ds)) by (rewrite !at_join; apply names_parent; auto using plain_names, plain_is_name).
  destruct (proj2 (relationships_are_read a s ds f t Hs Hd Hf Hx Ht He Hc ty) id target mode H) as (p & q & Hi & _). rewrite Hl in Hi.
  rewrite (part_targets a _ _ _ t Hp Hn Ht He Hc ty) in Hl. pose proof (set_of_by_id (OpenRels.of_type ty (map (OpenRels.rd (s +++ at_ ds)) (elems (events_of t))))) as B. rewrite Hl in B.
  inversion B as [|x l Hx2 _]; subst. rewrite Forall_forall in Hx2. destruct Hi as [->|Hi]; [|exact (Hx2 _ Hi)].
  cbn [fst]. pose proof (String.compare_antisym id id) as R. destruct (String.compare id id); discriminate.
Qed.

(** A target made of plain names leads to that file: from the directory of the part, or from
    the root of the archive if it begins with a slash. *)
Theorem target_leads_to_file : forall a s ds ty target p f, (s = "" \/ s = "/")%string -> Forall plain_name ds -> Forall plain_name f -> ~ is_link ty ->
  leads_to ds target f -> taken (s +++ at_ ds) ty target p -> read_zip a p = option_map without_bom (by_name a (at_ f)).
Proof. exact target_file. Qed.
(** The target of a hyperlink is kept as it is. *)
Theorem hyperlink_target_is_kept : forall dir ty target p, is_link ty -> taken dir ty target p -> p = target.
Proof. intros dir ty target p H T. destruct T; tauto. Qed.
(** A target with a step up (or to where one is) leads to nothing: the steps are not
    resolved, and no file of an archive has them in its name. *)
Theorem step_target_finds_nothing : forall a dir ty target p, (forall n d, In (n, d) a -> ~ has_step n) -> ~ is_link ty -> has_step target ->
  taken dir ty target p -> read_zip a p = None.
Proof. exact step_finds_nothing. Qed.

(** Whatever archive opens: the body is what the main document says (comments apart); the
    styles, numberings, settings and web settings are what the first file says that the main
    document is related to by their type, or those of a new document if there is none; the
    custom properties what their file says, if it can be read; the hyperlinks the targets
    of the relationships of their type that have a mode. *)
Theorem opened_parts_are_what_files_say : forall png preview a c op s', read_docx png preview a c = Val op s' ->
  let d := k_doc (op_pkg op) in
  (exists body sect, file_says a (main_of a) read_document (body, sect) /\ d_body d = match d_comments d with [] => body | l => store_comments l body end) /\
  first_says a (office_rel "styles") read_styles styles_new (o_styles (op_rest op)) /\
  first_says a (office_rel "numbering") read_numberings {| ns_abstracts := []; ns_nums := [] |} (o_numberings (op_rest op)) /\
  first_says a (office_rel "settings") read_settings settings_default (o_settings (op_rest op)) /\
  first_says a (office_rel "webSettings") read_web_settings [] (op_web op) /\
  match custom_files a with p :: _ => file_says a p read_custom (o_custom (op_rest op)) \/ o_custom (op_rest op) = [] | [] => o_custom (op_rest op) = [] end /\
  op_links op = flat_map (fun t => match snd t with Some mode => [(fst (fst t), snd (fst t), mode)] | None => [] end) (targets (rels_of a (main_of a)) (office_rel "hyperlink")).
Proof. exact opened_says. Qed.

(** ** A case *)
(** The document is named with a slash in front; of two files of styles the one with the id
    [rId10] counts; one target begins with a slash, one has a step up. *)
Import ArchiveProperties.
Definition away : archive :=
  [types_file; ("_rels/.rels", rels_ [rel_ "z" "theme" "x.xml"; rel_ "a" "officeDocument" "/word/main.xml"; rel_ "b" "officeDocument" "word/other.xml"])%string;
   relations_file [rel_ "h" "header" "/top.xml"; rel_ "rId2" "styles" "empty.xml"; rel_ "rId10" "styles" "s.xml"; rel_ "i" "image" "../media/a.png"];
   main_file; ("top.xml", snd header_file)%string; styles_file; ("word/empty.xml", "<w:styles/>")%string; ("media/a.png", "bytes")%string].
Example away_opens : exists op s', read_docx no_png false away 1 = Val op s' /\ main_of away = "/word/main.xml"%string /\
  map sty_id (ss_list (o_styles (op_rest op))) = ["A"]%string /\ length (d_parts (k_doc (op_pkg op))) = 1 /\ op_images op = [].
Proof. do 2 eexists. split; [vm_compute; reflexivity|]. vm_compute. repeat split. Qed.
Lemma plain_eval s : (negb (s =s "") && negb (s =s ".") && negb (s =s "..") && negb (has_char "/" s) && negb (has_char "\" s))%string = true -> plain_name s.
Proof.
  intros H. repeat (apply andb_true_iff in H as [H ?]). repeat match goal with H : negb _ = true |- _ => apply negb_true_iff in H end.
  repeat split; try assumption; now apply String.eqb_neq.
Qed.
Ltac plain := repeat constructor; apply plain_eval; reflexivity.
Lemma main_xml : xml_name "main.xml".
Proof. exists "main"%string. repeat split; try discriminate. intros c r H. injection H as _ <-. reflexivity. Qed.
(** The hypotheses of the theorems. *)
Example away_package : exists t, read_zip away "_rels/.rels" = Some t /\ ~ In EErr (events_of t) /\ first_of_type t (office_rel "officeDocument") "/word/main.xml" /\
  none_of_type (events_of t) (office_rel "custom-properties").
Proof.
  eexists. split; [vm_compute; reflexivity|]. split; [no_error|]. match goal with |- first_of_type ?t _ _ /\ _ => set (x := t) end.
  assert (K : forall before atts, child (events_of x) before atts -> In atts (kids (events_of x) 0)).
  { intros before atts (q & after & -> & D). rewrite kids_app. apply in_or_app. right. unfold depth in D. rewrite D. now left. }
  split.
  - exists (firstn 3 (events_of x)). vm_compute. eexists. split.
    + do 2 eexists. split; reflexivity.
    + split; [|now split]. intros before atts (q & after & Hl & D). intros Q. destruct before as [|e1 [|e2 [|e3 [|e4 before]]]]; inversion Hl; subst; try discriminate D; try discriminate Q.
  - intros before atts H. apply K in H. vm_compute in H. repeat destruct H as [<-|H]; try (vm_compute; discriminate). destruct H.
Qed.
Example away_rels : exists t, read_zip away ("/" +++ at_ (["word"; "_rels"; "main.xml" +++ ".rels"])%string) = Some t /\ ~ In EErr (events_of t) /\ closes_one "Relationships" t /\
  says_rel t (office_rel "styles") "rId2" "empty.xml" None /\ Forall plain_name ["word"; "main.xml"]%string.
Proof.
  eexists. split; [vm_compute; reflexivity|]. split; [no_error|]. split; [eexists; split; [vm_compute; do 9 right; left; reflexivity|reflexivity]|]. split; [|plain].
  match goal with |- says_rel ?t _ _ _ _ => exists (firstn 3 (events_of t)) end. vm_compute. do 3 eexists. split; [reflexivity|]. split; [reflexivity|]. split; [|repeat split].
  intros p H. repeat destruct H as [H|H]; try discriminate; [injection H as <-; discriminate|destruct H].
Qed.
Example away_targets : leads_to ["word"%string] "s.xml" ["word"; "s.xml"]%string /\ leads_to ["word"%string] "/top.xml" ["top.xml"%string] /\
  ~ is_link (office_rel "header") /\ taken ("/" +++ at_ ["word"%string]) (office_rel "header") "/top.xml" "/top.xml" /\
  taken ("/" +++ at_ ["word"%string]) (office_rel "styles") "s.xml" "/word/s.xml".
Proof.
  assert (L : forall ty, ends_with "hyperlink" ty = false -> ~ is_link ty) by (intros ty H X; apply link_ends in X; congruence).
  split; [exact (from_here ["word"%string] ["s.xml"%string] ltac:(discriminate))|]. split; [exact (from_root ["word"%string] ["top.xml"%string] ltac:(discriminate))|].
  split; [apply L; vm_compute; reflexivity|]. split; [apply as_it_is; right; now exists "top.xml"%string|].
  exact (join_taken "/word" (office_rel "styles") "s.xml").
Qed.

(** Steps up are not resolved: a picture that other programs find is not found. *)
Theorem steps_are_resolved_refuted : exists a dir ty target p d,
  In ("media/a.png"%string, d) a /\ dir = "word"%string /\ target = "../media/a.png"%string /\ ~ is_link ty /\ taken dir ty target p /\ read_zip a p = None.
Proof.
  exists away, "word"%string, (office_rel "image"), "../media/a.png"%string, "word/../media/a.png"%string, "bytes"%string.
  split; [vm_compute; auto 10|]. split; [reflexivity|]. split; [reflexivity|]. split; [intros X; apply link_ends in X; vm_compute in X; discriminate|].
  split; [exact (join_taken "word" (office_rel "image") "../media/a.png")|]. vm_compute. reflexivity.
Qed.
(** The relationships of a part with another dot in its name are looked for in a wrong place. *)
Theorem relationships_found_refuted : exists ds f, Forall plain_name ds /\ plain_name f /\ (exists b, f = b +++ ".xml") /\
  rels_name (at_ (ds ++ [f])) <> Some (at_ (ds ++ ["_rels"%string; f +++ ".rels"])).
Proof.
  exists ["word"%string], "main.v2.xml"%string. split; [plain|]. split; [plain|]. split; [now exists "main.v2"%string|]. vm_compute. discriminate.
Qed.
Example wrong_place : rels_name "word/main.v2.xml" = Some "word/_rels/main.xml.rels"%string.
Proof. reflexivity. Qed.

Section Paths.
Local Open Scope string_scope.
(** Paths as the standard library takes them. *)
Example parent_ex : map parent ["word/document.xml"; "/word/document.xml"; "document.xml"; ""; "/"; "a//b/."; "./x"; "."; "a/../b"]
  = [Some "word"; Some "/word"; Some ""; None; None; Some "a"; Some "."; Some ""; Some "a/.."].
Proof. reflexivity. Qed.
Example stem_ex : map file_stem ["word/document.xml"; "a/.rels"; "a/b.c.d"; "a/.."; "/"; "x"] = [Some "document"; Some ".rels"; Some "b.c"; None; None; Some "x"].
Proof. reflexivity. Qed.
Example join_ex : map (join "word") ["styles.xml"; "/word/styles.xml"; "../customXml/item1.xml"] =
  ["word/styles.xml"; "/word/styles.xml"; "word/../customXml/item1.xml"] /\ join "" "x" = "x" /\ join "a/" "x" = "a/x".
Proof. repeat split. Qed.
Example extension_ex : with_extension "word/_rels/document" "xml.rels" = "word/_rels/document.xml.rels" /\
  with_extension "word/_rels/a.b/" "xml.rels" = "word/_rels/a.xml.rels" /\ with_extension "/x" "e" = "/x.e" /\ with_extension ".." "e" = "..".
Proof. repeat split. Qed.
End Paths.

Definition all_proved := conj main_document_is_first_named (conj custom_file_is_first_named (conj part_relationships_found_iff (conj relationships_are_read (conj least_id_is_first
  (conj target_leads_to_file (conj hyperlink_target_is_kept (conj step_target_finds_nothing (conj opened_parts_are_what_files_say (conj steps_are_resolved_refuted relationships_found_refuted))))))))).
Print Assumptions all_proved.

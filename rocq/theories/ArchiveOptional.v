(** Opening an archive whose optional files are all missing. *)
From Coq Require Import NArith ZArith List Bool.
From Verif Require Import Str TypesModel Props Ast XmlParser XmlProofs ZipNameModel PathModel TreeModel DepsModel PackModel ReadBase ReadModel StyleModel StyleRead RenderModel OpenModel
  ReadSpec ArchiveSpec ArchiveProofs.
Import ListNotations.
Open Scope list_scope.

(** The files that may be missing. *)
Definition optional_files (a : archive) : list string :=
  custom_files a ++ sides_of a ++ paths (rels_of a (main_of a)) (office_rel "theme") ++ ext_files a ++ comment_files a ++ paths (rels_of a (main_of a)) (office_rel "image").
(** What is read of the others, one after the other. *)
Definition document_only (a : archive) : R opened :=
  t <- get a "[Content_Types].xml" ;; on_text read_types t ;;
  t <- get a "_rels/.rels" ;; on_text read_package_rels t ;;
  rels <- read_rels_of a (main_of a) ;;
  t <- get a (main_of a) ;; document <- on_text read_document t ;;
  styles <- named_part a rels (office_rel "styles") read_styles styles_new ;;
  numberings <- named_part a rels (office_rel "numbering") read_numberings {| ns_abstracts := []; ns_nums := [] |} ;;
  settings <- named_part a rels (office_rel "settings") read_settings settings_default ;;
  web <- named_part a rels (office_rel "webSettings") read_web_settings [] ;;
  ret {| op_pkg := set_doc pkg_new (k_doc_rels pkg_new)
                     {| d_body := fst document; d_sect := snd document; d_parts := []; d_comments := []; d_footnotes := [] |};
         op_rest := {| o_core := core_new; o_custom := []; o_styles := styles; o_settings := settings; o_numberings := numberings;
                       o_ext := []; o_web := o_web rest_new |};
         op_themes := []; op_web := web; op_images := [];
         op_links := flat_map (fun t => match snd t with Some mode => [(fst (fst t), snd (fst t), mode)] | None => [] end)
                       (targets rels (office_rel "hyperlink")) |}.

Lemma bind_val A B (m : R A) (k : A -> R B) s v : m s = Val v s -> bind m k s = k v s.
Proof. intros H. unfold bind. now rewrite H. Qed.
Section Missing.
  Context (a : archive).
  Lemma get_missing A n (m : string -> R A) s : read_zip a n = None -> attempt (d <- get a n ;; m d) s = Val None s.
  Proof. intros H. unfold attempt, bind, get, or_fail. rewrite H. reflexivity. Qed.
  Lemma parts_missing l : Forall (fun t => read_zip a (path_of t) = None) l -> forall s, read_parts a l s = Val [] s.
  Proof.
    induction 1 as [|[[rid path] mode] l H _ IH]; intros s; [reflexivity|]. cbn [read_parts]. cbn [path_of fst snd] in H.
    rewrite (bind_val _ _ _ _ _ None) by now apply get_missing. apply IH.
  Qed.
  Lemma themes_missing l : Forall (fun t => read_zip a (path_of t) = None) l -> forall s, read_themes a l s = Val [] s.
  Proof.
    induction 1 as [|[[rid path] mode] l H _ IH]; intros s; [reflexivity|]. cbn [read_themes]. cbn [path_of fst snd] in H.
    rewrite (bind_val _ _ _ _ _ None) by now apply get_missing. rewrite (bind_val _ _ _ _ _ []) by apply IH. reflexivity.
  Qed.
  Lemma images_missing png preview l : Forall (fun t => read_zip a (path_of t) = None) l -> forall im, add_images png preview a l im = im.
  Proof. induction 1 as [|[[rid path] mode] l H _ IH]; intros im; [reflexivity|]. cbn [add_images]. cbn [path_of fst snd] in H. rewrite H. apply IH. Qed.
  Lemma named_if_missing A rels ty (m : R A) d s : Forall (fun n => read_zip a n = None) (first_of rels ty) -> named_part_if_there a rels ty m d s = Val d s.
  Proof.
    unfold named_part_if_there, first_of, first_path, paths. destruct (targets rels ty) as [|[[i q] md] l]; [reflexivity|]. cbn [map fst snd].
    intros H. now rewrite (Forall_inv H).
  Qed.
End Missing.
Lemma assign_none k s : assign k [] s = s.
Proof. destruct s as [p media]. unfold assign. destruct (slot_ref k (d_sect (k_doc p))); reflexivity. Qed.

Theorem optional_missing png preview a c : Forall (fun n => ~ present a n) (optional_files a) ->
  read_docx png preview a c = document_only a {| rs_events := []; rs_para := c |}.
Proof.
  intros H0. assert (H : Forall (fun n => read_zip a n = None) (optional_files a)).
  { revert H0. apply Forall_impl. intros n Hn. unfold present in Hn. destruct (read_zip a n); [exfalso; apply Hn; discriminate|reflexivity]. }
  clear H0. unfold optional_files in H. repeat (apply Forall_app in H as [? H]). rename H into Hi.
  rename H0 into Hc, H1 into Hs, H2 into Ht, H3 into He, H4 into Hm.
  unfold sides_of in Hs. cbv zeta in Hs. apply Forall_app in Hs as [Hh Hf].
  unfold read_docx, open_docx, document_only.
  apply bind_same; [reflexivity|]. intros t1 s1 _.
  apply bind_same; [reflexivity|]. intros ty s2 _.
  apply bind_same; [reflexivity|]. intros t2 s3 E3.
  apply bind_same; [reflexivity|]. intros package s4 E4.
  assert (P : package_of a = package).
  { apply (fun H => proj1 (package_of_val a t2 s3 package s4 H E4)). unfold get, or_fail in E3. destruct (read_zip a "_rels/.rels"); [now injection E3 as -> _|discriminate]. }
  cbv zeta.
  assert (M : (match find_target (office_rel "officeDocument") package with Some r => rel_target r | None => "word/document.xml"%string end) = main_of a)
    by (unfold main_of; now rewrite P).
  rewrite M. set (main := main_of a) in *.
  rewrite (bind_val _ _ _ _ s4 []).
  2:{ unfold custom_files in Hc. rewrite P in Hc. destruct (find_target (office_rel "custom-properties") package) as [r|]; [|reflexivity].
      rewrite (bind_val _ _ _ _ _ None) by (apply get_missing; exact (Forall_inv Hc)). reflexivity. }
  apply bind_same; [reflexivity|]. intros rels s6 E6. apply rels_of_val in E6 as [E6 _]. fold main in E6.
  unfold ext_files, comment_files in *. fold main in Hh, Hf, Ht, He, Hm, Hi. rewrite E6 in *.
  unfold paths in Hh, Hf, Ht, Hi. rewrite Forall_map in Hh, Hf, Ht, Hi.
  rewrite (bind_val _ _ _ _ _ []) by now apply parts_missing.
  rewrite (bind_val _ _ _ _ _ []) by now apply parts_missing.
  rewrite (bind_val _ _ _ _ _ []) by now apply themes_missing.
  rewrite (bind_val _ _ _ _ _ []) by now apply named_if_missing.
  rewrite (bind_val _ _ _ _ _ []) by (rewrite (bind_val _ _ _ _ _ []) by (now apply named_if_missing); reflexivity).
  apply bind_same; [reflexivity|]. intros t3 s7 _. apply bind_same; [reflexivity|]. intros doc s8 _.
  rewrite !assign_none.
  apply bind_same; [reflexivity|]. intros styles s9 _. apply bind_same; [reflexivity|]. intros numberings s10 _.
  apply bind_same; [reflexivity|]. intros settings s11 _. apply bind_same; [reflexivity|]. intros web s12 _.
  unfold ret. rewrite images_missing by (apply Forall_app; split; [constructor|exact Hi]). reflexivity.
Qed.

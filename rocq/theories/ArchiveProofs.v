(** Opening asks for the files of [xml_files] and [image_files] and for no others. *)
From Coq Require Import NArith ZArith List Bool Lia.
From Verif Require Import Str Props Ast XmlParser XmlProofs ZipNameModel PathModel TreeModel DepsModel PackModel ReadBase ReadModel OpenModel ReadSpec StyleRead RenderModel ReadProg ReadProofs ArchiveSpec.
Import ListNotations.
Open Scope list_scope.

(** ** Readers that do not look at the counter *)
Lemma package_para t s l s' : on_text read_package_rels t s = Val l s' -> read_as read_package_rels t [] = l /\ s' = s.
Proof.
  unfold on_text, read_as, read_package_rels. cbn [rs_events rs_para].
  destruct (children_of_root _ (events_of t) 0 []) as [[x []]|]; try discriminate. intros H. injection H as <- <-. split; [reflexivity|].
  now destruct s.
Qed.
Definition rels_turn (dir : string) (l : read_rels) (e : event) : R (turn read_rels read_rels) :=
  match e with
  | EStart q atts => a' <- ret (if q_local q =s "Relationship" then add_rel_read dir l atts else l) ;; ret (Again a')
  | EEnd q => ret (if q_local q =s "Relationships" then Done l else Again l)
  | EErr => fail
  | _ => ret (Again l)
  end.
Lemma rels_turns dir : forall l fuel a c c',
  match turns fuel (rels_turn dir) a (st l c), turns fuel (rels_turn dir) a (st l c') with
  | Val x s1, Val y s2 => x = y /\ rs_para s1 = c
  | Err s1, Err s2 => rs_para s1 = c
  | Hang, Hang => True
  | NoFuel, NoFuel => True
  | _, _ => False
  end.
Proof.
  induction l as [|e l IH]; intros [|fuel] a c c'; cbn [turns st rs_events rs_para]; auto.
  destruct e as [q atts|q|x|x| |]; cbn [rels_turn bind ret fail].
  - apply IH.
  - destruct (q_local q =s "Relationships"); [split; reflexivity|apply IH].
  - apply IH.
  - apply IH.
  - apply IH.
  - reflexivity.
Qed.
Lemma rels_para dir t s l s' : on_text (read_rels_xml dir) t s = Val l s' -> read_as (read_rels_xml dir) t [] = l /\ s' = s.
Proof.
  unfold on_text, read_as. change (read_rels_xml dir) with (loop (rels_turn dir) []). unfold loop. cbn [rs_events rs_para].
  pose proof (rels_turns dir (events_of t) (length (events_of t)) [] (rs_para s) 0) as H. unfold st in H.
  destruct (turns _ _ _ {| rs_events := events_of t; rs_para := rs_para s |}) as [x s1|s1| | |]; try discriminate.
  destruct (turns _ _ _ {| rs_events := events_of t; rs_para := 0 |}) as [y s2|s2| | |]; try contradiction.
  destruct H as [-> H]. intros X. injection X as <- <-. split; [reflexivity|]. rewrite H. now destruct s.
Qed.
Lemma rels_of_val a part s l s' : read_rels_of a part s = Val l s' -> rels_of a part = l /\ s' = s.
Proof.
  unfold read_rels_of, rels_of, get. destruct (parent part) as [dir|]; [|discriminate]. destruct (rels_name part) as [n|]; [|discriminate].
  cbn [or_fail bind ret]. destruct (read_zip a n) as [t|]; [|discriminate]. cbn [or_fail bind ret]. apply rels_para.
Qed.

(** ** The same files *)
Lemma bind_same A B (m m' : R A) (k k' : A -> R B) s :
  m s = m' s -> (forall v s', m' s = Val v s' -> k v s' = k' v s') -> bind m k s = bind m' k' s.
Proof. intros H1 H2. unfold bind. rewrite H1. destruct (m' s) as [v s'| | | |]; auto. Qed.
Lemma attempt_same A (m m' : R A) s : m s = m' s -> attempt m s = attempt m' s.
Proof. intros H. unfold attempt. now rewrite H. Qed.
Section Same.
Context (a b : archive).
Notation agree := (fun n => read_zip b n = read_zip a n).
Lemma get_same n s : agree n -> get b n s = get a n s.
Proof. intros H. unfold get. now rewrite H. Qed.
Lemma rels_same part s : Forall agree (rels_file part) -> read_rels_of b part s = read_rels_of a part s.
Proof.
  unfold read_rels_of, rels_file, get. destruct (parent part) as [dir|]; [|reflexivity]. destruct (rels_name part) as [n|]; [|reflexivity].
  intros H. cbn [or_fail bind ret]. now rewrite (Forall_inv H).
Qed.
Definition path_of (t : target) : string := snd (fst t).
Lemma parts_same l : Forall (fun t => agree (path_of t) /\ Forall agree (rels_file (path_of t))) l -> forall s, read_parts b l s = read_parts a l s.
Proof.
  induction 1 as [|[[rid path] mode] l [H1 H2] _ IH]; intros s; [reflexivity|]. cbn [read_parts]. cbn [path_of fst snd] in H1, H2.
  apply bind_same; [apply attempt_same, bind_same; [now apply get_same|reflexivity]|].
  intros [ch|] s' _; [|apply IH]. apply bind_same; [apply attempt_same; now apply rels_same|]. intros r s'' _.
  apply bind_same; [apply IH|reflexivity].
Qed.
Lemma themes_same l : Forall (fun t => agree (path_of t)) l -> forall s, read_themes b l s = read_themes a l s.
Proof.
  induction 1 as [|[[rid path] mode] l H1 _ IH]; intros s; [reflexivity|]. cbn [read_themes]. cbn [path_of fst snd] in H1.
  apply bind_same; [apply attempt_same, bind_same; [now apply get_same|reflexivity]|].
  intros t s' _. apply bind_same; [apply IH|reflexivity].
Qed.
Lemma images_same png preview l : Forall (fun t => agree (path_of t)) l -> forall im, add_images png preview b l im = add_images png preview a l im.
Proof.
  induction 1 as [|[[rid path] mode] l H1 _ IH]; intros im; [reflexivity|]. cbn [add_images]. cbn [path_of fst snd] in H1. now rewrite H1, IH.
Qed.
Lemma first_same rels ty : Forall agree (first_of rels ty) -> forall p, first_path rels ty = Some p -> agree p.
Proof.
  unfold first_of, first_path, paths. destruct (targets rels ty) as [|[[i q] md] l]; [discriminate|]. cbn [map fst snd]. intros H p X. injection X as <-. exact (Forall_inv H).
Qed.
Lemma named_same A rels ty (m : R A) d s : Forall agree (first_of rels ty) -> named_part b rels ty m d s = named_part a rels ty m d s.
Proof.
  intros H. unfold named_part. pose proof (first_same rels ty H) as F. destruct (first_path rels ty) as [p|]; [|reflexivity].
  apply bind_same; [apply get_same; now apply F|reflexivity].
Qed.
Lemma named_if_same A rels ty (m : R A) d s : Forall agree (first_of rels ty) -> named_part_if_there b rels ty m d s = named_part_if_there a rels ty m d s.
Proof.
  intros H. unfold named_part_if_there. pose proof (first_same rels ty H) as F. destruct (first_path rels ty) as [p|]; [|reflexivity].
  now rewrite F.
Qed.
End Same.

(** The media of a header are those of one of the parts read. *)
Lemma parts_val a l : forall s r s', read_parts a l s = Val r s' ->
  Forall (fun x => exists rid path mode, In (rid, path, mode) l /\ fst x = rid /\ (snd (snd x) = rels_of a path \/ snd (snd x) = [])) r.
Proof.
  induction l as [|[[rid path] mode] l IH]; intros s r s' H; cbn [read_parts] in H.
  - injection H as <- _. constructor.
  - assert (W : forall r, Forall (fun x => exists rid path mode, In (rid, path, mode) l /\ fst x = rid /\ (snd (snd x) = rels_of a path \/ snd (snd x) = [])) r ->
       Forall (fun x : string * part_read => exists rid0 path0 mode0, In (rid0, path0, mode0) ((rid, path, mode) :: l) /\ fst x = rid0 /\ (snd (snd x) = rels_of a path0 \/ snd (snd x) = [])) r).
    { intros r0. apply Forall_impl. intros x (i & p & md & Hin & X). exists i, p, md. split; [now right|exact X]. }
    unfold bind at 1 in H. destruct (attempt (d <- get a path;; on_text read_header d) s) as [[ch|] s1| | | |] eqn:E1; try discriminate.
    + unfold bind at 1 in H. destruct (attempt (read_rels_of a path) s1) as [o s2| | | |] eqn:E2; try discriminate.
      unfold bind at 1 in H. destruct (read_parts a l s2) as [more s3| | | |] eqn:E3; try discriminate. injection H as <- _.
      constructor; [|apply W; eapply IH; eauto].
      exists rid, path, mode. split; [now left|]. split; [reflexivity|]. cbn [fst snd]. unfold attempt in E2.
      destruct (read_rels_of a path s1) as [x s4|s4| | |] eqn:E4; try discriminate; injection E2 as <- _; [left|now right].
      symmetry. exact (proj1 (rels_of_val _ _ _ _ _ E4)).
    + apply W. eapply IH; eauto.
Qed.
Lemma last_such_in A B (f : A -> option B) l : forall x, last_such f l = Some x -> exists y, In y l /\ f y = Some x.
Proof.
  induction l as [|y l IH]; intros x H; [discriminate|]. cbn [last_such] in H. destruct (last_such f l) as [z|].
  - injection H as <-. destruct (IH z eq_refl) as (w & Hw & E). exists w. split; [now right|exact E].
  - exists y. split; [now left|exact H].
Qed.
Definition from_parts (a : archive) (ps : list string) (media : list target) : Prop :=
  Forall (fun t => In (path_of t) (flat_map (fun p => paths (rels_of a p) (office_rel "image")) ps)) media.
Definition parts_from (a : archive) (ps : list string) (parts : list (string * part_read)) : Prop :=
  Forall (fun x => (exists p, In p ps /\ snd (snd x) = rels_of a p) \/ snd (snd x) = []) parts.
Lemma assign_media a ps k parts s : parts_from a ps parts -> from_parts a ps (snd s) -> from_parts a ps (snd (assign k parts s)).
Proof.
  intros Hp Hm. destruct s as [p media]. unfold assign. destruct (slot_ref k (d_sect (k_doc p))) as [r|]; [|exact Hm].
  destruct (part_by_id (pr_id r) parts) as [[ch rels]|] eqn:E; [|exact Hm]. cbn [snd] in *.
  apply Forall_app. split; [exact Hm|]. unfold part_by_id in E. apply last_such_in in E as ([i [c2 r2]] & Hin & E). cbn [fst snd] in E.
  destruct (i =s pr_id r); [|discriminate]. injection E as -> ->. unfold parts_from in Hp. rewrite Forall_forall in Hp.
  destruct (Hp _ Hin) as [(q & Hq & E)|E]; cbn [snd] in E; rewrite E; [|constructor].
  apply Forall_forall. intros t Ht. apply in_flat_map. exists q. split; [exact Hq|]. unfold paths. apply in_map_iff. now exists t.
Qed.
Lemma parts_known a l s r s' : read_parts a l s = Val r s' -> parts_from a (map path_of l) r.
Proof.
  intros H. apply parts_val in H. revert H. apply Forall_impl. intros x (i & p & md & Hin & _ & [E|E]); [left|now right].
  exists p. split; [|exact E]. apply in_map_iff. now exists (i, p, md).
Qed.
Lemma parts_from_more a ps qs l : (forall p, In p ps -> In p qs) -> parts_from a ps l -> parts_from a qs l.
Proof. intros H. apply Forall_impl. intros x [(p & Hp & E)|E]; [left; exists p; auto|now right]. Qed.

(** Package relationships and main part, as read. *)
Lemma package_of_val a t s l s' : read_zip a "_rels/.rels" = Some t -> on_text read_package_rels t s = Val l s' -> package_of a = l /\ s' = s.
Proof. intros H X. unfold package_of. rewrite H. now apply package_para in X. Qed.
Theorem same_outcome png preview a b c : (forall n, In n (xml_files a ++ image_files a) -> read_zip b n = read_zip a n) ->
  read_docx png preview b c = read_docx png preview a c.
Proof.
  intros H. assert (X : forall n, In n (xml_files a) -> read_zip b n = read_zip a n) by (intros; apply H, in_or_app; now left).
  assert (Im : forall n, In n (image_files a) -> read_zip b n = read_zip a n) by (intros; apply H, in_or_app; now right). clear H.
  assert (F : forall l, incl l (xml_files a) -> Forall (fun n => read_zip b n = read_zip a n) l).
  { intros l Hl. apply Forall_forall. intros n Hn. apply X, Hl, Hn. }
  unfold read_docx, open_docx.
  apply bind_same; [apply get_same, X; now left|]. intros t1 s1 E1.
  apply bind_same; [reflexivity|]. intros ty s2 E2.
  apply bind_same; [apply get_same, X; right; now left|]. intros t2 s3 E3.
  apply bind_same; [reflexivity|]. intros package s4 E4.
  assert (P : package_of a = package).
  { apply (fun H => proj1 (package_of_val a t2 s3 package s4 H E4)). unfold get, or_fail in E3. destruct (read_zip a "_rels/.rels"); [now injection E3 as -> _|discriminate]. }
  cbv zeta.
  assert (M : (match find_target (office_rel "officeDocument") package with Some r => rel_target r | None => "word/document.xml"%string end) = main_of a)
    by (unfold main_of; now rewrite P).
  rewrite M. set (main := main_of a) in *.
  apply bind_same.
  { assert (C : Forall (fun n => read_zip b n = read_zip a n) (custom_files a)) by (apply F; unfold xml_files; cbv zeta; intros n; rewrite !in_app_iff; tauto).
    unfold custom_files in C. rewrite P in C. destruct (find_target (office_rel "custom-properties") package) as [r|]; [|reflexivity].
    apply bind_same; [|reflexivity]. apply attempt_same, bind_same; [apply get_same; exact (Forall_inv C)|reflexivity]. }
  intros custom s5 _.
  apply bind_same. { apply rels_same, F. unfold xml_files, rels_files. cbv zeta. intros n. rewrite !in_app_iff. tauto. }
  intros rels s6 E6. apply rels_of_val in E6 as [E6 _].
  assert (Sd : forall k, In k ["header"; "footer"]%string -> Forall (fun t => read_zip b (path_of t) = read_zip a (path_of t) /\ Forall (fun n => read_zip b n = read_zip a n) (rels_file (path_of t))) (targets rels (office_rel k))).
  { intros k Hk. apply Forall_forall. intros t Ht.
    assert (In (path_of t) (sides_of a)).
    { unfold sides_of. cbv zeta. fold main. rewrite E6. apply in_or_app. destruct Hk as [<-|[<-|[]]]; [left|right]; apply in_map_iff; now exists t. }
    split; [apply X; unfold xml_files; cbv zeta; rewrite !in_app_iff; tauto|].
    apply F. unfold xml_files, rels_files. cbv zeta. intros n Hn. rewrite !in_app_iff. right. left. right. apply in_flat_map. eauto. }
  apply bind_same; [apply parts_same, Sd; now left|]. intros heads s7 E7.
  apply bind_same; [apply parts_same, Sd; right; now left|]. intros foots s8 E8.
  apply bind_same. { apply themes_same. apply Forall_forall. intros t Ht. apply X. unfold xml_files. cbv zeta. fold main. rewrite E6, !in_app_iff.
    do 4 right. left. apply in_map_iff. now exists t. }
  intros themes s9 _.
  apply bind_same. { apply named_if_same, F. unfold xml_files, styles_files, ext_files, comment_files, numbering_files. cbv zeta. fold main. rewrite E6. intros n. rewrite !in_app_iff. tauto. }
  intros ext s10 _.
  apply bind_same. { apply bind_same; [|reflexivity]. apply named_if_same, F. unfold xml_files, styles_files, ext_files, comment_files, numbering_files. cbv zeta. fold main. rewrite E6. intros n. rewrite !in_app_iff. tauto. }
  intros comments s11 _.
  apply bind_same. { apply get_same, X. right. right. now left. }
  intros t3 s12 _. apply bind_same; [reflexivity|]. intros doc s13 _.
  assert (Fh : parts_from a (sides_of a) heads /\ parts_from a (sides_of a) foots).
  { apply parts_known in E7, E8. unfold sides_of. cbv zeta. fold main. rewrite E6. split; (eapply parts_from_more; [|eassumption]); intros p Hp; apply in_or_app; [left|right]; exact Hp. }
  destruct Fh as [Fh Ff].
  match goal with |- (let (_, _) := ?x in _) _ = _ => assert (Md : from_parts a (sides_of a) (snd x)) end.
  { do 6 (apply assign_media; [assumption|]). constructor. }
  destruct (assign _ _ _) as [k media]. cbn [snd] in Md.
  apply bind_same. { apply named_same, F. unfold xml_files, styles_files, ext_files, comment_files, numbering_files. cbv zeta. fold main. rewrite E6. intros n. rewrite !in_app_iff. tauto. }
  intros styles s14 _.
  apply bind_same. { apply named_same, F. unfold xml_files, styles_files, ext_files, comment_files, numbering_files. cbv zeta. fold main. rewrite E6. intros n. rewrite !in_app_iff. tauto. }
  intros numberings s15 _.
  apply bind_same. { apply named_same, F. unfold xml_files, styles_files, ext_files, comment_files, numbering_files. cbv zeta. fold main. rewrite E6. intros n. rewrite !in_app_iff. tauto. }
  intros settings s16 _.
  apply bind_same. { apply named_same, F. unfold xml_files, styles_files, ext_files, comment_files, numbering_files. cbv zeta. fold main. rewrite E6. intros n. rewrite !in_app_iff. tauto. }
  intros web s17 _. unfold ret.
  rewrite (images_same a b); [reflexivity|]. apply Forall_app. split.
  - revert Md. apply Forall_impl. intros t Ht. apply Im. unfold image_files. cbn [flat_map]. apply in_or_app. now right.
  - apply Forall_forall. intros t Ht. apply Im. unfold image_files. cbn [flat_map]. apply in_or_app. left. fold main. rewrite E6. apply in_map_iff. now exists t.
Qed.

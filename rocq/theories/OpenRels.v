(** The relationships of a part after they were written and read. *)
From Coq Require Import NArith ZArith List Bool Lia Permutation.
From Verif Require Import Str StrFacts TypesModel Props Ast XmlParser XmlSpec ReadBase ReadProps ReadModel
  ZipNameModel PathModel DepsModel PackModel PackSpec RenderModel OpenModel WellSpec RestSpec RoundSpec RoundNums OpenText OpenPath.
From Verif Require BuildModel WellProofs WellRest.
Import ListNotations.
Import BuildModel (xml, E, L, leaf, xcalls, part_calls).
Open Scope list_scope.

(** ** Sets *)
Definition set_of (l : list target) : list target := fold_left (fun s x => set_insert x s) l [].
Lemma compare_eq a b : compare_target a b = Eq -> fst (fst a) = fst (fst b).
Proof.
  unfold compare_target. destruct (String.compare (fst (fst a)) (fst (fst b))) eqn:C; try discriminate. intros _. now apply String.compare_eq_iff.
Qed.
Lemma insert_in x s y : In y (set_insert x s) -> y = x \/ In y s.
Proof.
  induction s as [|z s IH]; cbn [set_insert]; [intros [H|[]]; auto|]. destruct (compare_target x z); intros H.
  - now right.
  - destruct H; auto.
  - destruct H as [H|H]; [right; now left|]. destruct (IH H); auto. right. now right.
Qed.
Lemma set_of_in l y : In y (set_of l) -> In y l.
Proof.
  unfold set_of. assert (G : forall s, In y (fold_left (fun s x => set_insert x s) l s) -> In y s \/ In y l).
  { induction l as [|x l IH]; intros s H; cbn [fold_left] in H; [auto|]. destruct (IH _ H) as [H1|H1]; [|right; now right].
    destruct (insert_in _ _ _ H1); [right; now left | now left]. }
  intros H. destruct (G [] H) as [[]|]; auto.
Qed.
Lemma insert_new x s : ~ In (fst (fst x)) (map (fun t : target => fst (fst t)) s) -> Permutation (set_insert x s) (x :: s).
Proof.
  induction s as [|z s IH]; intros H; cbn [set_insert]; [auto|]. cbn [map In] in H. apply Decidable.not_or in H as [H1 H2].
  destruct (compare_target x z) eqn:C.
  - apply compare_eq in C. now rewrite C in H1.
  - auto.
  - transitivity (z :: x :: s); [constructor; auto | apply perm_swap].
Qed.
Lemma set_of_perm l : NoDup (map (fun t : target => fst (fst t)) l) -> Permutation (set_of l) l.
Proof.
  unfold set_of. assert (G : forall s, NoDup (map (fun t : target => fst (fst t)) (s ++ l)) -> Permutation (fold_left (fun s x => set_insert x s) l s) (s ++ l)); [|exact (G [])].
  induction l as [|x l IH]; intros s H; cbn [fold_left]; [now rewrite app_nil_r|].
  assert (Hx : ~ In (fst (fst x)) (map (fun t : target => fst (fst t)) s)).
  { rewrite map_app in H. cbn [map] in H. apply NoDup_remove_2 in H. intros X. apply H. apply in_or_app. now left. }
  pose proof (insert_new x s Hx) as P.
  assert (P2 : Permutation (set_insert x s ++ l) (s ++ x :: l)) by (rewrite P; cbn [app]; apply Permutation_middle).
  rewrite IH; [exact P2|]. eapply Permutation_NoDup; [|exact H]. apply Permutation_map. now symmetry.
Qed.
Lemma set_of_one x : set_of [x] = [x].
Proof. reflexivity. Qed.

(** ** By type *)
Lemma targets_insert ty x l ty' : targets (rels_insert ty x l) ty' = if ty =s ty' then set_insert x (targets l ty') else targets l ty'.
Proof.
  induction l as [|[t s] l IH]; cbn [rels_insert targets].
  - now destruct (ty =s ty').
  - destruct (String.eqb_spec t ty) as [->|Hn]; cbn [targets].
    + now destruct (ty =s ty').
    + rewrite IH. destruct (String.eqb_spec t ty') as [->|]; [|reflexivity]. apply not_eq_sym, String.eqb_neq in Hn. now rewrite Hn.
Qed.
Definition rd (dir : string) (atts : list attribute) : string * target :=
  let r := read_rel atts in (ar_type r, (ar_id r, if ends_with "hyperlink" (ar_type r) then join "" (ar_target r) else join dir (ar_target r), ar_mode r)).
Definition of_type (ty : string) (l : list (string * target)) : list target := map snd (filter (fun p => fst p =s ty) l).
Lemma targets_read dir xs ty : targets (fold_left (add_rel_read dir) xs []) ty = set_of (of_type ty (map (rd dir) xs)).
Proof.
  unfold set_of, of_type. assert (G : forall l s, targets l ty = s ->
    targets (fold_left (add_rel_read dir) xs l) ty = fold_left (fun s x => set_insert x s) (map snd (filter (fun p => fst p =s ty) (map (rd dir) xs))) s).
  { induction xs as [|x xs IH]; intros l s H; [exact H|]. cbn [fold_left map filter].
    assert (X : targets (add_rel_read dir l x) ty = if fst (rd dir x) =s ty then set_insert (snd (rd dir x)) s else s).
    { unfold add_rel_read. rewrite targets_insert, H. reflexivity. }
    destruct (fst (rd dir x) =s ty); cbn [map fold_left]; now apply IH. }
  now apply G.
Qed.
Lemma of_type_app ty l m : of_type ty (l ++ m) = of_type ty l ++ of_type ty m.
Proof. unfold of_type. now rewrite filter_app, map_app. Qed.

(** ** Relationships as written *)
Definition rel3 (i t g : string) : list (string * string) := [("Id", i); ("Type", t); ("Target", g)]%string.
Definition rel4 (i t g m : string) : list (string * string) := [("Id", i); ("Type", t); ("Target", g); ("TargetMode", m)]%string.
Definition seen_office kind : Prop := seen (office_rel kind) = office_rel kind.
Lemma rd3 dir i t g : seen t = t -> ends_with "hyperlink" t = false -> rd dir (meant (rel3 i t g)) = (t, (seen i, join dir (seen g), None)).
Proof. intros Ht Hh. unfold rd, rel3. rewrite read_rel_meant. cbn [ar_type ar_id ar_target ar_mode]. now rewrite Ht, Hh. Qed.
Lemma rd4 dir i g m : rd dir (meant (rel4 i (office_rel "hyperlink") g m)) = (office_rel "hyperlink", (seen i, seen g, Some (seen m))).
Proof.
  unfold rd, rel4. rewrite read_rel_meant4. cbn [ar_type ar_id ar_target ar_mode].
  rewrite (seen_plain (office_rel "hyperlink") eq_refl). change (ends_with "hyperlink" (office_rel "hyperlink")) with true. cbn iota. f_equal. f_equal. f_equal.
  unfold join. now destruct (has_root (seen g)).
Qed.
(** The rows of the document's relationships, without and with a mode. *)
Definition rel_row (l : rel) : list (string * string) := rel3 (rel_id l) (doc_rel_type (rel_kind l)) (rel_target l).
Definition link_row (l : string * string * string) : list (string * string) := rel4 (fst (fst l)) (office_rel "hyperlink") (snd (fst l)) (snd l).
Lemma doc_rels_rows r : x_doc_rels r = x_rels (map (leaf "Relationship") (map rel_row (written_rels (unlinked r)) ++ map link_row (r_links r))).
Proof. unfold x_doc_rels, x_rel. rewrite map_app, !map_map. reflexivity. Qed.
Lemma part_rels_rows l : x_part_rels l = x_rels (map (leaf "Relationship") (map (fun im => rel3 (fst im) (office_rel "image") (snd im)) l)).
Proof. unfold x_part_rels, x_rel. now rewrite map_map. Qed.
(** A list of relationships all of one type. *)
Lemma type_all A (f : A -> string * target) ty l : (forall a, fst (f a) = ty) -> of_type ty (map f l) = map (fun a => snd (f a)) l.
Proof.
  intros H. unfold of_type. induction l as [|a l IH]; [reflexivity|]. cbn [map filter]. rewrite H, String.eqb_refl. cbn [map]. now rewrite IH.
Qed.
Lemma type_none A (f : A -> string * target) ty l : (forall a, (fst (f a) =s ty) = false) -> of_type ty (map f l) = [].
Proof. intros H. unfold of_type. induction l as [|a l IH]; [reflexivity|]. cbn [map filter]. now rewrite H. Qed.

Definition word := "word"%string.
Lemma plain_seen_app a b : all_char plain_char a = true -> all_char plain_char b = true -> all_char plain_char (a +++ b) = true.
Proof. intros Ha Hb. induction a as [|c a IH]; [exact Hb|]. cbn [append all_char] in *. apply andb_true_iff in Ha as [H1 H2]. now rewrite H1, IH. Qed.
Lemma seen_num a n b : all_char plain_char a = true -> all_char plain_char b = true -> seen (a +++ show_N n +++ b) = a +++ show_N n +++ b.
Proof. intros Ha Hb. apply seen_plain. repeat apply plain_seen_app; auto using plain_N. Qed.
Lemma seen_num0 a n : all_char plain_char a = true -> seen (a +++ show_N n) = a +++ show_N n.
Proof. intros Ha. apply seen_plain. repeat apply plain_seen_app; auto using plain_N. Qed.

Definition header_target (i : N) : target := (header_rid (i + 1), "word/header" +++ show_N (i + 1) +++ ".xml", None).
Definition footer_target (i : N) : target := (footer_rid (i + 1), "word/footer" +++ show_N (i + 1) +++ ".xml", None).
Definition image_target (im : string * string) : target := (seen (fst im), join word (seen (snd im)), None).
Definition link_target (l : string * string * string) : target := (seen (fst (fst l)), seen (snd (fst l)), Some (seen (snd l))).
Definition one (b : bool) (i p : string) : list target := if b then [(i, p, None)] else [].
(** What each of the types has. *)
Definition targets_of (r : doc_rels) (ty : string) : list target :=
  if ty =s office_rel "header" then map header_target (upto (r_headers r))
  else if ty =s office_rel "footer" then map footer_target (upto (r_footers r))
  else if ty =s office_rel "image" then map image_target (r_images r)
  else if ty =s office_rel "hyperlink" then map link_target (r_links r)
  else if ty =s office_rel "styles" then one true "rId1" "word/styles.xml"
  else if ty =s office_rel "settings" then one true "rId3" "word/settings.xml"
  else if ty =s type_comments_ext then one true "rId5" "word/commentsExtended.xml"
  else if ty =s office_rel "comments" then one (r_comments r) "rId6" "word/comments.xml"
  else if ty =s office_rel "numbering" then one (r_numberings r) "rId7" "word/numbering.xml"
  else [].
Definition known_types : list string :=
  [office_rel "header"; office_rel "footer"; office_rel "image"; office_rel "hyperlink"; office_rel "styles"; office_rel "settings"; type_comments_ext;
   office_rel "comments"; office_rel "numbering"; office_rel "theme"; office_rel "webSettings"].
Definition doc_row := (list (list (string * string))).
Lemma rd_header i : rd word (meant (rel_row (mk_rel (header_rid (i + 1)) "header" ("header" +++ show_N (i + 1) +++ ".xml")))) = (office_rel "header", header_target i).
Proof.
  unfold rel_row. cbn [rel_id rel_kind rel_target mk_rel]. change (doc_rel_type "header") with (office_rel "header"). rewrite rd3 by reflexivity.
  unfold header_rid. rewrite seen_num0, seen_num by reflexivity. reflexivity.
Qed.
Lemma rd_footer i : rd word (meant (rel_row (mk_rel (footer_rid (i + 1)) "footer" ("footer" +++ show_N (i + 1) +++ ".xml")))) = (office_rel "footer", footer_target i).
Proof.
  unfold rel_row. cbn [rel_id rel_kind rel_target mk_rel]. change (doc_rel_type "footer") with (office_rel "footer"). rewrite rd3 by reflexivity.
  unfold footer_rid. rewrite seen_num0, seen_num by reflexivity. reflexivity.
Qed.
Lemma rd_image im : rd word (meant (rel_row (mk_rel (fst im) "image" (snd im)))) = (office_rel "image", image_target im).
Proof.
  unfold rel_row. cbn [rel_id rel_kind rel_target mk_rel]. change (doc_rel_type "image") with (office_rel "image"). now rewrite rd3 by reflexivity.
Qed.
Lemma doc_targets r ty : In ty known_types ->
  of_type ty (map (rd word) (map meant (map rel_row (written_rels (unlinked r)) ++ map link_row (r_links r)))) = targets_of r ty.
Proof.
  intros Hty. rewrite !map_app, of_type_app.
  set (F := of_type ty (map (rd word) (map meant (map rel_row
     [mk_rel "rId1" "styles" "styles.xml"; mk_rel "rId2" "fontTable" "fontTable.xml"; mk_rel "rId3" "settings" "settings.xml";
      mk_rel "rId5" "commentsExtended" "commentsExtended.xml"]))) ++
     of_type ty (map (rd word) (map meant (map rel_row (if_rel (r_comments r) (mk_rel "rId6" "comments" "comments.xml"))))) ++
     of_type ty (map (rd word) (map meant (map rel_row (if_rel (r_numberings r) (mk_rel "rId7" "numbering" "numbering.xml"))))) ++
     of_type ty (map (rd word) (map meant (map rel_row (if_rel (r_footnotes r) (mk_rel "rId8" "footnotes" "footnotes.xml")))))).
  assert (D : of_type ty (map (rd word) (map meant (map rel_row (written_rels (unlinked r))))) =
    F ++ of_type ty (map (fun i => (office_rel "header", header_target i)) (upto (r_headers r))) ++
    of_type ty (map (fun i => (office_rel "footer", footer_target i)) (upto (r_footers r))) ++
    of_type ty (map (fun i => rd word (meant (rel_row (mk_rel ("rId" +++ show_N (i + 8)) "customXml" ("../customXml/item" +++ show_N (i + 1) +++ ".xml"))))) (upto (r_custom r))) ++
    of_type ty (map (fun im => (office_rel "image", image_target im)) (r_images r))).
  { unfold written_rels, unlinked. cbn [r_comments r_numberings r_footnotes r_images r_links r_custom r_headers r_footers]. rewrite !map_app, !of_type_app.
    unfold F. rewrite <- !app_assoc. rewrite !map_map. do 4 f_equal.
    f_equal; [f_equal; apply map_ext; intros i; apply rd_header|].
    f_equal; [f_equal; apply map_ext; intros i; apply rd_footer|].
    f_equal. cbn [map]. unfold of_type at 2. cbn [filter map]. rewrite app_nil_r. f_equal. }
  rewrite D. clear D.
  assert (L : of_type ty (map (rd word) (map meant (map link_row (r_links r)))) = if ty =s office_rel "hyperlink" then map link_target (r_links r) else []).
  { rewrite !map_map. assert (X : map (fun x => rd word (meant (link_row x))) (r_links r) = map (fun l => (office_rel "hyperlink", link_target l)) (r_links r)).
    { apply map_ext. intros l. apply rd4. }
    rewrite X. destruct (String.eqb_spec ty (office_rel "hyperlink")) as [->|Hn]; [now apply type_all|]. apply type_none. intros a. now apply String.eqb_neq, not_eq_sym. }
  rewrite L. clear L.
  assert (C : of_type ty (map (fun i => rd word (meant (rel_row (mk_rel ("rId" +++ show_N (i + 8)) "customXml" ("../customXml/item" +++ show_N (i + 1) +++ ".xml"))))) (upto (r_custom r))) = []).
  { assert (X : (office_rel "customXml" =s ty) = false) by (repeat (destruct Hty as [<-|Hty]; [reflexivity|]); destruct Hty).
    apply type_none. intros i. unfold rel_row. cbn [rel_id rel_kind rel_target mk_rel]. change (doc_rel_type "customXml") with (office_rel "customXml"). rewrite rd3 by reflexivity. exact X. }
  rewrite C. clear C. cbn [app].
  assert (A : forall A0 k (f : A0 -> target) l, of_type ty (map (fun i => (office_rel k, f i)) l) = if ty =s office_rel k then map f l else []).
  { intros A0 k f l. destruct (String.eqb_spec ty (office_rel k)) as [->|Hn]; [now apply type_all|]. apply type_none. intros a. now apply String.eqb_neq, not_eq_sym. }
  rewrite !A. clear A.
  assert (Hf : F = if ty =s office_rel "styles" then one true "rId1" "word/styles.xml"
    else if ty =s office_rel "settings" then one true "rId3" "word/settings.xml"
    else if ty =s type_comments_ext then one true "rId5" "word/commentsExtended.xml"
    else if ty =s office_rel "comments" then one (r_comments r) "rId6" "word/comments.xml"
    else if ty =s office_rel "numbering" then one (r_numberings r) "rId7" "word/numbering.xml" else []).
  { unfold F. clear F. repeat (destruct Hty as [<-|Hty]; [destruct (r_comments r), (r_numberings r), (r_footnotes r); vm_compute; reflexivity|]). destruct Hty. }
  rewrite Hf. clear Hf F. unfold targets_of.
  repeat (destruct Hty as [<-|Hty]; [cbn [String.eqb]; vm_compute (_ =s _); cbn iota; cbn [app]; rewrite ?app_nil_r; reflexivity|]). destruct Hty.
Qed.

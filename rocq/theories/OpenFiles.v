(** Which files a saved archive has, and how its parts are found by name. *)
From Coq Require Import NArith ZArith List Bool Lia Permutation Sorting.Sorted.
From Verif Require Import Str StrFacts ListFacts TypesModel Props Ast TreeModel DepsModel XmlParser ReadBase ReadProps ReadModel
  ZipNameModel PathModel PackModel PackSpec PackProofs RenderModel OpenModel WellSpec RestSpec RoundSpec RoundNums OpenText OpenPath OpenParts OpenRels.
From Verif Require BuildModel WellProofs WellRest PackOrderProofs.
Import ListNotations.
Import BuildModel (xml, E, L, leaf, xcalls, part_calls).
Open Scope list_scope.

Notation rels_of := (list (nat * list (string * string))).
(** ** Relationships of headers and footers *)
Lemma part_rels_there kind : forall parts i (rels : rels_of) j l, grows i rels -> i <= j < i + length parts -> In (j, l) rels ->
  In (SXml (nth_name ("word/_rels/" +++ kind) j ".xml.rels") (PPartRels l)) (part_steps kind i parts rels).
Proof.
  induction parts as [|n parts IH]; intros i rels j l G Hj Hi; [cbn in Hj; lia|]. cbn [part_steps length] in *. right.
  destruct rels as [|[j0 l0] rels]; [contradiction|]. destruct (Nat.eqb_spec j0 i) as [->|Hne].
  - destruct Hi as [Hi|Hi]; [injection Hi as -> ->; now left|]. right. apply IH; [exact (grows_tail _ _ _ _ G)| |exact Hi].
    pose proof (grows_in _ _ _ _ (grows_tail _ _ _ _ G) Hi). lia.
  - pose proof (grows_skip _ _ _ _ G Hne) as G'. apply IH; [exact G'| |exact Hi]. pose proof (grows_in _ _ _ _ G' Hi). lia.
Qed.
Lemma part_rels_only kind (Hk : forall i j, nth_name ("word/" +++ kind) i ".xml" <> nth_name ("word/_rels/" +++ kind) j ".xml.rels") :
  forall parts i (rels : rels_of) j,
  In (nth_name ("word/_rels/" +++ kind) j ".xml.rels") (map step_name (part_steps kind i parts rels)) -> exists l, In (j, l) rels.
Proof.
  induction parts as [|n parts IH]; intros i rels j H; [contradiction|]. cbn [part_steps map step_name] in H. destruct H as [H|H]; [now destruct (Hk _ _ H)|].
  destruct rels as [|[j0 l0] rels]; [now apply IH in H|]. destruct (Nat.eqb_spec j0 i) as [->|].
  - cbn [map step_name] in H. destruct H as [H|H]; [apply nth_name_inj in H; subst; exists l0; now left|]. destruct (IH _ _ _ H) as (l & Hl). exists l. now right.
  - now apply IH in H.
Qed.
Lemma sparse_in (l : rels_list) j x : In (j, x) (sparse l) <-> nth_error l j = Some x /\ x <> [].
Proof.
  unfold sparse. rewrite filter_In. cbn [snd].
  assert (G : forall i, In (j, x) (combine (seq i (length l)) l) <-> i <= j /\ nth_error l (j - i) = Some x).
  { induction l as [|y l IH]; intros i; cbn [length seq combine In].
    - split; [intros [] | intros [_ H]; destruct (j - i); discriminate H].
    - rewrite IH. split.
      + intros [H|[H1 H2]]; [injection H as -> ->; rewrite Nat.sub_diag; split; [lia | reflexivity]|]. split; [lia|]. replace (j - i) with (S (j - S i)) by lia. exact H2.
      + intros [H1 H2]. destruct (Nat.eq_dec i j) as [->|Hn]; [left; rewrite Nat.sub_diag in H2; injection H2 as <-; reflexivity|].
        right. split; [lia|]. replace (j - i) with (S (j - S i)) in H2 by lia. exact H2. }
  rewrite (G 0), Nat.sub_0_r. destruct x; split; intros [H1 H2]; try (destruct H1 as [_ H1]); repeat split; auto; try discriminate; try lia; now destruct H2.
Qed.

(** ** Names *)
Definition kind_of (h : bool) : string := if h then "header"%string else "footer"%string.
Definition side_rels_name (h : bool) (j : nat) : string := nth_name ("word/_rels/" +++ kind_of h) j ".xml.rels".
Definition side_rels (h : bool) (c : collected) : rels_list := if h then c_header_rels c else c_footer_rels c.
Import PackOrderProofs (side_name, side_parts, side_name_inj, side_rid, side_count).
Lemma side_name_is h j : side_name h j = nth_name ("word/" +++ kind_of h) j ".xml".
Proof. now destruct h. Qed.
Lemma kinds_apart h i j : nth_name ("word/" +++ kind_of h) i ".xml" <> nth_name ("word/_rels/" +++ kind_of h) j ".xml.rels".
Proof. intros X. apply (f_equal group) in X. destruct h; discriminate X. Qed.
(** The names of groups 1 and 2 (headers), 3 and 4 (footers). *)
Lemma name_group k c s g : In s (map step_name (stream_steps k c)) -> group s = g -> In g [1; 2; 3; 4] ->
  In s (part_names "header" 0 (headers (k_doc k)) (sparse (c_header_rels c))) /\ In g [1; 2] \/
  In s (part_names "footer" 0 (footers (k_doc k)) (sparse (c_footer_rels c))) /\ In g [3; 4].
Proof.
  intros H Hg Hi. unfold stream_steps in H. rewrite !map_app in H.
  repeat (apply in_app_iff in H; destruct H as [H|H]).
  - exfalso. cbn in H. repeat (destruct H as [<-|H]; [cbn in Hg; subst g; cbn in Hi; intuition discriminate|]). destruct H.
  - exfalso. cbn [fixed_files map fst snd step_name] in H. repeat (destruct H as [<-|H]; [vm_compute in Hg; subst g; cbn in Hi; intuition discriminate|]). destruct H.
  - left. split; [exact H|]. destruct (part_names_in _ _ _ _ _ H) as (j & _ & [-> | ->]); vm_compute in Hg; subst g; cbn; auto.
  - right. split; [exact H|]. destruct (part_names_in _ _ _ _ _ H) as (j & _ & [-> | ->]); vm_compute in Hg; subst g; cbn; auto.
  - exfalso. unfold unless_nil in H. destruct (c_media c) as [|m0 ms]; [destruct H|]. revert H. generalize (m0 :: ms). intros l H. cbn [map step_name] in H.
    destruct H as [<-|H]; [vm_compute in Hg; subst g; cbn in Hi; intuition discriminate|].
    apply in_map_iff in H as (x & <- & H). apply in_map_iff in H as (m & <- & H). cbn [step_name] in Hg. change (5 = g) in Hg. subst g; cbn in Hi; intuition discriminate.
  - exfalso. destruct (k_taskpanes k); [|destruct H]. cbn [map step_name] in H. rewrite web_names in H.
    repeat (destruct H as [<-|H]; [vm_compute in Hg; subst g; cbn in Hi; intuition discriminate|]). apply in_map_iff in H as (j & <- & _).
    change (7 = g) in Hg. subst g; cbn in Hi; intuition discriminate.
  - exfalso. unfold unless_nil in H. destruct (k_custom k); [destruct H|]. destruct H as [<-|[]]. vm_compute in Hg; subst g; cbn in Hi; intuition discriminate.
  - exfalso. rewrite item_names in H. apply in_flat_map in H as (j & _ & [<-|[<-|[<-|[]]]]).
    + change (8 = g) in Hg. subst g; cbn in Hi; intuition discriminate.
    + rewrite group_nth_item in Hg. subst g; cbn in Hi; intuition discriminate.
    + change (10 = g) in Hg. subst g; cbn in Hi; intuition discriminate.
Qed.
Lemma side_absent k c h j : nth_error (side_parts h (k_doc k)) j = None -> ~ In (side_name h j) (map step_name (stream_steps k c)).
Proof.
  intros Hj H. assert (Hl : length (side_parts h (k_doc k)) <= j) by now apply nth_error_None.
  destruct (name_group k c _ (if h then 1 else 3) H) as [[H1 H2]|[H1 H2]].
  - now destruct h.
  - destruct h; cbn; auto.
  - destruct h; [|cbn in H2; intuition discriminate]. apply part_names_in in H1 as (i & Hi & [X|X]).
    + apply (side_name_inj true) in X. subst. cbn [side_parts] in Hl. lia.
    + now apply (kinds_apart true) in X.
  - destruct h; [cbn in H2; intuition discriminate|]. apply part_names_in in H1 as (i & Hi & [X|X]).
    + apply (side_name_inj false) in X. subst. cbn [side_parts] in Hl. lia.
    + now apply (kinds_apart false) in X.
Qed.
Lemma side_rels_absent k c h j : (forall x, nth_error (side_rels h c) j = Some x -> x = []) -> ~ In (side_rels_name h j) (map step_name (stream_steps k c)).
Proof.
  intros Hj H. destruct (name_group k c _ (if h then 2 else 4) H) as [[H1 H2]|[H1 H2]].
  - now destruct h.
  - destruct h; cbn; auto.
  - destruct h; [|cbn in H2; intuition discriminate]. apply (part_rels_only "header" (kinds_apart true)) in H1 as (l & Hl). apply sparse_in in Hl as [Hl Hn]. now apply Hj in Hl.
  - destruct h; [cbn in H2; intuition discriminate|]. apply (part_rels_only "footer" (kinds_apart false)) in H1 as (l & Hl). apply sparse_in in Hl as [Hl Hn]. now apply Hj in Hl.
Qed.
Lemma side_there k c h j n : nth_error (side_parts h (k_doc k)) j = Some n -> In (SXml (side_name h j) (PPart n)) (stream_steps k c).
Proof. intros H. apply (PackOrderProofs.side_file k c h j n). exact H. Qed.
Lemma side_rels_there k c h j n x : nth_error (side_parts h (k_doc k)) j = Some n -> nth_error (side_rels h c) j = Some x -> x <> [] ->
  In (SXml (side_rels_name h j) (PPartRels x)) (stream_steps k c).
Proof.
  intros Hn Hx Hne. unfold stream_steps. assert (Hj : j < length (side_parts h (k_doc k))) by (apply nth_error_Some; congruence).
  assert (Hs : In (j, x) (sparse (side_rels h c))) by (apply sparse_in; auto). apply in_app_iff. right. apply in_app_iff. right.
  destruct h; cbn [side_parts side_rels kind_of] in *.
  - apply in_app_iff. left. apply part_rels_there; [apply sparse_grows | lia | exact Hs].
  - apply in_app_iff. right. apply in_app_iff. left. apply part_rels_there; [apply sparse_grows | lia | exact Hs].
Qed.

(** ** Their paths *)
Lemma has_char_app c a b : has_char c (a +++ b) = has_char c a || has_char c b.
Proof. induction a as [|d a IH]; [reflexivity|]. cbn [append has_char]. now rewrite IH, orb_assoc. Qed.
Lemma has_char_N c n : is_digit c = false -> has_char c (show_N n) = false.
Proof.
  intros Hc. pose proof (show_N_digits n) as H. induction (show_N n) as [|d s IH]; [reflexivity|]. cbn [all_char has_char] in *. apply andb_true_iff in H as [Hd H].
  rewrite (IH H), orb_false_r. destruct (Ascii.eqb_spec d c) as [->|]; [congruence | reflexivity].
Qed.
Lemma dotless_stem s : has_char "." s = false -> stem_of s = s.
Proof.
  intros H. unfold stem_of. replace (before_last_dot s) with (@None string); [reflexivity|]. symmetry. induction s as [|c s IH]; [reflexivity|].
  cbn [has_char before_last_dot] in *. apply orb_false_iff in H as [Hc H]. now rewrite (IH H), Hc.
Qed.
Lemma xml_stem s : s <> ""%string -> stem_of (s +++ ".xml") = s.
Proof.
  intros H. assert (B : before_last_dot (s +++ ".xml") = Some s).
  { clear H. induction s as [|c s IH]; [reflexivity|]. cbn [append before_last_dot]. now rewrite IH. }
  unfold stem_of. rewrite B. now destruct s.
Qed.
Definition stem (h : bool) (j : nat) : string := kind_of h +++ show_N (N.of_nat j + 1).
Lemma stem_chars h j c : is_digit c = false -> has_char c (kind_of h) = false -> has_char c (stem h j) = false.
Proof. intros H1 H2. unfold stem. now rewrite has_char_app, H2, has_char_N. Qed.
Lemma stem_cons h j : exists a b r, stem h j = String a (String b (String "o" r)) \/ stem h j = String a (String b (String "a" r)).
Proof. destruct h; cbn; eauto. Qed.
Lemma stem_name h j s : has_char ch_slash s = false -> is_name (stem h j +++ s).
Proof.
  intros Hs. repeat split; try (destruct h; discriminate). unfold no_slash. rewrite has_char_app, Hs, stem_chars by (now destruct h). reflexivity.
Qed.
Lemma side_name_path h j : side_name h j = join_segments ["word"%string] +++ String ch_slash (stem h j +++ ".xml").
Proof. rewrite side_name_is. unfold stem, nth_name. rewrite !append_assoc. now destruct h. Qed.
Lemma word_names : Forall is_name ["word"%string] /\ ["word"%string] <> [].
Proof. split; [repeat constructor; discriminate | discriminate]. Qed.
Lemma side_parent h j : parent (side_name h j) = Some word.
Proof. rewrite side_name_path. apply (parent_of_file _ (proj1 word_names) (proj2 word_names)). now apply stem_name. Qed.
Lemma side_rels_path h j : rels_name (side_name h j) = Some (side_rels_name h j).
Proof.
  assert (Hs : stem h j <> ""%string) by now destruct h.
  rewrite side_name_path, rels_name_is; [|apply word_names|apply word_names|now apply stem_name|].
  - rewrite xml_stem, dotless_stem by (exact Hs || (apply stem_chars; now destruct h)). unfold side_rels_name, stem, nth_name. rewrite !append_assoc. now destruct h.
  - rewrite xml_stem by exact Hs. rewrite <- (append_nil_r (stem h j)). now apply stem_name.
Qed.
Lemma numbered_zip a n b r : has_char ch_back a = false -> has_char ch_back b = false -> a = String "w" r -> zip_path (a +++ show_N n +++ b) = a +++ show_N n +++ b.
Proof.
  intros Ha Hb ->. apply plain_path; [|intros q X; discriminate X]. now rewrite !has_char_app, Ha, Hb, has_char_N.
Qed.
Lemma side_zip h j : zip_path (side_name h j) = side_name h j.
Proof. destruct h; eapply numbered_zip; reflexivity. Qed.
Lemma side_rels_zip h j : zip_path (side_rels_name h j) = side_rels_name h j.
Proof. destruct h; eapply numbered_zip; reflexivity. Qed.

(** ** A saved archive *)
Section Saved.
  Variables (k : pkg) (o : rest) (c : collected) (s : BuildModel.ids) (es : list entry) (s' : BuildModel.ids).
  Hypothesis packed : pack_docx k o c s = Some (es, s').
  Hypothesis media_apart : NoDup (map fst (c_media c)).
  Notation a := (as_archive es).
  Lemma ran : run_steps (RenderModel.render k o) (stream_steps k c) (Some s) = (es, Some s').
  Proof. unfold pack_docx, pack in packed. destruct (run_steps _ _ _) as [es1 [s1|]]; [|discriminate]. now injection packed as -> ->. Qed.
  Lemma entry_names : map entry_name es = map step_name (stream_steps k c).
  Proof. pose proof (names_of_entries _ (RenderModel.render k o) (stream_steps k c) (Some s)) as H. now rewrite ran in H. Qed.
  Lemma names_apart : NoDup (map entry_name es).
  Proof. rewrite entry_names. now apply entry_names_distinct. Qed.
  Lemma part_file n p : In (SXml n p) (stream_steps k c) -> zip_path n = n ->
    exists s1 s2 t, RenderModel.render k o p (Some s1) = (t, Some s2) /\ read_zip a n = Some (without_bom t).
  Proof.
    intros H Hn. destruct (proj1 (step_entries _ _ _ _ _ _ ran) _ _ H) as (s1 & s2 & t & Ht & Hi). exists s1, s2, t. split; [exact Ht|].
    now apply zip_file; [apply names_apart | |].
  Qed.
  Lemma raw_file n d : In (SRaw n d) (stream_steps k c) -> zip_path n = n -> read_zip a n = Some (without_bom d).
  Proof. intros H Hn. apply zip_file; [apply names_apart | | exact Hn]. exact (proj2 (step_entries _ _ _ _ _ _ ran) _ _ H). Qed.
  Lemma no_file n : ~ In n (map step_name (stream_steps k c)) -> zip_path n = n -> read_zip a n = None.
  Proof. intros H Hn. apply zip_missing; [now rewrite entry_names | exact Hn]. Qed.
  Lemma fixed_file n f : In (n, f) fixed_files ->
    exists s1 s2 t, RenderModel.render k o (PFixed f) (Some s1) = (t, Some s2) /\ read_zip a n = Some (without_bom t).
  Proof.
    intros H. apply part_file.
    - unfold stream_steps. apply in_app_iff. right. apply in_app_iff. left. apply in_map_iff. now exists (n, f).
    - cbn [fixed_files In] in H. repeat (destruct H as [H|H]; [injection H as <- <-; reflexivity|]). destruct H.
  Qed.
  Lemma plain_file n f : In (n, f) fixed_files -> b_noisy k o (PFixed f) = None -> tagged (plain_text k o (PFixed f)) ->
    read_zip a n = Some (plain_text k o (PFixed f)).
  Proof.
    intros H Hb Ht. destruct (fixed_file n f H) as (s1 & s2 & t & Hr & Hz). unfold RenderModel.render in Hr. rewrite Hb in Hr. injection Hr as <- _.
    now rewrite Hz, tagged_bom.
  Qed.
  (** The relationships of the header or footer with index [j]. *)
  Lemma side_rels_read h j n : nth_error (side_parts h (k_doc k)) j = Some n ->
    Forall (fun l => Forall readable (in_part_rels l)) (side_rels h c) ->
    exists rels, (forall r, attempt (read_rels_of a (side_name h j)) r = Val rels r) /\
      targets (match rels with Some x => x | None => [] end) (office_rel "image") =
      set_of (map image_target (nth j (side_rels h c) [])).
  Proof.
    intros Hn Hr. destruct (nth_error (side_rels h c) j) as [x|] eqn:Hx.
    2:{ exists None. rewrite nth_overflow by now apply nth_error_None. split; [intros r|reflexivity].
        unfold attempt, read_rels_of, bind. rewrite side_parent, side_rels_path. cbn [or_fail ret]. unfold get.
        rewrite no_file; [reflexivity | | apply side_rels_zip]. apply side_rels_absent. intros y Hy. congruence. }
    rewrite (nth_error_nth _ _ _ Hx). destruct x as [|y x].
    { exists None. split; [intros r|reflexivity]. unfold attempt, read_rels_of, bind. rewrite side_parent, side_rels_path. cbn [or_fail ret]. unfold get.
      rewrite no_file; [reflexivity | | apply side_rels_zip]. apply side_rels_absent. intros z Hz. congruence. }
    assert (Hne : y :: x <> []) by discriminate. revert Hx Hne. generalize (y :: x). clear y x. intros l Hx Hne.
    destruct (part_file _ _ (side_rels_there k c h j n _ Hn Hx Hne) (side_rels_zip h j)) as (s1 & s2 & t & Ht & Hz).
    assert (Hl : t = text_of ([decl_none] ++ xcalls (x_part_rels l))) by (symmetry; exact (f_equal fst Ht)). clear Ht. rewrite Hl in Hz.
    rewrite tagged_bom in Hz by (apply (text_tagged [decl_none]); right; eexists; reflexivity).
    assert (Hs : WellProofs.spelled readable (x_part_rels l)).
    { apply (proj1 (WellRest.part_rels_well l)). rewrite Forall_forall in Hr. apply Hr. now apply nth_error_In in Hx. }
    rewrite part_rels_rows in Hs, Hz. pose proof (fun q => rels_read [decl_none] word _ q (or_intror (ex_intro _ _ eq_refl)) Hs) as R.
    eexists. split.
    - intros r. unfold attempt, read_rels_of, bind. rewrite side_parent, side_rels_path. cbn [or_fail ret]. unfold get. rewrite Hz. cbn [or_fail ret]. unfold ret.
      rewrite R. reflexivity.
    - cbn iota. rewrite targets_read. f_equal. rewrite !map_map. rewrite (type_all _ (fun im => rd word (meant (rel3 (fst im) (office_rel "image") (snd im))))).
      + apply map_ext. intros im. rewrite rd3 by reflexivity. reflexivity.
      + intros im. now rewrite rd3 by reflexivity.
  Qed.
End Saved.

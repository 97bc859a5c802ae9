(** Opening an archive comes back, does not panic, and what it needs. *)
From Coq Require Import NArith ZArith List Bool Lia.
From Verif Require Import Str Props Ast XmlParser XmlProofs XmlTree ZipNameModel PathModel TreeModel DepsModel PackModel ReadBase ReadProps ReadModel StyleRead OpenModel RenderModel
  ReadSpec ReadProg ReadProofs ReadCalm ReadPartProofs ReadTextProofs StyleSpec StyleProg StyleOut.
From Verif Require Import ArchiveSpec ArchiveProofs ArchiveReads.
Import ListNotations.
Open Scope list_scope.

Lemma events_read t c : reads_from t {| rs_events := events_of t; rs_para := c |}.
Proof. intros n. cbn [rs_events]. symmetry. apply nth_request_events. Qed.
Lemma text_closing t : complete_text t -> closing [] (events_of t).
Proof. intros H. apply closing_complete. exact (text_complete t _ (events_read t 0) H). Qed.

(** ** The steps *)
Lemma returns_bind A B (m : R A) (k : A -> R B) s :
  returns (m s) -> (forall v s', m s = Val v s' -> returns (k v s')) -> returns (bind m k s).
Proof. intros H1 H2. unfold bind. destruct (m s) as [v s'| | | |]; cbn in *; auto. Qed.
Lemma returns_attempt A (m : R A) s : returns (m s) -> returns (attempt m s).
Proof. intros H. unfold attempt. now destruct (m s). Qed.
Lemma returns_get a n s : returns (get a n s).
Proof. unfold get. now destruct (read_zip a n). Qed.
Lemma get_val a n s t s' : get a n s = Val t s' -> read_zip a n = Some t /\ s' = s.
Proof. unfold get, or_fail, ret, fail. destruct (read_zip a n); [|discriminate]. intros H. injection H as <- <-. auto. Qed.
Lemma returns_text A (m : R A) t s : returns (m {| rs_events := events_of t; rs_para := rs_para s |}) -> returns (on_text m t s).
Proof. unfold on_text. now destruct (m _). Qed.
Lemma returns_file A a (m : R A) n s (P : string -> Prop) : each_file a [n] P -> (forall t c, P t -> returns (m {| rs_events := events_of t; rs_para := c |})) ->
  returns ((d <- get a n ;; on_text m d) s).
Proof.
  intros HP H. apply returns_bind; [apply returns_get|]. intros t s' E. apply get_val in E as [E ->]. apply returns_text, H. apply (HP n); [now left|exact E].
Qed.
Section Walk.
Context (a : archive) (complete : each_file a (xml_files a) complete_text)
  (roots : each_file a (rels_files a) (closes_one "Relationships")) (styles : each_file a (styles_files a) (root_named "styles")).
Lemma known n : In n (xml_files a) -> each_file a [n] complete_text.
Proof. intros H m t [<-|[]] E. exact (complete _ _ H E). Qed.
Lemma rels_walk part s : (forall n, In n (rels_file part) -> In n (rels_files a)) -> returns (read_rels_of a part s).
Proof.
  intros Hin. unfold read_rels_of, rels_file in *. destruct (parent part) as [dir|]; [|exact I]. destruct (rels_name part) as [n|]; [|exact I].
  cbn [or_fail bind ret]. pose proof (Hin n (or_introl eq_refl)) as Hn.
  apply returns_bind; [apply returns_get|]. intros t s' E. apply get_val in E as [E ->]. apply returns_text.
  destruct (rels_returns dir {| rs_events := events_of t; rs_para := rs_para s |}) as (l & s' & ->); [| |exact I]; cbn [rs_events].
  - apply (proj2 (text_closing t (complete n t ltac:(unfold xml_files; cbv zeta; rewrite !in_app_iff; tauto) E))).
  - exact (roots n t Hn E).
Qed.
Lemma parts_walk l : (forall t, In t l -> In (path_of t) (sides_of a)) -> forall s, returns (read_parts a l s).
Proof.
  induction l as [|[[rid path] mode] l IH]; intros Hin s; [exact I|]. cbn [read_parts]. pose proof (Hin _ (or_introl eq_refl)) as Hs. cbn [path_of fst snd] in Hs.
  assert (IH' : forall s, returns (read_parts a l s)) by (apply IH; intros; apply Hin; now right).
  apply returns_bind.
  - apply returns_attempt, (returns_file _ a _ _ _ complete_text); [apply known; unfold xml_files; cbv zeta; rewrite !in_app_iff; tauto|].
    intros t c Ht. apply header_returns. now apply text_closing.
  - intros [ch|] s' _; [|apply IH']. apply returns_bind; [apply returns_attempt, rels_walk|].
    + intros n Hn. unfold rels_files. apply in_or_app. right. apply in_flat_map. eauto.
    + intros r s'' _. apply returns_bind; [apply IH'|]. intros. exact I.
Qed.
Lemma themes_walk l : (forall t, In t l -> In (path_of t) (xml_files a)) -> forall s, returns (read_themes a l s).
Proof.
  induction l as [|[[rid path] mode] l IH]; intros Hin s; [exact I|]. cbn [read_themes]. pose proof (Hin _ (or_introl eq_refl)) as Hs. cbn [path_of fst snd] in Hs.
  apply returns_bind.
  - apply returns_attempt, (returns_file _ a _ _ _ complete_text); [now apply known|]. intros t c Ht. apply theme_returns. now apply text_closing.
  - intros t s' _. apply returns_bind; [apply IH; intros; apply Hin; now right|]. intros. exact I.
Qed.
Lemma first_in rels ty p : first_path rels ty = Some p -> first_of rels ty = [p].
Proof. unfold first_of, first_path, paths. destruct (targets rels ty) as [|[[i q] md] l]; [discriminate|]. intros X. injection X as ->. reflexivity. Qed.
Lemma named_walk A rels ty (m : R A) d s (P : string -> Prop) : each_file a (first_of rels ty) P ->
  (forall t c, P t -> returns (m {| rs_events := events_of t; rs_para := c |})) -> returns (named_part a rels ty m d s).
Proof.
  intros HP H. unfold named_part. destruct (first_path rels ty) as [p|] eqn:E; [|exact I]. rewrite (first_in _ _ _ E) in HP. now apply (returns_file _ a _ _ _ P).
Qed.
Lemma named_if_walk A rels ty (m : R A) d s (P : string -> Prop) : each_file a (first_of rels ty) P ->
  (forall t c, P t -> returns (m {| rs_events := events_of t; rs_para := c |})) -> returns (named_part_if_there a rels ty m d s).
Proof.
  intros HP H. unfold named_part_if_there. destruct (first_path rels ty) as [p|] eqn:E; [|exact I]. rewrite (first_in _ _ _ E) in HP.
  destruct (read_zip a p) as [t|] eqn:Et; [|exact I]. apply returns_text, H. apply (HP p); [now left|exact Et].
Qed.
Lemma types_returns t s : returns (on_text read_types t s).
Proof. apply returns_text. unfold read_types. destruct (children_of_root _ _ _ _) as [[]|]; exact I. Qed.
Lemma package_returns t s : returns (on_text read_package_rels t s).
Proof. apply returns_text. unfold read_package_rels. destruct (children_of_root _ _ _ _) as [[? []]|]; exact I. Qed.
Ltac somewhere := unfold xml_files, rels_files, ext_files, comment_files, styles_files, numbering_files; cbv zeta; rewrite ?in_app_iff; tauto.
Theorem opening_returns png preview c : returns (read_docx png preview a c).
Proof.
  unfold read_docx, open_docx.
  apply returns_bind; [apply returns_get|]. intros t1 s1 _.
  apply returns_bind; [apply types_returns|]. intros ty s2 _.
  apply returns_bind; [apply returns_get|]. intros t2 s3 E3. apply get_val in E3 as [E3 _].
  apply returns_bind; [apply package_returns|]. intros package s4 E4.
  assert (P : package_of a = package) by exact (proj1 (package_of_val a t2 s3 package s4 E3 E4)).
  cbv zeta.
  assert (M : (match find_target (office_rel "officeDocument") package with Some r => rel_target r | None => "word/document.xml"%string end) = main_of a)
    by (unfold main_of; now rewrite P).
  rewrite M. set (main := main_of a) in *.
  apply returns_bind.
  { destruct (find_target (office_rel "custom-properties") package) as [r|] eqn:Ec; [|exact I].
    apply returns_bind; [|intros; exact I]. apply returns_attempt, (returns_file _ a _ _ _ complete_text); [|intros t c0 Ht; apply custom_returns; now apply text_closing].
    apply known. assert (In (rel_target r) (custom_files a)) by (unfold custom_files; rewrite P, Ec; now left). somewhere. }
  intros custom s5 _.
  apply returns_bind. { apply rels_walk. intros n Hn. unfold rels_files. apply in_or_app. now left. }
  intros rels s6 E6. apply rels_of_val in E6 as [E6 _].
  assert (Sd : forall k, In k ["header"; "footer"]%string -> forall t, In t (targets rels (office_rel k)) -> In (path_of t) (sides_of a)).
  { intros k Hk t Ht. unfold sides_of. cbv zeta. fold main. rewrite E6. apply in_or_app. destruct Hk as [<-|[<-|[]]]; [left|right]; apply in_map_iff; now exists t. }
  apply returns_bind; [apply parts_walk, Sd; now left|]. intros heads s7 E7.
  apply returns_bind; [apply parts_walk, Sd; right; now left|]. intros foots s8 E8.
  apply returns_bind. { apply themes_walk. intros t Ht. unfold xml_files. cbv zeta. fold main. rewrite E6, !in_app_iff. do 4 right. left. apply in_map_iff. now exists t. }
  intros themes s9 _.
  assert (Cf : forall l, (forall n, In n l -> In n (xml_files a)) -> each_file a l complete_text) by (intros l Hl n t Hn; apply complete, Hl, Hn).
  apply returns_bind. { apply named_if_walk with (P := fun _ => True); [intros ? ? _ _; exact I|]. intros. apply ext_returns. }
  intros ext s10 _.
  apply returns_bind. { apply returns_bind; [|intros; exact I]. apply named_if_walk with (P := complete_text).
    - apply Cf. rewrite <- E6. intros n Hn. fold (comment_files a) in Hn. somewhere.
    - intros t c0 Ht. apply comments_returns. now apply text_closing. }
  intros comments s11 _.
  apply returns_bind; [apply returns_get|]. intros t3 s12 E12. apply get_val in E12 as [E12 _].
  apply returns_bind. { apply returns_text, document_returns. apply text_closing, (complete main); [|exact E12]. right. right. now left. }
  intros doc s13 _.
  destruct (assign _ _ _) as [k media].
  apply returns_bind. { apply named_walk with (P := fun t => complete_text t /\ root_named "styles" t).
    - intros n t Hn E. rewrite <- E6 in Hn. fold (styles_files a) in Hn. split; [apply (complete n); [somewhere|exact E]|exact (styles n t Hn E)].
    - intros t c0 [Ht Hr]. destruct (root_first t _ _ (events_read t c0) Hr) as (q & atts & rest & Hf & Hq).
      destruct (styles_return {| rs_events := events_of t; rs_para := c0 |} q atts rest (text_closing t Ht) Hf Hq) as [(y & s' & ->)| ->]; exact I. }
  intros sty s14 _.
  apply returns_bind. { apply named_walk with (P := complete_text).
    - apply Cf. rewrite <- E6. intros n Hn. fold (numbering_files a) in Hn. somewhere.
    - intros t c0 Ht. apply numberings_return. now apply text_closing. }
  intros num s15 _.
  apply returns_bind. { apply named_walk with (P := fun _ => True); [intros ? ? _ _; exact I|].
    intros t c0 _. destruct (settings_out {| rs_events := events_of t; rs_para := c0 |}) as [(x & s' & ->)|(s' & ->)]; exact I. }
  intros set0 s16 _.
  apply returns_bind. { apply named_walk with (P := complete_text).
    - apply Cf. intros n Hn. unfold xml_files. cbv zeta. fold main. rewrite E6, !in_app_iff. tauto.
    - intros t c0 Ht. apply web_returns. now apply text_closing. }
  intros web s17 _. exact I.
Qed.
End Walk.

(** ** What is needed *)
Lemma named_present A a rels ty (m : R A) d s v s' : named_part a rels ty m d s = Val v s' -> Forall (present a) (first_of rels ty).
Proof.
  unfold named_part. destruct (first_path rels ty) as [p|] eqn:E.
  - rewrite (first_in _ _ _ E). intros H. apply bind_val in H as (t & s1 & H & _). apply get_val in H as [H _]. constructor; [|constructor]. unfold present. now rewrite H.
  - unfold first_of, first_path, paths in *. destruct (targets rels ty) as [|[[i q] md] l]; [constructor|discriminate].
Qed.
Theorem opening_needs png preview a c op s' : read_docx png preview a c = Val op s' -> Forall (present a) (needed_files a).
Proof.
  unfold read_docx, open_docx. intros H.
  apply bind_val in H as (t1 & s1 & E1 & H). apply get_val in E1 as [E1 _].
  apply bind_val in H as (ty & s2 & _ & H).
  apply bind_val in H as (t2 & s3 & E3 & H). apply get_val in E3 as [E3 _].
  apply bind_val in H as (package & s4 & E4 & H).
  assert (P : package_of a = package) by exact (proj1 (package_of_val a t2 s3 package s4 E3 E4)).
  cbv zeta in H.
  assert (M : (match find_target (office_rel "officeDocument") package with Some r => rel_target r | None => "word/document.xml"%string end) = main_of a)
    by (unfold main_of; now rewrite P).
  rewrite M in H. set (main := main_of a) in *.
  apply bind_val in H as (custom & s5 & _ & H).
  apply bind_val in H as (rels & s6 & E6 & H). pose proof (proj1 (rels_of_val _ _ _ _ _ E6)) as Er.
  apply bind_val in H as (heads & s7 & _ & H). apply bind_val in H as (foots & s8 & _ & H). apply bind_val in H as (themes & s9 & _ & H).
  apply bind_val in H as (ext & s10 & _ & H). apply bind_val in H as (comments & s11 & _ & H).
  apply bind_val in H as (t3 & s12 & E12 & H). apply get_val in E12 as [E12 _]. apply bind_val in H as (doc & s13 & _ & H).
  destruct (assign _ _ _) as [k media].
  apply bind_val in H as (sty & s14 & E14 & H). apply bind_val in H as (num & s15 & E15 & H).
  apply bind_val in H as (set0 & s16 & E16 & H). apply bind_val in H as (web & s17 & E17 & _).
  unfold needed_files. cbv zeta. fold main. rewrite Er. rewrite !Forall_app. repeat split.
  - constructor; [unfold present; now rewrite E1|]. constructor; [unfold present; now rewrite E3|]. constructor; [unfold present; now rewrite E12|constructor].
  - unfold read_rels_of in E6. apply bind_val in E6 as (dir & s18 & Ed & E6). apply bind_val in E6 as (n & s19 & En & E6). apply bind_val in E6 as (t & s20 & Et & _).
    apply get_val in Et as [Et _]. unfold rels_file. destruct (parent main); [|discriminate]. destruct (rels_name main); [|discriminate]. injection En as <- _.
    constructor; [unfold present; now rewrite Et|constructor].
  - unfold styles_files. fold main. rewrite Er. exact (named_present _ _ _ _ _ _ _ _ _ E14).
  - unfold numbering_files. fold main. rewrite Er. exact (named_present _ _ _ _ _ _ _ _ _ E15).
  - exact (named_present _ _ _ _ _ _ _ _ _ E16).
  - exact (named_present _ _ _ _ _ _ _ _ _ E17).
Qed.

(** ** No panic *)
Definition safe {A} (c : N) (o : out A) : Prop :=
  match o with Val _ s | Err s => (rs_para s <= c)%N | Panic => False | Hang | NoFuel => True end.
Lemma safe_more A c d (o : out A) : safe c o -> (c <= d)%N -> safe d o.
Proof. destruct o; cbn; auto; lia. Qed.
Lemma safe_bind A B c d (m : R A) (k : A -> R B) s : safe c (m s) -> (c <= d)%N ->
  (forall v s', m s = Val v s' -> (rs_para s' <= c)%N -> safe d (k v s')) -> safe d (bind m k s).
Proof. intros H1 L H2. unfold bind. destruct (m s) as [v s'|s'| | |]; cbn in *; auto. lia. Qed.
Lemma safe_attempt A c (m : R A) s : safe c (m s) -> safe c (attempt m s).
Proof. intros H. unfold attempt. now destruct (m s). Qed.
Lemma safe_get a n s c : (rs_para s <= c)%N -> safe c (get a n s).
Proof. intros H. unfold get, or_fail, ret, fail. now destruct (read_zip a n). Qed.
Lemma safe_text A (m : R A) t s c : safe c (m {| rs_events := events_of t; rs_para := rs_para s |}) -> safe c (on_text m t s).
Proof. unfold on_text. now destruct (m _). Qed.
(** Readers that neither panic nor take ids. *)
Definition idle {A} (m : R A) : Prop := forall s c, (rs_para s <= c)%N -> safe c (m s).
Lemma idle_ret A (x : A) : idle (ret x).
Proof. intros s c H. exact H. Qed.
Lemma idle_fail A : idle (@fail A).
Proof. intros s c H. exact H. Qed.
Lemma idle_bind A B (m : R A) (k : A -> R B) : idle m -> (forall v, idle (k v)) -> idle (bind m k).
Proof. intros H1 H2 s c H. apply (safe_bind _ _ c c); [now apply H1|lia|]. intros v s' _ L. now apply H2. Qed.
Lemma idle_attempt A (m : R A) : idle m -> idle (attempt m).
Proof. intros H s c L. now apply safe_attempt, H. Qed.
Lemma idle_turns A B (body : A -> event -> R (turn A B)) : (forall a e, idle (body a e)) -> forall fuel a, idle (turns fuel body a).
Proof.
  intros H fuel. induction fuel as [|n IH]; intros a s c L; cbn [turns]; destruct (rs_events s) as [|e l]; try exact I.
  specialize (H a e {| rs_events := l; rs_para := rs_para s |} c L). destruct (body a e _) as [[x|x] s'|s'| | |]; cbn in *; auto. now apply IH.
Qed.
Lemma idle_loop A B (body : A -> event -> R (turn A B)) a : (forall a e, idle (body a e)) -> idle (loop body a).
Proof. intros H s. apply idle_turns. exact H. Qed.
Lemma idle_part A B (body : A -> event -> R (turn A B)) fin a : (forall a e, idle (body a e)) -> idle (part_loop body fin a).
Proof.
  intros H s. unfold part_loop. generalize (length (rs_events s)). intros fuel. revert a s.
  induction fuel as [|n IH]; intros a s c L; cbn [part_turns]; destruct (rs_events s) as [|e l]; try exact L.
  - destruct e; try exact I. exact L.
  - assert (G : safe c (match body a e {| rs_events := l; rs_para := rs_para s |} with
      | Val (Again a') s' => part_turns n body fin a' s' | Val (Done b) s' => Val b s' | Err s' => Err s' | Panic => Panic | Hang => Hang | NoFuel => NoFuel end)).
    { specialize (H a e {| rs_events := l; rs_para := rs_para s |} c L). destruct (body a e _) as [[x|x] s'|s'| | |]; cbn in *; auto. }
    destruct e; try exact G. exact L.
Qed.
Lemma idle_element A B own (start : A -> qname -> list attribute -> R A) (fin : A -> B) a0 :
  (forall a q atts, idle (start a q atts)) -> idle (element own start fin a0).
Proof.
  intros H. apply idle_loop. intros a [q atts|q|c|c| |]; try apply idle_ret; try apply idle_fail. apply idle_bind; [apply H|intros; apply idle_ret].
Qed.
Lemma idle_next : idle next_event.
Proof. intros s c H. unfold next_event. now destruct (rs_events s). Qed.
Ltac idle1 := match goal with
  | |- idle (ret _) => apply idle_ret
  | |- idle fail => apply idle_fail
  | |- idle next_event => apply idle_next
  | |- idle (attempt _) => apply idle_attempt
  | |- idle (bind _ _) => apply idle_bind; [|intros]
  | |- idle (element _ _ _ _) => apply idle_element; intros
  | |- idle (loop _ _) => apply idle_loop; intros ? [? ?|?|?|?| |]
  | |- idle (part_loop _ _ _) => apply idle_part; intros ? [? ?|?|?|?| |]
  | |- idle (if ?b then _ else _) => destruct b
  | |- idle (match ?x with _ => _ end) => destruct x
  end.
Ltac idle_tac := repeat idle1.
Lemma idle_rels dir : idle (read_rels_xml dir).
Proof. unfold read_rels_xml. idle_tac. Qed.
Lemma idle_custom : idle read_custom.
Proof. unfold read_custom, read_property. idle_tac. Qed.
Lemma idle_theme : idle read_theme.
Proof. unfold read_theme, read_font_scheme, read_font_group. idle_tac. Qed.
Lemma idle_div n : forall a, idle (read_div n a).
Proof.
  induction n as [|n IH]; intros a; cbn [read_div]; [intros s c L; exact I|]. apply idle_element. intros d q b. destruct (existsb _ _); [apply idle_ret|].
  destruct (q_local q =s "divsChild"); [|apply idle_ret]. unfold read_divs_child. apply idle_element. intros d' q' b'.
  destruct (q_local q' =s "div"); [|apply idle_ret]. apply idle_bind; [apply idle_attempt, IH|intros; apply idle_ret].
Qed.
Lemma idle_web : idle read_web_settings.
Proof.
  intros s c L. unfold read_web_settings. apply idle_part; [|exact L]. intros l [q atts|q|x|x| |]; try apply idle_ret; try apply idle_fail.
  destruct (q_local q =s "div"); [|apply idle_ret]. apply idle_bind; [apply idle_attempt, idle_div|intros; apply idle_ret].
Qed.
Lemma idle_settings : idle read_settings.
Proof. unfold read_settings. idle_tac. Qed.
(** Content types. *)
Lemma types_calm : forall l pre d a, (forall p q atts post, pre ++ l = p ++ EStart q atts :: post -> depth_after p = 1%Z -> (2 <= length atts)%nat) -> d = depth_after pre ->
  children_of_root (fun t atts => match atts with (_, ns) :: (_, path) :: _ => Some (t_put t path ns) | _ => None end) l d a <> None.
Proof.
  induction l as [|e l IH]; intros pre d a H Hd; cbn [children_of_root]; [discriminate|].
  assert (H' : forall p q atts post, (pre ++ [e]) ++ l = p ++ EStart q atts :: post -> depth_after p = 1%Z -> (2 <= length atts)%nat).
  { intros p q atts post E. apply (H p q atts post). now rewrite <- app_assoc in E. }
  assert (Hd' : depth_after (pre ++ [e]) = step_depth d e) by (unfold depth_after in *; rewrite fold_left_app; cbn [fold_left]; now rewrite <- Hd).
  destruct e as [q atts|q|c|c| |]; try discriminate.
  - destruct (d =? 1)%Z eqn:E1.
    + apply Z.eqb_eq in E1. pose proof (H pre q atts l eq_refl ltac:(congruence)) as L. destruct atts as [|[a1 ns] [|[a2 path] r]]; cbn [length] in L; try lia.
      apply (IH (pre ++ [EStart q ((a1, ns) :: (a2, path) :: r)])); [exact H'|]. symmetry; exact Hd'.
    + apply (IH (pre ++ [EStart q atts])); [exact H'|]. symmetry; exact Hd'.
  - apply (IH (pre ++ [EEnd q])); [exact H'|]. symmetry; exact Hd'.
  - apply (IH (pre ++ [EChars c])); [exact H'|]. symmetry; exact Hd'.
  - apply (IH (pre ++ [EWs c])); [exact H'|]. symmetry; exact Hd'.
Qed.
Lemma safe_types t s c : types_sound t -> (rs_para s <= c)%N -> safe c (on_text read_types t s).
Proof.
  intros H L. apply safe_text. unfold read_types. cbn [rs_events]. pose proof (types_calm (events_of t) [] 0%Z types_default H eq_refl) as X.
  destruct (children_of_root _ _ _ _) as [[]|]; [exact L|congruence].
Qed.
Lemma package_calm l : forall d a, children_of_root (fun l0 atts => let r := read_rel atts in Some (l0 ++ [mk_rel (ar_id r) (ar_type r) (ar_target r)])) l d a <> None.
Proof.
  induction l as [|e l IH]; intros d a; cbn [children_of_root]; [discriminate|]. destruct e as [q atts|q|c|c| |]; try discriminate; try apply IH.
  destruct (d =? 1)%Z; apply IH.
Qed.
Lemma safe_package t s c : (rs_para s <= c)%N -> safe c (on_text read_package_rels t s).
Proof.
  intros L. apply safe_text. unfold read_package_rels. cbn [rs_events]. pose proof (package_calm (events_of t) 0%Z []) as X.
  destruct (children_of_root _ _ _ _) as [[? []]|]; [exact L|exact L|congruence].
Qed.
(** Extended comments. *)
Lemma safe_ext t s c : ext_sound t -> (rs_para s <= c)%N -> safe c (on_text read_comments_ext t s).
Proof.
  intros H L. apply safe_text. unfold read_comments_ext, part_loop. cbn [rs_events].
  assert (G : forall fuel l a p, incl l (events_of t) -> (p <= c)%N -> safe c (part_turns fuel (fun l e =>
    match e with
    | EStart q atts => if q_local q =s "commentEx" then x <- read_comment_ext atts ;; ret (Again (put_ext x l)) else ret (Again l)
    | EEnd q => ret (if q_local q =s "commentsEx" then Done l else Again l)
    | EErr => fail
    | _ => ret (Again l)
    end) (fun l => l) a {| rs_events := l; rs_para := p |})); [|apply G; [apply incl_refl|exact L]].
  induction fuel as [|n IH]; intros l a p Hl Hp; cbn [part_turns rs_events rs_para].
  - destruct l as [|[]]; cbn; auto.
  - destruct l as [|e l]; [exact Hp|]. assert (Hl' : incl l (events_of t)) by (intros x Hx; apply Hl; now right).
    destruct e as [q atts|q|x|x| |]; cbn [ret fail]; try (apply IH; auto); try exact Hp.
    + destruct (q_local q =s "commentEx") eqn:Q; [|now apply IH]. apply String.eqb_eq in Q.
      destruct (H q atts (Hl _ (or_introl eq_refl)) Q) as (k & v & Hin & Hk). unfold read_comment_ext.
      assert (G : attr_get "paraId" atts <> None).
      { clear -Hin Hk. induction atts as [|[a' v'] atts IH]; [easy|]. cbn [attr_get]. destruct (q_local a' =s "paraId") eqn:E; [discriminate|].
        destruct Hin as [X|Hin]; [|now apply IH]. injection X as -> ->. rewrite Hk in E. discriminate. }
      destruct (attr_get "paraId" atts) as [id|]; [|congruence]. unfold bind. cbn [or_crash ret]. now apply IH.
    + destruct (q_local q =s "commentsEx"); [exact Hp|now apply IH].
Qed.
(** Parts with paragraphs. *)
Lemma safe_depth A needs (f : subs -> R A) t s : (forall d, quiet needs 0 (f (readers d))) -> sound_text needs t ->
  (rs_para s + N.of_nat (length (events_of t)) < 4294967296)%N -> safe (rs_para s + N.of_nat (length (events_of t)))%N (on_text (with_depth f) t s).
Proof.
  intros Hf H1 H2. apply safe_text. unfold with_depth. cbn [rs_events].
  specialize (Hf (S (length (events_of t))) {| rs_events := events_of t; rs_para := rs_para s |} H1). unfold budget in Hf. cbn [rs_events rs_para] in Hf.
  specialize (Hf ltac:(lia)). destruct (f _ _) as [v s'|s'| | |]; cbn; auto; destruct Hf as [_ Hf]; lia.
Qed.
Lemma safe_calm A (f : subs -> R A) t s : (forall d, calm 0 (f (readers d))) -> sound_text [] t ->
  (rs_para s + N.of_nat (length (events_of t)) < 4294967296)%N -> safe (rs_para s + N.of_nat (length (events_of t)))%N (on_text (with_depth f) t s).
Proof.
  intros Hf H1 H2. apply safe_text. unfold with_depth. cbn [rs_events].
  assert (H1' : Forall sound_event (events_of t)) by (revert H1; apply Forall_impl; now intros e []).
  specialize (Hf (S (length (events_of t))) {| rs_events := events_of t; rs_para := rs_para s |} H1'). unfold budget in Hf. cbn [rs_events rs_para] in Hf.
  specialize (Hf ltac:(lia)). destruct (f _ _) as [v s'|s'| | |]; cbn; auto; destruct Hf as [_ Hf]; lia.
Qed.
Lemma events_in_some a n t : read_zip a n = Some t -> events_in a n = N.of_nat (length (events_of t)).
Proof. intros H. unfold events_in. now rewrite H. Qed.
Lemma events_all_app a l m : events_all a (l ++ m) = (events_all a l + events_all a m)%N.
Proof. unfold events_all. induction l as [|n l IH]; cbn [app fold_right]; [reflexivity|]. rewrite IH. lia. Qed.
Section Calm.
Context (a : archive) (c0 : N).
Context (H_types : each_file a ["[Content_Types].xml"%string] types_sound) (H_ext : each_file a (ext_files a) ext_sound)
  (H_main : each_file a (main_of a :: sides_of a ++ comment_files a) (sound_text []))
  (H_styles : each_file a (styles_files a) (sound_text style_needs)) (H_num : each_file a (numbering_files a) (sound_text numbering_needs)).
Definition room (c : N) (s : rst) : Prop := (rs_para s <= c)%N.
Lemma safe_file A (m : R A) n s c k P : each_file a [n] P -> room c s -> (c + k = c + events_in a n)%N ->
  (c + events_in a n < 4294967296)%N ->
  (forall t s, P t -> (rs_para s + N.of_nat (length (events_of t)) < 4294967296)%N -> safe (rs_para s + N.of_nat (length (events_of t)))%N (on_text m t s)) ->
  safe (c + k)%N ((d <- get a n ;; on_text m d) s).
Proof.
  intros HP Hr Hk Hl H. rewrite Hk. apply (safe_bind _ _ c); [now apply safe_get|lia|]. intros t s' E _. apply get_val in E as [E ->]. unfold room in Hr.
  rewrite (events_in_some _ _ _ E) in *. eapply safe_more; [apply H; [apply (HP n); [now left|exact E]|lia]|lia].
Qed.
Lemma safe_rels part s c : room c s -> safe c (read_rels_of a part s).
Proof.
  intros L. unfold read_rels_of. destruct (parent part) as [dir|]; [|exact L]. destruct (rels_name part) as [n|]; [|exact L].
  cbn [or_fail bind ret]. apply (safe_bind _ _ c); [now apply safe_get|lia|]. intros t s' E L'. apply safe_text. now apply idle_rels.
Qed.
Lemma safe_parts l : (forall t, In t l -> In (path_of t) (sides_of a)) -> forall s c, room c s -> (c + events_all a (map path_of l) < 4294967296)%N ->
  safe (c + events_all a (map path_of l))%N (read_parts a l s).
Proof.
  induction l as [|[[rid path] mode] l IH]; intros Hin s c L Hc; [cbn; unfold room in L; lia|]. cbn [read_parts]. pose proof (Hin _ (or_introl eq_refl)) as Hs.
  cbn [map path_of fst snd events_all fold_right] in *. fold (events_all a (map path_of l)) in *.
  assert (IH' : forall s c, room c s -> (c + events_all a (map path_of l) < 4294967296)%N -> safe (c + events_all a (map path_of l))%N (read_parts a l s)) by (apply IH; intros; apply Hin; now right).
  apply (safe_bind _ _ (c + events_in a path)%N).
  - apply safe_attempt, (safe_file _ _ _ _ _ _ (sound_text [])); auto; [|lia|].
    + intros n t [<-|[]]. apply H_main. right. apply in_or_app. now left.
    + intros t s' Ht Hl. apply safe_calm; auto. intros d. apply calm_header, calm_readers.
  - lia.
  - intros [ch|] s' _ L'.
    + apply (safe_bind _ _ (c + events_in a path)%N); [apply safe_attempt; now apply safe_rels|lia|]. intros r s'' _ L2.
      apply (safe_bind _ _ (c + (events_in a path + events_all a (map path_of l)))%N); [|lia|intros more s3 _ L3; exact L3].
      rewrite N.add_assoc. apply IH'; [exact L2|lia].
    + rewrite N.add_assoc. apply IH'; [exact L'|lia].
Qed.
Lemma safe_themes l : forall s c, room c s -> safe c (read_themes a l s).
Proof.
  induction l as [|[[rid path] mode] l IH]; intros s c L; [exact L|]. cbn [read_themes].
  apply (safe_bind _ _ c); [|lia|].
  - apply safe_attempt, (safe_bind _ _ c); [now apply safe_get|lia|]. intros t s' _ L'. apply safe_text. now apply idle_theme.
  - intros t s' _ L'. apply (safe_bind _ _ c); [now apply IH|lia|]. intros v s2 _ L2. exact L2.
Qed.
Lemma named_idle A rels ty (m : R A) d s c : idle m -> room c s -> safe c (named_part a rels ty m d s).
Proof.
  intros Hm L. unfold named_part. destruct (first_path rels ty) as [p|]; [|exact L].
  apply (safe_bind _ _ c); [now apply safe_get|lia|]. intros t s' _ L'. apply safe_text. now apply Hm.
Qed.
Lemma named_safe A rels ty (m : R A) d s c P : each_file a (first_of rels ty) P -> room c s -> (c + events_all a (first_of rels ty) < 4294967296)%N ->
  (forall t s, P t -> (rs_para s + N.of_nat (length (events_of t)) < 4294967296)%N -> safe (rs_para s + N.of_nat (length (events_of t)))%N (on_text m t s)) ->
  safe (c + events_all a (first_of rels ty))%N (named_part a rels ty m d s).
Proof.
  intros HP L Hc H. unfold named_part. destruct (first_path rels ty) as [p|] eqn:E; [|cbn; unfold room in L; lia]. rewrite (first_in _ _ _ E) in *.
  cbn [events_all fold_right] in *. apply (safe_file _ _ _ _ _ _ P); auto; lia.
Qed.
Lemma named_if_safe A rels ty (m : R A) d s c P : each_file a (first_of rels ty) P -> room c s -> (c + events_all a (first_of rels ty) < 4294967296)%N ->
  (forall t s, P t -> (rs_para s + N.of_nat (length (events_of t)) < 4294967296)%N -> safe (rs_para s + N.of_nat (length (events_of t)))%N (on_text m t s)) ->
  safe (c + events_all a (first_of rels ty))%N (named_part_if_there a rels ty m d s).
Proof.
  intros HP L Hc H. unfold named_part_if_there. destruct (first_path rels ty) as [p|] eqn:E; [|cbn; unfold room in L; lia]. rewrite (first_in _ _ _ E) in *.
  cbn [events_all fold_right] in *. destruct (read_zip a p) as [t|] eqn:Et; [|cbn; unfold room in L; lia]. rewrite (events_in_some _ _ _ Et) in *.
  unfold room in L. eapply safe_more; [apply H; [apply (HP p); [now left|exact Et]|lia]|lia].
Qed.
Theorem opening_calm png preview (H_ids : (c0 + events_all a (paragraph_files a) < 4294967296)%N) : read_docx png preview a c0 <> Panic.
Proof.
  assert (S : exists c, safe c (read_docx png preview a c0)); [|destruct S as [c S]; intros X; now rewrite X in S].
  exists (c0 + events_all a (paragraph_files a))%N.
  unfold read_docx, open_docx.
  apply (safe_bind _ _ c0); [apply safe_get; cbn; lia|lia|]. intros t1 s1 E1 L1. apply get_val in E1 as [E1 _].
  apply (safe_bind _ _ c0); [apply safe_types; auto; apply (H_types _ _ (or_introl eq_refl) E1)|lia|]. intros ty s2 _ L2.
  apply (safe_bind _ _ c0); [now apply safe_get|lia|]. intros t2 s3 E3 L3. apply get_val in E3 as [E3 _].
  apply (safe_bind _ _ c0); [now apply safe_package|lia|]. intros package s4 E4 L4.
  assert (P : package_of a = package) by exact (proj1 (package_of_val a t2 s3 package s4 E3 E4)).
  cbv zeta.
  assert (M : (match find_target (office_rel "officeDocument") package with Some r => rel_target r | None => "word/document.xml"%string end) = main_of a)
    by (unfold main_of; now rewrite P).
  rewrite M. set (main := main_of a) in *.
  apply (safe_bind _ _ c0).
  { destruct (find_target (office_rel "custom-properties") package) as [r|] eqn:Ec; [|exact L4].
    apply (safe_bind _ _ c0); [|lia|intros v s' _ L; exact L]. apply safe_attempt, (safe_bind _ _ c0); [now apply safe_get|lia|]. intros t s' _ L. apply safe_text. now apply idle_custom. }
  { lia. }
  intros custom s5 _ L5.
  apply (safe_bind _ _ c0); [now apply safe_rels|lia|].
  intros rels s6 E6 L6. apply rels_of_val in E6 as [E6 _].
  assert (Sd : forall k, In k ["header"; "footer"]%string -> forall t, In t (targets rels (office_rel k)) -> In (path_of t) (sides_of a)).
  { intros k Hk t Ht. unfold sides_of. cbv zeta. fold main. rewrite E6. apply in_or_app. destruct Hk as [<-|[<-|[]]]; [left|right]; apply in_map_iff; now exists t. }
  assert (Total : (events_all a (paragraph_files a) = events_in a main + (events_all a (map path_of (targets rels (office_rel "header"))) + events_all a (map path_of (targets rels (office_rel "footer"))))
     + events_all a (first_of rels (office_rel "comments")) + events_all a (first_of rels (office_rel "styles")) + events_all a (first_of rels (office_rel "numbering")))%N).
  { unfold paragraph_files, comment_files, styles_files, numbering_files. fold main. rewrite E6. unfold sides_of. cbv zeta. fold main. rewrite E6.
    change (events_all a (main :: ?l)) with (events_in a main + events_all a l)%N. cbn [events_all fold_right]. 
    fold (events_all a ((paths rels (office_rel "header") ++ paths rels (office_rel "footer")) ++ first_of rels (office_rel "comments") ++ first_of rels (office_rel "styles") ++ first_of rels (office_rel "numbering"))).
    rewrite !events_all_app. unfold paths. 
    change (map (fun t : string * string * option string => snd (fst t)) (targets rels (office_rel "header"))) with (map path_of (targets rels (office_rel "header"))).
    change (map (fun t : string * string * option string => snd (fst t)) (targets rels (office_rel "footer"))) with (map path_of (targets rels (office_rel "footer"))). lia. }
  rewrite Total in *. clear Total. set (eh := events_all a (map path_of (targets rels (office_rel "header")))) in *. set (ef := events_all a (map path_of (targets rels (office_rel "footer")))) in *.
  set (ec := events_all a (first_of rels (office_rel "comments"))) in *. set (es := events_all a (first_of rels (office_rel "styles"))) in *.
  set (en := events_all a (first_of rels (office_rel "numbering"))) in *. set (em := events_in a main) in *.
  apply (safe_bind _ _ (c0 + eh)%N); [apply safe_parts; [apply Sd; now left|exact L6|fold eh; lia]|lia|]. intros heads s7 E7 L7.
  apply (safe_bind _ _ (c0 + eh + ef)%N); [apply safe_parts; [apply Sd; right; now left|exact L7|fold ef; lia]|lia|]. intros foots s8 E8 L8.
  apply (safe_bind _ _ (c0 + eh + ef)%N); [now apply safe_themes|lia|].
  intros themes s9 _ L9.
  apply (safe_bind _ _ (c0 + eh + ef)%N).
  { unfold named_part_if_there. destruct (first_path rels type_comments_ext) as [p|] eqn:Ep; [|exact L9]. destruct (read_zip a p) as [t|] eqn:Et; [|exact L9].
    apply safe_ext; [|exact L9]. apply (H_ext p); [|exact Et]. unfold ext_files. fold main. rewrite E6, (first_in _ _ _ Ep). now left. }
  { lia. }
  intros ext s10 _ L10.
  apply (safe_bind _ _ (c0 + eh + ef + ec)%N).
  { apply (safe_bind _ _ (c0 + eh + ef + ec)%N); [|lia|intros v s' _ L; exact L]. apply named_if_safe with (P := sound_text []); [|exact L10|fold ec; lia|].
    - intros n t Hn. apply H_main. right. apply in_or_app. right. unfold comment_files. fold main. now rewrite E6.
    - intros t s Ht Hl. apply safe_calm; auto. intros d. apply calm_comments, calm_readers. }
  { lia. }
  intros comments s11 _ L11.
  apply (safe_bind _ _ (c0 + eh + ef + ec)%N); [now apply safe_get|lia|]. intros t3 s12 E12 L12. apply get_val in E12 as [E12 _].
  assert (Em : em = N.of_nat (length (events_of t3))) by (apply events_in_some; exact E12).
  apply (safe_bind _ _ (c0 + eh + ef + ec + em)%N).
  { eapply safe_more; [apply safe_calm; [intros d; apply calm_document, calm_readers|apply (H_main main); [now left|exact E12]|lia]|lia]. }
  { lia. }
  intros doc s13 _ L13.
  destruct (assign _ _ _) as [k media].
  apply (safe_bind _ _ (c0 + eh + ef + ec + em + es)%N).
  { apply named_safe with (P := sound_text style_needs); [|exact L13|fold es; lia|].
    - intros n t Hn. apply H_styles. unfold styles_files. fold main. now rewrite E6.
    - intros t s Ht Hl. apply (safe_depth _ style_needs); auto. intros d. apply quiet_styles; [apply calm_props|apply readers_take]. }
  { lia. }
  intros sty s14 _ L14.
  apply (safe_bind _ _ (c0 + eh + ef + ec + em + es + en)%N).
  { apply named_safe with (P := sound_text numbering_needs); [|exact L14|fold en; lia|].
    - intros n t Hn. apply H_num. unfold numbering_files. fold main. now rewrite E6.
    - intros t s Ht Hl. apply (safe_depth _ numbering_needs); auto. intros d. apply quiet_numberings; [apply calm_props|apply readers_take]. }
  { lia. }
  intros num s15 _ L15.
  apply (safe_bind _ _ (c0 + eh + ef + ec + em + es + en)%N); [apply named_idle; [apply idle_settings|exact L15]|lia|].
  intros set0 s16 _ L16.
  apply (safe_bind _ _ (c0 + eh + ef + ec + em + es + en)%N); [apply named_idle; [apply idle_web|exact L16]|lia|].
  intros web s17 _ L17. cbn. unfold room in *. lia.
Qed.
End Calm.

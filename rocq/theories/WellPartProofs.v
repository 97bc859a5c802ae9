(** Built parts are well-formed XML just when the stored strings are legal. *)
From Coq Require Import NArith ZArith List Bool Lia.
From Verif Require Import Str StrFacts TypesModel Props Ast IdsModel EscapeModel InstrModel WriterModel XmlParser XmlSpec
  BuildModel BuildSpec BuildProofs BuildPartProofs VocabSpec VocabProofs WellSpec WellProofs.
Import ListNotations.

(** ** Names and values apart *)
Lemma spelled_split P x :
  spelled P x <-> spelled (fun _ => True) x /\ Forall P (pieces_of x).
Proof.
  assert (A : forall a, Forall (attr_fine P) a <-> Forall (attr_fine (fun _ => True)) a /\ Forall P (map (fun kv => Value (snd kv)) a)).
  { induction a as [|[k v] a IH]; cbn [map]; rewrite ?Forall_cons_iff, ?IH; unfold attr_fine; cbn [fst snd]; [|tauto]. intuition. }
  induction x as [n a ch IH|n a ts] using RoundBase.xml_tree_ind; cbn [spelled pieces_of]; rewrite Forall_app, A.
  - assert (C : all_spelled P ch <-> all_spelled (fun _ => True) ch /\ Forall P (flat_map pieces_of ch)).
    { induction IH as [|c ch Hc _ IHc]; cbn [all_spelled fold_right flat_map]; [intuition|].
      rewrite Forall_app. unfold all_spelled in IHc. tauto. }
    unfold all_spelled in C. tauto.
  - rewrite !Forall_cons_iff. intuition.
Qed.
Lemma spelled_elements x : spelled (fun _ => True) x ->
  Forall (fun e => elem_name_ok (xname e) = true /\ Forall (fun k => attr_name_ok k = true) (map fst (xattrs e))) (elements x).
Proof.
  assert (A : forall a, Forall (attr_fine (fun _ => True)) a -> Forall (fun k => attr_name_ok k = true) (map fst a)).
  { intros a H. rewrite Forall_map. eapply Forall_impl; [|exact H]. intros kv [K _]. exact K. }
  induction x as [n a ch IH|n a ts] using RoundBase.xml_tree_ind; cbn [spelled elements]; intros (H1 & H2 & H3).
  - constructor; [cbn; auto|]. induction IH as [|c ch Hc _ IHc]; [constructor|]. cbn [flat_map fold_right] in *. destruct H3 as [H3 H4].
    apply Forall_app. auto.
  - constructor; [cbn; auto | constructor].
Qed.

(** ** No attribute twice *)
Lemma sub_In A (l m : list A) : sub l m -> forall x, In x l -> In x m.
Proof. induction 1; intros y; cbn; intuition. Qed.
Lemma sub_NoDup A (l m : list A) : sub l m -> NoDup m -> NoDup l.
Proof.
  induction 1 as [m|x l m H IH|x l m H IH]; intros N; [constructor| |]; inversion N; subst; auto.
  constructor; auto. intros I. apply (sub_In _ _ _ H) in I. contradiction.
Qed.
Fixpoint distinct (l : list string) : bool := match l with [] => true | x :: r => negb (existsb (String.eqb x) r) && distinct r end.
Lemma distinct_NoDup l : distinct l = true -> NoDup l.
Proof.
  induction l as [|x r IH]; [constructor|]. cbn. rewrite andb_true_iff, negb_true_iff. intros [H1 H2]. constructor; auto.
  intros I. assert (existsb (String.eqb x) r = true) by (apply existsb_exists; exists x; split; [exact I | apply String.eqb_refl]). congruence.
Qed.
Definition once (x : xml) : Prop := NoDup (map fst (xattrs x)).
Lemma known_once x : known x -> once x.
Proof.
  intros (ks & Hk & Hs). refine (sub_NoDup _ _ _ Hs _). apply distinct_NoDup. unfold allowed in Hk. apply in_flat_map in Hk as (e & He & Hk).
  assert (V : forallb (fun e => distinct (snd e)) vocabulary = true) by (vm_compute; reflexivity). rewrite forallb_forall in V.
  destruct (xname x =s fst e); [|destruct Hk]. destruct Hk as [<-|[]]. now apply V.
Qed.
Lemma nodes_once l s a s' : b_nodes l s = Some (a, s') -> Forall once (flat_map elements a).
Proof.
  intros H. apply (always_nodes once (fun _ => True)) with (l := l) (s := s) (s' := s'); auto using known_once.
  - intros. constructor.
  - apply Forall_forall. intros n _. apply Forall_forall. auto.
Qed.
Lemma new_para_once p s a s' : b_new_para p (ret []) s = Some (a, s') -> Forall once (flat_map elements a).
Proof. revert s a s'. change (always once (b_new_para p (ret []))). apply always_new_para; auto using known_once. apply always_ret, every_nil. Qed.
Ltac dup := apply distinct_NoDup; vm_compute; reflexivity.
Lemma document_once body sp s x s' : b_document body sp s = Some (x, s') -> Forall once (elements x).
Proof.
  intros H. unfold b_document in H. apply bind_inv in H as (c & s1 & Hc & H). injection H as <- <-. cbn [elements flat_map]. rewrite app_nil_r.
  constructor; [dup|]. constructor; [dup|]. rewrite flat_map_app. apply Forall_app. split; [exact (nodes_once _ _ _ _ Hc)|].
  exact (every_sectpr once (fun y K _ => known_once y K) sp).
Qed.
Lemma part_once n s x s' : b_part n s = Some (x, s') -> Forall once (elements x).
Proof.
  intros H. destruct (part_root_inv _ _ _ _ H) as (sl & rid & nb & ch & c & -> & Hc & ->). cbn [elements]. constructor; [dup|].
  exact (nodes_once _ _ _ _ Hc).
Qed.
Lemma each_once A (f : A -> M (list xml)) l : (forall a, always once (f a)) -> always once (each f l).
Proof. intros F. induction l as [|a l IH]; [apply always_ret, every_nil|]. apply always_seq; auto. Qed.
Lemma comments_once l s x s' : b_comments l s = Some (x, s') -> Forall once (elements x).
Proof.
  intros H. unfold b_comments in H. apply bind_inv in H as (c & s1 & Hc & H). injection H as <- <-. cbn [elements]. constructor; [dup|].
  revert Hc. change (Forall once (flat_map elements c)) with (every once c). apply each_once. intros a t y t' Hy.
  unfold b_comment in Hy. apply bind_inv in Hy as (z & s2 & Hz & Hy). injection Hy as <- <-. apply every_E; [dup|]. exact (nodes_once _ _ _ _ Hz).
Qed.
Lemma footnotes_once l s x s' : b_footnotes l s = Some (x, s') -> Forall once (elements x).
Proof.
  intros H. unfold b_footnotes in H. apply bind_inv in H as (c & s1 & Hc & H). injection H as <- <-. cbn [elements]. constructor; [dup|].
  revert Hc. change (Forall once (flat_map elements c)) with (every once c). apply each_once. intros a t y t' Hy.
  unfold b_footnote in Hy. apply bind_inv in Hy as (z & s2 & Hz & Hy). injection Hy as <- <-. apply every_E; [dup|].
  destruct (snd a); [exact (new_para_once _ _ _ _ Hz) | exact (nodes_once _ _ _ _ Hz)].
Qed.

(** ** The parts *)
Lemma well_formed_spelled x : Forall once (elements x) -> spelled (fun _ => True) x -> (well_formed_xml x <-> spelled legal x).
Proof.
  intros H1 H2. rewrite (spelled_split legal). unfold well_formed_xml. pose proof (spelled_elements x H2) as H3.
  assert (Forall tag_ok (elements x)).
  { apply Forall_forall. intros e He. rewrite Forall_forall in H1, H3. destruct (H3 e He). split; [|split]; auto. exact (H1 e He). }
  tauto.
Qed.
Lemma legal_content s : plain s = true -> legal (Content s).
Proof. apply plain_text. Qed.
Lemma legal_escaped s : legal (Content (escape s)).
Proof. cbn. rewrite XmlTreeProofs.text_meaning_escape. eauto. Qed.
Lemma Forall_I A (l : list A) : Forall (fun _ => True) l.
Proof. apply Forall_forall. auto. Qed.
Definition holds_plain (P : piece -> Prop) : Prop :=
  (forall s, plain s = true -> P (Value s)) /\ (forall s, plain s = true -> P (Content s)) /\
  (forall s, P (Content (escape s))) /\ (forall s, P (Value (escape s))).
Lemma well_by_pieces x ps : (forall P, holds_plain P -> (spelled P x <-> Forall P ps)) -> Forall once (elements x) ->
  ((exists evs, doc_reported (part_calls x) = Some evs) <-> Forall readable ps) /\ (well_formed_xml x <-> Forall legal ps).
Proof.
  intros H Ho. rewrite part_readable. split.
  - apply H. repeat split; first [now apply readable_value | now apply readable_content | apply readable_escaped | apply readable_escaped_value | idtac].
  - rewrite <- (H legal).
    + apply well_formed_spelled; [exact Ho|]. apply (H (fun _ => True)); [repeat split; auto | apply Forall_I].
    + split; [exact legal_value|]. split; [exact legal_content|]. split; [exact legal_escaped | exact legal_escaped_value].
Qed.
Lemma document_well body sp s x s' : b_document body sp s = Some (x, s') ->
  ((exists evs, doc_reported (part_calls x) = Some evs) <-> Forall readable (in_document body sp)) /\
  (well_formed_xml x <-> Forall legal (in_document body sp)).
Proof.
  intros H. apply well_by_pieces; [|exact (document_once _ _ _ _ _ H)]. intros P (H1 & H2 & H3 & H4). now apply (spelled_document P H1 H2 H3 H4 body sp s x s').
Qed.
Lemma part_well sl b1 b2 ch s x s' : b_part (NPart sl b1 b2 ch) s = Some (x, s') ->
  ((exists evs, doc_reported (part_calls x) = Some evs) <-> Forall readable (in_body ch)) /\
  (well_formed_xml x <-> Forall legal (in_body ch)).
Proof.
  intros H. apply well_by_pieces; [|exact (part_once _ _ _ _ H)]. intros P (H1 & H2 & H3 & H4). now apply (spelled_part P H1 H2 H3 H4 sl b1 b2 ch s x s').
Qed.
Lemma comments_well l s x s' : b_comments l s = Some (x, s') ->
  ((exists evs, doc_reported (part_calls x) = Some evs) <-> Forall readable (in_comments l)) /\
  (well_formed_xml x <-> Forall legal (in_comments l)).
Proof.
  intros H. apply well_by_pieces; [|exact (comments_once _ _ _ _ H)]. intros P (H1 & H2 & H3 & H4). now apply (spelled_comments P H1 H2 H3 H4 l s x s').
Qed.
Lemma footnotes_well l s x s' : b_footnotes l s = Some (x, s') ->
  ((exists evs, doc_reported (part_calls x) = Some evs) <-> Forall readable (in_footnotes l)) /\
  (well_formed_xml x <-> Forall legal (in_footnotes l)).
Proof.
  intros H. apply well_by_pieces; [|exact (footnotes_once _ _ _ _ H)]. intros P (H1 & H2 & H3 & H4). now apply (spelled_footnotes P H1 H2 H3 H4 l s x s').
Qed.

(** ** Deciding [legal] and [readable] *)
Definition is_some {A} (o : option A) : bool := match o with Some _ => true | None => false end.
Lemma is_some_iff A (o : option A) : is_some o = true <-> exists a, o = Some a.
Proof. destruct o; cbn; split; intros H; try discriminate; eauto. now destruct H. Qed.
Definition legal_b (p : piece) : bool :=
  match p with
  | Value s => negb (has_char ch_quot s) && is_some (text_meaning None s)
  | Content s => is_some (text_meaning None s)
  end.
Definition readable_b (p : piece) : bool :=
  match p with
  | Value s => negb (has_char ch_quot s) && is_some (decode_attr None s)
  | Content s => is_some (text_meaning None s)
  end.
Lemma legal_b_iff p : legal_b p = true <-> legal p.
Proof. destruct p; cbn [legal_b legal]; rewrite ?andb_true_iff, ?negb_true_iff, is_some_iff; tauto. Qed.
Lemma readable_b_iff p : readable_b p = true <-> readable p.
Proof. destruct p; cbn [readable_b readable]; rewrite ?andb_true_iff, ?negb_true_iff, is_some_iff; tauto. Qed.
Lemma all_legal l : forallb legal_b l = true <-> Forall legal l.
Proof. rewrite forallb_forall, Forall_forall. split; intros H p Hp; apply legal_b_iff; auto. Qed.
Lemma all_readable l : forallb readable_b l = true <-> Forall readable l.
Proof. rewrite forallb_forall, Forall_forall. split; intros H p Hp; apply readable_b_iff; auto. Qed.

(** ** Texts put together *)
Lemma legal_text_app a : forall b ref t u, text_meaning ref a = Some t -> text_meaning None b = Some u -> exists v, text_meaning ref (a +++ b) = Some v.
Proof.
  induction a as [|c a IH]; intros b ref t u Ha Hb.
  - destruct ref; [discriminate|]. cbn [append]. eauto.
  - cbn [append text_meaning] in *. destruct ref as [name|].
    + destruct (c =c ";"%char).
      * destruct (resolve_ref name); [|discriminate]. destruct (text_meaning None a) eqn:Q; [|discriminate].
        destruct (IH _ _ _ _ Q Hb) as (v & ->). eauto.
      * destruct ((c =c ch_amp) || (c =c ch_lt)); [discriminate|]. eauto.
    + destruct (c =c ch_lt); [discriminate|]. destruct (c =c ch_amp); [eauto|].
      assert (X : forall t0, text_meaning None a = Some t0 -> exists v, text_meaning None (a +++ b) = Some v) by eauto.
      destruct (c =c ch_cr).
      * destruct a as [|d a].
        -- change ("" +++ b) with b in *. rewrite Hb. destruct b as [|d b]; [cbn; eauto|]. destruct (d =c ch_nl); cbn; eauto.
        -- cbn [append]. destruct (d =c ch_nl).
           ++ eapply X. exact Ha.
           ++ change (String d (a +++ b)) with (String d a +++ b). destruct (text_meaning None (String d a)) eqn:Q; [|discriminate].
              destruct (X _ eq_refl) as (v & ->). cbn. eauto.
      * destruct (text_meaning None a) eqn:Q; [|discriminate]. destruct (X _ eq_refl) as (v & ->). cbn. eauto.
Qed.
Lemma legal_content_app a b : legal (Content a) -> legal (Content b) -> legal (Content (a +++ b)).
Proof. intros [t Ha] [u Hb]. exact (legal_text_app a b None t u Ha Hb). Qed.

(** The parts: build, write, and read. *)
From Coq Require Import NArith ZArith List Bool Lia.
From Verif Require Import Str StrFacts StrFind TypesModel Props PropsSet Ast EscapeModel XmlParser XmlSpec XmlProperties WriterModel
  ReadBase ReadProps ReadModel ReadProg ReadProofs ReadSpec.
From Verif Require IdsModel BuildModel BuildSpec BuildProofs VocabSpec VocabProofs.
From Verif Require Import RoundSpec RoundBase RoundNums RoundRpr RoundSect RoundPpr RoundTable RoundPic RoundRun RoundLoops RoundKids RoundTree.
Import ListNotations.
Import BuildModel (xml, E, L, leaf, opt, on, valued, valued_n, valued_z, attr_s, attr_n, attr_z, part_calls).

(** ** From a text to its events *)
Lemma no_end_text s : ~ In EDocEnd (text_events s).
Proof. unfold text_events. destruct s; [auto|]. destruct (all_char _ _); cbn; intuition discriminate. Qed.
Lemma no_end x : ~ In EDocEnd (events_of_xml x).
Proof.
  induction x as [n a ch IH|n a ts] using xml_tree_ind; cbn [events_of_xml In]; rewrite in_app_iff; cbn [In]; intros [H|[H|[H|[]]]]; try discriminate.
  - apply in_flat_map in H as (y & Hy & H). rewrite Forall_forall in IH. exact (IH y Hy H).
  - now apply no_end_text in H.
Qed.
Lemma same_nth A (d : A) l2 : ~ In d l2 -> forall l1, (forall n, nth n l1 d = nth n l2 d) -> exists l, l1 = l2 ++ l /\ Forall (eq d) l.
Proof.
  induction l2 as [|b l2 IH]; intros Hd l1 H.
  - exists l1. split; [reflexivity|]. apply Forall_forall. intros x Hx. destruct (In_nth _ _ d Hx) as (n & _ & <-). rewrite H. now destruct n.
  - destruct l1 as [|a l1]; [exfalso; apply Hd; left; symmetry; exact (H 0)|].
    assert (Hab : a = b) by exact (H 0). subst a.
    destruct (IH (fun X => Hd (or_intror X)) l1 (fun n => H (S n))) as (l & -> & Hl). now exists l.
Qed.
(** Writing a part and reading it: the events are those of the tree. *)
Lemma part_read x evs : doc_reported (part_calls x) = Some evs ->
  exists w, w_run w_init (part_calls x) = WOk w /\
    forall s, reads_from (WriterModel.out w) s -> exists l, s = st (events_of_xml x ++ l) (rs_para s) /\ Forall (eq EDocEnd) l.
Proof.
  intros H. destruct (written_calls_read_back _ _ H) as (w & Hw & Hn). exists w. split; [exact Hw|].
  intros s Hs. apply part_events in H. subst evs. destruct (same_nth _ EDocEnd (events_of_xml x) (no_end x) (rs_events s)) as (l & Hl & Hd).
  - intros n. rewrite (Hs n). apply Hn.
  - exists l. split; [|exact Hd]. destruct s as [ev c]. cbn in *. now subst.
Qed.
Lemma part_rest A B close start (fin : A -> B) d a l c : Forall (eq EDocEnd) l -> exists s', PF close start fin d a (st l c) = Val (fin a) s' /\ rs_para s' = c.
Proof. intros H. destruct H as [|e l <- H]; eexists; split; reflexivity. Qed.
Definition enough (s : rst) (k : N) : Prop := (rs_para s + k < 4294967296)%N.

(** ** The document *)
Lemma eats_document body sp s x s' : forallb (kept InDocument) body = true -> Forall fits body -> fits_sectpr sp ->
  BuildModel.b_document body sp s = Some (x, s') ->
  eats (PF (fun _ => false) doc_start (fun x => x)) (sumN paras body) ([], sectpr_default) (events_of_xml x)
       (flat_map (reread InDocument) body, reread_sectpr sp).
Proof.
  intros Hk Hf Hs H. unfold BuildModel.b_document in H. apply BuildProofs.bind_inv in H as (c & s1 & Hc & H). injection H as <- <-.
  assert (HL := PF_looping LDoc _ (fun x => x) eq_refl). cbn [closes starts] in HL.
  cbn [events_of_xml flat_map]. rewrite app_nil_r.
  apply (loops_through LDoc _ HL _ _ _ _ _ ([], sectpr_default)); [reflexivity | intros; cbn [starts]; opened; generalize (meant BuildModel.document_attrs); intros; go; reflexivity |].
  apply (loops_through LDoc _ HL _ _ _ _ _ ([], sectpr_default)); [reflexivity | intros; cbn [starts]; opened; go; reflexivity |].
  fold (xml_events (c ++ [BuildModel.x_sectpr sp])). rewrite xml_events_app, one_xml. rewrite <- (N.add_0_r (sumN paras body)).
  eapply eats_app.
  - apply (ate_each LDoc _ (proj2 (Forall_forall _ _) (fun n _ => all_good n)) _ _ _ Hk Hf Hc _ _ HL).
  - pose proof (reads_sectpr sp Hs) as Hr. unfold BuildModel.x_sectpr in *. cbn [ch_of] in Hr. cbn [events_of_xml].
    apply (loops_sub LDoc _ HL). intros d l c0 Ld Kd. pose proof (Hr d l c0 Ld Kd) as Y.
    match type of Y with _ ?s2 = _ => match goal with |- _ ?s1 = _ => change s1 with s2 end; revert Y; generalize s2 end. intros s0.
    generalize (reread_sectpr sp). intros rq. cbn [starts adds]. opened.
    change (flat_map (reread (place_of LDoc)) body) with (flat_map (reread InDocument) body). generalize (flat_map (reread InDocument) body). intros ns.
    go. intros Y. rewrite Y. reflexivity.
Qed.
Theorem document_reads_back body sp s x s' evs :
  BuildModel.b_document body sp s = Some (x, s') -> doc_reported (part_calls x) = Some evs ->
  forallb (kept InDocument) body = true -> Forall fits body -> fits_sectpr sp ->
  exists w, w_run w_init (part_calls x) = WOk w /\
    forall r, reads_from (WriterModel.out w) r -> enough r (sumN paras body) ->
    exists r', read_document r = Val (flat_map (reread InDocument) body, reread_sectpr sp) r' /\ rs_para r' = (rs_para r + sumN paras body)%N.
Proof.
  intros H He Hk Hf Hs. destruct (part_read x evs He) as (w & Hw & Hr). exists w. split; [exact Hw|]. intros r Hr0 Hn.
  destruct (Hr r Hr0) as (l & Er & Hl). unfold enough in Hn. rewrite Er. cbn [st rs_para] in Hn.
  unfold read_document, with_depth. rewrite read_document_PF.
  rewrite (eats_document body sp s x s' Hk Hf Hs H); [|cbn [st rs_events]; rewrite app_length; lia | exact Hn].
  now apply part_rest.
Qed.

(** ** Headers and footers *)
Lemma eats_header ch sl b1 b2 s x s' : forallb (kept InPart) ch = true -> Forall fits ch ->
  BuildModel.b_part (NPart sl b1 b2 ch) s = Some (x, s') ->
  eats (PF (fun _ => false) header_start (fun x => x)) (sumN paras ch) [] (events_of_xml x) (flat_map (reread InPart) ch).
Proof.
  intros Hk Hf H. unfold BuildModel.b_part in H. apply BuildProofs.bind_inv in H as (c & s1 & Hc & H). injection H as <- <-.
  assert (HL := PF_looping LHeader _ (fun x => x) eq_refl). cbn [closes starts] in HL.
  cbn [events_of_xml].
  apply (loops_through LHeader _ HL _ _ _ _ _ []).
  - reflexivity.
  - intros. cbn [starts]. opened. generalize (meant BuildModel.part_attrs). intros. destruct sl; go; reflexivity.
  - apply (ate_each LHeader _ (proj2 (Forall_forall _ _) (fun n _ => all_good n)) _ _ _ Hk Hf Hc _ _ HL).
Qed.
Theorem header_reads_back ch sl b1 b2 s x s' evs :
  BuildModel.b_part (NPart sl b1 b2 ch) s = Some (x, s') -> doc_reported (part_calls x) = Some evs ->
  forallb (kept InPart) ch = true -> Forall fits ch ->
  exists w, w_run w_init (part_calls x) = WOk w /\
    forall r, reads_from (WriterModel.out w) r -> enough r (sumN paras ch) ->
    exists r', read_header r = Val (flat_map (reread InPart) ch) r' /\ rs_para r' = (rs_para r + sumN paras ch)%N.
Proof.
  intros H He Hk Hf. destruct (part_read x evs He) as (w & Hw & Hr). exists w. split; [exact Hw|]. intros r Hr0 Hn.
  destruct (Hr r Hr0) as (l & Er & Hl). unfold enough in Hn. rewrite Er. cbn [st rs_para] in Hn.
  unfold read_header, with_depth. rewrite read_header_PF.
  rewrite (eats_header ch sl b1 b2 s x s' Hk Hf H); [|cbn [st rs_events]; rewrite app_length; lia | exact Hn].
  now apply (part_rest _ _ (fun _ => false) header_start (fun x => x)).
Qed.

(** ** Comments *)
Lemma reads_comment c s xs s' : kept_comment c = true -> fits_comment c -> BuildModel.b_comment c s = Some (xs, s') ->
  exists atts ev, xml_events xs = EStart (split_qname "w:comment") (meant atts) :: ev /\
  reads (sumN paras (snd c)) (fun d => read_comment (readers d) (meant atts)) ev (reread_comment c).
Proof.
  intros Hk (Hi & Hf) H. unfold BuildModel.b_comment in H. apply BuildProofs.bind_inv in H as (x & s1 & Hx & H). injection H as <- <-.
  exists [("w:id", show_N (cd_id (fst c))); ("w:author", cd_author (fst c)); ("w:date", cd_date (fst c)); ("w:initials", "")]%string,
    (xml_events x ++ [EEnd (split_qname "w:comment")]).
  split; [now rewrite one_xml|]. intros d l n Ld Kd. rewrite app_length in Ld.
  pose proof (ate_each LComment _ (proj2 (Forall_forall _ _) (fun n _ => all_good n)) _ _ _ Hk Hf Hx) as Ha.
  set (fin := fun ch : list node => ({| cd_id := cd_id (fst c); cd_author := escape (seen (cd_author (fst c))); cd_date := seen (cd_date (fst c)); cd_parent := None |}, ch)).
  pose proof (elem_whole (own LComment) (starts LComment) fin (starts_shape LComment) _ [] _ _ (split_qname "w:comment") eq_refl
    (Ha _ _ (F_looping LComment _ fin eq_refl) []) d l n ltac:(lia) Kd) as Y. 
  assert (X : forall r, read_comment (readers d) (meant [("w:id", show_N (cd_id (fst c))); ("w:author", cd_author (fst c)); ("w:date", cd_date (fst c)); ("w:initials", "")]%string) r
     = F (own LComment) (starts LComment) fin d [] r).
  { intros r. unfold read_comment. cbn [meant map fst snd]. set (i := seen (show_N (cd_id (fst c)))). 
    pose proof (usize_N _ Hi) as Hp. fold i in Hp. generalize dependent i. intros i Hp. subst fin.
    generalize (seen (cd_author (fst c))), (seen (cd_date (fst c))). intros au da. cbn. rewrite Hp. reflexivity. }
  rewrite X. exact Y.
Qed.
Definition commentsF := PF (fun l => l =s "comments"%string) comments_start (fun x => x).
Lemma eats_comments l : forall s xs s' a, forallb kept_comment l = true -> Forall fits_comment l ->
  BuildModel.each BuildModel.b_comment l s = Some (xs, s') ->
  eats commentsF (paras_in l) a (xml_events xs) (a ++ map reread_comment l).
Proof.
  induction l as [|c l IH]; intros s xs s' a Hk Hf H.
  - injection H as <- <-. cbn [map paras_in fold_right]. rewrite app_nil_r. apply eats_nil.
  - cbn [forallb] in Hk. apply andb_true_iff in Hk as (Hk1 & Hk2). inversion Hf as [|? ? Hf1 Hf2]. subst.
    cbn [BuildModel.each] in H. apply BuildProofs.bind_inv in H as (x1 & s1 & H1 & H). apply BuildProofs.bind_inv in H as (x2 & s2 & H2 & H).
    injection H as <- <-. rewrite xml_events_app. cbn [paras_in fold_right]. fold (paras_in l).
    destruct (reads_comment c s x1 s1 Hk1 Hf1 H1) as (atts & ev & -> & Hr).
    eapply eats_app with (b := a ++ [reread_comment c]).
    + intros d r n Ld Kd. cbn [app length] in *. unfold commentsF. erewrite part_start; [reflexivity | apply comments_shape |].
      unfold comments_start. change (q_local (split_qname "w:comment") =s "comment") with true. cbn iota. unfold bind.
      rewrite Hr by lia. reflexivity.
    + cbn [map]. replace (a ++ reread_comment c :: map reread_comment l) with ((a ++ [reread_comment c]) ++ map reread_comment l) by (now rewrite <- app_assoc).
      now apply (IH s1 x2 s2).
Qed.
Theorem comments_read_back cs s x s' evs :
  BuildModel.b_comments cs s = Some (x, s') -> doc_reported (part_calls x) = Some evs ->
  forallb kept_comment cs = true -> Forall fits_comment cs ->
  exists w, w_run w_init (part_calls x) = WOk w /\
    forall r, reads_from (WriterModel.out w) r -> enough r (paras_in cs) ->
    exists r', read_comments r = Val (map reread_comment cs) r' /\ rs_para r' = (rs_para r + paras_in cs)%N.
Proof.
  intros H He Hk Hf. destruct (part_read x evs He) as (w & Hw & Hr). exists w. split; [exact Hw|]. intros r Hr0 Hn.
  destruct (Hr r Hr0) as (l & Er & Hl). unfold enough in Hn. rewrite Er.
  unfold BuildModel.b_comments in H. apply BuildProofs.bind_inv in H as (c & s1 & Hc & H). injection H as <- <-.
  unfold read_comments, with_depth. rewrite read_comments_PF. fold commentsF. cbn [events_of_xml]. fold (xml_events c).
  assert (X : forall d, length (xml_events c) <= d ->
    commentsF d [] (st ((EStart (split_qname "w:comments") (meant BuildModel.comments_attrs) :: xml_events c ++ [EEnd (split_qname "w:comments")]) ++ l) (rs_para r))
    = Val (map reread_comment cs) (st l (rs_para r + paras_in cs)%N)).
  { intros d Ld. cbn [app]. rewrite <- app_assoc. unfold commentsF. erewrite part_start; [|apply comments_shape|].
    2: { unfold comments_start. change (q_local (split_qname "w:comments") =s "comment") with false. reflexivity. }
    fold commentsF. rewrite (eats_comments cs s c s1 [] Hk Hf Hc) by (assumption || exact Hn).
    unfold commentsF. cbn [app]. rewrite part_step by (apply comments_shape || discriminate). reflexivity. }
  eexists. split; [apply X; cbn [st rs_events app length]; rewrite !app_length; lia | reflexivity].
Qed.

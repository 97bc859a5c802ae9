(** Reading a text: the stream of events is what the XML reader answers. *)
From Verif Require Import Str ListFacts XmlParser XmlTree XmlTreeProofs XmlProofs XmlProperties Ast Props
  ReadBase ReadModel ReadSpec ReadProg ReadProofs ReadPartProofs.

Lemma reads_from_events s st0 n : reads_from s st0 -> nth n (rs_events st0) EDocEnd = nth_request n (reader_of s).
Proof. intros H. apply H. Qed.
Lemma first_answers_app n m s : first_answers (n + m) s = first_answers n s ++ map (fun k => nth_request k (reader_of s)) (seq n m).
Proof. unfold first_answers. now rewrite seq_app, map_app. Qed.
Lemma still_open_app l : forall open r, still_open open (l ++ r) = match still_open open l with Some o => still_open o r | None => None end.
Proof.
  induction l as [|e l IH]; intros open r; [reflexivity|]. destruct e; cbn [app still_open]; auto.
  destruct open; auto. destruct (qname_eqb _ _); auto.
Qed.
Lemma still_open_docends l : forall open, Forall (eq EDocEnd) l -> still_open open l = Some open.
Proof. induction l as [|e l IH]; intros open H; [reflexivity|]. inversion H; subst. cbn. auto. Qed.
Lemma events_first s st0 : reads_from s st0 -> rs_events st0 = first_answers (length (rs_events st0)) s.
Proof.
  intros H. unfold first_answers. apply (nth_ext _ _ EDocEnd EDocEnd).
  - now rewrite map_length, seq_length.
  - intros n L. rewrite H. symmetry.
    rewrite (nth_indep _ EDocEnd (nth_request 0 (reader_of s))) by (now rewrite map_length, seq_length).
    rewrite (map_nth (fun k => nth_request k (reader_of s)) (seq 0 _) 0 n). now rewrite seq_nth.
Qed.
Lemma docends_after s n m : nth_request n (reader_of s) = EDocEnd ->
  Forall (eq EDocEnd) (map (fun k => nth_request k (reader_of s)) (seq n m)).
Proof.
  intros H. apply Forall_forall. intros e Hin. apply in_map_iff in Hin as (k & <- & Hk). apply in_seq in Hk.
  symmetry. apply (end_of_document_forever s n k H). lia.
Qed.
Lemma text_complete s st0 : reads_from s st0 -> complete_text s -> complete (rs_events st0).
Proof.
  intros H (Hn & n & Ho & Hd). split.
  - rewrite (events_first s st0 H). set (m := length (rs_events st0)).
    assert (Hm : nth_request m (reader_of s) = EDocEnd) by (rewrite <- H; now apply nth_overflow).
    destruct (Nat.le_ge_cases n m) as [L|L].
    + replace m with (n + (m - n)) by lia. rewrite first_answers_app, still_open_app, Ho.
      now rewrite (still_open_docends _ _ (docends_after s n (m - n) Hd)).
    + assert (X : still_open [] (first_answers n s) = still_open [] (first_answers m s)); [|congruence].
      replace n with (m + (n - m)) by lia. rewrite first_answers_app, still_open_app.
      destruct (still_open [] (first_answers m s)); auto.
      now rewrite (still_open_docends _ _ (docends_after s m (n - m) Hm)).
  - intros Hin. apply (In_nth _ _ EDocEnd) in Hin as (k & _ & Hk). rewrite H in Hk. now apply (Hn k).
Qed.
Lemma closing_complete l : complete l -> closing [] l.
Proof. intros [H1 H2]. split; auto. Qed.

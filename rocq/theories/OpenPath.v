(** Names of parts as paths. *)
From Coq Require Import List Bool Lia.
From Verif Require Import Str StrFacts ZipNameModel PathModel OpenModel.
Import ListNotations.
Open Scope list_scope.

(** A file or directory name: not empty, no slash, not a dot. *)
Definition no_slash (s : string) : Prop := has_char ch_slash s = false.
Definition is_name (s : string) : Prop := s <> ""%string /\ s <> "."%string /\ s <> ".."%string /\ no_slash s.

Lemma segments_plain s : no_slash s -> segments s = [s].
Proof.
  unfold no_slash. induction s as [|c s IH]; [reflexivity|]. cbn [has_char segments]. intros H. apply orb_false_iff in H as [H1 H2].
  rewrite H1. now rewrite (IH H2).
Qed.
Lemma segments_nonempty s : segments s <> [].
Proof. destruct s as [|c s]; [discriminate|]. cbn. destruct (c =c ch_slash); [discriminate|]. now destruct (segments s). Qed.
Lemma segments_slash a b : segments (a +++ String ch_slash b) = segments a ++ segments b.
Proof.
  induction a as [|c a IH]; [reflexivity|]. cbn [append segments]. destruct (c =c ch_slash).
  - cbn [app]. f_equal. exact IH.
  - pose proof (segments_nonempty a) as Ha. rewrite IH. destruct (segments a) as [|x l]; [contradiction|]. reflexivity.
Qed.
Lemma segments_join ds : Forall no_slash ds -> ds <> [] -> segments (join_segments ds) = ds.
Proof.
  induction ds as [|d ds IH]; intros H Hn; [contradiction|]. inversion H as [|? ? H1 H2]; subst. destruct ds as [|e ds]; [now apply segments_plain|].
  change (join_segments (d :: e :: ds)) with (d +++ String ch_slash (join_segments (e :: ds))). rewrite segments_slash, IH, segments_plain by (auto; discriminate). reflexivity.
Qed.
Lemma join_segments_app ds x : ds <> [] -> join_segments (ds ++ [x]) = join_segments ds +++ String ch_slash x.
Proof.
  induction ds as [|d ds IH]; intros H; [contradiction|]. destruct ds as [|e ds]; [reflexivity|].
  change ((d :: e :: ds) ++ [x]) with (d :: (e :: ds) ++ [x]). change (join_segments (d :: (e :: ds) ++ [x])) with (d +++ String ch_slash (join_segments ((e :: ds) ++ [x]))).
  rewrite IH by discriminate. change (join_segments (d :: e :: ds)) with (d +++ String ch_slash (join_segments (e :: ds))). now rewrite append_assoc.
Qed.
Lemma name_not_passed s : is_name s -> passed_over s = false.
Proof. intros (H1 & H2 & _). unfold passed_over. apply orb_false_iff. split; now apply String.eqb_neq. Qed.

Section Dir.
  Variable ds : list string.
  Hypothesis names : Forall is_name ds.
  Hypothesis some : ds <> [].
  Lemma slashless : Forall no_slash ds.
  Proof. eapply Forall_impl; [|exact names]. now intros s (_ & _ & _ & H). Qed.
  Lemma relative r : has_root (join_segments ds +++ r) = false.
  Proof.
    destruct ds as [|d l]; [contradiction|]. inversion names as [|? ? (H1 & H2 & H3 & H4) _]; subst. destruct d as [|c d]; [contradiction|].
    unfold no_slash in H4. cbn [has_char] in H4. apply orb_false_iff in H4 as [H4 _]. destruct l; exact H4.
  Qed.
  (** a longer path that begins with [ds] has no dot in front *)
  Lemma undotted r : has_dot (join_segments ds +++ String ch_slash r) = false.
  Proof.
    destruct ds as [|d l]; [contradiction|]. inversion names as [|? ? (H1 & H2 & H3 & H4) _]; subst. destruct d as [|c d]; [contradiction|].
    assert (X : has_dot (String c d +++ String ch_slash r) = false /\ forall t, has_dot (String c d +++ String ch_slash t) = false).
    { assert (Y : forall t, has_dot (String c d +++ String ch_slash t) = false); [|auto]. intros t. destruct d as [|e d].
      - cbn [append has_dot]. rewrite Ascii.eqb_refl, andb_true_r. apply not_true_is_false. intros Q. apply Ascii.eqb_eq in Q. subst c. now apply H2.
      - cbn [append has_dot]. unfold no_slash in H4. cbn [has_char] in H4. apply orb_false_iff in H4 as [_ H4]. apply orb_false_iff in H4 as [H4 _].
        rewrite H4. apply andb_false_r. }
    destruct l as [|e l]; [apply X|]. change (join_segments (String c d :: e :: l)) with (String c d +++ String ch_slash (join_segments (e :: l))).
    rewrite append_assoc. cbn [append]. apply X.
  Qed.
  Lemma body_of r : path_body (join_segments ds +++ String ch_slash r) = join_segments ds +++ String ch_slash r /\
    path_start (join_segments ds +++ String ch_slash r) = ""%string.
  Proof. unfold path_body, path_start. rewrite relative, undotted. now split. Qed.
  Lemma names_back l : Forall is_name l -> drop_passed (rev l) = rev l.
  Proof.
    intros H. apply Forall_rev in H. destruct (rev l) as [|x m]; [reflexivity|]. inversion H; subst. cbn [drop_passed]. now rewrite name_not_passed.
  Qed.
  Variable f : string.
  Hypothesis file : is_name f.
  Definition file_path := join_segments ds +++ String ch_slash f.
  Lemma end_of_path : from_the_end file_path = f :: rev ds.
  Proof.
    unfold from_the_end. unfold file_path. rewrite (proj1 (body_of f)). rewrite segments_slash, segments_join, segments_plain by (apply slashless || apply file || exact some).
    rewrite names_back; [|apply Forall_app; auto]. now rewrite rev_app_distr.
  Qed.
  Lemma parent_of_file : parent file_path = Some (join_segments ds).
  Proof.
    unfold parent. rewrite end_of_path. rewrite names_back by exact names. rewrite rev_involutive. unfold file_path. now rewrite (proj2 (body_of f)).
  Qed.
  Lemma name_of_file : file_name file_path = Some f.
  Proof. unfold file_name. rewrite end_of_path. destruct file as (_ & _ & H & _). apply String.eqb_neq in H. now rewrite H. Qed.
  Lemma stem_of_file : file_stem file_path = Some (stem_of f).
  Proof. unfold file_stem. now rewrite name_of_file. Qed.
  Lemma no_end_slash : ends_in_slash (join_segments ds) = false.
  Proof.
    assert (E1 : forall s c, s <> ""%string -> ends_in_slash (String c s) = ends_in_slash s) by (intros [|b s] c H; [contradiction | reflexivity]).
    assert (E2 : forall a b, b <> ""%string -> ends_in_slash (a +++ b) = ends_in_slash b).
    { induction a as [|c a IH]; intros b Hb; [reflexivity|]. cbn [append]. rewrite E1; [now apply IH|]. destruct a; [exact Hb | discriminate]. }
    assert (E3 : forall d, is_name d -> ends_in_slash d = false).
    { intros d (H & _ & _ & Hs). unfold no_slash in Hs. induction d as [|c d IH]; [contradiction|]. cbn [has_char] in Hs. apply orb_false_iff in Hs as [Hc Hs].
      destruct d as [|e d]; [exact Hc|]. rewrite E1 by discriminate. apply IH; [discriminate | exact Hs]. }
    clear f file. revert some. induction names as [|d l Hd Hl IH]; intros Hn; [contradiction|]. destruct l as [|e l]; [now apply E3|].
    change (join_segments (d :: e :: l)) with (d +++ String ch_slash (join_segments (e :: l))).
    assert (Hj : join_segments (e :: l) <> ""%string).
    { inversion Hl as [|? ? (He & _) _]; subst. destruct e; [contradiction|]. destruct l; discriminate. }
    rewrite E2 by discriminate. rewrite E1 by exact Hj. apply IH; [exact Hl | discriminate].
  Qed.
  Lemma join_name r : has_root r = false -> join (join_segments ds) r = join_segments ds +++ String ch_slash r.
  Proof.
    intros H. unfold join. rewrite H, no_end_slash. destruct (join_segments ds) eqn:Q; [|reflexivity].
    exfalso. destruct ds as [|d l]; [contradiction|]. inversion names as [|? ? (Hd & _) _]; subst. destruct d; [contradiction|]. destruct l; discriminate.
  Qed.
End Dir.
Lemma name_relative s : is_name s -> has_root s = false.
Proof. intros (H & _ & _ & Hs). destruct s as [|c s]; [reflexivity|]. unfold no_slash in Hs. cbn in Hs. now apply orb_false_iff in Hs as [Hs _]. Qed.
Lemma no_slash_prefix a b : no_slash (a +++ b) -> no_slash a.
Proof.
  unfold no_slash. induction a as [|c a IH]; [reflexivity|]. cbn [append has_char]. intros H. apply orb_false_iff in H as [H1 H2]. rewrite H1. now rewrite (IH H2).
Qed.
Lemma before_last_dot_app s b : before_last_dot s = Some b -> exists r, s = b +++ String "." r.
Proof.
  revert b. induction s as [|c s IH]; intros b H; [discriminate|]. cbn [before_last_dot] in H. destruct (before_last_dot s) as [b'|].
  - injection H as <-. destruct (IH _ eq_refl) as (r & ->). now exists r.
  - destruct (c =c "."%char) eqn:Hc; [|discriminate]. injection H as <-. apply Ascii.eqb_eq in Hc. subst c. now exists s.
Qed.

(** Where the relationships of a part are looked for: beside it in [_rels], under the name
    up to its last dot -- and, what is left, up to its last dot again -- with [.xml.rels]. *)
Lemma rels_name_is ds f : Forall is_name ds -> ds <> [] -> is_name f -> is_name (stem_of f) ->
  rels_name (join_segments ds +++ String ch_slash f) = Some (join_segments ds +++ "/_rels/" +++ stem_of (stem_of f) +++ ".xml.rels").
Proof.
  intros Hd Hn Hf Hs. unfold rels_name. fold (file_path ds f). rewrite parent_of_file, stem_of_file by assumption.
  rewrite (join_name ds Hd Hn "_rels") by reflexivity.
  assert (Hr : is_name "_rels"%string) by (repeat split; discriminate).
  assert (Hds : Forall is_name (ds ++ ["_rels"%string])) by (apply Forall_app; auto).
  assert (Hnn : ds ++ ["_rels"%string] <> []) by (destruct ds; discriminate).
  rewrite <- (join_segments_app ds "_rels"%string Hn). rewrite (join_name _ Hds Hnn (stem_of f)) by (now apply name_relative).
  unfold with_extension. fold (file_path (ds ++ ["_rels"%string]) (stem_of f)). rewrite name_of_file, end_of_path by assumption.
  f_equal. unfold file_path. rewrite (proj2 (body_of _ Hds Hnn _)). cbn [append rev]. rewrite rev_involutive. rewrite join_segments_app by exact Hnn.
  rewrite join_segments_app by exact Hn. now rewrite !append_assoc.
Qed.

From Verif Require Import Str StrFacts ZipNameModel ZipNameSpec.

Lemma back_to_slash_none s : has_char ch_back s = false -> back_to_slash s = s.
Proof.
  induction s as [|c s IH]; cbn [has_char back_to_slash]; [reflexivity|].
  destruct (c =c ch_back); [discriminate|]. intro H. f_equal. auto.
Qed.

Lemma zip_path_eq s : zip_path s = trim_slashes (back_to_slash s).
Proof.
  unfold zip_path. destruct (has_char ch_back s) eqn:E; [reflexivity|].
  now rewrite back_to_slash_none.
Qed.

Lemma trim_slashes_fix s : (forall r, s <> String "/" r) -> trim_slashes s = s.
Proof.
  destruct s as [|c s]; [reflexivity|]. intro H. cbn.
  destruct (Ascii.eqb_spec c ch_slash) as [->|]; [|reflexivity]. exfalso. eapply H. reflexivity.
Qed.

Lemma sbs_path a b : same_but_separators a b -> has_char "\" b = false -> back_to_slash a = b.
Proof.
  induction 1; intro Hb; cbn [back_to_slash has_char] in *; [reflexivity| |].
  - apply orb_false_iff in Hb as [Hc Hb]. change ch_back with "\"%char. rewrite Hc. f_equal. auto.
  - apply orb_false_iff in Hb as [_ Hb]. cbn. f_equal. auto.
Qed.

Lemma spells_path m n : spells m n -> canonical n -> zip_path m = n.
Proof.
  intros Hs [Hb Hs0]. rewrite zip_path_eq. induction Hs.
  - rewrite (sbs_path _ _ H Hb). now apply trim_slashes_fix.
  - cbn. auto.
  - cbn. auto.
Qed.

Lemma trim_canonical s : (forall r, trim_slashes s <> String "/" r).
Proof.
  induction s as [|c s IH]; cbn; [discriminate|]. destruct (Ascii.eqb_spec c ch_slash); [exact IH|].
  intros r Hr. injection Hr as Hc _. contradiction.
Qed.
Lemma has_trim c s : has_char c s = false -> has_char c (trim_slashes s) = false.
Proof.
  induction s as [|d s IH]; cbn [trim_slashes has_char]; [reflexivity|].
  intro H. apply orb_false_iff in H as [H1 H2]. destruct (d =c ch_slash); [auto|].
  cbn. now rewrite H1, H2.
Qed.
Lemma back_to_slash_no s : has_char "\" (back_to_slash s) = false.
Proof.
  induction s as [|c s IH]; cbn [back_to_slash has_char]; [reflexivity|]. rewrite IH, orb_false_r.
  destruct (Ascii.eqb_spec c ch_back) as [->|n]; [reflexivity|]. now apply Ascii.eqb_neq.
Qed.

Lemma zip_path_canonical s : canonical (zip_path s).
Proof. rewrite zip_path_eq. split; [apply has_trim, back_to_slash_no|apply trim_canonical]. Qed.

Lemma sbs_refl s : same_but_separators s s.
Proof. induction s; constructor; auto. Qed.
Lemma sbs_back_to_slash s : same_but_separators s (back_to_slash s).
Proof.
  induction s as [|c s IH]; cbn; [constructor|]. destruct (Ascii.eqb_spec c ch_back) as [->|]; now constructor.
Qed.

Lemma zip_path_spells s : spells s (zip_path s).
Proof.
  rewrite zip_path_eq. induction s as [|c s IH]; [repeat constructor|]. cbn [back_to_slash trim_slashes].
  destruct (Ascii.eqb_spec c ch_back) as [->|Hb].
  - cbn. now constructor.
  - destruct (Ascii.eqb_spec c ch_slash) as [->|Hs]; [now constructor|].
    constructor. constructor. apply sbs_back_to_slash.
Qed.

Lemma by_name_spec a n d : by_name a n = Some d ->
  exists l r, a = l ++ (n, d) :: r /\ ~ In n (map fst r).
Proof.
  induction a as [|[m e] a IH]; cbn; [discriminate|].
  destruct (by_name a n) eqn:E.
  - intros [= ->]. destruct (IH eq_refl) as (l & r & -> & Hn). exists ((m, e) :: l), r. auto.
  - destruct (String.eqb_spec m n) as [->|]; [|discriminate]. intros [= ->].
    exists [], a. split; [reflexivity|]. intro Hi. clear IH.
    revert E Hi. induction a as [|[k f] a IHa]; cbn; [tauto|].
    destruct (by_name a n) eqn:E'; [discriminate|]. destruct (String.eqb_spec k n); [discriminate|].
    intros _ [?|?]; [congruence|]. now apply IHa.
Qed.
Lemma by_name_some a n : In n (map fst a) -> exists d, by_name a n = Some d.
Proof.
  induction a as [|[m e] a IH]; cbn; [tauto|]. intros [<-|H].
  - destruct (by_name a m); [eauto|]. rewrite String.eqb_refl. eauto.
  - destruct (IH H) as [d ->]. eauto.
Qed.

Lemma read_zip_spells a m n : canonical n -> spells m n -> read_zip a m = read_zip a n.
Proof.
  intros Hc Hs. unfold read_zip. rewrite (spells_path m n Hs Hc).
  rewrite (spells_path n n); [reflexivity| |assumption]. constructor. apply sbs_refl.
Qed.

Lemma read_zip_found a m n d : canonical n -> spells m n -> NoDup (map fst a) -> In (n, d) a ->
  read_zip a m = Some (without_bom d).
Proof.
  intros Hc Hs Hn Hi. unfold read_zip. rewrite (spells_path m n Hs Hc).
  destruct (by_name_some a n) as [e He]; [now apply (in_map fst) in Hi|].
  rewrite He. cbn. do 2 f_equal. destruct (by_name_spec _ _ _ He) as (l & r & -> & Hr).
  rewrite map_app in Hn. cbn in Hn. apply in_app_iff in Hi as [Hi|[Hi|Hi]].
  - exfalso. apply NoDup_remove_2 in Hn. apply Hn. apply in_app_iff. left. now apply (in_map fst) in Hi.
  - congruence.
  - exfalso. apply Hr. now apply (in_map fst) in Hi.
Qed.

Lemma read_zip_only_canonical a m d : read_zip a m = Some d ->
  exists n e, In (n, e) a /\ canonical n /\ spells m n /\ d = without_bom e.
Proof.
  unfold read_zip. destruct (by_name a (zip_path m)) as [e|] eqn:E; [|discriminate].
  cbn. intros [= <-]. destruct (by_name_spec _ _ _ E) as (l & r & -> & _).
  exists (zip_path m), e. split; [apply in_app_iff; right; now left|].
  repeat split; try apply zip_path_canonical; try apply zip_path_spells.
Qed.

Lemma without_bom_spec d : (forall r, d <> bom +++ r) /\ without_bom d = d \/ exists r, d = bom +++ r /\ without_bom d = r.
Proof.
  unfold without_bom. destruct (strip_prefix bom d) as [r|] eqn:E.
  - right. exists r. split; [now apply strip_prefix_sound|reflexivity].
  - left. split; [|reflexivity]. intros r ->. rewrite strip_prefix_app in E. discriminate.
Qed.

From Verif Require Import Str StrFacts StrFind.

Lemma find_eq p s : find p s =
  if starts_with p s then Some 0
  else match s with EmptyString => None | String _ r => option_map S (find p r) end.
Proof. destruct s; reflexivity. Qed.

Lemma starts_with_cons a p b s : starts_with (String a p) (String b s) = (a =c b) && starts_with p s.
Proof. unfold starts_with. cbn. destruct (a =c b); reflexivity. Qed.
Lemma starts_with_nil s : starts_with "" s = true.
Proof. reflexivity. Qed.
Lemma starts_with_app p s : starts_with p (p +++ s) = true.
Proof. apply starts_with_spec. eauto. Qed.

(** [starts_with] against an appended string: either inside the first part, or
    the first part is a proper prefix of the pattern. *)
Lemma starts_with_split p : forall a b, starts_with p (a +++ b) = true ->
  starts_with p a = true \/ exists q, p = a +++ q /\ q <> "" /\ starts_with q b = true.
Proof.
  induction p as [|c p IH]; intros a b H; [left; reflexivity|].
  destruct a as [|d a].
  - right. exists (String c p). repeat split; [discriminate|exact H].
  - cbn [append] in H. change (String d a +++ b) with (String d (a +++ b)) in H. rewrite starts_with_cons in H.
    apply andb_true_iff in H as [Hc H]. apply Ascii.eqb_eq in Hc as ->.
    destruct (IH _ _ H) as [H1|(q & -> & Hq & H1)].
    + left. now rewrite starts_with_cons, Ascii.eqb_refl.
    + right. exists q. auto.
Qed.

Lemma starts_with_more p a b : starts_with p a = true -> starts_with p (a +++ b) = true.
Proof. intro H. apply starts_with_spec in H as [r ->]. rewrite append_assoc. apply starts_with_app. Qed.

Lemma find_some p s n : find p s = Some n -> exists u v, s = u +++ p +++ v /\ String.length u = n.
Proof.
  revert n. induction s as [|c s IH]; intro n; rewrite find_eq.
  - destruct (starts_with p "") eqn:E; [|discriminate]. intros [= <-]. apply starts_with_spec in E as [r E].
    exists "", r. auto.
  - destruct (starts_with p (String c s)) eqn:E.
    + intros [= <-]. apply starts_with_spec in E as [r E]. exists "", r. auto.
    + destruct (find p s) as [m|]; [|discriminate]. intros [= <-].
      destruct (IH m eq_refl) as (u & v & -> & <-). exists (String c u), v. auto.
Qed.

Lemma find_occurs p u v : find p (u +++ p +++ v) <> None.
Proof.
  induction u as [|c u IH]; cbn [append]; rewrite find_eq.
  - change ("" +++ p +++ v) with (p +++ v). now rewrite starts_with_app.
  - destruct (starts_with p _); [discriminate|]. destruct (find p (u +++ p +++ v)); [discriminate|tauto].
Qed.

Lemma contains_spec p s : contains p s = true <-> exists u v, s = u +++ p +++ v.
Proof.
  unfold contains. split.
  - destruct (find p s) eqn:E; [|discriminate]. intros _. destruct (find_some _ _ _ E) as (u & v & -> & _). eauto.
  - intros (u & v & ->). destruct (find p _) eqn:E; [reflexivity|]. now apply find_occurs in E.
Qed.
Lemma not_contains p s : contains p s = false <-> find p s = None.
Proof. unfold contains. destruct (find p s); split; congruence. Qed.

(** A pattern containing a byte that the text does not contain. *)
Lemma find_missing c p s : has_char c p = true -> has_char c s = false -> find p s = None.
Proof.
  intros Hp Hs. destruct (find p s) eqn:E; [|reflexivity]. exfalso.
  destruct (find_some _ _ _ E) as (u & v & -> & _). rewrite !has_char_app, Hp, orb_true_r in Hs. discriminate.
Qed.

(** A shorter pattern is not found, so the longer one is not. *)
Lemma find_sub_none p q r s : find q s = None -> find (p +++ q +++ r) s = None.
Proof.
  intro H. destruct (find (p +++ q +++ r) s) eqn:E; [|reflexivity]. exfalso.
  destruct (find_some _ _ _ E) as (u & v & -> & _). revert H.
  replace (u +++ (p +++ q +++ r) +++ v) with ((u +++ p) +++ q +++ (r +++ v)) by now rewrite !append_assoc.
  apply find_occurs.
Qed.

Definition shift (n : nat) (o : option nat) : option nat := option_map (fun k => n + k) o.

Lemma shift_S n o : option_map S (shift n o) = shift (S n) o.
Proof. destruct o; reflexivity. Qed.
Lemma shift_0 o : shift 0 o = o.
Proof. destruct o; reflexivity. Qed.

(** No occurrence can straddle the border of [a] and [b]. *)
Definition no_straddle (p a b : string) : Prop :=
  forall u w q, a = u +++ w -> w <> "" -> p = w +++ q -> q <> "" -> starts_with q b = false.

Lemma find_app p a b : find p a = None -> no_straddle p a b -> find p (a +++ b) = shift (String.length a) (find p b).
Proof.
  induction a as [|c a IH]; intros Hf Hn.
  - rewrite shift_0. reflexivity.
  - rewrite append_cons, find_eq.
    rewrite find_eq in Hf. destruct (starts_with p (String c a)) eqn:E; [discriminate|].
    destruct (starts_with p (String c (a +++ b))) eqn:E2.
    + exfalso. change (String c (a +++ b)) with (String c a +++ b) in E2.
      apply starts_with_split in E2 as [E2|(q & Hp & Hq & E2)]; [congruence|].
      rewrite (Hn "" (String c a) q) in E2; try congruence. reflexivity.
    + cbn [String.length]. rewrite <- shift_S. f_equal. apply IH.
      * destruct (find p a); [discriminate|reflexivity].
      * intros u w q -> Hw Hp Hq. apply (Hn (String c u) w q); auto.
Qed.

(** [b] begins with a byte that is not in the pattern. *)
Lemma find_app_sep p a x b : find p a = None -> has_char x p = false ->
  find p (a +++ String x b) = shift (String.length a) (find p (String x b)).
Proof.
  intros Hf Hx. apply find_app; [assumption|]. intros u w q _ _ -> Hq.
  rewrite has_char_app in Hx. apply orb_false_iff in Hx as [_ Hx].
  destruct q as [|c q]; [congruence|]. cbn [has_char] in Hx. apply orb_false_iff in Hx as [Hx _].
  rewrite starts_with_cons, Hx. reflexivity.
Qed.

(** [b] begins with the first byte of the pattern, which does not come again in it. *)
Lemma find_app_lead c p a b : find (String c p) a = None -> has_char c p = false ->
  find (String c p) (a +++ String c b) = shift (String.length a) (find (String c p) (String c b)).
Proof.
  intros Hf Hx. apply find_app; [assumption|]. intros u w q _ Hw Hp Hq.
  destruct w as [|d w]; [congruence|]. injection Hp as -> ->.
  rewrite has_char_app in Hx. apply orb_false_iff in Hx as [_ Hx].
  destruct q as [|e q]; [congruence|]. cbn [has_char] in Hx. apply orb_false_iff in Hx as [Hx _].
  rewrite starts_with_cons, Hx. reflexivity.
Qed.

(** Skipping text that does not contain the first byte of the pattern. *)
Lemma find_skip c p a b : has_char c a = false -> find (String c p) (a +++ b) = shift (String.length a) (find (String c p) b).
Proof.
  intro Ha. apply find_app.
  - apply (find_missing c); [|assumption]. cbn. now rewrite Ascii.eqb_refl.
  - intros u w q -> Hw Hp _. exfalso. destruct w as [|d w]; [congruence|]. injection Hp as <- _.
    rewrite has_char_app in Ha. cbn in Ha. rewrite Ascii.eqb_refl, orb_true_r in Ha. discriminate.
Qed.

Lemma find_here p b : find p (p +++ b) = Some 0.
Proof. rewrite find_eq, starts_with_app. reflexivity. Qed.

Lemma no_border_spec p s : no_border_from p s = true ->
  forall u w, s = u +++ w -> u <> "" -> w <> "" -> starts_with w p = false.
Proof.
  induction s as [|c s IH]; cbn [no_border_from]; intros H u w E Hu Hw.
  - destruct u; [congruence|discriminate].
  - apply andb_true_iff in H as [H1 H2]. destruct u as [|d u]; [congruence|]. injection E as <- E.
    destruct u as [|e u].
    + cbn in E. subst. destruct (starts_with w p); [|reflexivity]. cbn in H1.
      rewrite negb_involutive in H1. apply String.eqb_eq in H1. congruence.
    + eapply IH; eauto. discriminate.
Qed.

Lemma find_first p a b : borderless p = true -> find p a = None -> find p (a +++ p +++ b) = Some (String.length a).
Proof.
  intros Hb Hf. rewrite find_app, find_here; [cbn; f_equal; lia|assumption|].
  intros u w q _ Hw Hp Hq. destruct (starts_with q (p +++ b)) eqn:E; [|reflexivity]. exfalso.
  assert (Hs : starts_with q p = true).
  { apply starts_with_split in E as [E|(r & E & _)]; [assumption|].
    assert (String.length p = String.length w + String.length q) by now rewrite Hp, append_length.
    assert (String.length q = String.length p + String.length r) by now rewrite E, append_length.
    destruct w; [congruence|]. cbn in *. lia. }
  rewrite (no_border_spec p p Hb w q) in Hs; congruence.
Qed.

Lemma take_bytes_app a b : take_bytes (String.length a) (a +++ b) = a.
Proof. induction a; cbn; [now destruct b|now f_equal]. Qed.
Lemma drop_bytes_app a b : drop_bytes (String.length a) (a +++ b) = Some b.
Proof. induction a; cbn; auto. Qed.
Lemma drop_bytes_plus n m s r : drop_bytes n s = Some r -> drop_bytes (n + m) s = drop_bytes m r.
Proof.
  revert s. induction n as [|n IH]; cbn; intros s H; [injection H as ->; reflexivity|].
  destruct s; [discriminate|auto].
Qed.
Lemma drop_bytes_length n s r : drop_bytes n s = Some r -> String.length s = n + String.length r.
Proof.
  revert s. induction n as [|n IH]; cbn; intros s H; [injection H as ->; reflexivity|].
  destruct s; [discriminate|]. cbn. f_equal. auto.
Qed.

Definition boundary (s : string) : bool :=
  match s with String c _ => negb (is_continuation c) | EmptyString => true end.
Lemma slice_from_app a b : boundary b = true -> slice_from (String.length a) (a +++ b) = Some b.
Proof.
  intro H. unfold slice_from. rewrite drop_bytes_app. destruct b as [|c b]; [reflexivity|].
  cbn in H. destruct (is_continuation c); [discriminate|reflexivity].
Qed.
Lemma slice_from_inside a b : boundary b = false -> slice_from (String.length a) (a +++ b) = None.
Proof.
  intro H. unfold slice_from. rewrite drop_bytes_app. destruct b as [|c b]; [discriminate|].
  cbn in H. destruct (is_continuation c); [reflexivity|discriminate].
Qed.

Lemma replace_none p t s : p <> "" -> find p s = None -> replace p t s = s.
Proof.
  intro Hp. unfold replace. induction s as [|c s IH]; intro H; cbn [replace_from]; [reflexivity|].
  rewrite find_eq in H. destruct (starts_with p (String c s)); [discriminate|].
  f_equal. apply IH. destruct (find p s); [discriminate|reflexivity].
Qed.

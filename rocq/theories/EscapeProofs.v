From Verif Require Import Str StrFacts EscapeModel EscapeSpec.

(** ** Characterisation of the unescaping loop *)
Lemma replace_escaped_cons c r :
  c <> ch_amp -> replace_escaped (String c r) = String c (replace_escaped r).
Proof.
  intros H. unfold replace_escaped. cbn [replace_escaped_from].
  destruct (Ascii.eqb_spec c ch_amp); [congruence|reflexivity].
Qed.

Lemma re_lt r : replace_escaped ("&lt;" +++ r) = "<" +++ replace_escaped r.
Proof. reflexivity. Qed.
Lemma re_gt r : replace_escaped ("&gt;" +++ r) = ">" +++ replace_escaped r.
Proof. reflexivity. Qed.
Lemma re_amp r : replace_escaped ("&amp;" +++ r) = "&" +++ replace_escaped r.
Proof. reflexivity. Qed.
Lemma re_quot r : replace_escaped ("&quot;" +++ r) = str1 ch_quot +++ replace_escaped r.
Proof. reflexivity. Qed.
Lemma re_apos r : replace_escaped ("&apos;" +++ r) = "'" +++ replace_escaped r.
Proof. reflexivity. Qed.
Lemma re_39 r : replace_escaped ("&#39;" +++ r) = "'" +++ replace_escaped r.
Proof. reflexivity. Qed.
Lemma re_nbsp r : replace_escaped ("&nbsp;" +++ r) = " " +++ replace_escaped r.
Proof. reflexivity. Qed.
Lemma re_nl r : replace_escaped ("&#xA;" +++ r) = "&#xA;" +++ replace_escaped r.
Proof. reflexivity. Qed.

Lemma re_other r :
  (forall e v, In (e, v) crate_entities -> starts_with e (String ch_amp r) = false) ->
  replace_escaped (String ch_amp r) = String ch_amp (replace_escaped r).
Proof.
  intros H. unfold replace_escaped. cbn [replace_escaped_from].
  rewrite Ascii.eqb_refl. unfold entity_at.
  rewrite (H "&lt;" "<"), (H "&gt;" ">"), (H "&amp;" "&"), (H "&quot;" (str1 ch_quot)),
    (H "&#39;" "'"), (H "&apos;" "'"), (H "&nbsp;" " ") by (cbn; tauto).
  reflexivity.
Qed.

(** ** C01 *)
Lemma replace_escape s : replace_escaped (escape s) = newline_as_reference s.
Proof.
  induction s as [|c s IH]; [reflexivity|].
  cbn [escape newline_as_reference]. unfold escape_char.
  destruct (Ascii.eqb_spec c ch_amp) as [->|Hamp]; [rewrite re_amp, IH; reflexivity|].
  destruct (Ascii.eqb_spec c ch_lt) as [->|Hlt]; [rewrite re_lt, IH; reflexivity|].
  destruct (Ascii.eqb_spec c ch_gt) as [->|Hgt]; [rewrite re_gt, IH; reflexivity|].
  destruct (Ascii.eqb_spec c ch_quot) as [->|Hq]; [rewrite re_quot, IH; reflexivity|].
  destruct (Ascii.eqb_spec c ch_apos) as [->|Ha]; [rewrite re_apos, IH; reflexivity|].
  destruct (Ascii.eqb_spec c ch_nl) as [->|Hnl]; [rewrite re_nl, IH; reflexivity|].
  destruct (Ascii.eqb_spec c ch_cr) as [->|Hcr]; [exact IH|].
  cbn [str1 String.append]. rewrite replace_escaped_cons by assumption. now rewrite IH.
Qed.

Lemma newline_as_reference_id s :
  has_char ch_nl s = false -> has_char ch_cr s = false -> newline_as_reference s = s.
Proof.
  induction s as [|c s IH]; [reflexivity|]. cbn.
  intros [H1 H2]%orb_false_iff [H3 H4]%orb_false_iff. rewrite H1, H3. cbn. f_equal; auto.
Qed.

Lemma replace_escape_id s :
  has_char ch_nl s = false -> has_char ch_cr s = false -> replace_escaped (escape s) = s.
Proof. intros; rewrite replace_escape. now apply newline_as_reference_id. Qed.

(** Conversely the text changes as soon as it holds one of the two. *)
Lemma newline_as_reference_fix s :
  newline_as_reference s = s -> has_char ch_nl s = false /\ has_char ch_cr s = false.
Proof.
  intros H. induction s as [|c s IH]; [split; reflexivity|].
  cbn in H. cbn [has_char].
  destruct (Ascii.eqb_spec c ch_nl) as [->|Hnl]; [discriminate H|].
  destruct (Ascii.eqb_spec c ch_cr) as [->|Hcr].
  - exfalso. cbn in H.
    (* the image never holds a carriage return *)
    assert (NC : forall t, has_char ch_cr (newline_as_reference t) = false).
    { induction t as [|d t IHt]; [reflexivity|]. cbn [newline_as_reference]. rewrite has_char_app, IHt, orb_false_r.
      destruct (Ascii.eqb_spec d ch_nl); [reflexivity|].
      destruct (Ascii.eqb_spec d ch_cr) as [|Hd]; [reflexivity|]. cbn. rewrite orb_false_r. now apply Ascii.eqb_neq. }
    specialize (NC s). rewrite H in NC. cbn in NC. discriminate.
  - cbn in H. injection H as H. exact (IH H).
Qed.

Lemma replace_escape_iff s :
  replace_escaped (escape s) = s <-> has_char ch_nl s = false /\ has_char ch_cr s = false.
Proof.
  rewrite replace_escape. split; [apply newline_as_reference_fix|].
  intros [? ?]; now apply newline_as_reference_id.
Qed.

(** ** C02 *)
Lemma escape_xml_text s : xml_text (escape s) (without_cr s).
Proof.
  unfold without_cr. induction s as [|c s IH]; [constructor|].
  cbn [escape filter_str]. unfold escape_char, not_cr at 1.
  destruct (Ascii.eqb_spec c ch_amp) as [->|Hamp]; [apply (xt_amp _ _ IH)|].
  destruct (Ascii.eqb_spec c ch_lt) as [->|Hlt]; [apply (xt_lt _ _ IH)|].
  destruct (Ascii.eqb_spec c ch_gt) as [->|Hgt]; [apply (xt_gt _ _ IH)|].
  destruct (Ascii.eqb_spec c ch_quot) as [->|Hq]; [apply (xt_quot _ _ IH)|].
  destruct (Ascii.eqb_spec c ch_apos) as [->|Ha]; [apply (xt_apos _ _ IH)|].
  destruct (Ascii.eqb_spec c ch_nl) as [->|Hnl]; [apply (xt_nl _ _ IH)|].
  destruct (Ascii.eqb_spec c ch_cr) as [->|Hcr]; [exact IH|].
  cbn. now constructor.
Qed.

Lemma xml_text_fun raw t1 : xml_text raw t1 -> forall t2, xml_text raw t2 -> t1 = t2.
Proof.
  induction 1 as [|c raw txt Hl Ha H IH|raw txt H IH|raw txt H IH|raw txt H IH|raw txt H IH|raw txt H IH|raw txt H IH];
    intros t2 H2; inversion H2; subst; try congruence; try (f_equal; now auto);
    try (exfalso; now apply Ha); cbn; f_equal; auto.
Qed.

Definition markup_byte (c : ascii) : bool :=
  (c =c ch_lt) || (c =c ch_gt) || (c =c ch_quot) || (c =c ch_apos) || (c =c ch_nl) || (c =c ch_cr).

Lemma escape_no_markup s c : markup_byte c = true -> has_char c (escape s) = false.
Proof.
  intros Hc. induction s as [|d s IH]; [reflexivity|].
  cbn [escape]. rewrite has_char_app, IH, orb_false_r. clear IH.
  assert (Hcases : c = ch_lt \/ c = ch_gt \/ c = ch_quot \/ c = ch_apos \/ c = ch_nl \/ c = ch_cr).
  { unfold markup_byte in Hc. rewrite !orb_true_iff, !Ascii.eqb_eq in Hc. tauto. }
  unfold escape_char.
  destruct (Ascii.eqb_spec d ch_amp) as [->|Hamp]; [destruct Hcases as [->|[->|[->|[->|[->| ->]]]]]; reflexivity|].
  destruct (Ascii.eqb_spec d ch_lt) as [->|Hlt]; [destruct Hcases as [->|[->|[->|[->|[->| ->]]]]]; reflexivity|].
  destruct (Ascii.eqb_spec d ch_gt) as [->|Hgt]; [destruct Hcases as [->|[->|[->|[->|[->| ->]]]]]; reflexivity|].
  destruct (Ascii.eqb_spec d ch_quot) as [->|Hq]; [destruct Hcases as [->|[->|[->|[->|[->| ->]]]]]; reflexivity|].
  destruct (Ascii.eqb_spec d ch_apos) as [->|Ha]; [destruct Hcases as [->|[->|[->|[->|[->| ->]]]]]; reflexivity|].
  destruct (Ascii.eqb_spec d ch_nl) as [->|Hnl]; [destruct Hcases as [->|[->|[->|[->|[->| ->]]]]]; reflexivity|].
  destruct (Ascii.eqb_spec d ch_cr) as [->|Hcr]; [reflexivity|].
  cbn. rewrite orb_false_r. apply Ascii.eqb_neq. destruct Hcases as [->|[->|[->|[->|[->| ->]]]]]; congruence.
Qed.

(** ** C03 *)
Lemma escape_plain s : any_char needs_escape s = false -> escape s = s.
Proof.
  induction s as [|c s IH]; [reflexivity|]. cbn [any_char escape].
  intros [Hc Hs]%orb_false_iff. rewrite (IH Hs). unfold needs_escape in Hc.
  rewrite !orb_false_iff in Hc. destruct Hc as [[[[[[H1 H2] H3] H4] H5] H6] H7].
  unfold escape_char. now rewrite H1, H2, H3, H4, H5, H6, H7.
Qed.

Lemma escape_owned_escape s : escape_owned s = escape s.
Proof.
  unfold escape_owned. destruct (any_char needs_escape s) eqn:E; [reflexivity|].
  symmetry; now apply escape_plain.
Qed.

(** ** The second decoding of the reader (used by C07) *)
Lemma contains_cons e c s : contains e s -> contains e (String c s).
Proof. intros (a & b & ->). exists (String c a), b. reflexivity. Qed.

Lemma entity_free_cons c s : entity_free (String c s) -> entity_free s.
Proof. intros H e v Hin Hc. exact (H e v Hin (contains_cons _ _ _ Hc)). Qed.

Lemma replace_escaped_id s : entity_free s -> replace_escaped s = s.
Proof.
  induction s as [|c s IH]; [reflexivity|]. intros H.
  destruct (Ascii.eqb_spec c ch_amp) as [->|Hc].
  - rewrite re_other.
    + f_equal. apply IH. now apply entity_free_cons in H.
    + intros e v Hin. destruct (starts_with e (String ch_amp s)) eqn:E; [|reflexivity].
      apply starts_with_spec in E as [r Hr]. exfalso. apply (H e v Hin). exists "", r. exact Hr.
  - rewrite replace_escaped_cons by assumption. f_equal. apply IH. now apply entity_free_cons in H.
Qed.

(** Each replacement makes the text strictly shorter. *)
Lemma replace_escaped_from_length k s :
  String.length (replace_escaped_from k s) <= String.length s.
Proof.
  revert k. induction s as [|c s IH]; intros k; [cbn; lia|].
  cbn [replace_escaped_from]. destruct k as [|k]; [|specialize (IH k); cbn; lia].
  destruct (c =c ch_amp).
  - unfold entity_at.
    repeat match goal with |- context [if ?b then _ else _] => destruct b end;
    rewrite append_length; match goal with |- context [replace_escaped_from ?k s] => specialize (IH k) end;
    cbn [String.length str1] in *; lia.
  - specialize (IH 0). cbn [String.length]. lia.
Qed.

Lemma skip_length : forall k s, k <= String.length s ->
  String.length (replace_escaped_from k s) <= String.length s - k.
Proof.
  induction k as [|k IH]; intros s H.
  - pose proof (replace_escaped_from_length 0 s). lia.
  - destruct s as [|c s]; [cbn in H; lia|]. cbn [replace_escaped_from String.length] in *.
    specialize (IH s). lia.
Qed.

Lemma contains_dec e s : {contains e s} + {~ contains e s}.
Proof.
  induction s as [|c s IH].
  - destruct e as [|a e].
    + left. exists "", "". reflexivity.
    + right. intros (x & y & E). destruct x; discriminate.
  - destruct (starts_with e (String c s)) eqn:E.
    + left. apply starts_with_spec in E as [r ->]. exists "", r. reflexivity.
    + destruct IH as [IH|IH]; [left; now apply contains_cons|].
      right. intros (x & y & Exy). destruct x as [|x0 x].
      * cbn in Exy. rewrite Exy in E. unfold starts_with in E. rewrite strip_prefix_app in E. discriminate.
      * cbn in Exy. injection Exy as -> Exy. apply IH. now exists x, y.
Qed.

Lemma entity_free_dec s :
  entity_free s \/ (exists e v, In (e, v) crate_entities /\ contains e s).
Proof.
  unfold entity_free. generalize crate_entities as l.
  induction l as [|[e v] l IHl]; [left; intros ? ? []|].
  destruct (contains_dec e s) as [Hy|Hn].
  - right. exists e, v. split; [left; reflexivity|exact Hy].
  - destruct IHl as [IHl|(e' & v' & Hin & Hc)].
    + left. intros e' v' [E|Hin]; [injection E as -> ->; exact Hn|eauto].
    + right. exists e', v'. split; [right; exact Hin|exact Hc].
Qed.

Lemma entity_skip_length p c s k :
  starts_with p (String c s) = true -> String.length p = S k ->
  String.length (replace_escaped_from k s) <= String.length s - k /\ k <= String.length s.
Proof.
  intros H Hp. apply starts_with_spec in H as [r Hr].
  destruct p as [|c' p]; [discriminate|]. cbn in Hr. injection Hr as -> ->.
  cbn in Hp. injection Hp as Hp.
  assert (k <= String.length (p +++ r)) by (rewrite append_length; lia).
  split; [now apply skip_length|assumption].
Qed.

Lemma In_entities e v (P : string -> Prop) :
  In (e, v) crate_entities ->
  P "&lt;" -> P "&gt;" -> P "&amp;" -> P "&quot;" -> P "&#39;" -> P "&apos;" -> P "&nbsp;" -> P e.
Proof. cbn [In crate_entities]. intros H ? ? ? ? ? ? ?. intuition congruence. Qed.

Lemma replace_escaped_shorter e v s :
  In (e, v) crate_entities -> contains e s -> String.length (replace_escaped s) < String.length s.
Proof.
  intros Hin. unfold replace_escaped. induction s as [|c s IH]; intros (a & b & Hs).
  { exfalso. destruct a; [|discriminate]. cbn in Hs.
    revert Hs. pattern e; apply (In_entities _ _ _ Hin); discriminate. }
  cbn [replace_escaped_from]. destruct (Ascii.eqb_spec c ch_amp) as [->|Hcc].
  - unfold entity_at.
    destruct (starts_with "&lt;" (String ch_amp s)) eqn:E1;
      [destruct (entity_skip_length _ _ _ 3 E1 eq_refl); cbn in *; lia|].
    destruct (starts_with "&gt;" (String ch_amp s)) eqn:E2;
      [destruct (entity_skip_length _ _ _ 3 E2 eq_refl); cbn in *; lia|].
    destruct (starts_with "&amp;" (String ch_amp s)) eqn:E3;
      [destruct (entity_skip_length _ _ _ 4 E3 eq_refl); cbn in *; lia|].
    destruct (starts_with "&quot;" (String ch_amp s)) eqn:E4;
      [destruct (entity_skip_length _ _ _ 5 E4 eq_refl); cbn in *; lia|].
    destruct (starts_with "&#39;" (String ch_amp s)) eqn:E5;
      [destruct (entity_skip_length _ _ _ 4 E5 eq_refl); cbn in *; lia|].
    destruct (starts_with "&apos;" (String ch_amp s)) eqn:E6;
      [destruct (entity_skip_length _ _ _ 5 E6 eq_refl); cbn in *; lia|].
    destruct (starts_with "&nbsp;" (String ch_amp s)) eqn:E7;
      [destruct (entity_skip_length _ _ _ 5 E7 eq_refl); cbn in *; lia|].
    destruct a as [|a0 a].
    { exfalso. cbn [String.append] in Hs.
      assert (Hst : starts_with e (String ch_amp s) = true) by (apply starts_with_spec; exists b; exact Hs).
      revert Hst. pattern e; apply (In_entities _ _ _ Hin); congruence. }
    cbn in Hs. injection Hs as -> Hs.
    change (1 - 1) with 0. cbn [String.append String.length].
    apply -> Nat.succ_lt_mono. apply IH. now exists a, b.
  - destruct a as [|a0 a].
    { exfalso. cbn [String.append] in Hs. revert Hs.
      pattern e; apply (In_entities _ _ _ Hin); cbn [String.append]; intros Hs; injection Hs as Hc0 _; apply Hcc; exact Hc0. }
    cbn in Hs. injection Hs as -> Hs. cbn [String.length].
    apply -> Nat.succ_lt_mono. apply IH. now exists a, b.
Qed.

Lemma replace_escaped_fix s : replace_escaped s = s <-> entity_free s.
Proof.
  split; [|apply replace_escaped_id]. intros H.
  destruct (entity_free_dec s) as [D|(e & v & Hin & Hc)]; [exact D|].
  pose proof (replace_escaped_shorter _ _ _ Hin Hc) as L. rewrite H in L. lia.
Qed.

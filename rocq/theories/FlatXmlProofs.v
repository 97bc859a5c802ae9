From Verif Require Import Str StrFacts StrFind StrFindFacts FlatXmlModel FlatXmlSpec.

Lemma lacks_char c s : lacks (str1 c) s -> has_char c s = false.
Proof.
  unfold lacks. rewrite not_contains. induction s as [|d s IH]; [reflexivity|].
  rewrite find_eq. unfold str1 at 1. rewrite starts_with_cons, starts_with_nil, andb_true_r.
  cbn [has_char]. rewrite (Ascii.eqb_sym d c). destruct (c =c d); [discriminate|].
  intro H. apply IH. destruct (find (str1 c) s); [discriminate|reflexivity].
Qed.

Lemma blank_lacks c s : blank s -> is_ws c = false -> has_char c s = false.
Proof. intros H Hc. eapply all_char_has; eauto. Qed.

(** ** Termination *)
Lemma extract_enough fuel s : String.length s < fuel -> extract_loop fuel s <> ExtractOutOfFuel.
Proof.
  revert s. induction fuel as [|fuel IH]; intros s H; [lia|]. cbn [extract_loop].
  destruct (find p_part s) as [i|] eqn:Ei; [|discriminate].
  destruct (drop_bytes i s) as [t|] eqn:Et; [|discriminate].
  apply drop_bytes_length in Et.
  destruct (find p_part_end t) as [j|].
  - destruct (drop_bytes (j + 11) t) as [rest|] eqn:Er; [|discriminate]. apply drop_bytes_length in Er.
    assert (HI : extract_loop fuel rest <> ExtractOutOfFuel) by (apply IH; lia).
    destruct (part_name _); [|assumption|discriminate].
    destruct (part_type _); [|assumption|discriminate].
    destruct (part_data _); [|assumption|discriminate].
    destruct (extract_loop fuel rest); cbn; congruence.
  - destruct (drop_bytes 1 t) as [t'|] eqn:Er; [|discriminate]. apply drop_bytes_length in Er. apply IH. lia.
Qed.

(** The fuel does not influence the result. *)
Lemma extract_mono f1 : forall f2 s, f1 <= f2 -> extract_loop f1 s <> ExtractOutOfFuel -> extract_loop f2 s = extract_loop f1 s.
Proof.
  induction f1 as [|f1 IH]; intros f2 s Hle Hne; [cbn in Hne; congruence|].
  destruct f2 as [|f2]; [lia|]. cbn [extract_loop] in *.
  destruct (find p_part s); [|reflexivity]. destruct (drop_bytes _ s) as [t|]; [|reflexivity].
  destruct (find p_part_end t) as [j|].
  - destruct (drop_bytes (j + 11) t) as [rest|]; [|reflexivity].
    destruct (part_name _); [|apply IH; [lia|assumption]|reflexivity].
    destruct (part_type _); [|apply IH; [lia|assumption]|reflexivity].
    destruct (part_data _); [|apply IH; [lia|assumption]|reflexivity].
    rewrite (IH f2 rest); [reflexivity|lia|]. intro E. rewrite E in Hne. cbn in Hne. congruence.
  - destruct (drop_bytes 1 t); [|reflexivity]. apply IH; [lia|assumption].
Qed.

Lemma extract_fuel f s : String.length s < f -> extract_loop f s = extract_parts s.
Proof.
  intro H. unfold extract_parts. symmetry.
  destruct (Nat.le_ge_cases f (S (String.length s))) as [Hl|Hl].
  - apply extract_mono; [assumption|]. now apply extract_enough.
  - symmetry. apply extract_mono; [assumption|]. apply extract_enough. lia.
Qed.

(** ** One part *)
(** A quote follows a quote somewhere. *)
Lemma find_quotes_app a b : find q2 a = None -> find q2 b = None ->
  (forall a', a <> a' +++ q1) \/ (forall b', b <> q1 +++ b') -> find q2 (a +++ b) = None.
Proof.
  intros Ha Hb Hor. rewrite find_app; [now rewrite Hb|assumption|].
  intros u w q Hu Hw Hq Hn.
  destruct (starts_with q b) eqn:E; [|reflexivity]. exfalso. apply starts_with_spec in E as [r E].
  destruct w as [|c w]; [congruence|]. cbn in Hq. injection Hq as <- Hq.
  destruct w as [|d w].
  - cbn in Hq. subst q. destruct Hor as [Ho|Ho]; [eapply Ho; exact Hu|eapply Ho; exact E].
  - injection Hq as _ Hq. destruct w; [|discriminate]. cbn in Hq. congruence.
Qed.

Lemma no_q_none s : has_char ch_quot s = false -> find q2 s = None.
Proof. intro H. apply (find_missing ch_quot); [reflexivity|assumption]. Qed.

Lemma no_q_ends s : has_char ch_quot s = false -> forall a, s <> a +++ q1.
Proof. intros H a ->. rewrite has_char_app in H. cbn in H. rewrite orb_true_r in H. discriminate. Qed.
Lemma no_q_starts s : has_char ch_quot s = false -> forall a, s <> q1 +++ a.
Proof. intros H a ->. rewrite has_char_app in H. discriminate. Qed.

Lemma has_char_nonempty_start s c : s <> "" -> has_char c s = false -> forall r t, s +++ t <> String c r.
Proof.
  destruct s as [|d s]; [congruence|]. intros _ H r t E. injection E as -> _.
  cbn in H. rewrite Ascii.eqb_refl in H. discriminate.
Qed.

Lemma find_cons_sep p x b : has_char x p = false -> p <> "" -> find p (String x b) = option_map S (find p b).
Proof.
  intros Hx Hp. rewrite find_eq. destruct p as [|c p]; [congruence|].
  rewrite starts_with_cons. cbn in Hx. apply orb_false_iff in Hx as [-> _]. reflexivity.
Qed.

(** A pattern with quotes and without angle brackets is found neither in a text
    [a] nor in the data, hence not in the part. *)
Lemma absent_around p a o d k :
  has_char ch_quot p = true -> has_char "<" p = false -> has_char ">" p = false ->
  has_char ch_quot o = false -> has_char ch_quot k = false ->
  find p a = None -> find p d = None ->
  find p (a +++ "<" +++ o +++ ">" +++ d +++ "<" +++ k) = None.
Proof.
  intros Hq Hl Hg Ho Hk Ha Hd.
  assert (Hp : p <> "") by (intros ->; discriminate).
  cbn [append]. rewrite find_app_sep by assumption.
  rewrite find_cons_sep by assumption.
  rewrite find_app_sep; [|eapply find_missing; eauto|assumption].
  rewrite find_cons_sep by assumption.
  rewrite find_app_sep by assumption.
  rewrite find_cons_sep by assumption.
  rewrite (find_missing ch_quot p k) by assumption. reflexivity.
Qed.

Definition open_text (c : content) : string :=
  match c with XmlContent _ => "pkg:xmlData" | BinaryContent _ => "pkg:binaryData" end.
Definition inner (c : content) : string := match c with XmlContent d => d | BinaryContent d => d end.
Lemma content_text_eq c : content_text c = "<" +++ open_text c +++ ">" +++ inner c +++ "<" +++ ("/" +++ open_text c +++ ">").
Proof. destruct c; reflexivity. Qed.

(** Everything before the content. *)
Definition head_text (q : string) (p : source_part) : string :=
  "<pkg:part" +++ s_gap1 p +++ "pkg:name=" +++ q +++ s_name p +++ q +++ s_gap2 p
  +++ "pkg:contentType=" +++ q +++ s_type p +++ q +++ s_more p +++ ">" +++ s_gap3 p.
Lemma part_text_eq q p : part_text q p = head_text q p +++ content_text (s_content p) +++ s_gap4 p +++ p_part_end.
Proof. unfold part_text, head_text, p_part_end. now rewrite !append_assoc. Qed.

Lemma q1_app s : q1 +++ s = String ch_quot s. Proof. reflexivity. Qed.
Lemma quote_q1 : quote = q1. Proof. reflexivity. Qed.

Section Part.
Variable p : source_part.
Hypothesis Hok : part_ok p.

Let g1 : blank (s_gap1 p). Proof. apply Hok. Qed.
Let g2 : blank (s_gap2 p). Proof. apply Hok. Qed.
Let g3 : blank (s_gap3 p). Proof. apply Hok. Qed.
Let g4 : blank (s_gap4 p). Proof. apply Hok. Qed.
Let nm : value_ok (s_name p). Proof. apply Hok. Qed.
Let ty : value_ok (s_type p). Proof. apply Hok. Qed.
Let mo : has_char "<" (s_more p) = false. Proof. apply lacks_char. apply Hok. Qed.
Let mq : find q2 (q1 +++ s_more p) = None.
Proof. apply not_contains. apply Hok. Qed.
Let co : content_ok (s_content p). Proof. apply Hok. Qed.
Let nm_q : has_char ch_quot (s_name p) = false. Proof. apply lacks_char. apply nm. Qed.
Let ty_q : has_char ch_quot (s_type p) = false. Proof. apply lacks_char. apply ty. Qed.
Let nm_l : has_char "<" (s_name p) = false. Proof. apply lacks_char. apply nm. Qed.
Let ty_l : has_char "<" (s_type p) = false. Proof. apply lacks_char. apply ty. Qed.

Let gq s (H : blank s) : has_char ch_quot s = false. Proof. eapply blank_lacks; eauto. Qed.
Let gl s (H : blank s) : has_char "<" s = false. Proof. eapply blank_lacks; eauto. Qed.

(** No doubled quote in the head. *)
Lemma head_no_q2 : find q2 (head_text q1 p) = None.
Proof.
  assert (Ha : has_char ch_quot ("<pkg:part" +++ s_gap1 p +++ "pkg:name=") = false)
    by (rewrite !has_char_app, (gq _ g1); reflexivity).
  assert (Hb : has_char ch_quot (s_gap2 p +++ "pkg:contentType=") = false)
    by (rewrite !has_char_app, (gq _ g2); reflexivity).
  assert (Hc : has_char ch_quot (">" +++ s_gap3 p) = false)
    by (rewrite !has_char_app, (gq _ g3); reflexivity).
  unfold head_text.
  replace ("<pkg:part" +++ _) with
    (("<pkg:part" +++ s_gap1 p +++ "pkg:name=") +++ (q1 +++ s_name p) +++ (q1 +++ (s_gap2 p +++ "pkg:contentType="))
      +++ (q1 +++ s_type p) +++ (q1 +++ s_more p) +++ (">" +++ s_gap3 p))
    by now rewrite !append_assoc.
  assert (V : forall v, value_ok v -> find q2 (q1 +++ v) = None).
  { intros v (Hv & _ & Hvq & _). apply lacks_char in Hvq.
    apply find_quotes_app; [reflexivity|now apply no_q_none|]. right. now apply no_q_starts. }
  assert (E : forall v, v <> "" -> has_char ch_quot v = false -> forall a', q1 +++ v <> a' +++ q1).
  { intros v Hv Hvq a' E. destruct a' as [|c a']; [cbn in E; injection E as E; congruence|].
    cbn in E. injection E as <- E. subst v. rewrite has_char_app in Hvq. cbn in Hvq. rewrite orb_true_r in Hvq. discriminate. }
  apply find_quotes_app; [now apply no_q_none| |left; now apply no_q_ends].
  apply find_quotes_app; [apply V, nm| |left; apply E; [apply nm|apply nm_q]].
  apply find_quotes_app.
  { apply find_quotes_app; [reflexivity|now apply no_q_none|]. right. now apply no_q_starts. }
  2:{ left. apply E; [|assumption]. destruct (s_gap2 p); discriminate. }
  apply find_quotes_app; [apply V, ty| |left; apply E; [apply ty|apply ty_q]].
  apply find_quotes_app; [apply mq|now apply no_q_none|]. right. now apply no_q_starts.
Qed.

Let d_name : find p_name2 (inner (s_content p)) = None.
Proof. apply not_contains. destruct (s_content p); apply co. Qed.
Let d_type : find p_type2 (inner (s_content p)) = None.
Proof. apply not_contains. destruct (s_content p); apply co. Qed.
Let d_part : find p_part_end (inner (s_content p)) = None.
Proof. apply not_contains. destruct (s_content p); apply co. Qed.

Lemma part_no_q2 pat (Hp : pat = p_name2 \/ pat = p_type2) : find pat (part_text q1 p) = None.
Proof.
  rewrite part_text_eq, content_text_eq. rewrite !append_assoc.
  apply absent_around.
  - destruct Hp as [->| ->]; reflexivity.
  - destruct Hp as [->| ->]; reflexivity.
  - destruct Hp as [->| ->]; reflexivity.
  - destruct (s_content p); reflexivity.
  - rewrite !has_char_app, (gq _ g4). destruct (s_content p); reflexivity.
  - destruct Hp as [->| ->]; [apply (find_sub_none "pkg:name=" q2 "")|apply (find_sub_none "pkg:contentType=" q2 "")];
      apply head_no_q2.
  - destruct Hp as [->| ->]; assumption.
Qed.

(** From here on the values are quoted by [q], one quote or two. *)
Variable q : string.
Hypothesis Hq : q = q1 \/ q = q2.

Lemma find_name : find ("pkg:name=" +++ q) (part_text q p) = Some (String.length ("<pkg:part" +++ s_gap1 p)).
Proof.
  unfold part_text. rewrite <- append_assoc. rewrite <- (append_assoc "pkg:name=").
  apply find_first; [destruct Hq as [->| ->]; reflexivity|].
  apply (find_missing ch_quot); [destruct Hq as [->| ->]; reflexivity|]. rewrite has_char_app, (gq _ g1). reflexivity.
Qed.

Lemma find_type : find ("pkg:contentType=" +++ q) (part_text q p)
  = Some (String.length ("<pkg:part" +++ s_gap1 p +++ "pkg:name=" +++ q +++ s_name p +++ q +++ s_gap2 p)).
Proof.
  unfold part_text.
  replace ("<pkg:part" +++ _) with
    (("<pkg:part" +++ s_gap1 p +++ "pkg:name=" +++ q +++ s_name p +++ q +++ s_gap2 p) +++ ("pkg:contentType=" +++ q) +++
      (s_type p +++ q +++ s_more p +++ ">" +++ s_gap3 p +++ content_text (s_content p) +++ s_gap4 p +++ "</pkg:part>"))
    by now rewrite !append_assoc.
  apply find_first; [destruct Hq as [->| ->]; reflexivity|].
  apply (find_sub_none "" "pkg:contentType=" q).
  assert (B : forall s, has_char "T" s = false -> find "pkg:contentType=" s = None)
    by (intros; now apply (find_missing "T")).
  assert (GT : forall s, blank s -> has_char "T" s = false) by (intros; eapply blank_lacks; eauto).
  assert (Q : forall s, find "pkg:contentType=" (q +++ s) = shift (String.length q) (find "pkg:contentType=" s)).
  { intro s. apply find_skip. destruct Hq as [->| ->]; reflexivity. }
  assert (S : forall a s, find "pkg:contentType=" a = None ->
     find "pkg:contentType=" (a +++ q +++ s) = shift (String.length a) (find "pkg:contentType=" (q +++ s))).
  { intros a s Ha. destruct Hq as [->| ->]; [|unfold q2; rewrite !append_assoc]; rewrite !q1_app; now apply find_app_sep. }
  replace ("<pkg:part" +++ _) with
    (("<pkg:part" +++ s_gap1 p +++ "pkg:name=") +++ q +++ s_name p +++ q +++ s_gap2 p) by now rewrite !append_assoc.
  rewrite S.
  2:{ apply B. rewrite !has_char_app. cbn. now rewrite (GT _ g1). }
  rewrite Q. rewrite S by (apply not_contains; apply nm). rewrite Q.
  rewrite B; [reflexivity|]. now apply GT.
Qed.

Lemma take_value a n v k rest : find k (v +++ rest) = Some (String.length v) -> boundary (v +++ rest) = true ->
  forall m, String.length a = m + n -> piece_at (a +++ v +++ rest) m n k = Got v.
Proof.
  intros Hf Hb m Hm. unfold piece_at. rewrite <- Hm, slice_from_app by assumption.
  rewrite Hf. now rewrite take_bytes_app.
Qed.

Lemma boundary_start s : starts_at_char s -> boundary s = true.
Proof. destruct s; cbn; [reflexivity|]. now intros ->. Qed.
Let bnm : boundary (s_name p) = true. Proof. apply boundary_start, nm. Qed.
Let bty : boundary (s_type p) = true. Proof. apply boundary_start, ty. Qed.
Let bd : boundary (inner (s_content p)) = true.
Proof. apply boundary_start. destruct (s_content p); apply co. Qed.
Lemma boundary_app a b : boundary a = true -> boundary b = true -> boundary (a +++ b) = true.
Proof. destruct a; auto. Qed.

(** The text before the content has no opening bracket except the first. *)
Definition head_rest : string :=
  "pkg:part" +++ s_gap1 p +++ "pkg:name=" +++ q +++ s_name p +++ q +++ s_gap2 p
     +++ "pkg:contentType=" +++ q +++ s_type p +++ q +++ s_more p +++ ">" +++ s_gap3 p.
Lemma head_rest_no : has_char "<" head_rest = false.
Proof.
  unfold head_rest. rewrite !has_char_app, (gl _ g1), (gl _ g2), (gl _ g3), nm_l, ty_l, mo. destruct Hq as [->| ->]; reflexivity.
Qed.
Lemma head_eq : head_text q p = String "<" head_rest.
Proof. reflexivity. Qed.

Lemma find_after_head c pat rest : c <> "p"%char \/ pat = "kg:xmlData>" \/ pat = "kg:binaryData>" ->
  find (String "<" (String c pat)) (head_text q p +++ rest)
  = shift (String.length (head_text q p)) (find (String "<" (String c pat)) rest).
Proof.
  intro Hc. rewrite head_eq, append_cons, find_eq.
  assert (E : starts_with (String "<" (String c pat)) (String "<" (head_rest +++ rest)) = false).
  { destruct Hc as [Hc|[->| ->]].
    - rewrite starts_with_cons. cbn [Ascii.eqb Bool.eqb andb]. unfold head_rest.
      change ("pkg:part" +++ ?x) with (String "p" ("kg:part" +++ x)). rewrite append_cons, starts_with_cons.
      destruct (Ascii.eqb_spec c "p"); [contradiction|reflexivity].
    - unfold head_rest. destruct (Ascii.eqb_spec c "p") as [->|n]; [reflexivity|].
      rewrite starts_with_cons. cbn [Ascii.eqb Bool.eqb andb].
      change ("pkg:part" +++ ?x) with (String "p" ("kg:part" +++ x)). rewrite append_cons, starts_with_cons.
      destruct (Ascii.eqb_spec c "p"); [contradiction|reflexivity].
    - unfold head_rest. destruct (Ascii.eqb_spec c "p") as [->|n]; [reflexivity|].
      rewrite starts_with_cons. cbn [Ascii.eqb Bool.eqb andb].
      change ("pkg:part" +++ ?x) with (String "p" ("kg:part" +++ x)). rewrite append_cons, starts_with_cons.
      destruct (Ascii.eqb_spec c "p"); [contradiction|reflexivity]. }
  rewrite E, find_skip by apply head_rest_no. now rewrite shift_S.
Qed.

Lemma gap4_end : find p_xml (s_gap4 p +++ p_part_end) = None /\ find p_bin (s_gap4 p +++ p_part_end) = None
  /\ find p_part_end (s_gap4 p +++ p_part_end) = Some (String.length (s_gap4 p)).
Proof.
  unfold p_xml, p_bin, p_part_end. rewrite !find_skip by (now apply gl). repeat split. cbn. f_equal. lia.
Qed.

Lemma part_data_eq : part_data (part_text q p) = Got (content_data (s_content p)).
Proof.
  unfold part_data. rewrite part_text_eq.
  unfold p_xml, p_bin. rewrite !find_after_head by tauto.
  destruct (s_content p) as [d|d] eqn:Ec.
  - cbn [content_text]. rewrite append_assoc. rewrite find_here. cbn [shift option_map].
    replace (head_text q p +++ _) with ((head_text q p +++ "<pkg:xmlData>") +++ d +++ "</pkg:xmlData>" +++ s_gap4 p +++ p_part_end)
      by now rewrite !append_assoc.
    apply take_value.
    + apply find_first; [reflexivity|]. apply not_contains. apply co.
    + apply boundary_app; [apply bd|reflexivity].
    + rewrite append_length. cbn. lia.
  - cbn [content_text]. rewrite append_assoc.
    assert (X : find "<pkg:xmlData>" ("<pkg:binaryData>" +++ (d +++ "</pkg:binaryData>") +++ s_gap4 p +++ p_part_end) = None).
    { change ("<pkg:binaryData>" +++ ?x) with (String "<" ("pkg:binaryData>" +++ x)).
      rewrite find_eq. change (starts_with "<pkg:xmlData>" (String "<" ("pkg:binaryData>" +++ ?x))) with false. cbn iota.
      rewrite find_skip by reflexivity.
      assert (Y : find "<pkg:xmlData>" d = None) by (apply not_contains; apply co).
      rewrite append_assoc. change ("</pkg:binaryData>" +++ ?x) with (String "<" ("/pkg:binaryData>" +++ x)).
      rewrite (find_app_lead "<" "pkg:xmlData>" d) by (assumption || reflexivity).
      rewrite find_eq. change (starts_with "<pkg:xmlData>" (String "<" ("/pkg:binaryData>" +++ ?x))) with false. cbn iota.
      rewrite find_skip by reflexivity. fold p_xml. rewrite (proj1 gap4_end). reflexivity. }
    rewrite X. cbn [shift option_map]. rewrite find_here. cbn [shift option_map].
    replace (head_text q p +++ _) with ((head_text q p +++ "<pkg:binaryData>") +++ d +++ "</pkg:binaryData>" +++ s_gap4 p +++ p_part_end)
      by now rewrite !append_assoc.
    rewrite take_value with (v := d).
    + reflexivity.
    + apply find_first; [reflexivity|]. apply not_contains. apply co.
    + apply boundary_app; [apply bd|reflexivity].
    + rewrite append_length. cbn. lia.
Qed.

(** The end of the part. *)
Definition body_text : string := head_text q p +++ content_text (s_content p) +++ s_gap4 p.
Lemma body_eq : part_text q p = body_text +++ p_part_end.
Proof. unfold body_text. rewrite part_text_eq. now rewrite !append_assoc. Qed.
Lemma body_no_end : find p_part_end body_text = None.
Proof.
  unfold body_text, p_part_end. rewrite find_after_head by (left; discriminate).
  assert (E : find "</pkg:part>" (content_text (s_content p) +++ s_gap4 p) = None); [|now rewrite E].
  rewrite content_text_eq, !append_assoc.
  change ("<" +++ ?x) with (String "<" x).
  assert (O : forall x, starts_with "</pkg:part>" (String "<" (open_text (s_content p) +++ x)) = false)
    by (intro; destruct (s_content p); reflexivity).
  rewrite find_eq, O. clear O.
  rewrite find_skip by (destruct (s_content p); reflexivity).
  rewrite find_skip by reflexivity.
  change ("<" +++ ?x) with (String "<" x).
  rewrite (find_app_lead "<" "/pkg:part>") by (apply d_part || reflexivity).
  assert (O : forall x, starts_with "</pkg:part>" (String "<" ("/" +++ open_text (s_content p) +++ x)) = false)
    by (intro; destruct (s_content p); reflexivity).
  rewrite find_eq, O. clear O.
  rewrite !find_skip by (destruct (s_content p); reflexivity).
  rewrite (find_missing "<" _ (s_gap4 p)); [reflexivity|reflexivity|now apply gl].
Qed.

End Part.

Section Plain.
Variable p : source_part.
Hypothesis Hok : part_ok p.
Lemma part_name_plain : part_name (part_text q1 p) = Got (s_name p).
Proof.
  unfold part_name. rewrite part_no_q2 by auto. change p_name1 with ("pkg:name=" +++ q1). rewrite find_name by auto.
  unfold part_text.
  replace ("<pkg:part" +++ _) with
    (("<pkg:part" +++ s_gap1 p +++ p_name1) +++ s_name p +++ q1 +++ (s_gap2 p +++ "pkg:contentType=" +++ q1
      +++ s_type p +++ q1 +++ s_more p +++ ">" +++ s_gap3 p +++ content_text (s_content p) +++ s_gap4 p +++ "</pkg:part>"))
    by (unfold p_name1; now rewrite !append_assoc).
  apply take_value.
  - apply find_first; [reflexivity|]. apply (find_missing ch_quot); [reflexivity|]. apply lacks_char, Hok.
  - apply boundary_app; [|reflexivity]. apply boundary_start, Hok.
  - rewrite !append_length. cbn [String.length]. change (String.length p_name1) with 10. lia.
Qed.

Lemma part_type_plain : part_type (part_text q1 p) = Got (s_type p).
Proof.
  unfold part_type. rewrite part_no_q2 by auto. change p_type1 with ("pkg:contentType=" +++ q1). rewrite find_type by auto.
  unfold part_text.
  replace ("<pkg:part" +++ _) with
    (("<pkg:part" +++ s_gap1 p +++ "pkg:name=" +++ q1 +++ s_name p +++ q1 +++ s_gap2 p +++ p_type1) +++ s_type p +++ q1
      +++ (s_more p +++ ">" +++ s_gap3 p +++ content_text (s_content p) +++ s_gap4 p +++ "</pkg:part>"))
    by (unfold p_type1; now rewrite !append_assoc).
  apply take_value.
  - apply find_first; [reflexivity|]. apply (find_missing ch_quot); [reflexivity|]. apply lacks_char, Hok.
  - apply boundary_app; [|reflexivity]. apply boundary_start, Hok.
  - rewrite !append_length. change (String.length p_type1) with 17. lia.
Qed.

End Plain.

(** ** Doubled quotes *)
Lemma decode_plain s : has_char ch_quot s = false -> has_char ch_amp s = false -> decode_html_entities s = s.
Proof.
  intros Hq Ha. unfold decode_html_entities.
  assert (R : forall pat t, has_char ch_amp pat = true -> replace pat t s = s).
  { intros pat t Hp. apply replace_none; [intros ->; discriminate|]. eapply find_missing; eauto. }
  rewrite (replace_none q2 q1 s); [|discriminate|now apply (find_missing ch_quot)].
  cbn zeta. rewrite !R by reflexivity. reflexivity.
Qed.

Lemma piece_short a v k c rest n m : find k (v +++ rest) = Some (String.length v) ->
  String.length a + 1 = m + n ->
  piece_at (a +++ String c v +++ rest) m n k = if boundary (v +++ rest) then Got v else PiecePanic.
Proof.
  intros Hf Hm. unfold piece_at. rewrite <- Hm.
  replace (a +++ String c v +++ rest) with ((a +++ str1 c) +++ (v +++ rest)) by (rewrite !append_assoc; reflexivity).
  replace (String.length a + 1) with (String.length (a +++ str1 c)) by (rewrite append_length; reflexivity).
  destruct (boundary (v +++ rest)) eqn:E.
  - rewrite slice_from_app by assumption. rewrite Hf. now rewrite take_bytes_app.
  - rewrite slice_from_inside by assumption. reflexivity.
Qed.

Lemma boundary_app_q v rest : boundary (v +++ q2 +++ rest) = boundary v.
Proof. destruct v; reflexivity. Qed.

Section Doubled.
Variable p : source_part.
Hypothesis Hok : part_ok p.

Lemma part_name_doubled c v : s_name p = String c v ->
  part_name (part_text q2 p) = if boundary v then Got (decode_html_entities v) else PiecePanic.
Proof.
  intro En. unfold part_name. change p_name2 with ("pkg:name=" +++ q2). rewrite find_name by auto.
  assert (Q : has_char ch_quot (s_name p) = false) by (apply lacks_char, Hok).
  rewrite En in Q. cbn [has_char] in Q. apply orb_false_iff in Q as [_ Q].
  unfold part_text. rewrite En.
  replace ("<pkg:part" +++ _) with
    (("<pkg:part" +++ s_gap1 p +++ p_name2) +++ String c v +++ q2 +++ (s_gap2 p +++ "pkg:contentType=" +++ q2
      +++ s_type p +++ q2 +++ s_more p +++ ">" +++ s_gap3 p +++ content_text (s_content p) +++ s_gap4 p +++ "</pkg:part>"))
    by (unfold p_name2; now rewrite !append_assoc).
  rewrite piece_short.
  - rewrite boundary_app_q. destruct (boundary v); reflexivity.
  - unfold q2 at 1. unfold q1 at 1. unfold str1. cbn [append]. rewrite find_skip by assumption.
    change (String ch_quot (q1 +++ "")) with q2. rewrite find_here. cbn. f_equal. lia.
  - rewrite !append_length. cbn [String.length]. change (String.length p_name2) with 11. lia.
Qed.

Lemma part_type_doubled c v : s_type p = String c v ->
  part_type (part_text q2 p) = if boundary v then Got (decode_html_entities v) else PiecePanic.
Proof.
  intro En. unfold part_type. change p_type2 with ("pkg:contentType=" +++ q2). rewrite find_type by auto.
  assert (Q : has_char ch_quot (s_type p) = false) by (apply lacks_char, Hok).
  rewrite En in Q. cbn [has_char] in Q. apply orb_false_iff in Q as [_ Q].
  unfold part_text. rewrite En.
  replace ("<pkg:part" +++ _) with
    (("<pkg:part" +++ s_gap1 p +++ "pkg:name=" +++ q2 +++ s_name p +++ q2 +++ s_gap2 p +++ p_type2) +++ String c v +++ q2 +++
      (s_more p +++ ">" +++ s_gap3 p +++ content_text (s_content p) +++ s_gap4 p +++ "</pkg:part>"))
    by (unfold p_type2; now rewrite !append_assoc).
  rewrite piece_short.
  - rewrite boundary_app_q. destruct (boundary v); reflexivity.
  - unfold q2 at 1. unfold q1 at 1. unfold str1. cbn [append]. rewrite find_skip by assumption.
    change (String ch_quot (q1 +++ "")) with q2. rewrite find_here. cbn. f_equal. lia.
  - rewrite !append_length. change (String.length p_type2) with 18. lia.
Qed.
End Doubled.

(** ** The loop *)
(** Extraction of a text that begins with a part. *)
Lemma extract_step q p before rest (Hok : part_ok p) (Hq : q = q1 \/ q = q2) : lacks "<pkg:part" before ->
  extract_parts (before +++ part_text q p +++ rest)
  = match part_name (part_text q p) with
    | PiecePanic => ExtractPanic
    | SkipPart => extract_parts rest
    | Got n =>
        match part_type (part_text q p) with
        | PiecePanic => ExtractPanic
        | SkipPart => extract_parts rest
        | Got t => cons_part (XmlPart n t (content_data (s_content p))) (extract_parts rest)
        end
    end.
Proof.
  intro Hb. apply not_contains in Hb. unfold extract_parts at 1. cbn [extract_loop].
  set (s := before +++ part_text q p +++ rest).
  assert (F : find p_part s = Some (String.length before)).
  { unfold s. unfold part_text. rewrite !append_assoc. apply find_first; [reflexivity|assumption]. }
  rewrite F. unfold s. rewrite drop_bytes_app.
  rewrite body_eq, append_assoc at 1.
  rewrite (find_first p_part_end (body_text p q)); [|reflexivity|now apply body_no_end].
  assert (L : String.length (body_text p q) + 11 = String.length (part_text q p)).
  { rewrite body_eq, append_length. reflexivity. }
  rewrite L, take_bytes_app, drop_bytes_app.
  assert (X : forall f, f = String.length (before +++ part_text q p +++ rest) -> extract_loop f rest = extract_parts rest).
  { intros f ->. apply extract_fuel. rewrite !append_length, <- L. lia. }
  rewrite (X _ eq_refl). rewrite part_data_eq by assumption. reflexivity.
Qed.

Lemma extract_tail t : lacks "<pkg:part" t -> extract_parts t = Parts [].
Proof. intro H. apply not_contains in H. unfold extract_parts. cbn [extract_loop]. unfold p_part. now rewrite H. Qed.

Lemma extract_plain l tail : lacks "<pkg:part" tail -> Forall (fun bp => lacks "<pkg:part" (fst bp) /\ part_ok (snd bp)) l ->
  extract_parts (package_text q1 l tail)
  = Parts (map (fun bp => XmlPart (s_name (snd bp)) (s_type (snd bp)) (content_data (s_content (snd bp)))) l).
Proof.
  intros Ht. induction 1 as [|[before p] l [Hb Hp] Hl IH]; cbn [package_text map fst snd] in *.
  - now apply extract_tail.
  - rewrite extract_step by auto. rewrite part_name_plain, part_type_plain by assumption. rewrite IH. reflexivity.
Qed.

Definition tail_of (s : string) : string := match s with String _ r => r | EmptyString => EmptyString end.

Lemma extract_doubled l tail : lacks "<pkg:part" tail ->
  Forall (fun bp => lacks "<pkg:part" (fst bp) /\ part_ok (snd bp)
     /\ starts_at_char (tail_of (s_name (snd bp))) /\ starts_at_char (tail_of (s_type (snd bp)))) l ->
  extract_parts (package_text q2 l tail)
  = Parts (map (fun bp => XmlPart (decode_html_entities (tail_of (s_name (snd bp))))
                                  (decode_html_entities (tail_of (s_type (snd bp)))) (content_data (s_content (snd bp)))) l).
Proof.
  intros Ht. induction 1 as [|[before p] l (Hb & Hp & Hn & Hty) Hl IH]; cbn [package_text map fst snd] in *.
  - now apply extract_tail.
  - rewrite extract_step by auto.
    destruct (s_name p) as [|c v] eqn:En; [exfalso; destruct Hp as (_ & _ & _ & _ & (Hv & _) & _); congruence|].
    destruct (s_type p) as [|c' v'] eqn:Et; [exfalso; destruct Hp as (_ & _ & _ & _ & _ & (Hv & _) & _); congruence|].
    rewrite (part_name_doubled p Hp c v En), (part_type_doubled p Hp c' v' Et). cbn [tail_of] in *.
    apply boundary_start in Hn, Hty. rewrite Hn, Hty, IH. reflexivity.
Qed.

Lemma extract_doubled_panics p before rest c d v : lacks "<pkg:part" before -> part_ok p ->
  s_name p = String c (String d v) -> is_continuation d = true ->
  extract_parts (before +++ part_text q2 p +++ rest) = ExtractPanic.
Proof.
  intros Hb Hp En Hc. rewrite extract_step by auto.
  rewrite (part_name_doubled p Hp c _ En). cbn [boundary]. rewrite Hc. reflexivity.
Qed.

(** ** Panics need a non-ASCII byte *)
Definition no_continuation (s : string) : Prop := all_char (fun c => negb (is_continuation c)) s = true.

Lemma no_continuation_app a b : no_continuation (a +++ b) <-> no_continuation a /\ no_continuation b.
Proof. unfold no_continuation. rewrite all_char_app. apply andb_true_iff. Qed.

Lemma drop_exists n s : n <= String.length s -> exists u r, drop_bytes n s = Some r /\ s = u +++ r.
Proof.
  revert s. induction n as [|n IH]; cbn; intros s H; [exists "", s; auto|].
  destruct s as [|c s]; cbn in H; [lia|]. destruct (IH s) as (u & r & Hd & ->); [lia|].
  exists (String c u), r. auto.
Qed.

Lemma slice_ascii n s : no_continuation s -> n <= String.length s -> slice_from n s <> None.
Proof.
  intros Hs Hn. unfold slice_from. destruct (drop_exists n s Hn) as (u & r & -> & ->).
  apply no_continuation_app in Hs as [_ Hs]. destruct r as [|c r]; [discriminate|].
  unfold no_continuation in Hs. cbn in Hs. destruct (is_continuation c); [discriminate|discriminate].
Qed.

Lemma piece_ascii part i n k : no_continuation part -> i + n <= String.length part -> piece_at part i n k <> PiecePanic.
Proof.
  intros Hs Hn. unfold piece_at. pose proof (slice_ascii _ _ Hs Hn).
  destruct (slice_from (i + n) part); [|congruence]. destruct (find k s); discriminate.
Qed.

Lemma find_bound p s i : find p s = Some i -> i + String.length p <= String.length s.
Proof. intro H. destruct (find_some _ _ _ H) as (u & v & -> & <-). rewrite !append_length. lia. Qed.

Lemma ends_unique a b x y : a +++ str1 x = b +++ str1 y -> x = y.
Proof.
  revert b. induction a as [|c a IH]; intros [|d b] E; cbn in E.
  - now injection E.
  - injection E as _ E. destruct b; discriminate.
  - injection E as _ E. destruct a; discriminate.
  - injection E as _ E. eauto.
Qed.

Lemma find_bound_strict p s i : find (p +++ q1) s = Some i -> (exists b, s = b +++ str1 ">") ->
  i + String.length p + 2 <= String.length s.
Proof.
  intros H [b Hb]. destruct (find_some _ _ _ H) as (u & v & Es & <-).
  destruct v as [|c v].
  - exfalso. rewrite append_nil_r in Es. rewrite Es in Hb. rewrite <- append_assoc in Hb.
    apply ends_unique in Hb. discriminate.
  - rewrite Es, !append_length. cbn. lia.
Qed.

Lemma map_piece_panic f p : map_piece f p = PiecePanic <-> p = PiecePanic.
Proof. destruct p; cbn; split; congruence. Qed.

Lemma pieces_ascii part : no_continuation part -> (exists b, part = b +++ p_part_end) ->
  part_name part <> PiecePanic /\ part_type part <> PiecePanic /\ part_data part <> PiecePanic.
Proof.
  intros Hs [b Hb].
  assert (Hg : exists b, part = b +++ str1 ">") by (exists (b +++ "</pkg:part"); rewrite append_assoc; assumption).
  repeat split.
  - unfold part_name. destruct (find p_name2 part) as [i|] eqn:E.
    + rewrite map_piece_panic. apply piece_ascii; [assumption|].
      apply (find_bound_strict ("pkg:name=" +++ q1)) in E; [|assumption]. change (String.length ("pkg:name=" +++ q1)) with 10 in E. lia.
    + destruct (find p_name1 part) as [i|] eqn:E1; [|discriminate]. apply piece_ascii; [assumption|].
      apply find_bound in E1. exact E1.
  - unfold part_type. destruct (find p_type2 part) as [i|] eqn:E.
    + rewrite map_piece_panic. apply piece_ascii; [assumption|].
      apply (find_bound_strict ("pkg:contentType=" +++ q1)) in E; [|assumption]. change (String.length ("pkg:contentType=" +++ q1)) with 17 in E. lia.
    + destruct (find p_type1 part) as [i|] eqn:E1; [|discriminate]. apply piece_ascii; [assumption|].
      apply find_bound in E1. exact E1.
  - unfold part_data. destruct (find p_xml part) as [i|] eqn:E.
    + apply piece_ascii; [assumption|]. apply find_bound in E. exact E.
    + destruct (find p_bin part) as [i|] eqn:E1; [|discriminate]. rewrite map_piece_panic. apply piece_ascii; [assumption|].
      apply find_bound in E1. exact E1.
Qed.

Lemma extract_loop_ascii fuel s : no_continuation s -> extract_loop fuel s <> ExtractPanic.
Proof.
  revert s. induction fuel as [|fuel IH]; intros s Hs; cbn [extract_loop]; [discriminate|].
  destruct (find p_part s) as [i|] eqn:Ei; [|discriminate].
  destruct (find_some _ _ _ Ei) as (u & v & -> & <-). rewrite drop_bytes_app.
  apply no_continuation_app in Hs as [_ Hs].
  destruct (find p_part_end (p_part +++ v)) as [j|] eqn:Ej.
  - destruct (find_some _ _ _ Ej) as (u' & v' & E & <-). rewrite E in Hs |- *.
    replace (u' +++ p_part_end +++ v') with ((u' +++ p_part_end) +++ v') in * by apply append_assoc.
    replace (String.length u' + 11) with (String.length (u' +++ p_part_end)) by (rewrite append_length; reflexivity).
    rewrite take_bytes_app, drop_bytes_app.
    apply no_continuation_app in Hs as [H1 H2].
    destruct (pieces_ascii (u' +++ p_part_end) H1) as (N1 & N2 & N3); [eauto|].
    specialize (IH v' H2).
    destruct (part_name _); [|assumption|congruence].
    destruct (part_type _); [|assumption|congruence].
    destruct (part_data _); [|assumption|congruence].
    destruct (extract_loop fuel v'); cbn; congruence.
  - cbn [drop_bytes append p_part]. apply IH. unfold p_part in Hs. cbn in Hs.
    unfold no_continuation in *. cbn in *. exact Hs.
Qed.

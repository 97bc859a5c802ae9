(** Property C34. *)
From Verif Require Import Str StrFind Props EscapeModel XmlSpec InstrModel InstrSpec InstrProofs.

(** C34: parsing the printed instruction of a table of contents gives the same
    settings, provided names hold no blanks or quotes; the only setting that may
    change is the identifier of TC fields, and it changes exactly when it is the
    empty name (which is read as no name) or when it is a switch without name and
    no other switch follows (then it is lost). *)
Theorem toc_instruction_survives : forall t, plain_toc t ->
  let t' := parse_toc (print_toc t) in
  other_settings t' = other_settings t /\
  (it_tc_id t = None -> it_tc_id t' = None) /\
  (forall s, it_tc_id t = Some (Some s) -> s <> "" -> it_tc_id t' = Some (Some s)) /\
  (it_tc_id t = Some (Some "") -> it_tc_id t' = Some None) /\
  (it_tc_id t = Some None -> later_switch t -> it_tc_id t' = Some None) /\
  (it_tc_id t = Some None -> ~ later_switch t -> it_tc_id t' = None).
Proof.
  intros t H t'. subst t'. unfold print_toc. rewrite parse_printed by (assumption || now left).
  rewrite <- !(after_later "&quot;" t). repeat split; intros; destruct t as [? ? ? ? ? ? ? ? ? ? tc ? ? ? ? ?]; cbn [it_tc_id set_tc_id] in *; subst; cbn [kept_id]; try reflexivity.
  - destruct (s =s "") eqn:E; [apply String.eqb_eq in E; congruence|reflexivity].
  - now rewrite H1.
  - destruct (opens_switch _); [tauto|reflexivity].
Qed.
Print Assumptions toc_instruction_survives.

(** The same after an XML reader has resolved the entities of the written text. *)
Theorem toc_instruction_survives_reading : forall t, plain_toc t -> markup_free_toc t ->
  exists s, text_meaning None (print_toc t) = Some s /\ parse_toc s = parse_toc (print_toc t).
Proof.
  intros t H1 H2. exists (print_toc_with (str1 ch_quot) t). split; [now apply print_toc_read|].
  unfold print_toc. rewrite !parse_printed by (assumption || now (left + right)).
  do 2 f_equal. pose proof (after_later "&quot;" t) as A. pose proof (after_later (str1 ch_quot) t) as B.
  destruct (opens_switch (w_after "&quot;" t)), (opens_switch (w_after (str1 ch_quot) t)); try reflexivity; exfalso; intuition congruence.
Qed.
Print Assumptions toc_instruction_survives_reading.

Definition sample_toc : instr_toc :=
  set_heading (Some (1, 3)%N) (set_styles [("MyStyle", 2%N); ("Other", 4%N)] (set_hyperlink true
    (set_tc_id (Some None) (set_bookmark (Some "here") (set_hide_web true instr_toc_empty))))).
Example toc_instruction_case :
  plain_toc sample_toc /\ markup_free_toc sample_toc /\ later_switch sample_toc /\
  print_toc sample_toc = "TOC \b &quot;here&quot; \f \o &quot;1-3&quot; \t &quot;MyStyle,2,Other,4&quot; \h \z" /\
  parse_toc (print_toc sample_toc) = sample_toc.
Proof.
  assert (Hm : (1 <= max_u64 /\ 3 <= max_u64 /\ 2 <= max_u64 /\ 4 <= max_u64)%N) by (repeat split; discriminate).
  split. { repeat split; cbn; try tauto; try reflexivity; repeat constructor; cbn; tauto. }
  split. { repeat split; cbn; try tauto; try reflexivity; repeat constructor; cbn; tauto. }
  split; [right; right; left; discriminate|]. split; reflexivity.
Qed.
(** The conditions are needed: names with blanks do not survive, and a switch at
    the very end is lost. *)
Theorem toc_name_with_blank_refuted : exists t, t = set_bookmark (Some "two words") instr_toc_empty /\
  it_bookmark (parse_toc (print_toc t)) = Some "two".
Proof. eexists; split; reflexivity. Qed.
Print Assumptions toc_name_with_blank_refuted.
Theorem toc_style_with_comma_refuted : exists t, t = set_styles [("a,b", 1%N)] instr_toc_empty /\
  it_styles (parse_toc (print_toc t)) = [].
Proof. eexists; split; reflexivity. Qed.
Print Assumptions toc_style_with_comma_refuted.
Theorem toc_last_switch_lost_refuted : exists t, plain_toc t /\ parse_toc (print_toc t) <> t.
Proof. exists (set_tc_id (Some None) instr_toc_empty). split; [repeat split; constructor|discriminate]. Qed.
Print Assumptions toc_last_switch_lost_refuted.

(** PAGEREF: parsing takes the instruction without the field name. *)
Theorem pageref_survives : forall key h p, has_char " " key = false ->
  exists s, print_pageref key h p = "PAGEREF " +++ s /\ parse_pageref s = (key, h, p).
Proof. intros key h p H. eexists. split; [reflexivity|]. now apply pageref_parsed. Qed.
Print Assumptions pageref_survives.
Theorem pageref_with_field_name_refuted : forall key h p, fst (fst (parse_pageref (print_pageref key h p))) = "PAGEREF".
Proof.
  intros key h p. unfold parse_pageref, print_pageref.
  match goal with |- context [split " " ?s] => change s with ("PAGEREF" +++ String " " (key +++ print_flag " \p" p +++ print_flag " \h" h)) end.
  rewrite split_app by reflexivity. destruct (fold_left _ _ _). reflexivity.
Qed.
Print Assumptions pageref_with_field_name_refuted.
Example pageref_case : parse_pageref "_Toc00000001 \h" = ("_Toc00000001", true, false).
Proof. reflexivity. Qed.

(** TC: the switches survive, the text never does (its quotation marks are kept
    and escaped). *)
Theorem tc_switches_survive : forall t, has_char " " (tc_text t) = false ->
  on_some plain_name (tc_item t) -> on_some (fun l => (l <= max_u64)%N) (tc_level t) ->
  exists s, print_tc t = "TC " +++ s /\
    tc_item (parse_tc s) = tc_item t /\ tc_level (parse_tc s) = tc_level t /\ tc_omit (parse_tc s) = tc_omit t /\
    tc_text (parse_tc s) <> tc_text t.
Proof.
  intros t H1 H2 H3. eexists. split; [apply print_tc_words|]. rewrite tc_parsed by assumption. repeat split. apply quoted_text_differs.
Qed.
Print Assumptions tc_switches_survive.
Example tc_case :
  print_tc {| tc_text := "x"; tc_omit := true; tc_level := Some 2%N; tc_item := Some "C" |} = "TC ""x"" \f C \l 2 \n" /\
  parse_tc """x"" \f C \l 2 \n" = {| tc_text := "&quot;x&quot;"; tc_omit := true; tc_level := Some 2%N; tc_item := Some "C" |}.
Proof. split; reflexivity. Qed.

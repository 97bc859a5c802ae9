(** C69: what the files with the properties of a document say.
    [saved l o k c es]: the document made by the calls [l], with the other parts [o], was
    saved as the entries [es].  [created ms], [updated ms], [value_given ms name]: what the
    calls [ms] of [created_at], [updated_at] and [custom_property] gave last.
    [fields] and [entries]: what an XML reader finds (MetaSpec.v). *)
From Coq Require Import NArith List Bool Lia Permutation.
From Verif Require Import Str StrFacts XmlParser XmlProofs PackModel RenderModel WellSpec RestSpec RoundSpec OpenSpec MetaModel MetaSpec MetaProofs.
From Verif Require OpenProperties.
Import ListNotations.
Open Scope list_scope.

(** The core properties: the dates that were set last, and "unknown" for the author,
    whatever else was called. *)
Theorem core_properties_say : forall l o k c es ms,
  saved l o k c es -> o_core o = fst (metas ms) ->
  (forall d, created ms = Some d -> readable (Content d)) -> (forall d, updated ms = Some d -> readable (Content d)) ->
  exists t, In (File "docProps/core.xml" t) es /\
    fields (events_of t) =
      field "dcterms:created" (match created ms with Some d => d | None => "1970-01-01T00:00:00Z"%string end) ++
      field "dc:creator" "unknown" ++ field "cp:lastModifiedBy" "unknown" ++
      field "dcterms:modified" (match updated ms with Some d => d | None => "1970-01-01T00:00:00Z"%string end) ++
      field "cp:revision" "1".
Proof.
  intros l o k c es ms S Ec Hc Hu. eexists. split.
  - apply (fixed_there l o k c es "docProps/core.xml" XCore S); [cbn; tauto|reflexivity].
  - cbn [RenderModel.plain_text]. rewrite Ec, metas_core. unfold with_dates. rewrite core_says.
    + cbn [co_created co_creator co_description co_language co_modified_by co_modified co_revision co_subject co_title core_new or_else].
      rewrite !app_nil_r. reflexivity.
    + unfold in_core. cbn [co_created co_creator co_description co_language co_modified_by co_modified co_revision co_subject co_title core_new content_of if_set app].
      rewrite ?app_nil_r. apply Forall_app. split; [destruct (created ms) as [d|]|destruct (updated ms) as [d|]]; cbn [content_of if_set]; repeat constructor; auto.
Qed.
(** The custom properties: each name once, with the value it was given last, numbered from
    two on.  The order is that of a hash map, about which nothing is said. *)
Lemma numbered_nth es : forall i j, nth_error (numbered i es) j = option_map (fun e => (Some (seen (fst e)), Some (show_N (i + N.of_nat j)), text_seen (snd e))) (nth_error es j).
Proof.
  induction es as [|e es IH]; intros i [|j]; cbn [numbered nth_error option_map]; try reflexivity.
  - now rewrite N.add_0_r.
  - rewrite IH. replace (i + 1 + N.of_nat j)%N with (i + N.of_nat (S j))%N by lia. reflexivity.
Qed.
Lemma numbered_length es : forall i, length (numbered i es) = length es.
Proof. induction es as [|e es IH]; intros i; cbn [numbered length]; auto. Qed.
Theorem custom_properties_say : forall l o k c es ms,
  saved l o k c es -> Permutation (o_custom o) (snd (metas ms)) ->
  (forall n v, value_given ms n = Some v -> readable (Value n) /\ readable (Content v)) ->
  exists t names, In (File "docProps/custom.xml" t) es /\
    NoDup names /\ (forall n, In n names <-> value_given ms n <> None) /\ length (entries (events_of t)) = length names /\
    forall i n, nth_error names i = Some n -> exists v, value_given ms n = Some v /\
      nth_error (entries (events_of t)) i = Some (Some (seen n), Some (show_N (2 + N.of_nat i)), text_seen v).
Proof.
  intros l o k c es ms S P R. destruct (metas_custom ms) as [N I].
  assert (N' : NoDup (map fst (o_custom o))) by (eapply Permutation_NoDup; [apply Permutation_map, Permutation_sym, P|exact N]).
  assert (I' : forall n v, In (n, v) (o_custom o) <-> value_given ms n = Some v).
  { intros n v. rewrite <- I. split; apply Permutation_in; [exact P|now apply Permutation_sym]. }
  assert (Hr : Forall readable (in_custom (o_custom o))).
  { apply Forall_forall. intros p Hp. apply in_flat_map in Hp as ([n v] & Hin & Hp). apply I' in Hin. destruct (R _ _ Hin) as [R1 R2].
    destruct Hp as [<-|[<-|[]]]; assumption. }
  eexists. exists (map fst (o_custom o)). split; [apply (fixed_there l o k c es "docProps/custom.xml" XCustomProps S); [cbn; tauto|reflexivity]|].
  cbn [RenderModel.plain_text]. rewrite (custom_says _ Hr). split; [exact N'|]. split; [|split].
  - intros n. rewrite in_map_iff. split.
    + intros ([m v] & <- & Hin). apply I' in Hin. cbn. congruence.
    + intros H. destruct (value_given ms n) as [v|] eqn:X; [|congruence]. apply I' in X. now exists (n, v).
  - now rewrite numbered_length, map_length.
  - intros i n H. rewrite nth_error_map in H. destruct (nth_error (o_custom o) i) as [[m v]|] eqn:X; [|discriminate]. injection H as <-. exists v.
    split; [apply I'; eapply nth_error_In; eauto|]. rewrite numbered_nth, X. reflexivity.
Qed.
(** So no two have the same number. *)
Corollary custom_numbers_differ : forall l o k c es ms,
  saved l o k c es -> Permutation (o_custom o) (snd (metas ms)) ->
  (forall n v, value_given ms n = Some v -> readable (Value n) /\ readable (Content v)) ->
  exists t, In (File "docProps/custom.xml" t) es /\ NoDup (map (fun e => snd (fst e)) (entries (events_of t))).
Proof.
  intros l o k c es ms S P R. destruct (custom_properties_say _ _ _ _ _ _ S P R) as (t & names & Ht & _ & _ & Hl & Hn). exists t. split; [exact Ht|].
  apply NoDup_nth_error. intros i j Hi. rewrite map_length, Hl in Hi. rewrite !nth_error_map. intros X.
  assert (A : forall i, i < length names -> option_map (fun e => snd (fst e)) (nth_error (entries (events_of t)) i) = Some (Some (show_N (2 + N.of_nat i)))).
  { intros a Ha. destruct (nth_error names a) as [n|] eqn:Y; [|now apply nth_error_None in Y; lia]. destruct (Hn _ _ Y) as (v & _ & ->). reflexivity. }
  rewrite (A i Hi) in X. destruct (nth_error (entries (events_of t)) j) as [e|] eqn:Y; [|discriminate].
  assert (Hj : j < length names) by (rewrite <- Hl; apply nth_error_Some; congruence). pose proof (A j Hj) as Z. rewrite Y in Z. rewrite Z in X.
  assert (W : show_N (2 + N.of_nat i) = show_N (2 + N.of_nat j)) by congruence. apply show_N_inj in W. lia.
Qed.

(** ** A case *)
Definition given : list meta :=
  [Created "2020"; Property "author" "nobody"; Updated "2021"; Property "R&amp;D" " &lt;x&gt; "; Created "2022"; Property "author" "someone"]%string.
Definition o_given : rest := {|
  o_core := fst (metas given); o_custom := rev (snd (metas given)); o_styles := o_styles (OpenProperties.rest_ []); o_settings := o_settings (OpenProperties.rest_ []);
  o_numberings := o_numberings (OpenProperties.rest_ []); o_ext := OpenProperties.e_of OpenProperties.sample; o_web := o_web (OpenProperties.rest_ []) |}.
Example given_saved : saved OpenProperties.sample o_given (OpenProperties.k_of OpenProperties.sample) (OpenProperties.c_of OpenProperties.sample) (OpenProperties.written OpenProperties.sample o_given) /\
  Permutation (o_custom o_given) (snd (metas given)) /\
  (forall d, created given = Some d -> readable (Content d)) /\ (forall d, updated given = Some d -> readable (Content d)) /\
  (forall n v, value_given given n = Some v -> readable (Value n) /\ readable (Content v)).
Proof.
  split; [apply OpenProperties.is_saved; [PackProperties.typed|vm_compute; reflexivity|vm_compute; reflexivity|reflexivity]|].
  split; [apply Permutation_sym, Permutation_rev|].
  split; [intros d H; vm_compute in H; injection H as <-; eexists; vm_compute; reflexivity|].
  split; [intros d H; vm_compute in H; injection H as <-; eexists; vm_compute; reflexivity|].
  intros n v H. assert (I : In (n, v) (snd (metas given))) by now apply metas_custom. vm_compute in I.
  destruct I as [X|[X|[]]]; injection X as <- <-; (split; [split; [reflexivity|]|]; eexists; vm_compute; reflexivity).
Qed.
Definition file_named (name : string) (es : list entry) : option string :=
  match List.find (fun e => PackSpec.entry_name e =s name) es with Some (File _ t) => Some t | _ => None end.
Example given_says : let es := OpenProperties.written OpenProperties.sample o_given in
  option_map (fun t => fields (events_of t)) (file_named "docProps/core.xml" es) = Some
    [(split_qname "dcterms:created", "2022"); (split_qname "dc:creator", "unknown"); (split_qname "cp:lastModifiedBy", "unknown");
     (split_qname "dcterms:modified", "2021"); (split_qname "cp:revision", "1")]%string /\
  option_map (fun t => entries (events_of t)) (file_named "docProps/custom.xml" es) = Some
    [(Some "R&D", Some "2", " <x> "); (Some "author", Some "3", "someone")]%string.
Proof. vm_compute. split; reflexivity. Qed.
(** ** What goes wrong *)
(** A date is not escaped: the file is then not XML. *)
Definition o_odd : rest := {|
  o_core := fst (metas [Created "<now>"%string]); o_custom := []; o_styles := o_styles (OpenProperties.rest_ []); o_settings := o_settings (OpenProperties.rest_ []);
  o_numberings := o_numberings (OpenProperties.rest_ []); o_ext := []; o_web := o_web (OpenProperties.rest_ []) |}.
Theorem unescaped_date_refuted : exists l o k c es t, saved l o k c es /\ o_core o = fst (metas [Created "<now>"%string]) /\
  In (File "docProps/core.xml" t) es /\ In EErr (events_of t).
Proof.
  assert (S : saved [] o_odd (OpenProperties.k_of []) (OpenProperties.c_of []) (OpenProperties.written [] o_odd)).
  { apply OpenProperties.is_saved; [PackProperties.typed|vm_compute; reflexivity|vm_compute; reflexivity|reflexivity]. }
  exists [], o_odd, (OpenProperties.k_of []), (OpenProperties.c_of []), (OpenProperties.written [] o_odd). eexists. split; [exact S|]. split; [reflexivity|].
  split; [apply (fixed_there _ _ _ _ _ "docProps/core.xml" XCore S); [cbn; tauto|reflexivity]|].
  match goal with |- In _ ?l => let v := eval vm_compute in l in change l with v end. cbn [In]. intuition.
Qed.

Definition all_proved := conj core_properties_say (conj custom_properties_say (conj custom_numbers_differ unescaped_date_refuted)).
Print Assumptions all_proved.

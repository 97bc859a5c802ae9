From Coq Require Import NArith List Bool Lia Permutation.
From Verif Require Import Str StrFacts XmlParser XmlProofs XmlSpec ReadBase ReadProps DepsModel DepsProofs PackModel RenderModel WellSpec RestSpec WellProofs WellRest RoundSpec RoundNums
  OpenSpec OpenText OpenParts OpenFiles RenderModel WholeProofs MetaModel MetaSpec.
From Verif Require BuildModel.
Import BuildModel (xml, E, L, opt, leaf, xcalls, part_calls).
Import ListNotations.
Open Scope list_scope.

Lemma last_such_snoc A B (f : A -> option B) l x : last_such f (l ++ [x]) = match f x with Some y => Some y | None => last_such f l end.
Proof. induction l as [|y l IH]; cbn [app last_such]; [now destruct (f x)|]. rewrite IH. now destruct (f x). Qed.
Lemma metas_snoc l x : metas (l ++ [x]) = meta_call (metas l) x.
Proof. unfold metas. now rewrite fold_left_app. Qed.
Lemma metas_core l : fst (metas l) = with_dates (created l) (updated l) core_new.
Proof.
  induction l as [|x l IH] using rev_ind; [reflexivity|]. rewrite metas_snoc. unfold created, updated in *. rewrite !last_such_snoc.
  destruct x; cbn [meta_call fst]; rewrite IH; reflexivity.
Qed.
Lemma metas_custom l : NoDup (map fst (snd (metas l))) /\ forall n v, In (n, v) (snd (metas l)) <-> value_given l n = Some v.
Proof.
  induction l as [|x l IH] using rev_ind; [split; [constructor|]; intros n v; split; [contradiction|discriminate]|].
  destruct IH as [N I]. rewrite metas_snoc. unfold value_given. setoid_rewrite last_such_snoc. fold (value_given l).
  destruct x as [d|d|n0 v0]; cbn [meta_call snd]; [split; auto..|]. split; [now apply put_link_nodup|].
  intros n v. rewrite put_link_in by exact N. rewrite I. fold (value_given l n). destruct (String.eqb_spec n0 n) as [->|D].
  - split; [intros [[_ ->]|[H _]]; [reflexivity|congruence]|]. intros H. injection H as ->. now left.
  - split; [intros [[-> _]|[_ H]]; [congruence|exact H]|]. intros H. right. split; [congruence|exact H].
Qed.

(** ** The files *)
Lemma fixed_there l o k c es n f : saved l o k c es -> In (n, f) fixed_files -> b_noisy k o (PFixed f) = None ->
  In (File n (RenderModel.plain_text k o (PFixed f))) es.
Proof.
  intros (_ & _ & s & s' & Hpack) H Hb.
  assert (Hin : In (SXml n (PFixed f)) (stream_steps k c)).
  { unfold stream_steps. apply in_app_iff. right. apply in_app_iff. left. apply in_map_iff. now exists (n, f). }
  destruct (step_entries _ _ _ _ _ _ (ran _ _ _ _ _ _ Hpack)) as [A _].
  destruct (A _ _ Hin) as (s1 & s2 & t & Ht & Hf). now rewrite (rendered_plain _ _ _ _ _ _ Ht Hb) in Hf.
Qed.
Lemma fields_end l : Forall (eq EDocEnd) l -> fields l = [].
Proof. induction 1 as [|e l <- _ IH]; [reflexivity|]. cbn [fields]. now rewrite IH. Qed.
Lemma entries_end l : Forall (eq EDocEnd) l -> entries l = [].
Proof. induction 1 as [|e l <- _ IH]; [reflexivity|]. cbn [entries]. now rewrite IH. Qed.
Lemma fields_text n a v r : fields (events_of_xml (L n a [v]) ++ r) = field n v ++ fields r.
Proof.
  cbn [events_of_xml concat_str]. rewrite append_nil_r, <- app_comm_cons, <- app_assoc. unfold text_events, field.
  destruct v as [|ch v]; [reflexivity|]. destruct (all_char is_ws (text_seen (String ch v))); reflexivity.
Qed.
Lemma fields_texts l r : Forall (fun x => exists n a v, x = L n a [v]) l ->
  fields (flat_map events_of_xml l ++ r) = flat_map (fun x => match x with L n _ [v] => field n v | _ => [] end) l ++ fields r.
Proof. induction 1 as [|x l (n & a & v & ->) _ IH]; [reflexivity|]. cbn [flat_map]. now rewrite <- !app_assoc, fields_text, IH. Qed.
Lemma fields_root n a n' a' ts ch l r : l = L n' a' ts :: ch ->
  fields (events_of_xml (E n a l) ++ r) = fields (flat_map events_of_xml l ++ EEnd (split_qname n) :: r).
Proof. intros ->. cbn [events_of_xml]. rewrite <- app_comm_cons, <- app_assoc. reflexivity. Qed.
Lemma core_says c : Forall readable (in_core c) -> fields (events_of (text_of (part_calls (x_core c)))) =
  field "dcterms:created" (or_else "1970-01-01T00:00:00Z"%string (co_created c)) ++ field "dc:creator" (or_else "unknown"%string (co_creator c)) ++
  field "cp:lastModifiedBy" (or_else "unknown"%string (co_modified_by c)) ++ field "dcterms:modified" (or_else "1970-01-01T00:00:00Z"%string (co_modified c)) ++
  field "cp:revision" (show_N (or_else 1%N (co_revision c))) ++
  match co_description c with Some s => field "dc:description" s | None => [] end ++ match co_language c with Some s => field "dc:language" s | None => [] end ++
  match co_subject c with Some s => field "dc:subject" s | None => [] end ++ match co_title c with Some s => field "dc:title" s | None => [] end.
Proof.
  intros H. apply core_well in H. destruct (events_text [BuildModel.decl] _ declaring_part H) as (l & Hl & Hd).
  change (part_calls (x_core c)) with ([BuildModel.decl] ++ xcalls (x_core c)). rewrite Hl. clear Hl H.
  unfold x_core. erewrite fields_root by reflexivity. rewrite fields_texts.
  2:{ rewrite !Forall_app. repeat split; [repeat constructor; now do 3 eexists|..];
      match goal with |- Forall _ (opt _ ?o) => destruct o; cbn [opt]; repeat constructor; now do 3 eexists end. }
  cbn [fields]. rewrite (fields_end l Hd), app_nil_r. rewrite !flat_map_app. cbn [flat_map]. rewrite <- !app_assoc, app_nil_l.
  repeat (apply f_equal2; [reflexivity|]).
  destruct (co_description c), (co_language c), (co_subject c), (co_title c); cbn [opt flat_map app]; unfold x_text; rewrite ?app_nil_r; reflexivity.
Qed.
Fixpoint numbered (i : N) (l : list (string * string)) : list (option string * option string * string) :=
  match l with [] => [] | e :: r => (Some (seen (fst e)), Some (show_N i), text_seen (snd e)) :: numbered (i + 1) r end.
Lemma entries_props es : forall i r, entries (flat_map events_of_xml (x_custom_from i es) ++ r) = numbered i es ++ entries r.
Proof.
  induction es as [|[n v] es IH]; intros i r; [reflexivity|]. cbn [x_custom_from numbered fst snd]. cbn [flat_map]. rewrite <- app_assoc.
  unfold x_text. cbn [events_of_xml concat_str flat_map]. rewrite append_nil_r, app_nil_r.
  assert (A : attr_get "name" (meant [("fmtid", "{D5CDD505-2E9C-101B-9397-08002B2CF9AE}"); ("pid", show_N i); ("name", n)]%string) = Some (seen n)).
  { cbn [meant map fst snd attr_get]. generalize (seen n), (seen (show_N i)). reflexivity. }
  assert (B : attr_get "pid" (meant [("fmtid", "{D5CDD505-2E9C-101B-9397-08002B2CF9AE}"); ("pid", show_N i); ("name", n)]%string) = Some (show_N i)).
  { rewrite <- (seen_N i) at 2. cbn [meant map fst snd attr_get]. generalize (seen n), (seen (show_N i)). reflexivity. }
  revert A B. generalize (meant [("fmtid", "{D5CDD505-2E9C-101B-9397-08002B2CF9AE}"); ("pid", show_N i); ("name", n)]%string). intros atts A B.
  assert (T : text_events v = [] /\ text_seen v = ""%string \/ text_events v = [EWs (text_seen v)] \/ text_events v = [EChars (text_seen v)]).
  { unfold text_events. destruct v as [|ch v]; [now left|]. right. destruct (all_char _ _); auto. }
  assert (P : (q_local (split_qname "property") =s "property")%string = true) by reflexivity.
  destruct T as [[T1 T2]|[T|T]]; rewrite ?T1, ?T; cbn [app entries]; rewrite P, A, B; cbn [app]; rewrite ?T2; f_equal; apply IH.
Qed.
Lemma custom_says es : Forall readable (in_custom es) -> entries (events_of (text_of (part_calls (x_custom es)))) = numbered 2 es.
Proof.
  intros H. apply custom_well in H. destruct (events_text [BuildModel.decl] _ declaring_part H) as (l & Hl & Hd).
  change (part_calls (x_custom es)) with ([BuildModel.decl] ++ xcalls (x_custom es)). rewrite Hl. clear Hl H.
  unfold x_custom. cbn [events_of_xml]. rewrite <- app_comm_cons, <- app_assoc. generalize (meant [("xmlns", "http://schemas.openxmlformats.org/officeDocument/2006/custom-properties"); vt]%string). intros atts.
  transitivity (entries (flat_map events_of_xml (x_custom_from 2 es) ++ [EEnd (split_qname "Properties")] ++ l)).
  - generalize (flat_map events_of_xml (x_custom_from 2 es) ++ [EEnd (split_qname "Properties")] ++ l). intros r. cbn [entries].
    change (q_local (split_qname "Properties") =s "property")%string with false. now destruct r as [|[] [|]].
  - rewrite entries_props. cbn [app entries]. now rewrite (entries_end l Hd), app_nil_r.
Qed.

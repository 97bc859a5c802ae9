(** Every written part has its content type. *)
From Coq Require Import NArith List Bool Lia.
From Verif Require Import Str StrFacts Props Ast TreeModel PackModel PackSpec PackProofs PackRelsProofs.
Import ListNotations.

Lemma extension_app a b e : extension b = Some e -> extension (a +++ b) = Some e.
Proof. intros H. induction a as [|c a IH]; [exact H|]. cbn [append extension]. now rewrite IH. Qed.

Lemma part_steps_in kind s : forall parts i rels, In s (part_steps kind i parts rels) ->
  (exists j n, nth_error parts j = Some n /\ s = SXml (nth_name ("word/" +++ kind) (i + j) ".xml") (PPart n)) \/
  (exists j l, s = SXml (nth_name ("word/_rels/" +++ kind) j ".xml.rels") (PPartRels l)).
Proof.
  induction parts as [|n parts IH]; intros i rels H; [destruct H|]. cbn [part_steps] in H.
  destruct H as [<-|H]; [left; exists 0, n; now rewrite Nat.add_0_r|].
  assert (Step : forall r, In s (part_steps kind (S i) parts r) -> (exists j m, nth_error (n :: parts) j = Some m /\ s = SXml (nth_name ("word/" +++ kind) (i + j) ".xml") (PPart m)) \/
     (exists j l, s = SXml (nth_name ("word/_rels/" +++ kind) j ".xml.rels") (PPartRels l))).
  { intros r K. apply IH in K. destruct K as [(j & m & A & ->)|K]; [left|now right]. exists (S j), m. rewrite Nat.add_succ_r. auto. }
  destruct rels as [|[j l] rels]; [eapply Step; eassumption|]. destruct (Nat.eqb j i).
  - destruct H as [<-|H]; [right; eauto|eapply Step; eassumption].
  - eapply Step; eassumption.
Qed.
Lemma web_steps_in s : forall l i, In s (web_steps i l) -> exists j e, j < length l /\ s = SXml (nth_name "word/webextensions/webextension" (i + j) ".xml") (PWeb e).
Proof.
  induction l as [|e l IH]; intros i H; [destruct H|]. destruct H as [<-|H]; [exists 0, e; rewrite Nat.add_0_r; cbn; split; [lia|reflexivity]|].
  apply IH in H. destruct H as (j & e' & A & ->). exists (S j), e'. rewrite Nat.add_succ_r. cbn; split; [lia|reflexivity].
Qed.
Lemma item_steps_in s : forall l i, In s (item_steps i l) -> exists j id xml, nth_error l j = Some (id, xml) /\
  (s = SXml (nth_name "customXml/_rels/item" (i + j) ".xml.rels") (PItemRels (i + j)) \/ s = SXml (nth_name "customXml/item" (i + j) ".xml") (PItem xml) \/
   s = SXml (nth_name "customXml/itemProps" (i + j) ".xml") (PItemProps id)).
Proof.
  induction l as [|[id xml] l IH]; intros i H; [destruct H|]. cbn [item_steps] in H.
  destruct H as [<-|[<-|[<-|H]]]; [exists 0, id, xml; rewrite Nat.add_0_r; cbn; auto ..|].
  apply IH in H. destruct H as (j & id' & xml' & A & K). exists (S j), id', xml'. rewrite Nat.add_succ_r. auto.
Qed.

Section Prepared.
  Variables (l : list api) (d : docx) (comments : bool) (links : list (string * string * string)) (c : collected).
  Hypothesis keeps : keeps_document l.
  Hypothesis same_headers : length (headers d) = length (headers (k_doc (calls l))).
  Hypothesis same_footers : length (footers d) = length (footers (k_doc (calls l))).
  Let k := prepared (calls l) d comments links c.

  Lemma lookup key : key <> "/word/footnotes.xml" -> assoc key (t_map (k_types k)) = assoc key (t_map (k_types (calls l))).
  Proof.
    intros H. unfold k, prepared. cbn [set_types k_types set_doc]. destruct (c_has_footnotes c); [|reflexivity].
    cbn [add_footnotes t_put t_map]. rewrite assoc_insert. destruct (String.eqb_spec "/word/footnotes.xml" key); [congruence|reflexivity].
  Qed.
  Lemma lookup_notes : assoc "/word/footnotes.xml" (t_map (k_types k)) = if c_has_footnotes c then Some (ct_wml "footnotes") else None.
  Proof.
    unfold k, prepared. cbn [set_types k_types set_doc]. destruct (c_has_footnotes c).
    - cbn [add_footnotes t_put t_map]. rewrite assoc_insert. reflexivity.
    - apply (j_notes _ _ _ _ (p_types _ _ (calls_pinv l))).
  Qed.
  Lemma lookup_plain key : tag key = 0 -> assoc key (t_map (k_types k)) = assoc key default_types.
  Proof. intros H. rewrite lookup; [apply (j_default _ _ _ _ (p_types _ _ (calls_pinv l)) _ H)|]. intros ->. discriminate H. Qed.
  Lemma type_by_extension name e ty : tag ("/" +++ name) = 0 -> assoc ("/" +++ name) default_types = None ->
    extension name = Some e -> assoc e default_extensions = Some ty -> type_in (k_types k) name = Some ty.
  Proof. intros T N E D. unfold type_in. now rewrite lookup_plain, N, E. Qed.

  Lemma header_type j ty : j < length (headers d) -> ty = ct_wml "header" -> type_in (k_types k) (nth_name "word/header" j ".xml") = Some ty.
  Proof.
    intros H ->. unfold type_in, nth_name. rewrite lookup by discriminate.
    destruct (calls_pinv l) as [_ T C]. destruct (C keeps) as (A & _ & B & _). unfold nheads in B.
    change ("/" +++ "word/header" +++ show_N (N.of_nat j + 1) +++ ".xml") with (header_key (N.of_nat j + 1)).
    rewrite (j_header _ _ _ _ T) by lia. reflexivity.
  Qed.
  Lemma footer_type j ty : j < length (footers d) -> ty = ct_wml "footer" -> type_in (k_types k) (nth_name "word/footer" j ".xml") = Some ty.
  Proof.
    intros H ->. unfold type_in, nth_name. rewrite lookup by discriminate.
    destruct (calls_pinv l) as [_ T C]. destruct (C keeps) as (_ & A & _ & B). unfold nfoots in B.
    change ("/" +++ "word/footer" +++ show_N (N.of_nat j + 1) +++ ".xml") with (footer_key (N.of_nat j + 1)).
    rewrite (j_footer _ _ _ _ T) by lia. reflexivity.
  Qed.
  Lemma props_type j : type_in (k_types k) (nth_name "customXml/itemProps" j ".xml") =
    Some (if existsb (Nat.eqb j) (customs 0 l) then t_props else "application/xml").
  Proof.
    unfold type_in, nth_name. rewrite lookup by discriminate.
    change ("/" +++ "customXml/itemProps" +++ show_N (N.of_nat j + 1) +++ ".xml") with (props_key (N.of_nat j + 1)).
    rewrite (j_props _ _ _ _ (p_types _ _ (calls_pinv l))). destruct (existsb _ _); [reflexivity|].
    rewrite (extension_app _ _ "xml") by now apply extension_app. reflexivity.
  Qed.

  Theorem types_right s ty : In s (stream_steps k c) -> right_type s = Some ty -> is_item_props s = false ->
    (is_footnotes s = true -> c_has_footnotes c = true) -> type_in (k_types k) (step_name s) = Some ty.
  Proof.
    intros H R P F. destruct (calls_pinv l) as [W T C].
    unfold stream_steps in H. rewrite !in_app_iff in H.
    destruct H as [H|[H|[H|[H|[H|[H|[H|H]]]]]]].
    - apply in_map_iff in H. destruct H as (x & <- & _). discriminate R.
    - apply in_map_iff in H. destruct H as ([n f] & <- & H). cbn [fst snd step_name] in *.
      unfold fixed_files in H. cbn [In] in H.
      repeat (destruct H as [E|H]; [injection E as <- <-; cbn [right_type] in R;
        first [discriminate R|injection R as <-]; unfold type_in; try (rewrite lookup_plain by reflexivity; reflexivity)|]); [|destruct H].
      cbn [append]. rewrite lookup_notes. cbn in F. rewrite F by reflexivity. reflexivity.
    - apply part_steps_in in H. destruct H as [(j & n & Nn & ->)|(j & x & ->)].
      + assert (Hn : In n (headers (k_doc k))) by (eapply nth_error_In; eassumption).
        assert (Lj : j < length (headers d)) by (apply nth_error_Some; change (headers d) with (headers (k_doc k)); congruence).
        assert (Hp : is_header n = true).
        { unfold headers, parts_where in Hn. apply in_app_iff in Hn. destruct Hn as [Hn|Hn]; [now apply filter_In in Hn|].
          apply in_flat_map in Hn. destruct Hn as (m & _ & Hn). destruct m; try destruct Hn. now apply filter_In in Hn. }
        destruct n; try discriminate Hp. cbn [right_type] in R. apply header_type; [exact Lj|].
        injection R as <-. match goal with x : slot |- _ => destruct x end; try discriminate Hp; reflexivity.
      + cbn [right_type] in R. injection R as <-. eapply type_by_extension; try reflexivity.
        unfold nth_name. apply extension_app, extension_app; reflexivity. all: try reflexivity.
    - apply part_steps_in in H. destruct H as [(j & n & Nn & ->)|(j & x & ->)].
      + assert (Hn : In n (footers (k_doc k))) by (eapply nth_error_In; eassumption).
        assert (Lj : j < length (footers d)) by (apply nth_error_Some; change (footers d) with (footers (k_doc k)); congruence).
        assert (Hp : is_footer n = true).
        { unfold footers, parts_where in Hn. apply in_app_iff in Hn. destruct Hn as [Hn|Hn]; [now apply filter_In in Hn|].
          apply in_flat_map in Hn. destruct Hn as (m & _ & Hn). destruct m; try destruct Hn. now apply filter_In in Hn. }
        destruct n; try discriminate Hp. cbn [right_type] in R. apply footer_type; [exact Lj|].
        injection R as <-. match goal with x : slot |- _ => destruct x end; try discriminate Hp; reflexivity.
      + cbn [right_type] in R. injection R as <-. eapply type_by_extension; try reflexivity.
        unfold nth_name. apply extension_app, extension_app; reflexivity. all: try reflexivity.
    - destruct (c_media c) as [|m0 ms]; [destruct H|]. cbn [unless_nil] in H. destruct H as [<-|H]; [discriminate R|].
      apply in_map_iff in H. destruct H as (m & <- & _). cbn [right_type step_name] in *. injection R as <-.
      eapply type_by_extension; try reflexivity. unfold media_name. apply extension_app, extension_app; reflexivity. all: try reflexivity.
    - change (k_taskpanes k) with (k_taskpanes (calls l)) in H. destruct (k_taskpanes (calls l)) eqn:Tp; [|destruct H].
      destruct H as [<-|[<-|[<-|[<-|H]]]]; cbn [right_type step_name] in *; try discriminate R; try (injection R as <-).
      + unfold type_in. rewrite lookup by discriminate. cbn [append]. rewrite (j_panes _ _ _ _ T eq_refl). reflexivity.
      + eapply type_by_extension; reflexivity.
      + apply web_steps_in in H. destruct H as (j & e & Lj & ->). cbn [right_type step_name] in *. injection R as <-.
        unfold type_in, nth_name. rewrite lookup by discriminate.
        change ("/" +++ "word/webextensions/webextension" +++ show_N (N.of_nat (0 + j) + 1) +++ ".xml") with (web_key (N.of_nat j + 1)).
        rewrite (j_web _ _ _ _ T); [reflexivity|]. change (k_web k) with (k_web (calls l)) in Lj. lia.
    - destruct (k_custom k); [destruct H|]. destruct H as [<-|[]]. discriminate R.
    - apply item_steps_in in H. destruct H as (j & id & xml & _ & [-> | [-> | ->]]); cbn [right_type step_name is_item_props] in *; try discriminate P; injection R as <-.
      + eapply type_by_extension; try reflexivity. unfold nth_name. apply extension_app, extension_app; reflexivity. all: try reflexivity.
      + eapply type_by_extension with (e := "xml"); try reflexivity.
        * unfold nth_name. cbn. pose proof (show_N_nonempty (N.of_nat j + 1)) as Ne. pose proof (show_N_digits (N.of_nat j + 1)) as Hd.
          destruct (show_N (N.of_nat j + 1)) as [|d0 r]; [contradiction|]. cbn in *.
          match goal with |- (if ?b then _ else _) = _ => destruct b eqn:E end; [|reflexivity].
          apply starts_with_spec in E. destruct E as (q & E). cbn in E. injection E as -> _. discriminate Hd.
        * unfold nth_name. apply extension_app, extension_app; reflexivity. all: try reflexivity.
  Qed.

  Theorem props_right i : type_in (k_types k) (nth_name "customXml/itemProps" i ".xml") = Some t_props <->
    exists l1 id xml l2, l = l1 ++ ACustom id xml :: l2 /\ webs l1 = i.
  Proof.
    rewrite props_type, <- customs_in. destruct (existsb (Nat.eqb i) (customs 0 l)) eqn:E.
    - apply existsb_exists in E. destruct E as (x & Hx & Ex). apply Nat.eqb_eq in Ex. subst x. tauto.
    - split; [discriminate|]. intros H. assert (X : existsb (Nat.eqb i) (customs 0 l) = true); [|congruence].
      apply existsb_exists. exists i. now rewrite Nat.eqb_refl.
  Qed.
  Theorem notes_right : type_in (k_types k) "word/footnotes.xml" = Some (ct_wml "footnotes") <-> c_has_footnotes c = true.
  Proof.
    unfold type_in. cbn [append]. rewrite lookup_notes. destruct (c_has_footnotes c); [tauto|]. split; discriminate.
  Qed.
End Prepared.

(** What a program finds in the file of a web extension. *)
From Coq Require Import NArith List Bool Lia.
From Verif Require Import Str StrFacts EscapeModel EscapeSpec EscapeProofs XmlTree XmlTreeProofs XmlParser XmlProofs XmlSpec ReadBase DepsModel PackModel RenderModel WellSpec RestSpec WellProofs WellRest RoundSpec
  OpenSpec OpenText OpenParts OpenFiles WholeProofs MetaProofs WebSpec.
From Verif Require BuildModel.
Import BuildModel (xml, E, L, leaf, xcalls, part_calls).
Import ListNotations.
Open Scope list_scope.

(** ** The literal *)
Lemma prefix_quote r : String.prefix q_ent (q_ent +++ r) = true.
Proof. unfold q_ent. cbn. now destruct r. Qed.
Lemma backslash_quote r : backslash_from 0 (q_ent +++ r) = String "092" q_ent +++ backslash_from 0 r.
Proof. pose proof (prefix_quote r) as P. unfold q_ent at 2 in P. unfold q_ent at 1. cbn [String.append backslash_from] in *. rewrite P. reflexivity. Qed.
Definition quoted_char (c : ascii) : string := if c =c ch_quot then String "092" q_ent else escape_char c.
Lemma backslash_cons c r : backslash_quotes (escape (String c r)) = quoted_char c +++ backslash_quotes (escape r).
Proof.
  unfold backslash_quotes, quoted_char. cbn [escape]. unfold escape_char.
  destruct (Ascii.eqb_spec c ch_amp) as [->|H1]; [reflexivity|].
  destruct (Ascii.eqb_spec c ch_lt) as [->|H2]; [reflexivity|].
  destruct (Ascii.eqb_spec c ch_gt) as [->|H3]; [reflexivity|].
  destruct (Ascii.eqb_spec c ch_quot) as [->|H4]; [apply backslash_quote|].
  destruct (Ascii.eqb_spec c ch_apos) as [->|H5]; [reflexivity|].
  destruct (Ascii.eqb_spec c ch_nl) as [->|H6]; [reflexivity|].
  destruct (Ascii.eqb_spec c ch_cr) as [->|H7]; [reflexivity|].
  unfold str1. cbn [String.append backslash_from]. unfold q_ent at 1. cbn [String.prefix].
  destruct (ascii_dec "&" c) as [<-|D]; [contradiction H1; reflexivity|]. reflexivity.
Qed.
Lemma decode_quoted s : decode_attr None (backslash_quotes (escape s) +++ q_ent) = Some (quote_marks (tabs_as_blanks (without_cr s)) +++ str1 ch_quot).
Proof.
  induction s as [|c s IH]; [reflexivity|].
  rewrite backslash_cons, append_assoc. unfold without_cr in *. cbn [filter_str]. unfold not_cr at 1. unfold quoted_char, escape_char.
  destruct (Ascii.eqb_spec c ch_amp) as [->|H1]; [cbn; now rewrite IH|].
  destruct (Ascii.eqb_spec c ch_lt) as [->|H2]; [cbn; now rewrite IH|].
  destruct (Ascii.eqb_spec c ch_gt) as [->|H3]; [cbn; now rewrite IH|].
  destruct (Ascii.eqb_spec c ch_quot) as [->|H4]; [cbn; now rewrite IH|].
  destruct (Ascii.eqb_spec c ch_apos) as [->|H5]; [cbn; now rewrite IH|].
  destruct (Ascii.eqb_spec c ch_nl) as [->|H6]; [rewrite decode_attr_nl, IH; reflexivity|].
  destruct (Ascii.eqb_spec c ch_cr) as [->|H7]; [cbn; now rewrite IH|].
  apply Ascii.eqb_neq in H1, H6, H7.
  unfold str1. cbn [String.append decode_attr negb tabs_as_blanks]. rewrite H1, H7. unfold is_ws. rewrite H6, H7, !orb_false_r.
  rewrite IH. destruct (Ascii.eqb_spec c ch_tab) as [->|Ht]; [reflexivity|].
  destruct (Ascii.eqb_spec c ch_sp) as [->|Hs]; [reflexivity|]. cbn [option_map orb quote_marks]. apply Ascii.eqb_neq in H4. rewrite H4. reflexivity.
Qed.
Lemma decode_literal s : decode_attr None (q_ent +++ backslash_quotes (escape s) +++ q_ent) = Some (literal (tabs_as_blanks (without_cr s))).
Proof. unfold q_ent at 1. cbn [String.append decode_attr]. cbn. fold q_ent. rewrite decode_quoted. reflexivity. Qed.
Lemma no_quote s : has_char ch_quot (backslash_quotes (escape s)) = false.
Proof.
  induction s as [|c s IH]; [reflexivity|]. rewrite backslash_cons, has_char_app, IH, orb_false_r. unfold quoted_char. destruct (c =c ch_quot) eqn:Q; [reflexivity|].
  pose proof (escape_no_markup (str1 c) ch_quot eq_refl) as M. unfold str1 in M. cbn [escape] in M. now rewrite append_nil_r in M.
Qed.
Lemma readable_literal s : readable (Value (q_ent +++ backslash_quotes (escape s) +++ q_ent)).
Proof. split; [rewrite !has_char_app, no_quote; reflexivity|]. rewrite decode_literal. eauto. Qed.

(** ** Reading it as JSON *)
Lemma json_escape_plain d x : json_escape d = Some x -> control d = false.
Proof.
  unfold json_escape. intros H.
  repeat (let X := fresh in match type of H with (if ?d =c ?e then _ else _) = _ => destruct (Ascii.eqb_spec d e) as [X|X]; [rewrite X; reflexivity|]; clear X end). discriminate H.
Qed.
Lemma json_all n : forall w, String.length w < n -> forall t, json_rest (quote_marks w +++ str1 ch_quot) = Some t ->
  any_char control w = false /\ (has_char "092" w = false -> t = w) /\ (has_char "092" w = true -> String.length t < String.length w) /\ String.length t <= String.length w.
Proof.
  induction n as [|n IH]; intros w Hl t; [lia|]. destruct w as [|c w]; [cbn; intros H; injection H as <-; cbn; repeat split; auto; discriminate|]. cbn [String.length] in Hl. cbn [quote_marks any_char has_char].
  destruct (Ascii.eqb_spec c ch_quot) as [->|Q].
  - cbn [String.append json_rest]. change ("092" =c ch_quot) with false. change (control "092") with false. change ("092" =c "092") with true. change (json_escape ch_quot) with (Some ch_quot).
    change (control ch_quot) with false. change (ch_quot =c "092") with false. cbn [orb].
    destruct (json_rest (quote_marks w +++ str1 ch_quot)) as [t'|] eqn:R; [|discriminate]. intros H. injection H as <-. apply IH in R; [|lia]. destruct R as (A & B & C & D).
    cbn [String.length]. split; [exact A|]. split; [intros X; f_equal; auto|]. split; [intros X; specialize (C X); lia|lia].
  - cbn [String.append json_rest]. apply Ascii.eqb_neq in Q. rewrite Q. destruct (control c) eqn:Ct; [discriminate|]. destruct (Ascii.eqb_spec c "092") as [->|Qb].
    + cbn [orb]. destruct w as [|d w]; [discriminate|]. cbn [quote_marks any_char String.length] in *. destruct (Ascii.eqb_spec d ch_quot) as [->|Qd].
      * cbn [String.append]. change (json_escape "092") with (Some "092"%char). cbn [json_rest]. change (ch_quot =c ch_quot) with true. destruct (quote_marks w); discriminate.
      * cbn [String.append]. destruct (json_escape d) as [x|] eqn:Ex; [|discriminate]. destruct (json_rest (quote_marks w +++ str1 ch_quot)) as [t'|] eqn:R; [|discriminate].
        intros H. injection H as <-. apply IH in R; [|lia]. destruct R as (A & B & C & D). rewrite (json_escape_plain _ _ Ex). cbn [orb String.length]. split; [exact A|]. split; [discriminate|]. split; lia.
    + destruct (json_rest (quote_marks w +++ str1 ch_quot)) as [t'|] eqn:R; [|discriminate]. intros H. injection H as <-. apply IH in R; [|lia]. destruct R as (A & B & C & D).
      cbn [orb String.length]. split; [exact A|]. split; [intros X; f_equal; auto|]. split; [intros X; specialize (C X); lia|lia].
Qed.
Lemma json_plain w : any_char control w = false -> has_char "092" w = false -> json_rest (quote_marks w +++ str1 ch_quot) = Some w.
Proof.
  induction w as [|c w IH]; [reflexivity|]. cbn [any_char has_char]. intros H1 H2. apply orb_false_iff in H1. destruct H1 as [Hc H1]. apply orb_false_iff in H2. destruct H2 as [Hb H2]. specialize (IH H1 H2).
  cbn [quote_marks]. destruct (Ascii.eqb_spec c ch_quot) as [->|Q].
  - cbn [String.append json_rest]. change ("092" =c ch_quot) with false. change (control "092") with false. change ("092" =c "092") with true. change (json_escape ch_quot) with (Some ch_quot). cbn [orb]. now rewrite IH.
  - cbn [String.append json_rest]. apply Ascii.eqb_neq in Q. now rewrite Q, Hc, Hb, IH.
Qed.
Lemma normal_id v : any_char control v = false -> tabs_as_blanks (without_cr v) = v.
Proof.
  induction v as [|c v IH]; [reflexivity|]. cbn [any_char]. intros H. apply orb_false_iff in H. destruct H as [Hc H]. unfold without_cr in *. cbn [filter_str]. unfold not_cr at 1.
  destruct (Ascii.eqb_spec c ch_cr) as [->|D1]; [discriminate Hc|]. cbn [negb tabs_as_blanks]. destruct (Ascii.eqb_spec c ch_tab) as [->|D2]; [discriminate Hc|]. now rewrite IH.
Qed.
Lemma normal_shorter v : String.length (tabs_as_blanks (without_cr v)) <= String.length v.
Proof.
  induction v as [|c v IH]; [reflexivity|]. unfold without_cr in *. cbn [filter_str]. destruct (not_cr c); cbn [tabs_as_blanks String.length]; lia.
Qed.
Lemma normal_backslash v : has_char "092" (tabs_as_blanks (without_cr v)) = has_char "092" v.
Proof.
  induction v as [|c v IH]; [reflexivity|]. unfold without_cr in *. cbn [filter_str has_char]. unfold not_cr at 1. destruct (Ascii.eqb_spec c ch_cr) as [->|D1]; [exact IH|].
  cbn [negb tabs_as_blanks has_char]. rewrite IH. f_equal. destruct (Ascii.eqb_spec c ch_tab) as [->|D2]; reflexivity.
Qed.
Lemma json_iff v : json_string (literal (tabs_as_blanks (without_cr v))) = Some v <-> any_char control v = false /\ has_char "092" v = false.
Proof.
  change (json_string (literal (tabs_as_blanks (without_cr v)))) with (json_rest (quote_marks (tabs_as_blanks (without_cr v)) +++ str1 ch_quot)). split.
  - intros H. destruct (json_all (S (String.length (tabs_as_blanks (without_cr v)))) _ (PeanoNat.Nat.lt_succ_diag_r _) _ H) as (A & B & C & D). rewrite normal_backslash in B, C.
    pose proof (normal_shorter v) as L. destruct (has_char "092" v) eqn:Hb; [specialize (C eq_refl); lia|]. split; [|reflexivity]. rewrite (B eq_refl). exact A.
  - intros [H1 H2]. rewrite (normal_id v H1). now apply json_plain.
Qed.

(** ** The file *)
Lemma made_snoc i r v s st ps p : made i r v s st (ps ++ [p]) = web_property (fst p) (snd p) (made i r v s st ps).
Proof. unfold made. now rewrite fold_left_app. Qed.
Lemma made_is i r v s st ps : made i r v s st ps =
  {| we_id := i; we_version := v; we_store := s; we_store_type := st; we_reference := r; we_properties := map (fun p => (fst p, q_ent +++ backslash_quotes (escape (snd p)) +++ q_ent)) ps |}.
Proof. induction ps as [|p ps IH] using rev_ind; [reflexivity|]. rewrite made_snoc, IH, map_app. reflexivity. Qed.
Lemma made_readable i r v s st ps : Forall readable (map Value ([i; r; v; s; st] ++ map fst ps)) -> Forall readable (in_web (made i r v s st ps)).
Proof.
  intros H. rewrite made_is. unfold in_web. cbn [we_id we_reference we_version we_store we_store_type we_properties]. rewrite map_app in H. apply Forall_app in H. destruct H as [H1 H2]. apply Forall_app. split; [exact H1|].
  clear H1. induction ps as [|p ps IH]; [constructor|]. cbn [map flat_map app] in *. inversion H2; subst. constructor; [assumption|]. constructor; [apply readable_literal|]. now apply IH.
Qed.
Lemma seen_literal s : seen (q_ent +++ backslash_quotes (escape s) +++ q_ent) = literal (tabs_as_blanks (without_cr s)).
Proof. unfold seen. now rewrite decode_literal. Qed.
Lemma attributes_app n a b : attributes_of n (a ++ b) = attributes_of n a ++ attributes_of n b.
Proof. apply flat_map_app. Qed.
Lemma attributes_leaf n m a : attributes_of n (events_of_xml (leaf m a)) = if q_local (split_qname m) =s n then [meant a] else [].
Proof. unfold leaf. cbn [events_of_xml concat_str text_events]. unfold attributes_of. cbn [app flat_map]. destruct (_ =s n); reflexivity. Qed.
Lemma attributes_end n l : Forall (eq EDocEnd) l -> attributes_of n l = [].
Proof. induction 1 as [|e l <- _ IH]; [reflexivity|exact IH]. Qed.
Definition property_of (p : string * string) : list attribute :=
  [(split_qname "name", seen (fst p)); (split_qname "value", literal (tabs_as_blanks (without_cr (snd p))))].
Lemma properties_attributes ps : attributes_of "property" (flat_map events_of_xml (map (fun p => leaf "we:property" [("name", fst p); ("value", snd p)]) (map (fun p : string * string => (fst p, q_ent +++ backslash_quotes (escape (snd p)) +++ q_ent)) ps))) = map property_of ps.
Proof.
  induction ps as [|p ps IH]; [reflexivity|]. cbn [map flat_map fst snd]. rewrite attributes_app, IH, attributes_leaf. change (q_local (split_qname "we:property") =s "property") with true. cbn [app]. f_equal.
  unfold property_of, meant. cbn [map fst snd]. now rewrite seen_literal.
Qed.
Lemma attributes_E n m a ch : attributes_of n (events_of_xml (E m a ch)) = (if q_local (split_qname m) =s n then [meant a] else []) ++ attributes_of n (flat_map events_of_xml ch).
Proof. cbn [events_of_xml]. rewrite app_comm_cons, attributes_app. unfold attributes_of at 2. cbn [flat_map]. rewrite app_nil_r. reflexivity. Qed.
Ltac decided := repeat match goal with |- context [if ?b then _ else _] => let v := eval vm_compute in b in change b with v; cbv iota end.
Lemma web_says i r v s st ps : Forall readable (map Value ([i; r; v; s; st] ++ map fst ps)) ->
  let found := events_of (text_of (part_calls (x_web (made i r v s st ps)))) in
  attributes_of "property" found = map property_of ps /\
  attributes_of "reference" found = [[(split_qname "id", seen r); (split_qname "version", seen v); (split_qname "store", seen s); (split_qname "storeType", seen st)]] /\
  map (attr_get "id") (attributes_of "webextension" found) = [Some (seen ("{" +++ i +++ "}"))].
Proof.
  intros H. apply made_readable, web_well in H. destruct (events_text [BuildModel.decl] _ declaring_part H) as (l & Hl & Hd).
  change (part_calls (x_web (made i r v s st ps))) with ([BuildModel.decl] ++ xcalls (x_web (made i r v s st ps))). cbv zeta. rewrite Hl. clear Hl H. rewrite !attributes_app, !(attributes_end _ l Hd), !app_nil_r.
  rewrite made_is. unfold x_web. cbn [we_id we_version we_store we_store_type we_reference we_properties].
  pose proof (properties_attributes ps) as Q.
  set (P := map (fun p : string * string => leaf "we:property" [("name", fst p); ("value", snd p)]) _) in *.
  assert (R : forall n, ("property" =s n) = false -> attributes_of n (flat_map events_of_xml P) = []).
  { intros n N. unfold P. clear -N. induction ps as [|p ps IH]; [reflexivity|]. cbn [map flat_map]. rewrite attributes_app, IH, attributes_leaf. change (q_local (split_qname "we:property")) with "property". now rewrite N. }
  clearbody P. rewrite !attributes_E. cbn [flat_map]. rewrite !attributes_app, !attributes_E, !attributes_leaf. decided. cbn [app].
  rewrite Q, !R by reflexivity. rewrite !app_nil_r. split; [reflexivity|]. split; [reflexivity|]. cbn [app map].
  f_equal.
Qed.
Lemma web_step_there : forall l i e, In e l -> exists n, In (SXml n (PWeb e)) (web_steps i l).
Proof.
  induction l as [|x l IH]; intros i e H; [contradiction|]. cbn [web_steps]. destruct H as [->|H]; [eexists; left; reflexivity|]. destruct (IH (S i) e H) as [n Hn]. exists n. now right.
Qed.
Lemma web_file l o k c es e : saved l o k c es -> In e (k_web k) -> k_taskpanes k = true -> exists n, In (File n (text_of (part_calls (x_web (o_web o e))))) es.
Proof.
  intros (_ & _ & s & s' & Hpack) He Ht. destruct (web_step_there (k_web k) 0 e He) as [n Hn].
  assert (Hin : In (SXml n (PWeb e)) (stream_steps k c)) by (unfold stream_steps; rewrite Ht, !in_app_iff; do 5 right; left; cbn [In]; tauto).
  destruct (step_entries _ _ _ _ _ _ (ran _ _ _ _ _ _ Hpack)) as [A _].
  destruct (A _ _ Hin) as (s1 & s2 & t & Hr & Hf). rewrite (rendered_plain _ _ _ _ _ _ Hr eq_refl) in Hf. eauto.
Qed.

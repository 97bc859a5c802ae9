From Verif Require Import Str StrFacts EscapeModel EscapeSpec EscapeProofs WriterModel WriterSpec WriterProofs XmlParser XmlSpec.

(** ** Fuel of the tokenizer *)
Lemma split_sub_length sub : sub <> "" -> forall s u v, split_sub sub s = Some (u, v) ->
  String.length v < String.length s.
Proof.
  intros Hsub. induction s as [|c s IH]; intros u v H; cbn [split_sub] in H.
  - destruct (strip_prefix sub "") as [r|] eqn:E; [|discriminate].
    apply strip_prefix_sound in E. destruct sub; [congruence|discriminate].
  - destruct (strip_prefix sub (String c s)) as [r|] eqn:E.
    + injection H as <- <-. apply strip_prefix_sound in E. rewrite E, append_length. destruct sub; [congruence|cbn; lia].
    + destruct (split_sub sub s) as [[u' v']|]; [|discriminate]. injection H as <- <-. specialize (IH _ _ eq_refl). cbn; lia.
Qed.

Lemma scan_tag_length s : forall q u v, scan_tag q s = Some (u, v) -> String.length v < String.length s.
Proof.
  induction s as [|c s IH]; intros q u v H; cbn [scan_tag] in H; [discriminate|].
  destruct q as [q|].
  - destruct (scan_tag (if c =c q then None else Some q) s) as [[u' v']|] eqn:E; [|discriminate].
    injection H as <- <-. apply IH in E. cbn; lia.
  - destruct (c =c ch_gt); [injection H as <- <-; cbn; lia|].
    destruct (scan_tag _ s) as [[u' v']|] eqn:E; [|discriminate].
    injection H as <- <-. apply IH in E. cbn; lia.
Qed.

Lemma strip_prefix_length p s r : strip_prefix p s = Some r -> String.length r <= String.length s.
Proof. intros H. apply strip_prefix_sound in H. subst s. rewrite append_length. lia. Qed.

Lemma next_markup_length r t rest : next_markup r = (t, rest) -> String.length rest <= String.length r.
Proof.
  unfold next_markup.
  repeat match goal with
  | |- context [strip_prefix ?p r] =>
      let E := fresh "E" in destruct (strip_prefix p r) as [r'|] eqn:E;
      [ apply strip_prefix_length in E;
        let F := fresh "F" in
        match goal with |- context [split_sub ?q r'] => destruct (split_sub q r') as [[u v]|] eqn:F end;
        [ apply split_sub_length in F; [|discriminate] | ];
        intros H; injection H as <- <-; cbn [String.length]; lia
      | ]
  end.
  destruct (starts_with "!" r); [intros H; injection H as <- <-; cbn [String.length]; lia|].
  destruct (scan_tag None r) as [[u v]|] eqn:F; intros H; injection H as <- <-; [apply scan_tag_length in F; lia|cbn [String.length]; lia].
Qed.

Lemma span_until_length f s : String.length (snd (span_until f s)) <= String.length s.
Proof. pose proof (span_until_app f s) as H. destruct (span_until f s) as [u v]. subst s. rewrite append_length. cbn [snd]. lia. Qed.

Lemma next_tok_length s t rest : next_tok s = Some (t, rest) -> String.length rest < String.length s.
Proof.
  destruct s as [|c r]; cbn [next_tok]; [discriminate|].
  destruct (c =c ch_lt) eqn:El.
  { intros H. injection H as H. apply next_markup_length in H. cbn. lia. }
  destruct (c =c ch_amp) eqn:Ea.
  { pose proof (span_until_length ref_stop r) as L. destruct (span_until ref_stop r) as [u v]. cbn [snd] in L.
    destruct v as [|d v']; [intros H; injection H as <- <-; cbn; lia|].
    destruct (d =c ";"%char); intros H; injection H as <- <-; cbn in *; lia. }
  destruct (span_until is_amp_or_lt (String c r)) as [u v] eqn:E. intros H. injection H as <- <-.
  cbn [span_until] in E. unfold is_amp_or_lt at 1 in E. rewrite El, Ea in E. cbn in E.
  pose proof (span_until_length is_amp_or_lt r) as L. destruct (span_until is_amp_or_lt r) as [u' v'].
  injection E as <- <-. cbn in *. lia.
Qed.

Lemma tokens_f_fuel : forall f1 f2 open s, String.length s <= f1 -> String.length s <= f2 ->
  tokens_f f1 open s = tokens_f f2 open s.
Proof.
  induction f1 as [|f1 IH]; intros f2 open s H1 H2.
  - destruct s; [|cbn in H1; lia]. destruct f2; reflexivity.
  - destruct f2 as [|f2].
    + destruct s; [reflexivity|cbn in H2; lia].
    + cbn [tokens_f]. destruct (next_tok s) as [[t rest]|] eqn:E; [|reflexivity].
      apply next_tok_length in E.
      assert (IH' : forall o, tokens_f f1 o rest = tokens_f f2 o rest) by (intros; apply IH; lia).
      destruct t; try (rewrite IH'; reflexivity); [|reflexivity].
      destruct open; [reflexivity|]. destruct (name =s s0); [now rewrite IH'|reflexivity].
Qed.

Lemma tokens_eq open s : tokens open s =
  match next_tok s with
  | None => []
  | Some (t, rest) =>
      match t with
      | TkErr => [TkErr]
      | TkStart n _ => t :: tokens (n :: open) rest
      | TkEnd n =>
          match open with
          | m :: open' => if n =s m then t :: tokens open' rest else [TkErr]
          | [] => [TkErr]
          end
      | _ => t :: tokens open rest
      end
  end.
Proof.
  unfold tokens. destruct s as [|c r]; [reflexivity|]. cbn [String.length tokens_f].
  destruct (next_tok (String c r)) as [[t rest]|] eqn:E; [|reflexivity].
  apply next_tok_length in E. cbn [String.length] in E.
  assert (F : forall o, tokens_f (String.length r) o rest = tokens_f (String.length rest) o rest)
    by (intros; apply tokens_f_fuel; lia).
  destruct t; try (rewrite F; reflexivity); [|reflexivity].
  destruct open; [reflexivity|]. destruct (name =s s); [now rewrite F|reflexivity].
Qed.

(** ** The event reader as a function on token lists *)
Fixpoint drain (txt : option string) (ts : list tok) : list event :=
  match ts with
  | [] => match txt with Some t => [text_event t] | None => [] end
  | k :: r =>
      let before := match txt with Some t => [text_event t] | None => [] end in
      let sofar := match txt with Some t => t | None => "" end in
      match k with
      | TkText raw => drain (Some (sofar +++ norm_text raw)) r
      | TkRef n =>
          match resolve_ref n with
          | Some d => drain (Some (sofar +++ d)) r
          | None => EErr :: drain None r
          end
      | TkStart n a =>
          match build_start n a with
          | Some e => before ++ e :: drain None r
          | None => EErr :: drain None r
          end
      | TkEmpty n a =>
          match build_start n a with
          | Some e => before ++ e :: EEnd (split_qname n) :: drain None r
          | None => EErr :: drain None r
          end
      | TkEnd n => before ++ EEnd (split_qname n) :: drain None r
      | TkCData raw => before ++ EChars raw :: drain None r
      | TkSkip => before ++ drain None r
      | TkErr => [EErr]
      end
  end.

(** Equality of streams that continue with [EDocEnd] for ever. *)
Definition same_stream (a b : list event) : Prop := forall n, nth n a EDocEnd = nth n b EDocEnd.

Definition drain_state (st : rstate) : list event := queue st ++ drain None (toks st).

Lemma nth_nil n : nth n (@nil event) EDocEnd = EDocEnd.
Proof. now destruct n. Qed.

Lemma same_stream_refl a : same_stream a a. Proof. intros n; reflexivity. Qed.

Lemma read_text_drain ts : forall text fin e st, read_text_event ts text fin = (e, st) ->
  same_stream (drain (Some text) ts) (e :: drain_state st).
Proof.
  induction ts as [|k ts IH]; intros text fin e st H; cbn [read_text_event drain] in *.
  - injection H as <- <-. intros [|[|n]]; cbn; try reflexivity. now destruct n.
  - destruct k as [n a|n a|n|raw|n|raw| |].
    + destruct (build_start n a); injection H as <- <-; apply same_stream_refl.
    + destruct (build_start n a); injection H as <- <-; apply same_stream_refl.
    + injection H as <- <-; apply same_stream_refl.
    + apply (IH _ _ _ _ H).
    + destruct (resolve_ref n); [apply (IH _ _ _ _ H)|injection H as <- <-; apply same_stream_refl].
    + injection H as <- <-; apply same_stream_refl.
    + injection H as <- <-; apply same_stream_refl.
    + injection H as <- <-. apply same_stream_refl.
Qed.

Lemma read_next_drain ts : forall fin e st, read_next_loop ts fin = (e, st) ->
  same_stream (drain None ts) (e :: drain_state st).
Proof.
  induction ts as [|k ts IH]; intros fin e st H; cbn [read_next_loop drain] in *.
  - injection H as <- <-. intros [|n]; cbn; [reflexivity|]. now destruct n.
  - destruct k as [n a|n a|n|raw|n|raw| |].
    + destruct (build_start n a); injection H as <- <-; apply same_stream_refl.
    + destruct (build_start n a); injection H as <- <-; apply same_stream_refl.
    + injection H as <- <-; apply same_stream_refl.
    + apply (read_text_drain _ _ _ _ _ H).
    + destruct (resolve_ref n); [apply (read_text_drain _ _ _ _ _ H)|injection H as <- <-; apply same_stream_refl].
    + injection H as <- <-; apply same_stream_refl.
    + apply (IH _ _ _ H).
    + injection H as <- <-. apply same_stream_refl.
Qed.

Lemma next_event_drain st e st' : next_event st = (e, st') ->
  same_stream (drain_state st) (e :: drain_state st').
Proof.
  unfold next_event, drain_state. destruct (queue st) as [|x q]; intros H.
  - apply (read_next_drain _ _ _ _ H).
  - injection H as <- <-. apply same_stream_refl.
Qed.

Lemma nth_request_drain n : forall st, nth_request n st = nth n (drain_state st) EDocEnd.
Proof.
  induction n as [|n IH]; intros st; cbn [nth_request]; destruct (next_event st) as [e st'] eqn:E;
    pose proof (next_event_drain _ _ _ E) as D.
  - symmetry. apply (D 0).
  - rewrite IH. symmetry. apply (D (S n)).
Qed.

Definition events_of (s : string) : list event := drain None (tokens [] s).

Lemma nth_request_events n s : nth_request n (reader_of s) = nth n (events_of s) EDocEnd.
Proof. apply nth_request_drain. Qed.

(** ** Text *)
Lemma text_meaning_plain u : forall v, all_char (fun c => negb (is_amp_or_lt c)) u = true ->
  (match v with String c _ => c = ch_amp | EmptyString => True end) ->
  text_meaning None (u +++ v) = option_map (String.append (norm_text u)) (text_meaning None v).
Proof.
  induction u as [|c u IH]; intros v Hu Hv.
  - cbn [String.append norm_text]. destruct (text_meaning None v); reflexivity.
  - cbn [all_char] in Hu. apply andb_true_iff in Hu as [Hc Hu].
    unfold is_amp_or_lt in Hc. apply negb_true_iff, orb_false_iff in Hc as [H1 H2].
    specialize (IH v Hu Hv).
    cbn [String.append text_meaning norm_text]. rewrite H1, H2.
    destruct (Ascii.eqb_spec c ch_cr) as [->|Hcr].
    + destruct u as [|d u]; cbn [String.append].
      * destruct v as [|d v]; [reflexivity|]. subst d. cbn [Ascii.eqb].
        replace (ch_amp =c ch_nl) with false by reflexivity.
        destruct (text_meaning None (String ch_amp v)); reflexivity.
      * destruct (d =c ch_nl); [exact IH|]. cbn [String.append] in IH. rewrite IH.
        destruct (text_meaning None v); reflexivity.
    + rewrite IH. destruct (text_meaning None v); reflexivity.
Qed.

Lemma text_meaning_ref u : forall name d,
  text_meaning (Some name) u = Some d ->
  exists x y t e, u = x +++ String ";" y /\ all_char (fun c => negb (ref_stop c)) x = true
    /\ resolve_ref (name +++ x) = Some t /\ text_meaning None y = Some e /\ d = t +++ e.
Proof.
  induction u as [|c u IH]; intros name d H; cbn [text_meaning] in H; [discriminate|].
  destruct (Ascii.eqb_spec c ";"%char) as [->|Hc].
  - destruct (resolve_ref name) as [t|] eqn:Et; [|discriminate].
    destruct (text_meaning None u) as [e|] eqn:Ee; [|discriminate]. injection H as <-.
    exists "", u, t, e. rewrite append_nil_r. repeat split; assumption.
  - destruct ((c =c ch_amp) || (c =c ch_lt)) eqn:Es; [discriminate|].
    destruct (IH _ _ H) as (x & y & t & e & -> & Hx & Hr & He & ->).
    exists (String c x), y, t, e. repeat split; auto.
    + cbn [all_char]. unfold ref_stop at 1.
      apply Ascii.eqb_neq in Hc. rewrite Hc. cbn [orb]. rewrite Es. exact Hx.
    + rewrite append_assoc in Hr. exact Hr.
Qed.

Definition lt_or_end (v : string) : Prop := match v with String c _ => c = ch_lt | EmptyString => True end.

Lemma drain_text_step open v : lt_or_end v -> forall n raw d, String.length raw <= n ->
  text_meaning None raw = Some d ->
  forall t, drain (Some t) (tokens open (raw +++ v)) = drain (Some (t +++ d)) (tokens open v).
Proof.
  intros Hv. induction n as [|n IH]; intros raw d Hn Hd t.
  - destruct raw; [|cbn in Hn; lia]. cbn in Hd. injection Hd as <-. now rewrite append_nil_r.
  - destruct raw as [|c r]; [cbn in Hd; injection Hd as <-; now rewrite append_nil_r|].
    rewrite tokens_eq. cbn [String.append next_tok].
    destruct (Ascii.eqb_spec c ch_lt) as [->|Hlt]; [cbn in Hd; discriminate|].
    destruct (Ascii.eqb_spec c ch_amp) as [->|Hamp].
    + cbn [text_meaning] in Hd. rewrite (proj2 (Ascii.eqb_neq _ _) Hlt), Ascii.eqb_refl in Hd.
      destruct (text_meaning_ref _ _ _ Hd) as (x & y & tt & e & -> & Hx & Hr & He & ->).
      rewrite append_assoc. cbn [String.append]. rewrite (span_until_exact ref_stop x) by (assumption || reflexivity).
      rewrite Ascii.eqb_refl. cbn [drain]. cbn [String.append] in Hr. rewrite Hr.
      rewrite (IH y e) by (auto; cbn in Hn; rewrite append_length in Hn; cbn in Hn; lia).
      now rewrite append_assoc.
    + (* a text token *)
      change (String c (r +++ v)) with (String c r +++ v).
      pose proof (span_until_app is_amp_or_lt (String c r)) as Ha.
      pose proof (span_until_fst is_amp_or_lt (String c r)) as Hf.
      pose proof (span_until_snd is_amp_or_lt (String c r)) as Hs.
      destruct (span_until is_amp_or_lt (String c r)) as [u w] eqn:E. cbn [fst snd] in *.
      assert (Hw : match w with String c _ => c = ch_amp | EmptyString => True end).
      { destruct w as [|x w]; [exact I|]. cbn in Hs. unfold is_amp_or_lt in Hs.
        apply orb_true_iff in Hs as [Hs|Hs]; apply Ascii.eqb_eq in Hs; [|exact Hs]. subst x. exfalso.
        rewrite Ha in Hd. clear -Hd Hf. revert d Hd. induction u as [|a u IHu]; intros d Hd.
        - cbn in Hd. discriminate.
        - cbn [all_char] in Hf. apply andb_true_iff in Hf as [Hc Hu].
          unfold is_amp_or_lt in Hc. apply negb_true_iff, orb_false_iff in Hc as [H1 H2].
          cbn [String.append text_meaning] in Hd. rewrite H1, H2 in Hd.
          specialize (IHu Hu).
          destruct (a =c ch_cr).
          + destruct (u +++ String ch_lt w) as [|b x] eqn:Ex.
            * destruct u; discriminate.
            * destruct (b =c ch_nl).
              -- exact (IHu _ Hd).
              -- destruct (text_meaning None (String b x)); [exact (IHu _ eq_refl)|discriminate].
          + destruct (text_meaning None (u +++ String ch_lt w)); [exact (IHu _ eq_refl)|discriminate]. }
      assert (Hu : u <> "").
      { intros ->. cbn in E. unfold is_amp_or_lt in E.
        apply Ascii.eqb_neq in Hlt, Hamp. rewrite Hlt, Hamp in E. cbn in E.
        destruct (span_until _ r); discriminate. }
      assert (Hsp : span_until is_amp_or_lt (u +++ (w +++ v)) = (u, w +++ v)).
      { apply span_until_exact; [exact Hf|]. destruct w as [|x w].
        - cbn. destruct v as [|y v]; [reflexivity|]. cbn in Hv. subst y. reflexivity.
        - subst x. reflexivity. }
      rewrite Ha, append_assoc, Hsp. cbn [drain].
      rewrite Ha, text_meaning_plain in Hd by assumption.
      destruct (text_meaning None w) as [e|] eqn:Ew; [|discriminate]. injection Hd as <-.
      rewrite (IH w e); auto.
      * now rewrite append_assoc.
      * apply (f_equal String.length) in Ha. rewrite append_length in Ha.
        destruct u; [congruence|]. cbn in *. lia.
Qed.

Lemma text_meaning_start c r d :
  text_meaning None (String c r) = Some d -> c <> ch_lt.
Proof. intros H ->. cbn in H. discriminate. Qed.

Lemma drain_text_none open v c r d : lt_or_end v -> text_meaning None (String c r) = Some d ->
  drain None (tokens open (String c r +++ v)) = drain (Some d) (tokens open v).
Proof.
  intros Hv Hd.
  transitivity (drain (Some "") (tokens open (String c r +++ v)));
    [|exact (drain_text_step open v Hv (String.length (String c r)) (String c r) d (le_n _) Hd "")].
  pose proof (text_meaning_start _ _ _ Hd) as Hlt.
  rewrite tokens_eq. cbn [String.append next_tok]. apply Ascii.eqb_neq in Hlt. rewrite Hlt.
  destruct (c =c ch_amp).
  - destruct (span_until ref_stop (r +++ v)) as [u w]. destruct w as [|x w]; [reflexivity|].
    destruct (x =c ";"%char); [|reflexivity]. cbn [drain]. destruct (resolve_ref u); reflexivity.
  - destruct (span_until is_amp_or_lt _) as [u w]. reflexivity.
Qed.

Definition opt_text (raw : string) : option (list event) := text_report raw.

(** Text followed by a token that begins with [<] or by the end. *)
Lemma drain_text open v raw evs : lt_or_end v -> text_report raw = Some evs ->
  exists txt, drain None (tokens open (raw +++ v)) = drain txt (tokens open v)
    /\ evs = match txt with Some t => [text_event t] | None => [] end.
Proof.
  intros Hv H. destruct raw as [|c r]; cbn [text_report] in H.
  - injection H as <-. exists None. split; reflexivity.
  - destruct (text_meaning None (String c r)) as [d|] eqn:E; [|discriminate].
    injection H as <-. exists (Some d). split; [now apply drain_text_none|reflexivity].
Qed.

(** ** Tags *)
Lemma scan_tag_plain u : forall rest, all_char (fun c => negb ((c =c ch_gt) || (c =c ch_quot) || (c =c ch_apos))) u = true ->
  scan_tag None (u +++ rest) = match scan_tag None rest with Some (x, y) => Some (u +++ x, y) | None => None end.
Proof.
  induction u as [|c u IH]; intros rest Hu.
  - cbn. destruct (scan_tag None rest) as [[x y]|]; reflexivity.
  - cbn [all_char] in Hu. apply andb_true_iff in Hu as [Hc Hu].
    apply negb_true_iff, orb_false_iff in Hc as [Hc H3]. apply orb_false_iff in Hc as [H1 H2].
    cbn [String.append scan_tag]. rewrite H1, H2, H3. cbn [orb]. rewrite (IH _ Hu).
    destruct (scan_tag None rest) as [[x y]|]; reflexivity.
Qed.

Lemma scan_tag_quoted u : forall rest, has_char ch_quot u = false ->
  scan_tag (Some ch_quot) (u +++ String ch_quot rest) =
  match scan_tag None rest with Some (x, y) => Some (u +++ String ch_quot x, y) | None => None end.
Proof.
  induction u as [|c u IH]; intros rest Hu.
  - cbn [String.append scan_tag]. rewrite Ascii.eqb_refl. destruct (scan_tag None rest) as [[x y]|]; reflexivity.
  - cbn [has_char] in Hu. apply orb_false_iff in Hu as [Hc Hu].
    cbn [String.append scan_tag]. rewrite Hc, (IH _ Hu).
    destruct (scan_tag None rest) as [[x y]|]; reflexivity.
Qed.

Definition plain_tag_char (c : ascii) : bool := negb ((c =c ch_gt) || (c =c ch_quot) || (c =c ch_apos)).

Lemma name_char_plain c : name_char c = true -> plain_tag_char c = true.
Proof.
  unfold name_char, plain_tag_char. rewrite !negb_true_iff, !orb_false_iff. tauto.
Qed.

Lemma scan_attr k v rest : attr_name_ok k = true -> has_char ch_quot v = false ->
  scan_tag None (attr_bytes (k, v) +++ rest) =
  match scan_tag None rest with Some (x, y) => Some (attr_bytes (k, v) +++ x, y) | None => None end.
Proof.
  intros Hk Hv. unfold attr_bytes. cbn [fst snd].
  rewrite (append_cons _ "" (k +++ _)). cbn [String.append].
  assert (Hk' : all_char plain_tag_char (String ch_sp (k +++ "=")) = true).
  { assert (A : all_char plain_tag_char k = true).
    { apply (all_char_impl name_char); [exact name_char_plain|]. destruct k; [discriminate|exact Hk]. }
    cbn [all_char]. rewrite all_char_app, A. reflexivity. }
  replace (String " " ((k +++ String "=" (str1 ch_quot +++ v +++ str1 ch_quot)) +++ rest))
    with (String ch_sp (k +++ "=") +++ String ch_quot (v +++ String ch_quot rest)).
  2:{ cbn [String.append]. f_equal. rewrite !append_assoc. cbn [String.append]. do 3 f_equal. unfold str1. cbn [String.append].
      now rewrite append_assoc. }
  rewrite (scan_tag_plain _ _ Hk').
  cbn [scan_tag].
  replace (ch_quot =c ch_gt) with false by reflexivity. replace (ch_quot =c ch_quot) with true by reflexivity. cbn [orb].
  rewrite scan_tag_quoted by exact Hv.
  destruct (scan_tag None rest) as [[x y]|]; [|reflexivity]. do 2 f_equal.
  unfold str1. cbn [String.append]. f_equal. rewrite !append_assoc. cbn [String.append]. do 2 f_equal. rewrite append_assoc. reflexivity.
Qed.

Fixpoint attrs_ok (l : list (string * string)) : bool :=
  match l with [] => true | (k, v) :: r => attr_name_ok k && negb (has_char ch_quot v) && attrs_ok r end.

Lemma attrs_meaning_ok l m : attrs_meaning l = Some m -> attrs_ok l = true.
Proof.
  revert m. induction l as [|[k v] l IH]; intros m H; [reflexivity|]. cbn [attrs_meaning attrs_ok] in *.
  destruct (attr_name_ok k && negb (has_char ch_quot v)) eqn:E; [|discriminate].
  destruct (decode_attr None v); [|discriminate]. destruct (attrs_meaning l); [|discriminate]. now rewrite (IH _ eq_refl).
Qed.

Lemma attrs_meaning_decode l m : attrs_meaning l = Some m -> decode_attr_list l = Some m.
Proof.
  revert m. induction l as [|[k v] l IH]; intros m H; [exact H|]. cbn [attrs_meaning decode_attr_list] in *.
  destruct (attr_name_ok k && negb (has_char ch_quot v)); [|discriminate].
  destruct (decode_attr None v); [|discriminate]. destruct (attrs_meaning l); [|discriminate].
  rewrite (IH _ eq_refl). exact H.
Qed.

Lemma scan_attrs a rest : attrs_ok a = true ->
  scan_tag None (concat_str (map attr_bytes a) +++ rest) =
  match scan_tag None rest with Some (x, y) => Some (concat_str (map attr_bytes a) +++ x, y) | None => None end.
Proof.
  induction a as [|[k v] a IH]; intros H.
  - cbn. destruct (scan_tag None rest) as [[x y]|]; reflexivity.
  - cbn [attrs_ok] in H. apply andb_true_iff in H as [H Ha]. apply andb_true_iff in H as [Hk Hv]. apply negb_true_iff in Hv.
    cbn [map concat_str]. rewrite append_assoc, scan_attr, IH by assumption.
    destruct (scan_tag None rest) as [[x y]|]; [|reflexivity]. now rewrite append_assoc.
Qed.

Lemma elem_name_chars n : elem_name_ok n = true -> all_char name_char n = true.
Proof. destruct n; [discriminate|]. intros H. apply andb_true_iff in H as [_ H]. exact H. Qed.

Lemma scan_start n a tail rest : elem_name_ok n = true -> attrs_ok a = true ->
  all_char plain_tag_char tail = true ->
  scan_tag None (n +++ concat_str (map attr_bytes a) +++ tail +++ String ch_gt rest)
  = Some (n +++ concat_str (map attr_bytes a) +++ tail, rest).
Proof.
  intros Hn Ha Ht.
  rewrite scan_tag_plain by (apply (all_char_impl name_char); [exact name_char_plain|now apply elem_name_chars]).
  rewrite scan_attrs by assumption. rewrite scan_tag_plain by assumption.
  cbn [scan_tag]. rewrite Ascii.eqb_refl. now rewrite append_nil_r.
Qed.

Lemma ends_with_slash_app u c r : ends_with_slash (u +++ String c r) = ends_with_slash (String c r).
Proof.
  induction u as [|x u IH]; [reflexivity|]. cbn [String.append ends_with_slash].
  destruct (u +++ String c r) as [|y z] eqn:E; [destruct u; discriminate|]. exact IH.
Qed.

Lemma drop_last_app u c r : drop_last (u +++ String c r) = u +++ drop_last (String c r).
Proof.
  induction u as [|x u IH]; [reflexivity|]. cbn [String.append drop_last].
  destruct (u +++ String c r) as [|y z] eqn:E; [destruct u; discriminate|]. rewrite IH. reflexivity.
Qed.

Lemma ends_with_slash_noslash u : all_char (fun c => negb (c =c "/"%char)) u = true -> ends_with_slash u = false.
Proof.
  induction u as [|c u IH]; intros H; [reflexivity|]. cbn [all_char] in H. apply andb_true_iff in H as [Hc Hu].
  cbn [ends_with_slash]. destruct u; [now apply negb_true_iff|auto].
Qed.

Lemma attr_bytes_end kv : exists u, attr_bytes kv = u +++ str1 ch_quot.
Proof.
  exists (" " +++ fst kv +++ "=" +++ str1 ch_quot +++ snd kv). unfold attr_bytes. now rewrite !append_assoc.
Qed.

Lemma attrs_bytes_end a : a <> [] -> exists u, concat_str (map attr_bytes a) = u +++ str1 ch_quot.
Proof.
  induction a as [|kv a IH]; intros H; [congruence|]. cbn [map concat_str]. destruct a as [|kv' a].
  - cbn [map concat_str]. destruct (attr_bytes_end kv) as [u ->]. exists u. now rewrite append_nil_r.
  - destruct IH as [u Hu]; [discriminate|]. rewrite Hu. exists (attr_bytes kv +++ u). now rewrite append_assoc.
Qed.

Lemma name_no_slash n : elem_name_ok n = true -> all_char (fun c => negb (c =c "/"%char)) n = true.
Proof.
  intros H. apply elem_name_chars in H. revert H. apply all_char_impl. intros c.
  unfold name_char. rewrite !negb_true_iff, !orb_false_iff. tauto.
Qed.

Lemma name_no_ws n : elem_name_ok n = true -> all_char (fun c => negb (is_ws c)) n = true.
Proof.
  intros H. apply elem_name_chars in H. revert H. apply all_char_impl. intros c.
  unfold name_char. rewrite !negb_true_iff, !orb_false_iff. tauto.
Qed.

Lemma attrs_start a tail : stops is_ws tail = true -> stops is_ws (concat_str (map attr_bytes a) +++ tail) = true.
Proof. destruct a as [|[k v] a]; [auto|]. reflexivity. Qed.

Lemma start_tok_start n a : elem_name_ok n = true ->
  start_tok (n +++ concat_str (map attr_bytes a)) = TkStart n (concat_str (map attr_bytes a)).
Proof.
  intros Hn. unfold start_tok.
  assert (E : ends_with_slash (n +++ concat_str (map attr_bytes a)) = false).
  { destruct a as [|kv a].
    - cbn. rewrite append_nil_r. apply ends_with_slash_noslash. now apply name_no_slash.
    - destruct (attrs_bytes_end (kv :: a)) as [u ->]; [discriminate|].
      rewrite <- append_assoc. unfold str1. rewrite ends_with_slash_app. reflexivity. }
  rewrite E, span_until_exact.
  - reflexivity.
  - now apply name_no_ws.
  - rewrite <- (append_nil_r (concat_str _)). now apply attrs_start.
Qed.

Lemma start_tok_empty n a : elem_name_ok n = true ->
  start_tok (n +++ concat_str (map attr_bytes a) +++ " /") = TkEmpty n (concat_str (map attr_bytes a) +++ " ").
Proof.
  intros Hn. unfold start_tok. rewrite <- append_assoc, ends_with_slash_app, drop_last_app. cbn [ends_with_slash drop_last].
  replace ("/" =c "/"%char) with true by reflexivity.
  rewrite append_assoc, span_until_exact; [reflexivity|now apply name_no_ws|].
  now apply attrs_start.
Qed.

Lemma parse_key k1 : forall k rest, all_char name_char k = true ->
  parse_attrs (AKey k1) (k +++ String "=" rest) = parse_attrs (AAfterEq (k1 +++ k)) rest.
Proof.
  intros k; revert k1. induction k as [|c k IH]; intros k1 rest H.
  - cbn [String.append parse_attrs]. now rewrite Ascii.eqb_refl, append_nil_r.
  - cbn [all_char] in H. apply andb_true_iff in H as [Hc Hk].
    assert (Hc' := Hc). unfold name_char in Hc'. rewrite negb_true_iff, !orb_false_iff in Hc'.
    destruct Hc' as [[[[[[Hws _] _] _] _] Heq] _].
    cbn [String.append parse_attrs]. rewrite Heq, Hws, IH by assumption. rewrite append_assoc. reflexivity.
Qed.

Lemma parse_val k q : forall v v1 rest, has_char q v = false ->
  parse_attrs (AVal k q v1) (v +++ String q rest) =
  match parse_attrs ANext rest with Some l => Some ((k, v1 +++ v) :: l) | None => None end.
Proof.
  induction v as [|c v IH]; intros v1 rest H.
  - cbn [String.append parse_attrs]. now rewrite Ascii.eqb_refl, append_nil_r.
  - cbn [has_char] in H. apply orb_false_iff in H as [Hc Hv].
    cbn [String.append parse_attrs]. rewrite Hc, IH by assumption. rewrite append_assoc. reflexivity.
Qed.

Lemma parse_attrs_bytes a tail : attrs_ok a = true -> parse_attrs ANext tail = Some [] ->
  parse_attrs ANext (concat_str (map attr_bytes a) +++ tail) = Some a.
Proof.
  intros Ha Ht. induction a as [|[k v] a IH]; [exact Ht|].
  cbn [attrs_ok] in Ha. apply andb_true_iff in Ha as [H Ha]. apply andb_true_iff in H as [Hk Hv]. apply negb_true_iff in Hv.
  cbn [map concat_str]. unfold attr_bytes at 1. cbn [fst snd].
  destruct k as [|c k]; [discriminate|]. cbn [attr_name_ok] in Hk.
  pose proof Hk as Hk0. cbn [all_char] in Hk0. apply andb_true_iff in Hk0 as [Hc Hk'].
  assert (Hc' := Hc). unfold name_char in Hc'. rewrite negb_true_iff, !orb_false_iff in Hc'.
  destruct Hc' as [[[[[[Hws _] _] _] _] Heq] _].
  rewrite !append_assoc. unfold str1. cbn [String.append parse_attrs].
  replace (is_ws " ") with true by reflexivity. rewrite Hws, Heq.
  rewrite parse_key by assumption.
  cbn [parse_attrs]. replace (is_ws ch_quot) with false by reflexivity.
  replace (ch_quot =c ch_quot) with true by reflexivity. cbn [orb].
  rewrite parse_val by assumption. rewrite IH by assumption. reflexivity.
Qed.

Lemma build_start_bytes n a tail m : attrs_meaning a = Some m -> parse_attrs ANext tail = Some [] ->
  build_start n (concat_str (map attr_bytes a) +++ tail) = Some (EStart (split_qname n) m).
Proof.
  intros Ha Ht. unfold build_start, build_attributes.
  rewrite (parse_attrs_bytes a tail) by (try assumption; eapply attrs_meaning_ok; eauto).
  now rewrite (attrs_meaning_decode _ _ Ha).
Qed.

Lemma next_markup_start n rest : elem_name_ok n = true ->
  next_markup (n +++ rest) = match scan_tag None (n +++ rest) with Some (u, v) => (start_tok u, v) | None => (TkErr, "") end.
Proof.
  intros H. destruct n as [|c n]; [discriminate|]. cbn [elem_name_ok] in H.
  apply andb_true_iff in H as [H Hn]. apply andb_true_iff in H as [H1 H2]. apply negb_true_iff in H1, H2.
  cbn [all_char] in Hn. apply andb_true_iff in Hn as [Hc _]. unfold name_char in Hc. rewrite negb_true_iff, !orb_false_iff in Hc.
  destruct Hc as [_ Hs].
  unfold next_markup, starts_with. cbn [String.append strip_prefix].
  rewrite (Ascii.eqb_sym "!" c), (Ascii.eqb_sym "?" c), (Ascii.eqb_sym "/" c), H1, H2, Hs. reflexivity.
Qed.

Lemma next_tok_start n a rest : elem_name_ok n = true -> attrs_ok a = true ->
  next_tok (tag_bytes n a +++ ">" +++ rest) = Some (TkStart n (concat_str (map attr_bytes a)), rest).
Proof.
  intros Hn Ha. unfold tag_bytes. rewrite !append_assoc. cbn [String.append next_tok].
  replace ("<" =c ch_lt)%char with true by reflexivity.
  rewrite next_markup_start by assumption.
  pose proof (scan_start n a "" rest Hn Ha eq_refl) as S. cbn [String.append] in S. rewrite append_nil_r in S.
  change (String ">" rest) with (String ch_gt rest). rewrite S. now rewrite start_tok_start.
Qed.

Lemma next_tok_empty n a rest : elem_name_ok n = true -> attrs_ok a = true ->
  next_tok (tag_bytes n a +++ " />" +++ rest) = Some (TkEmpty n (concat_str (map attr_bytes a) +++ " "), rest).
Proof.
  intros Hn Ha. unfold tag_bytes. rewrite !append_assoc. cbn [String.append next_tok].
  replace ("<" =c ch_lt)%char with true by reflexivity.
  rewrite next_markup_start by assumption.
  pose proof (scan_start n a " /" rest Hn Ha eq_refl) as S. cbn [String.append] in S.
  change (String " " (String "/" (String ">" rest))) with (String " " (String "/" (String ch_gt rest))).
  rewrite S. now rewrite start_tok_empty.
Qed.

Lemma split_sub_gt u : forall rest, has_char ch_gt u = false -> split_sub ">" (u +++ String ch_gt rest) = Some (u, rest).
Proof.
  induction u as [|c u IH]; intros rest H.
  - cbn [String.append split_sub strip_prefix]. reflexivity.
  - cbn [has_char] in H. apply orb_false_iff in H as [Hc Hu].
    cbn [String.append split_sub strip_prefix]. rewrite (Ascii.eqb_sym ">" c). change ">"%char with ch_gt. rewrite Hc.
    now rewrite IH.
Qed.

Lemma trim_end_id n : all_char (fun c => negb (is_ws c)) n = true -> trim_end n = n.
Proof.
  induction n as [|c n IH]; intros H; [reflexivity|]. cbn [all_char] in H. apply andb_true_iff in H as [Hc Hn].
  cbn [trim_end]. rewrite (IH Hn). apply negb_true_iff in Hc. rewrite Hc. now destruct n.
Qed.

Lemma next_tok_end n rest : elem_name_ok n = true ->
  next_tok ("</" +++ n +++ ">" +++ rest) = Some (TkEnd n, rest).
Proof.
  intros Hn. cbn [String.append next_tok]. replace ("<" =c ch_lt)%char with true by reflexivity.
  unfold next_markup. cbn [strip_prefix].
  replace ("!" =c "/")%char with false by reflexivity. replace ("?" =c "/")%char with false by reflexivity.
  replace ("/" =c "/")%char with true by reflexivity.
  change (String ">" rest) with (String ch_gt rest). rewrite split_sub_gt.
  - now rewrite trim_end_id by (now apply name_no_ws).
  - eapply all_char_has; [apply elem_name_chars; eassumption|reflexivity].
Qed.

(** ** Main induction *)
Lemma cat_some a b e : cat_events a b = Some e -> exists x y, a = Some x /\ b = Some y /\ e = x ++ y.
Proof. destruct a as [x|], b as [y|]; cbn; try discriminate. intros H. injection H as <-. eauto. Qed.

Lemma drain_before txt ts n a e : build_start n a = Some e ->
  drain txt (TkStart n a :: ts) = (match txt with Some t => [text_event t] | None => [] end) ++ e :: drain None ts.
Proof. intros H. cbn [drain]. now rewrite H. Qed.

Definition all_ok (open : list string) : Prop := Forall (fun n => elem_name_ok n = true) open.

(** The two states of the writer: nothing pending (collected text [raw]), or a
    start tag pending. *)
Lemma reported_sound cs :
  (forall open raw evs, all_ok open -> reported open raw cs = Some evs ->
     exists b, written open None cs = Some b /\ drain None (tokens open (raw +++ b)) = evs)
  /\
  (forall n a m open raw evs, all_ok open -> elem_name_ok n = true -> attrs_meaning a = Some m -> raw = "" ->
     reported (n :: open) "" cs = Some evs ->
     exists b, written (n :: open) (Some a) cs = Some b
       /\ (forall txt, drain txt (tokens open b) =
             (match txt with Some t => [text_event t] | None => [] end) ++ EStart (split_qname n) m :: evs)
       /\ lt_or_end b).
Proof.
  induction cs as [|c cs [IH1 IH2]]; split.
  - intros open raw evs Ho H. cbn [reported written] in *. exists "". split; [reflexivity|].
    destruct open; [|discriminate].
    destruct (drain_text [] "" raw evs I H) as (txt & -> & ->). now destruct txt.
  - intros n a m open raw evs Ho Hn Ha Hr H. cbn [reported] in H. discriminate.
  - (* nothing pending *)
    intros open raw evs Ho H. destruct c as [v e s|n a| |t]; cbn [reported written] in *; [discriminate| | |].
    + destruct (elem_name_ok n) eqn:Hn; [|discriminate].
      apply cat_some in H as (x & y & Hx & Hy & ->). apply cat_some in Hy as (z & w & Hz & Hw & ->).
      destruct (attrs_meaning a) as [m|] eqn:Ha; [|discriminate]. injection Hz as <-.
      destruct (IH2 n a m open "" w Ho Hn Ha eq_refl Hw) as (b & Hb & Hd & Hlt).
      exists b. rewrite Hb. cbn [before_content prepend option_map]. split; [destruct open; reflexivity|].
      destruct (drain_text open b raw x Hlt Hx) as (txt & -> & ->). apply Hd.
    + destruct open as [|n open]; [discriminate|].
      apply cat_some in H as (x & y & Hx & Hy & ->). apply cat_some in Hy as (z & w & Hz & Hw & ->). injection Hz as <-.
      inversion Ho as [|? ? Hn Ho']; subst.
      destruct (IH1 open "" w Ho' Hw) as (b & Hb & Hd). cbn [String.append] in Hd.
      exists ("</" +++ n +++ ">" +++ b). rewrite Hb. cbn [prepend option_map]. split; [now rewrite !append_assoc|].
      assert (Hlt : lt_or_end ("</" +++ n +++ ">" +++ b)) by reflexivity.
      destruct (drain_text (n :: open) _ raw x Hlt Hx) as (txt & -> & ->).
      rewrite tokens_eq, next_tok_end by assumption. rewrite String.eqb_refl. cbn [drain]. now rewrite Hd.
    + destruct (IH1 open (raw +++ t) evs Ho H) as (b & Hb & Hd).
      exists (t +++ b). rewrite Hb. split; [destruct open; reflexivity|]. now rewrite append_assoc in Hd.
  - (* a start tag pending *)
    intros n a m open raw evs Ho Hn Ha _ H.
    pose proof (attrs_meaning_ok _ _ Ha) as Hok.
    destruct c as [v e s|n2 a2| |t]; cbn [reported written] in *; [discriminate| | |].
    + destruct (elem_name_ok n2) eqn:Hn2; [|discriminate].
      apply cat_some in H as (x & y & Hx & Hy & ->). apply cat_some in Hy as (z & w & Hz & Hw & ->).
      injection Hx as <-.
      destruct (attrs_meaning a2) as [m2|] eqn:Ha2; [|discriminate]. injection Hz as <-.
      assert (Ho' : all_ok (n :: open)) by (constructor; assumption).
      destruct (IH2 n2 a2 m2 (n :: open) "" w Ho' Hn2 Ha2 eq_refl Hw) as (b & Hb & Hd & Hlt).
      exists ((tag_bytes n a +++ ">") +++ b). rewrite Hb. split; [reflexivity|]. split; [|reflexivity].
      intros txt. rewrite append_assoc, tokens_eq, next_tok_start by assumption.
      rewrite (drain_before _ _ _ _ (EStart (split_qname n) m)).
      * rewrite Hd. reflexivity.
      * rewrite <- (append_nil_r (concat_str _)). now apply build_start_bytes.
    + apply cat_some in H as (x & y & Hx & Hy & ->). apply cat_some in Hy as (z & w & Hz & Hw & ->). injection Hz as <-. injection Hx as <-.
      destruct (IH1 open "" w Ho Hw) as (b & Hb & Hd). cbn [String.append] in Hd.
      exists ((tag_bytes n a +++ " />") +++ b). rewrite Hb. split; [reflexivity|]. split; [|reflexivity].
      intros txt. rewrite append_assoc, tokens_eq, next_tok_empty by assumption. cbn [drain].
      rewrite (build_start_bytes n a " " m) by (assumption || reflexivity). now rewrite Hd.
    + assert (Ho' : all_ok (n :: open)) by (constructor; assumption).
      destruct (IH1 (n :: open) t evs Ho' H) as (b & Hb & Hd).
      exists (((tag_bytes n a +++ ">") +++ t) +++ b). rewrite Hb. split; [reflexivity|]. split; [|reflexivity].
      intros txt. rewrite !append_assoc, tokens_eq, next_tok_start by assumption.
      rewrite (drain_before _ _ _ _ (EStart (split_qname n) m)).
      * now rewrite Hd.
      * rewrite <- (append_nil_r (concat_str _)). now apply build_start_bytes.
Qed.

Lemma reported_never_fails cs : forall open raw evs w, length (stack w) = length open ->
  reported open raw cs = Some evs -> exists w', w_run w cs = WOk w'.
Proof.
  induction cs as [|c cs IH]; intros open raw evs w Hl H; cbn [w_run]; [eauto|].
  destruct (w_step w c) as [w1|] eqn:E.
  - pose proof (step_length _ _ _ E) as L.
    destruct c as [v e s|n a| |t]; cbn [reported] in H; [discriminate| | |].
    + destruct (elem_name_ok n); [|discriminate].
      apply cat_some in H as (x & y & Hx & Hy & ->). apply cat_some in Hy as (z & u & Hz & Hw & ->).
      eapply IH; [|exact Hw]. cbn in *. lia.
    + destruct open as [|n open]; [discriminate|].
      apply cat_some in H as (x & y & Hx & Hy & ->). apply cat_some in Hy as (z & u & Hz & Hw & ->).
      eapply IH; [|exact Hw]. cbn in *. lia.
    + eapply IH; [|exact H]. cbn in *. lia.
  - apply step_fail in E as [-> Hst]. rewrite Hst in Hl. destruct open; [cbn in H; discriminate|discriminate].
Qed.

Lemma xml_roundtrip cs evs : doc_reported cs = Some evs ->
  exists w, w_run w_init cs = WOk w /\ forall n, nth_request n (reader_of (out w)) = nth n evs EDocEnd.
Proof.
  assert (Base : forall cs evs, reported [] "" cs = Some evs ->
            exists w, w_run w_init cs = WOk w /\ exists b, written [] None cs = Some b /\ out w = b /\ drain None (tokens [] b) = evs).
  { intros cs0 evs0 H0. destruct (reported_never_fails _ [] _ _ w_init eq_refl H0) as [w Hw].
    exists w. split; [exact Hw|]. destruct (reported_sound cs0) as [S _].
    destruct (S [] "" evs0 (Forall_nil _) H0) as (b & Hb & Hd). exists b. split; [exact Hb|].
    pose proof (run_init_written _ _ Hw) as Hw'. rewrite Hb in Hw'. injection Hw' as ->. split; [reflexivity|exact Hd]. }
  intros H. destruct cs as [|c cs].
  { destruct (Base [] evs H) as (w & Hw & b & Hb & Ho & Hd). exists w. split; [exact Hw|].
    intros n. rewrite nth_request_events. unfold events_of. now rewrite Ho, Hd. }
  destruct c as [v e s|n a| |t].
  - unfold doc_reported in H.
    destruct (has_char ch_gt v || match e with Some e => has_char ch_gt e | None => false end) eqn:Hgt; [discriminate|].
    apply orb_false_iff in Hgt as [Hv He].
    destruct (Base cs evs H) as (w & Hw & b & Hb & Ho & Hd).
    pose proof (run_written (CDecl v e s :: cs) _ _ _ sim_init) as R.
    cbn [written] in R. rewrite Hb in R. cbn [prepend option_map] in R.
    destruct (w_run w_init (CDecl v e s :: cs)) as [w2|w2 r2] eqn:E2; [|discriminate R].
    destruct R as (b2 & Hb2 & Ho2).
    assert (b2 = decl_bytes v e s +++ b) by congruence. subst b2. clear Hb2.
    exists w2. split; [reflexivity|]. intros n. rewrite nth_request_events. unfold events_of.
    rewrite Ho2. change (out w_init +++ (decl_bytes v e s +++ b)) with (decl_bytes v e s +++ b).
    (* the declaration is one skipped token *)
    assert (Hdecl : exists x, decl_bytes v e s = "<?" +++ x +++ "?>" /\ has_char ch_gt x = false).
    { unfold decl_bytes.
      exists ("xml version=" +++ str1 ch_quot +++ v +++ str1 ch_quot
               +++ match e with Some e => " encoding=" +++ str1 ch_quot +++ e +++ str1 ch_quot | None => "" end
               +++ match s with Some b => " standalone=" +++ str1 ch_quot +++ (if b then "yes" else "no") +++ str1 ch_quot | None => "" end).
      split.
      - rewrite !append_assoc. reflexivity.
      - rewrite !has_char_app. rewrite Hv.
        destruct e as [e|]; rewrite ?has_char_app, ?He; destruct s as [[]|]; reflexivity. }
    destruct Hdecl as (x & -> & Hx).
    rewrite tokens_eq. cbn [String.append next_tok]. replace ("<" =c ch_lt)%char with true by reflexivity.
    unfold next_markup. cbn [strip_prefix].
    replace ("!" =c "?")%char with false by reflexivity. replace ("?" =c "?")%char with true by reflexivity.
    assert (Hsp : forall rest, split_sub "?>" ((x +++ "?>") +++ rest) = Some (x, rest)).
    { clear -Hx. induction x as [|c x IH]; intros rest; [reflexivity|].
      cbn [has_char] in Hx. apply orb_false_iff in Hx as [Hc Hx].
      cbn [String.append split_sub strip_prefix].
      assert (Hno : (if "?" =c c then match (x +++ "?>") +++ rest with
                   | EmptyString => None | String b s' => if ">" =c b then Some s' else None end else None) = None).
      { destruct ("?" =c c); [|reflexivity]. destruct x as [|d x].
        - reflexivity.
        - cbn [String.append]. cbn [has_char] in Hx. apply orb_false_iff in Hx as [Hd _].
          rewrite Ascii.eqb_sym. change ">"%char with ch_gt. now rewrite Hd. }
      rewrite Hno. now rewrite (IH Hx). }
    rewrite Hsp. cbn [drain app]. now rewrite Hd.
  - destruct (Base (CStart n a :: cs) evs H) as (w & Hw & b & Hb & Ho & Hd). exists w. split; [exact Hw|].
    intros k. rewrite nth_request_events. unfold events_of. now rewrite Ho, Hd.
  - destruct (Base (CEnd :: cs) evs H) as (w & Hw & b & Hb & Ho & Hd). exists w. split; [exact Hw|].
    intros k. rewrite nth_request_events. unfold events_of. now rewrite Ho, Hd.
  - destruct (Base (CText t :: cs) evs H) as (w & Hw & b & Hb & Ho & Hd). exists w. split; [exact Hw|].
    intros k. rewrite nth_request_events. unfold events_of. now rewrite Ho, Hd.
Qed.

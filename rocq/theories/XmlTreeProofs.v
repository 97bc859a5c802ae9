From Verif Require Import Str StrFacts EscapeModel EscapeSpec EscapeProofs WriterModel WriterSpec WriterProofs XmlParser XmlSpec XmlProofs XmlTree.

(** ** Escaped data is readable *)
Lemma text_meaning_nl r : text_meaning None ("&#xA;" +++ r) = option_map (String ch_nl) (text_meaning None r).
Proof.
  change (text_meaning None ("&#xA;" +++ r)) with
    (match resolve_ref "#xA", text_meaning None r with Some t, Some u => Some (t +++ u) | _, _ => None end).
  replace (resolve_ref "#xA") with (Some s_nl) by (vm_compute; reflexivity). now destruct (text_meaning None r).
Qed.
Lemma decode_attr_nl r : decode_attr None ("&#xA;" +++ r) = option_map (String ch_nl) (decode_attr None r).
Proof.
  change (decode_attr None ("&#xA;" +++ r)) with
    (match resolve_ref "#xA", decode_attr None r with Some t, Some u => Some (t +++ u) | _, _ => None end).
  replace (resolve_ref "#xA") with (Some s_nl) by (vm_compute; reflexivity). now destruct (decode_attr None r).
Qed.


Lemma text_meaning_escape s : text_meaning None (escape s) = Some (without_cr s).
Proof.
  induction s as [|c s IH]; [reflexivity|].
  cbn [escape]. unfold without_cr in *. cbn [filter_str]. unfold not_cr at 1. unfold escape_char.
  destruct (Ascii.eqb_spec c ch_amp) as [->|H1]; [cbn; now rewrite IH|].
  destruct (Ascii.eqb_spec c ch_lt) as [->|H2]; [cbn; now rewrite IH|].
  destruct (Ascii.eqb_spec c ch_gt) as [->|H3]; [cbn; now rewrite IH|].
  destruct (Ascii.eqb_spec c ch_quot) as [->|H4]; [cbn; now rewrite IH|].
  destruct (Ascii.eqb_spec c ch_apos) as [->|H5]; [cbn; now rewrite IH|].
  destruct (Ascii.eqb_spec c ch_nl) as [->|H6]; [rewrite text_meaning_nl, IH; reflexivity|].
  destruct (Ascii.eqb_spec c ch_cr) as [->|H7]; [cbn; now rewrite IH|].
  apply Ascii.eqb_neq in H1, H2, H7.
  unfold str1. cbn [String.append text_meaning negb]. rewrite H1, H2, H7. now rewrite IH.
Qed.

Lemma decode_attr_escape s : decode_attr None (escape s) = Some (tabs_as_blanks (without_cr s)).
Proof.
  induction s as [|c s IH]; [reflexivity|].
  cbn [escape]. unfold without_cr in *. cbn [filter_str]. unfold not_cr at 1. unfold escape_char.
  destruct (Ascii.eqb_spec c ch_amp) as [->|H1]; [cbn; now rewrite IH|].
  destruct (Ascii.eqb_spec c ch_lt) as [->|H2]; [cbn; now rewrite IH|].
  destruct (Ascii.eqb_spec c ch_gt) as [->|H3]; [cbn; now rewrite IH|].
  destruct (Ascii.eqb_spec c ch_quot) as [->|H4]; [cbn; now rewrite IH|].
  destruct (Ascii.eqb_spec c ch_apos) as [->|H5]; [cbn; now rewrite IH|].
  destruct (Ascii.eqb_spec c ch_nl) as [->|H6]; [rewrite decode_attr_nl, IH; reflexivity|].
  destruct (Ascii.eqb_spec c ch_cr) as [->|H7]; [cbn; now rewrite IH|].
  apply Ascii.eqb_neq in H1, H6, H7.
  unfold str1. cbn [String.append decode_attr negb tabs_as_blanks]. rewrite H1, H7. unfold is_ws. rewrite H6, H7, !orb_false_r.
  rewrite IH. destruct (Ascii.eqb_spec c ch_tab) as [->|Ht]; [reflexivity|].
  destruct (Ascii.eqb_spec c ch_sp) as [->|Hs]; reflexivity.
Qed.

Lemma text_report_escape s : text_report (escape s) = Some (text_events (without_cr s)).
Proof.
  unfold text_report, text_events. pose proof (text_meaning_escape s) as M.
  destruct (escape s) as [|c r] eqn:E.
  - cbn in M. injection M as <-. reflexivity.
  - rewrite M. cbn [option_map].
    destruct (String.eqb_spec (without_cr s) "") as [W|W]; [|reflexivity]. exfalso.
    (* only carriage returns disappear *)
    clear M. assert (escape s = "").
    { clear E c r. unfold without_cr in W. induction s as [|c s IH]; [reflexivity|]. cbn [filter_str] in W. unfold not_cr at 1 in W.
      destruct (Ascii.eqb_spec c ch_cr) as [->|]; [cbn in W; cbn [escape]; now rewrite (IH W)|discriminate]. }
    congruence.
Qed.

Lemma attrs_meaning_escape a : forallb (fun kv => attr_name_ok (fst kv)) a = true ->
  attrs_meaning (map (fun kv => (fst kv, escape (snd kv))) a)
  = Some (map (fun kv => (split_qname (fst kv), tabs_as_blanks (without_cr (snd kv)))) a).
Proof.
  induction a as [|[k v] a IH]; intros H; [reflexivity|]. cbn [forallb fst] in H. apply andb_true_iff in H as [Hk Ha].
  cbn [map attrs_meaning fst snd]. rewrite Hk, (escape_no_markup v ch_quot eq_refl), decode_attr_escape, (IH Ha). reflexivity.
Qed.

(** ** Trees *)
Lemma cat_assoc a b c : cat_events a (cat_events b c) = cat_events (cat_events a b) c.
Proof. destruct a, b, c; cbn; try reflexivity. now rewrite app_assoc. Qed.
Lemma cat_nil a : cat_events (Some []) a = a.
Proof. now destruct a. Qed.

Definition ends_text (open : list string) (cs : list call) : bool :=
  match cs with CStart _ _ :: _ | CEnd :: _ => true | [] => match open with [] => true | _ => false end | _ => false end.

Lemma reported_flush open raw cs : ends_text open cs = true ->
  reported open raw cs = cat_events (text_report raw) (reported open "" cs).
Proof.
  destruct cs as [|[v e s|n a| |t] cs]; cbn [ends_text reported]; try discriminate.
  - destruct open; [|discriminate]. intros _. destruct (text_report raw); cbn; [|reflexivity]. now rewrite app_nil_r.
  - intros _. destruct (elem_name_ok n); [now rewrite cat_nil|]. destruct (text_report raw); reflexivity.
  - intros _. destruct open; [now destruct (text_report raw)|]. now rewrite cat_nil.
Qed.

Fixpoint tsize (t : xtree) : nat := match t with XText _ => 1 | XElem _ _ ch => S (list_sum (map tsize ch)) end.

Lemma forest_reported : forall n l open cs, list_sum (map tsize l) <= n ->
  spaced l = true -> forallb legal l = true -> ends_text open cs = true ->
  reported open "" (flat_map calls_of l ++ cs) = cat_events (Some (flat_map events_for l)) (reported open "" cs).
Proof.
  induction n as [|n IH]; intros l open cs Hn Hs Hl He.
  - destruct l as [|t l]; [now rewrite cat_nil|]. cbn in Hn. destruct t; cbn in Hn; lia.
  - destruct l as [|t l]; [now rewrite cat_nil|].
    cbn [spaced] in Hs. apply andb_true_iff in Hs as [Ht Hs]. cbn [forallb] in Hl. apply andb_true_iff in Hl as [Hlt Hl].
    cbn [map list_sum fold_right] in Hn. change (fold_right Nat.add 0 (map tsize l)) with (list_sum (map tsize l)) in Hn.
    cbn [flat_map]. rewrite <- app_assoc.
    destruct t as [m a ch|s].
    + cbn [tsize] in Hn. cbn [legal] in Hlt. apply andb_true_iff in Hlt as [Hlt Hch]. apply andb_true_iff in Hlt as [Hlt Hsp].
      apply andb_true_iff in Hlt as [Hm Ha].
      cbn [calls_of]. cbn [app]. rewrite <- app_assoc. cbn [app reported]. rewrite Hm, cat_nil, attrs_meaning_escape by assumption.
      rewrite (IH ch) by (auto; lia). cbn [reported]. rewrite cat_nil.
      rewrite (IH l) by (auto; lia).
      cbn [events_for option_map]. destruct (reported open "" cs); cbn; [|reflexivity].
      f_equal. f_equal. rewrite <- !app_assoc. reflexivity.
    + cbn [calls_of app reported String.append].
      rewrite reported_flush.
      * rewrite text_report_escape, (IH l) by (auto; cbn in Hn; lia).
        cbn [events_for]. destruct (reported open "" cs); cbn; [|reflexivity]. f_equal. now rewrite app_assoc.
      * destruct l as [|[m a ch|s2] l]; [exact He|reflexivity|discriminate].
Qed.

Lemma tree_reported t : legal t = true -> reported [] "" (calls_of t) = Some (events_for t).
Proof.
  intros H. pose proof (forest_reported (list_sum (map tsize [t])) [t] [] [] (le_n _)) as F.
  cbn [flat_map forallb] in F. rewrite !app_nil_r in F. rewrite F; cbn; try reflexivity.
  - now rewrite app_nil_r.
  - now destruct t.
  - now rewrite H.
Qed.

Lemma tree_roundtrip t : legal t = true ->
  exists w, w_run w_init (calls_of t) = WOk w
    /\ forall n, nth_request n (reader_of (out w)) = nth n (events_for t) EDocEnd.
Proof.
  intros H. apply xml_roundtrip. rewrite <- (tree_reported t H). unfold doc_reported. destruct t; reflexivity.
Qed.

Lemma tree_roundtrip_decl v e s t : legal t = true -> has_char ch_gt v = false -> has_char ch_gt e = false ->
  exists w, w_run w_init (CDecl v (Some e) s :: calls_of t) = WOk w
    /\ forall n, nth_request n (reader_of (out w)) = nth n (events_for t) EDocEnd.
Proof.
  intros H Hv He. apply xml_roundtrip. unfold doc_reported. rewrite Hv, He. now apply tree_reported.
Qed.

(** ** C09: bracketing, for every input *)
Lemma qname_eqb_refl q : qname_eqb q q = true.
Proof. unfold qname_eqb. rewrite String.eqb_refl. destruct (q_prefix q); [apply String.eqb_refl|reflexivity]. Qed.

Lemma still_open_app a : forall open b, still_open open (a ++ b) =
  match still_open open a with Some o => still_open o b | None => None end.
Proof.
  induction a as [|e a IH]; intros open b; [reflexivity|]. cbn [app still_open].
  destruct e; auto. destruct open; [reflexivity|]. destruct (qname_eqb _ _); auto.
Qed.

Definition not_err (e : event) : bool := match e with EErr => false | _ => true end.
Fixpoint before_err (l : list event) : list event :=
  match l with [] => [] | e :: r => if not_err e then e :: before_err r else [] end.

Lemma text_event_open t open l : still_open open (text_event t :: l) = still_open open l.
Proof. unfold text_event. now destruct (all_char is_ws t). Qed.

Lemma before_err_before txt l : before_err ((match txt with Some t => [text_event t] | None => [] end) ++ l)
  = (match txt with Some t => [text_event t] | None => [] end) ++ before_err l.
Proof. destruct txt as [t|]; [|reflexivity]. cbn. unfold text_event. now destruct (all_char is_ws t). Qed.

Lemma still_open_before txt l open :
  still_open open ((match txt with Some t => [text_event t] | None => [] end) ++ l) = still_open open l.
Proof. destruct txt as [t|]; [|reflexivity]. apply text_event_open. Qed.

Lemma drain_bracketed : forall fuel open txt s, String.length s <= fuel ->
  exists o, still_open (map split_qname open) (before_err (drain txt (tokens open s))) = Some o.
Proof.
  induction fuel as [|fuel IH]; intros open txt s Hs.
  - destruct s; [|cbn in Hs; lia]. destruct txt as [t|]; cbn; [|eauto].
    unfold text_event. destruct (all_char is_ws t); cbn; eauto.
  - rewrite tokens_eq. destruct (next_tok s) as [[k rest]|] eqn:E.
    2:{ destruct txt as [t|]; cbn; [|eauto]. unfold text_event. destruct (all_char is_ws t); cbn; eauto. }
    apply next_tok_length in E. assert (Hr : String.length rest <= fuel) by lia.
    destruct k as [n a|n a|n|raw|n|raw| |].
    + cbn [drain]. unfold build_start. destruct (build_attributes a) as [m|]; cbn [option_map]; [|cbn; eauto].
      rewrite before_err_before, still_open_before. cbn [before_err not_err still_open]. apply (IH (n :: open) None rest Hr).
    + cbn [drain]. unfold build_start. destruct (build_attributes a) as [m|]; cbn [option_map]; [|cbn; eauto].
      rewrite before_err_before, still_open_before. cbn [before_err not_err still_open]. rewrite qname_eqb_refl. apply (IH open None rest Hr).
    + destruct open as [|m open]; [cbn; eauto|]. destruct (String.eqb_spec n m) as [->|]; [|cbn; eauto].
      cbn [drain]. rewrite before_err_before, still_open_before. cbn [before_err not_err still_open map]. rewrite qname_eqb_refl. apply (IH open None rest Hr).
    + cbn [drain]. apply IH; assumption.
    + cbn [drain]. destruct (resolve_ref n); [apply IH; assumption|cbn; eauto].
    + cbn [drain]. rewrite before_err_before, still_open_before. cbn [before_err not_err still_open]. apply (IH open None rest Hr).
    + cbn [drain]. rewrite before_err_before, still_open_before. apply (IH open None rest Hr).
    + cbn; eauto.
Qed.

Lemma map_nth_seq (l : list event) : forall n,
  map (fun k => nth k l EDocEnd) (seq 0 n) = firstn n l ++ repeat EDocEnd (n - length l).
Proof.
  induction l as [|x l IH]; intros n.
  - rewrite firstn_nil. cbn [length app]. rewrite Nat.sub_0_r.
    induction n as [|n IHn] using nat_ind; [reflexivity|].
    cbn [seq map repeat]. f_equal. rewrite <- IHn, <- seq_shift, map_map. apply map_ext. intros [|k]; reflexivity.
  - destruct n as [|n]; [reflexivity|]. cbn [seq map firstn length app nth Nat.sub]. f_equal.
    rewrite <- seq_shift, map_map. rewrite <- IH. reflexivity.
Qed.

Lemma first_answers_eq n s : first_answers n s = firstn n (events_of s) ++ repeat EDocEnd (n - length (events_of s)).
Proof.
  unfold first_answers. rewrite <- map_nth_seq. apply map_ext. intros k. apply nth_request_events.
Qed.

Lemma still_open_prefix a : forall open b o, still_open open (a ++ b) = Some o -> exists o', still_open open a = Some o'.
Proof. intros open b o. rewrite still_open_app. destruct (still_open open a); [eauto|discriminate]. Qed.

Lemma still_open_docend k : forall open, still_open open (repeat EDocEnd k) = Some open.
Proof. induction k; intros open; cbn; auto. Qed.

Lemma answers_bracketed n s : (forall k, k < n -> nth_request k (reader_of s) <> EErr) ->
  exists o, still_open [] (first_answers n s) = Some o.
Proof.
  intros H. rewrite first_answers_eq, still_open_app.
  destruct (drain_bracketed (String.length s) [] None s (le_n _)) as [o Ho]. cbn [map] in Ho. fold (events_of s) in Ho.
  assert (P : exists q, before_err (events_of s) = firstn n (events_of s) ++ q).
  { assert (H' : forall k, k < n -> nth k (events_of s) EDocEnd <> EErr) by (intros k Hk; rewrite <- nth_request_events; auto).
    clear H Ho. revert n H'. induction (events_of s) as [|e l IH]; intros n H.
    - exists []. now rewrite firstn_nil.
    - destruct n as [|n]; [exists (before_err (e :: l)); reflexivity|].
      destruct (IH n) as [q Hq]. { intros k Hk. apply (H (S k)). lia. }
      exists q. cbn [before_err firstn app].
      assert (Hne : not_err e = true). { specialize (H 0). cbn in H. destruct e; try reflexivity. exfalso; apply H; [lia|reflexivity]. }
      rewrite Hne, Hq. reflexivity. }
  destruct P as [q Hq]. rewrite Hq in Ho. apply still_open_prefix in Ho as [o' ->]. rewrite still_open_docend. eauto.
Qed.

(** end of document for ever, as long as nothing went wrong before *)
Lemma drain_no_docend ts : forall txt, ~ In EDocEnd (drain txt ts).
Proof.
  assert (T : forall t, text_event t <> EDocEnd) by (intros t; unfold text_event; destruct (all_char is_ws t); discriminate).
  assert (B : forall txt l, ~ In EDocEnd l -> ~ In EDocEnd ((match txt with Some t => [text_event t] | None => [] end) ++ l)).
  { intros [t|] l Hl; [|exact Hl]. intros [H|H]; [exact (T _ H)|exact (Hl H)]. }
  induction ts as [|k ts IH]; intros txt; cbn [drain].
  - destruct txt as [t|]; cbn; [intros [H|[]]; exact (T _ H)|tauto].
  - destruct k as [n a|n a|n|raw|n|raw| |].
    + unfold build_start. destruct (build_attributes a); cbn [option_map].
      * apply B. intros [H|H]; [discriminate|exact (IH None H)].
      * intros [H|H]; [discriminate|exact (IH None H)].
    + unfold build_start. destruct (build_attributes a); cbn [option_map].
      * apply B. intros [H|[H|H]]; [discriminate|discriminate|exact (IH None H)].
      * intros [H|H]; [discriminate|exact (IH None H)].
    + apply B. intros [H|H]; [discriminate|exact (IH None H)].
    + apply IH.
    + destruct (resolve_ref n); [apply IH|]. intros [H|H]; [discriminate|exact (IH None H)].
    + apply B. intros [H|H]; [discriminate|exact (IH None H)].
    + apply B. apply IH.
    + intros [H|[]]. discriminate.
Qed.

Lemma docend_forever s n m : nth_request n (reader_of s) = EDocEnd -> n <= m -> nth_request m (reader_of s) = EDocEnd.
Proof.
  rewrite !nth_request_events. intros H Hm. apply nth_overflow.
  destruct (Nat.lt_ge_cases n (length (events_of s))) as [L|L]; [|lia].
  exfalso. apply (drain_no_docend (tokens [] s) None). fold (events_of s). rewrite <- H. now apply nth_In.
Qed.

Lemma docend_reached s : exists n, n <= 2 * String.length s /\ nth_request n (reader_of s) = EDocEnd.
Proof.
  exists (length (events_of s)). split; [|rewrite nth_request_events; apply nth_overflow; lia].
  assert (G : forall fuel open txt s, String.length s <= fuel ->
     length (drain txt (tokens open s)) <= 2 * String.length s + match txt with Some _ => 1 | None => 0 end).
  { induction fuel as [|fuel IH]; intros open txt s0 Hs.
    - destruct s0; [|cbn in Hs; lia]. destruct txt; cbn; lia.
    - rewrite tokens_eq. destruct (next_tok s0) as [[k rest]|] eqn:E; [|destruct txt; cbn; lia].
      assert (E' := E). apply next_tok_length in E. assert (Hr : String.length rest <= fuel) by lia.
      assert (IHn : forall o, length (drain None (tokens o rest)) <= 2 * String.length rest) by (intros o; specialize (IH o None rest Hr); cbn in IH; lia).
      assert (Hb : forall l, length ((match txt with Some t => [text_event t] | None => [] end) ++ l) = length l + match txt with Some _ => 1 | None => 0 end)
        by (intros l; rewrite app_length; destruct txt; cbn; lia).
      destruct k as [n a|n a|n|raw|n|raw| |].
      + cbn [drain]. destruct (build_start n a); rewrite ?Hb; cbn [length]; specialize (IHn (n :: open)); destruct txt; lia.
      + (* an empty tag is at least three bytes long *)
        cbn [drain]. destruct (build_start n a); rewrite ?Hb; cbn [length]; specialize (IHn open); destruct txt; lia.
      + destruct open as [|m open]; [destruct txt; cbn in *; lia|]. destruct (n =s m); [|destruct txt; cbn in *; lia].
        cbn [drain]. rewrite Hb. cbn [length]. specialize (IHn open). destruct txt; lia.
      + cbn [drain]. specialize (IH open (Some ((match txt with Some t => t | None => "" end) +++ norm_text raw)) rest Hr). cbn in IH. destruct txt; lia.
      + cbn [drain]. destruct (resolve_ref n) as [d|].
        * specialize (IH open (Some ((match txt with Some t => t | None => "" end) +++ d)) rest Hr). cbn in IH. destruct txt; lia.
        * cbn [length]. specialize (IHn open). destruct txt; lia.
      + cbn [drain]. rewrite Hb. cbn [length]. specialize (IHn open). destruct txt; lia.
      + cbn [drain]. rewrite Hb. specialize (IHn open). destruct txt; lia.
      + cbn. destruct txt; lia. }
  specialize (G _ [] None s (le_n _)). fold (events_of s) in G. cbn iota in G. lia.
Qed.

(** the iterator stops after the end or an error *)
Lemma iter_next_stops st e st' : iter_next st = (Some e, st') -> (e = EDocEnd \/ e = EErr) -> iter_next st' = (None, st').
Proof.
  unfold iter_next. destruct (finished st); [discriminate|]. destruct (next_event st) as [e1 st1].
  intros H He. destruct e1; injection H as <- <-; destruct He as [He|He]; try discriminate; reflexivity.
Qed.

(** ** C10 *)
Fixpoint plain_tokens (ts : list tok) : bool :=
  match ts with [] => true | TkCData _ :: _ => false | TkSkip :: _ => false | _ :: r => plain_tokens r end.

Lemma text_event_chars t : is_chars (text_event t) = true.
Proof. unfold text_event. now destruct (all_char is_ws t). Qed.

Lemma adjacent_before txt e l : is_chars e = false ->
  adjacent_chars ((match txt with Some t => [text_event t] | None => [] end) ++ e :: l) = adjacent_chars (e :: l).
Proof. intros H. destruct txt as [t|]; [|reflexivity]. cbn [app adjacent_chars]. rewrite H, !andb_false_r. reflexivity. Qed.


Lemma drain_no_adjacent ts : plain_tokens ts = true -> forall txt, adjacent_chars (drain txt ts) = false.
Proof.
  induction ts as [|k ts IH]; intros H txt; cbn [drain].
  - destruct txt as [t|]; cbn; [now rewrite andb_false_r|reflexivity].
  - destruct k as [n a|n a|n|raw|n|raw| |]; cbn [plain_tokens] in H; try discriminate; specialize (IH H).
    + unfold build_start. destruct (build_attributes a); cbn [option_map]; [rewrite adjacent_before by reflexivity|]; cbn; apply IH.
    + unfold build_start. destruct (build_attributes a); cbn [option_map]; [rewrite adjacent_before by reflexivity|]; cbn; apply IH.
    + rewrite adjacent_before by reflexivity. cbn. apply IH.
    + apply IH.
    + destruct (resolve_ref n); [apply IH|cbn; apply IH].
    + reflexivity.
Qed.

Lemma contains_tail sub a b : contains sub b -> contains sub (a +++ b).
Proof. intros (x & y & ->). exists (a +++ x), y. now rewrite append_assoc. Qed.

Lemma split_sub_sound sub : forall s u v, split_sub sub s = Some (u, v) -> s = u +++ sub +++ v.
Proof.
  induction s as [|c s IH]; intros u v H; cbn [split_sub] in H.
  - destruct (strip_prefix sub "") as [r|] eqn:E; [|discriminate]. injection H as <- <-. now apply strip_prefix_sound in E.
  - destruct (strip_prefix sub (String c s)) as [r|] eqn:E.
    + injection H as <- <-. now apply strip_prefix_sound in E.
    + destruct (split_sub sub s) as [[u' v']|]; [|discriminate]. injection H as <- <-. now rewrite (IH _ _ eq_refl).
Qed.

Lemma scan_tag_suffix : forall s q u v, scan_tag q s = Some (u, v) -> exists p, s = p +++ v.
Proof.
  induction s as [|c s IH]; intros q u v H; cbn [scan_tag] in H; [discriminate|].
  destruct q as [q|].
  - destruct (scan_tag _ s) as [[u' v']|] eqn:E; [|discriminate]. injection H as <- <-. apply IH in E as [p ->]. now exists (String c p).
  - destruct (c =c ch_gt); [injection H as <- <-; exists (str1 c); reflexivity|].
    destruct (scan_tag _ s) as [[u' v']|] eqn:E; [|discriminate]. injection H as <- <-. apply IH in E as [p ->]. now exists (String c p).
Qed.

Lemma next_tok_suffix s k rest : next_tok s = Some (k, rest) -> exists p, s = p +++ rest.
Proof.
  assert (Self : forall s : string, exists p, s = p +++ "") by (intros x; exists x; now rewrite append_nil_r).
  destruct s as [|c r]; cbn [next_tok]; [discriminate|].
  destruct (c =c ch_lt).
  { intros H. injection H as H. unfold next_markup in H.
    repeat match type of H with
    | context [strip_prefix ?p r] =>
        let E := fresh "E" in destruct (strip_prefix p r) as [r'|] eqn:E;
        [ apply strip_prefix_sound in E;
          match type of H with context [split_sub ?q r'] => destruct (split_sub q r') as [[u v]|] eqn:F end;
          [ apply split_sub_sound in F; injection H as <- <-; subst r r';
            eexists; rewrite <- !append_assoc; rewrite <- (append_cons c); reflexivity
          | injection H as <- <-; apply Self ]
        | clear E ]
    end.
    destruct (starts_with "!" r); [injection H as <- <-; apply Self|].
    destruct (scan_tag None r) as [[u v]|] eqn:F; injection H as <- <-; [|apply Self].
    apply scan_tag_suffix in F as [p ->]. now exists (String c p). }
  destruct (c =c ch_amp).
  { pose proof (span_until_app ref_stop r) as A. destruct (span_until ref_stop r) as [u v]. subst r.
    destruct v as [|d v]; [intros H; injection H as <- <-; apply Self|].
    destruct (d =c ";"%char); intros H; injection H as <- <-; [|apply Self].
    exists (String c (u +++ str1 d)). rewrite append_cons, append_assoc. reflexivity. }
  pose proof (span_until_app is_amp_or_lt (String c r)) as A. destruct (span_until is_amp_or_lt (String c r)) as [u v].
  intros H. injection H as <- <-. now exists u.
Qed.

Lemma next_tok_special s k rest : next_tok s = Some (k, rest) ->
  (match k with TkCData _ | TkSkip => True | _ => False end) -> contains "<!" s \/ contains "<?" s.
Proof.
  destruct s as [|c r]; cbn [next_tok]; [discriminate|].
  destruct (Ascii.eqb_spec c ch_lt) as [->|].
  { intros H Hk. injection H as H. unfold next_markup in H.
    assert (S : forall p q, strip_prefix p r = Some q -> r = p +++ q) by (intros; now apply strip_prefix_sound).
    destruct (strip_prefix "!--" r) as [q|] eqn:E1. { left. rewrite (S _ _ E1). exists "", ("--" +++ q). reflexivity. }
    destruct (strip_prefix "![CDATA[" r) as [q|] eqn:E2. { left. rewrite (S _ _ E2). exists "", ("[CDATA[" +++ q). reflexivity. }
    destruct (strip_prefix "!DOCTYPE" r) as [q|] eqn:E3. { left. rewrite (S _ _ E3). exists "", ("DOCTYPE" +++ q). reflexivity. }
    destruct (strip_prefix "?" r) as [q|] eqn:E4. { right. rewrite (S _ _ E4). exists "", q. reflexivity. }
    exfalso. destruct (strip_prefix "/" r) as [q|].
    - destruct (split_sub ">" q) as [[u v]|]; injection H as <- <-; exact Hk.
    - destruct (starts_with "!" r); [injection H as <- <-; exact Hk|].
      destruct (scan_tag None r) as [[u v]|]; injection H as <- <-; [|exact Hk].
      unfold start_tok in Hk. destruct (ends_with_slash u); destruct (span_until _ _); exact Hk. }
  destruct (c =c ch_amp).
  { destruct (span_until ref_stop r) as [u v]. intros H Hk. exfalso. destruct v as [|d v]; [injection H as <- <-; exact Hk|].
    destruct (d =c ";"%char); injection H as <- <-; exact Hk. }
  destruct (span_until is_amp_or_lt (String c r)) as [u v]. intros H Hk. injection H as <- <-. destruct Hk.
Qed.

Lemma tokens_plain : forall fuel open s, String.length s <= fuel -> ~ contains "<!" s -> ~ contains "<?" s ->
  plain_tokens (tokens open s) = true.
Proof.
  induction fuel as [|fuel IH]; intros open s Hs H1 H2.
  - destruct s; [reflexivity|cbn in Hs; lia].
  - rewrite tokens_eq. destruct (next_tok s) as [[k rest]|] eqn:E; [|reflexivity].
    pose proof (next_tok_length _ _ _ E) as L. pose proof (next_tok_special _ _ _ E) as Sp.
    destruct (next_tok_suffix _ _ _ E) as [p Hp].
    assert (R : forall o, plain_tokens (tokens o rest) = true).
    { intros o. apply IH; [lia| |]; intros C; [apply H1|apply H2]; rewrite Hp; now apply contains_tail. }
    destruct k as [n a|n a|n|raw|n|raw| |]; cbn [plain_tokens]; auto.
    + destruct open as [|m open]; [reflexivity|]. destruct (n =s m); cbn; auto.
    + exfalso. destruct (Sp I); auto.
    + exfalso. destruct (Sp I); auto.
Qed.

Lemma adjacent_app_docend l k : adjacent_chars (l ++ repeat EDocEnd k) = adjacent_chars l.
Proof.
  induction l as [|e l IH].
  - cbn [app]. induction k; [reflexivity|]. cbn. exact IHk.
  - cbn [app adjacent_chars]. rewrite IH. destruct l as [|f l]; [|reflexivity]. cbn [app].
    destruct k; [reflexivity|]. cbn. now rewrite !andb_false_r.
Qed.

Lemma adjacent_firstn l : forall n, adjacent_chars l = false -> adjacent_chars (firstn n l) = false.
Proof.
  induction l as [|e l IH]; intros n H; [now rewrite firstn_nil|]. destruct n; [reflexivity|].
  cbn [firstn adjacent_chars] in *. apply orb_false_iff in H as [H1 H2]. rewrite (IH n H2), orb_false_r.
  destruct l as [|f l]; [now rewrite firstn_nil|]. destruct n; cbn; [now rewrite andb_false_r|exact H1].
Qed.

Lemma answers_not_adjacent s n : ~ contains "<!" s -> ~ contains "<?" s -> adjacent_chars (first_answers n s) = false.
Proof.
  intros H1 H2. rewrite first_answers_eq, adjacent_app_docend. apply adjacent_firstn. unfold events_of.
  apply drain_no_adjacent. eapply tokens_plain; eauto.
Qed.

Lemma chars_one_event n raw d : elem_name_ok n = true -> raw <> "" -> text_meaning None raw = Some d ->
  forall k, nth_request k (reader_of ("<" +++ n +++ ">" +++ raw +++ "</" +++ n +++ ">")) =
    nth k [EStart (split_qname n) []; (if all_char is_ws d then EWs d else EChars d); EEnd (split_qname n)] EDocEnd.
Proof.
  intros Hn Hr Hd k.
  destruct (xml_roundtrip [CStart n []; CText raw; CEnd]
     [EStart (split_qname n) []; (if all_char is_ws d then EWs d else EChars d); EEnd (split_qname n)]) as (w & Hw & Hk).
  - cbn [doc_reported reported]. rewrite Hn. cbn [attrs_meaning option_map text_report String.append].
    destruct raw as [|c r]; [congruence|]. cbn [text_report]. rewrite Hd. reflexivity.
  - rewrite <- Hk. do 2 f_equal. pose proof (run_init_written _ _ Hw) as Ho. cbn [written prepend option_map before_content] in Ho.
    injection Ho as <-. unfold tag_bytes. cbn [map concat_str]. rewrite append_nil_r, !append_assoc. reflexivity.
Qed.

From Verif Require Import Str StrFacts StrFind StrFindFacts Props EscapeModel InstrModel InstrSpec.

(** ** Splitting *)
Lemma split_app c a b : has_char c a = false -> split c (a +++ String c b) = a :: split c b.
Proof.
  induction a as [|x a IH]; cbn; intros H.
  - now rewrite Ascii.eqb_refl.
  - apply orb_false_iff in H as [-> H]. now rewrite (IH H).
Qed.
Lemma split_end c a : has_char c a = false -> split c a = [a].
Proof. induction a as [|x a IH]; cbn; intros H; [reflexivity|]. apply orb_false_iff in H as [-> H]. now rewrite (IH H). Qed.

Definition spaced (l : list string) : string := concat_str (map (fun w => " " +++ w) l).
Lemma spaced_app l m : spaced (l ++ m) = spaced l +++ spaced m.
Proof. unfold spaced. now rewrite map_app, concat_str_app. Qed.
Lemma split_spaced l : Forall (fun w => has_char " " w = false) l -> forall a, has_char " " a = false ->
  split " " (a +++ spaced l) = a :: l.
Proof.
  induction 1 as [|w l Hw _ IH]; intros a Ha; cbn.
  - rewrite append_nil_r. now apply split_end.
  - change (a +++ String " " (w +++ spaced l)) with (a +++ String " " (w +++ spaced l)).
    rewrite split_app by assumption. now rewrite IH.
Qed.

(** ** Replacing *)
Lemma replace_skip p t r : forall s k, String.length s = k -> replace_from p t k (s +++ r) = replace_from p t 0 r.
Proof. induction s as [|c s IH]; intros k <-; cbn; [reflexivity|]. now apply IH. Qed.
Lemma replace_here p t r : p <> "" -> replace p t (p +++ r) = t +++ replace p t r.
Proof.
  intros Hp. unfold replace. destruct p as [|c p]; [congruence|]. cbn [append replace_from].
  change (String c p +++ r) with (String c (p +++ r)). cbn [replace_from].
  change (String c (p +++ r)) with (String c p +++ r). rewrite starts_with_app. f_equal.
  apply replace_skip. cbn. lia.
Qed.
Lemma replace_first p t s r : borderless p = true -> p <> "" -> find p s = None ->
  replace p t (s +++ p +++ r) = s +++ t +++ replace p t r.
Proof.
  intros Hb Hp. induction s as [|c s IH]; intros Hf.
  - cbn [append]. now apply replace_here.
  - pose proof (find_first p (String c s) r Hb Hf) as Hs. rewrite append_cons in Hs |- *. rewrite find_eq in Hs.
    unfold replace in *. cbn [replace_from].
    destruct (starts_with p (String c (s +++ p +++ r))); [cbn in Hs; discriminate|].
    rewrite append_cons. f_equal. apply IH. rewrite find_eq in Hf.
    destruct (starts_with p (String c s)); [discriminate|]. destruct (find p s); [discriminate|reflexivity].
Qed.

Definition quote_mark (q : string) : Prop := q = "&quot;" \/ q = str1 ch_quot.

Lemma find_quot s : has_char ch_quot s = false -> find (str1 ch_quot) s = None.
Proof. intros H. apply (find_missing ch_quot); [reflexivity|exact H]. Qed.
Lemma unquote_quoted q s : quote_mark q -> has_char ch_quot s = false -> contains "&quot;" s = false ->
  unquote (quoted q s) = s.
Proof.
  intros Hq H1 H2. apply not_contains in H2. unfold unquote, quoted. destruct Hq as [-> | ->].
  - rewrite replace_here by discriminate. cbn [append].
    rewrite <- (append_nil_r "&quot;") at 2. rewrite (replace_first "&quot;" "" s "") by (assumption || discriminate || reflexivity).
    change (replace "&quot;" "" "") with "". cbn [append]. rewrite append_nil_r.
    apply replace_none; [discriminate|]. now apply find_quot.
  - rewrite (replace_none "&quot;").
    + rewrite replace_here by discriminate. rewrite <- (append_nil_r (str1 ch_quot)) at 2.
      rewrite (replace_first (str1 ch_quot) "" s "") by (discriminate || reflexivity || now apply find_quot).
      change (replace (str1 ch_quot) "" "") with "". cbn [append]. now rewrite append_nil_r.
    + discriminate.
    + change (str1 ch_quot +++ s +++ str1 ch_quot) with ("" +++ String ch_quot (s +++ str1 ch_quot)).
      rewrite find_app_sep by reflexivity. rewrite find_eq.
      replace (starts_with "&quot;" (String ch_quot (s +++ str1 ch_quot))) with false by reflexivity.
      unfold str1. rewrite find_app_sep by (assumption || reflexivity). reflexivity.
Qed.
Lemma digits_no_char c n : is_digit c = false -> has_char c (show_N n) = false.
Proof. intros H. eapply all_char_has; [apply show_N_digits|exact H]. Qed.
Lemma no_amp_no_quot s : has_char ch_amp s = false -> contains "&quot;" s = false.
Proof. intros H. apply not_contains. now apply (find_missing ch_amp). Qed.

(** ** The printed words *)
Definition w_name (q sw : string) (o : option string) : list string :=
  match o with Some s => [sw; quoted q s] | None => [] end.
Definition range_text (r : N * N) : string := show_N (fst r) +++ "-" +++ show_N (snd r).
Definition w_range (q sw : string) (o : option (N * N)) : list string :=
  match o with Some r => [sw; quoted q (range_text r)] | None => [] end.
Definition w_flag (sw : string) (b : bool) : list string := if b then [sw] else [].
Definition styles_text (l : list (string * N)) : string := join "," (map (fun s => fst s +++ "," +++ show_N (snd s)) l).
Definition w_styles (q : string) (l : list (string * N)) : list string :=
  match l with [] => [] | _ => ["\t"; quoted q (styles_text l)] end.
Definition w_tc (q : string) (o : option (option string)) : list string :=
  match o with Some (Some s) => ["\f"; quoted q s] | Some None => ["\f"] | None => [] end.
Definition w_after (q : string) (t : instr_toc) : list string :=
  w_range q "\l" (it_tc_level t) ++ w_range q "\n" (it_omit_page t) ++ w_range q "\o" (it_heading t) ++
  w_name q "\p" (it_entry_sep t) ++ w_name q "\s" (it_seq_prefix t) ++ w_styles q (it_styles t) ++
  w_flag "\h" (it_hyperlink t) ++ w_flag "\u" (it_line_level t) ++ w_flag "\w" (it_preserve_tab t) ++
  w_flag "\x" (it_preserve_nl t) ++ w_flag "\z" (it_hide_web t).
Definition toc_words (q : string) (t : instr_toc) : list string :=
  w_name q "\a" (it_caption t) ++ w_name q "\b" (it_bookmark t) ++ w_name q "\c" (it_caption_numbers t) ++
  w_name q "\d" (it_seq_sep t) ++ w_tc q (it_tc_id t) ++ w_after q t.

Lemma print_name_spaced q sw o : print_name q (" " +++ sw +++ " ") o = spaced (w_name q sw o).
Proof. destruct o as [s|]; [|reflexivity]. cbn. now rewrite !append_assoc, append_nil_r. Qed.
Lemma print_range_spaced q sw o : print_range q (" " +++ sw +++ " ") o = spaced (w_range q sw o).
Proof. destruct o as [[a b]|]; [|reflexivity]. cbn. now rewrite !append_assoc, append_nil_r. Qed.
Lemma print_flag_spaced sw b : print_flag (" " +++ sw) b = spaced (w_flag sw b).
Proof. destruct b; [|reflexivity]. cbn. now rewrite append_nil_r. Qed.
Lemma print_styles_spaced q l : print_styles q l = spaced (w_styles q l).
Proof. destruct l; [reflexivity|]. unfold print_styles, w_styles, styles_text. cbn [spaced map concat_str]. cbn. now rewrite append_nil_r. Qed.
Lemma print_tc_spaced q o : print_tc_id q o = spaced (w_tc q o).
Proof. destruct o as [[s|]|]; try reflexivity. cbn. now rewrite append_nil_r. Qed.

Lemma print_toc_words q t : print_toc_with q t = "TOC" +++ spaced (toc_words q t).
Proof.
  unfold toc_words, w_after. rewrite !spaced_app.
  rewrite <- !print_name_spaced, <- !print_range_spaced, <- !print_flag_spaced, <- print_styles_spaced, <- print_tc_spaced.
  reflexivity.
Qed.

Lemma has_char_quoted c q s : has_char c q = false -> has_char c s = false -> has_char c (quoted q s) = false.
Proof. intros H1 H2. unfold quoted. now rewrite !has_char_app, H1, H2. Qed.
Lemma range_text_char c r : is_digit c = false -> c <> "-"%char -> has_char c (range_text r) = false.
Proof.
  intros H1 H2. unfold range_text. rewrite !has_char_app, !digits_no_char by assumption. cbn [has_char].
  rewrite (proj2 (Ascii.eqb_neq "-" c)) by congruence. reflexivity.
Qed.
Lemma styles_text_char c l : is_digit c = false -> c <> ","%char ->
  Forall (fun s => has_char c (fst s) = false) l -> has_char c (styles_text l) = false.
Proof.
  intros H1 H2 H. unfold styles_text.
  assert (Hc : forall s : string * N, has_char c (fst s) = false -> has_char c (fst s +++ "," +++ show_N (snd s)) = false).
  { intros s Hs. rewrite !has_char_app, Hs, digits_no_char by assumption. cbn [has_char].
    rewrite (proj2 (Ascii.eqb_neq "," c)) by congruence. reflexivity. }
  induction H as [|s l Hs H IH]; [reflexivity|]. cbn [map join]. destruct l as [|s2 l].
  - now apply Hc.
  - cbn [map] in *. rewrite !has_char_app, IH, Hs, digits_no_char by assumption.
    cbn [has_char]. rewrite (proj2 (Ascii.eqb_neq "," c)) by congruence. reflexivity.
Qed.

Lemma quote_mark_blank q : quote_mark q -> has_char " " q = false.
Proof. intros [-> | ->]; reflexivity. Qed.
Lemma plain_style_blank l : Forall plain_style l -> Forall (fun s => has_char " " (fst s) = false) l.
Proof. apply Forall_impl. intros s ((H & _) & _). exact H. Qed.

Lemma words_blank_free q t : quote_mark q -> plain_toc t -> Forall (fun w => has_char " " w = false) (toc_words q t).
Proof.
  intros Hq (H1 & H2 & H3 & H4 & H5 & H6 & H7 & H8 & H9 & H10 & H11). apply quote_mark_blank in Hq.
  assert (Hn : forall sw o, has_char " " sw = false -> on_some plain_name o -> Forall (fun w => has_char " " w = false) (w_name q sw o)).
  { intros sw [s|] Hs Ho; cbn; [|constructor]. constructor; [assumption|]. constructor; [|constructor].
    apply has_char_quoted; [assumption|apply Ho]. }
  assert (Hr : forall sw o, has_char " " sw = false -> Forall (fun w => has_char " " w = false) (w_range q sw o)).
  { intros sw [r|] Hs; cbn; [|constructor]. constructor; [assumption|]. constructor; [|constructor].
    apply has_char_quoted; [assumption|]. apply range_text_char; [reflexivity|discriminate]. }
  assert (Hf : forall sw b, has_char " " sw = false -> Forall (fun w => has_char " " w = false) (w_flag sw b)).
  { intros sw [] Hs; cbn; [|constructor]. constructor; [assumption|constructor]. }
  unfold toc_words, w_after. rewrite !Forall_app. repeat split;
    try (apply Hn; [reflexivity|assumption]); try (apply Hr; reflexivity); try (apply Hf; reflexivity).
  - destruct (it_tc_id t) as [[s|]|]; cbn; constructor; try constructor; try reflexivity; [|constructor].
    apply has_char_quoted; [assumption|apply H5].
  - destruct (it_styles t) as [|s l]; [constructor|]. cbn [w_styles]. constructor; [reflexivity|]. constructor; [|constructor].
    apply has_char_quoted; [assumption|]. apply styles_text_char; [reflexivity|discriminate|now apply plain_style_blank].
Qed.

(** ** Parsing the words, one switch at a time *)
Lemma name_step q sw (set : option string -> instr_toc -> instr_toc) (get : instr_toc -> option string) o rest t :
  quote_mark q -> arg_switch sw = Some (fun r => set (Some (unquote r))) -> (forall t, get t = None -> set None t = t) ->
  on_some plain_name o -> get t = None ->
  parse_words (w_name q sw o ++ rest) t = parse_words rest (set o t).
Proof.
  intros Hq Hs Hg Ho Ht. destruct o as [s|]; cbn [w_name app].
  - cbn [parse_words]. rewrite Hs. rewrite unquote_quoted by (assumption || apply Ho). reflexivity.
  - now rewrite (Hg t Ht).
Qed.
Lemma parse_range_text q r : quote_mark q -> plain_range r -> parse_level_range (quoted q (range_text r)) = Some r.
Proof.
  intros Hq (H1 & H2). unfold parse_level_range. rewrite unquote_quoted; [|assumption| |].
  - unfold range_text. change (show_N (fst r) +++ "-" +++ show_N (snd r)) with (show_N (fst r) +++ String "-" (show_N (snd r))).
    rewrite split_app by (apply digits_no_char; reflexivity). rewrite split_end by (apply digits_no_char; reflexivity).
    rewrite !parse_usize_show by assumption. now destruct r.
  - apply range_text_char; [reflexivity|discriminate].
  - apply no_amp_no_quot. apply range_text_char; [reflexivity|discriminate].
Qed.
Lemma range_step q sw (set : option (N * N) -> instr_toc -> instr_toc) get o rest t :
  quote_mark q -> arg_switch sw = Some (with_range set) -> (forall t : instr_toc, get t = @None (N * N) -> set None t = t) ->
  on_some plain_range o -> get t = None ->
  parse_words (w_range q sw o ++ rest) t = parse_words rest (set o t).
Proof.
  intros Hq Hs Hg Ho Ht. destruct o as [r|]; cbn [w_range app].
  - cbn [parse_words]. rewrite Hs. unfold with_range. now rewrite parse_range_text.
  - now rewrite (Hg t Ht).
Qed.
Lemma flag_step sw (set : bool -> instr_toc -> instr_toc) get b rest t :
  arg_switch sw = None -> sw =s "\f" = false -> (forall t, plain_switch sw t = set true t) ->
  (forall t : instr_toc, get t = false -> set false t = t) -> get t = false ->
  parse_words (w_flag sw b ++ rest) t = parse_words rest (set b t).
Proof.
  intros Hs Hf Hp Hg Ht. destruct b; cbn [w_flag app].
  - cbn [parse_words]. now rewrite Hs, Hf, Hp.
  - now rewrite (Hg t Ht).
Qed.
Lemma styles_text_cons s s2 l :
  styles_text (s :: s2 :: l) = fst s +++ String "," (show_N (snd s) +++ String "," (styles_text (s2 :: l))).
Proof.
  transitivity ((fst s +++ "," +++ show_N (snd s)) +++ "," +++ styles_text (s2 :: l)); [reflexivity|].
  now rewrite append_assoc.
Qed.
Lemma parse_styles_text l : Forall plain_style l -> l <> [] -> parse_styles (split "," (styles_text l)) = l.
Proof.
  induction l as [|s l IH]; [congruence|]. intros H _. inversion H as [|? ? ((_ & _) & Hc & Hn) Hl]; subst.
  destruct l as [|s2 l].
  - unfold styles_text. cbn [map join]. change (fst s +++ "," +++ show_N (snd s)) with (fst s +++ String "," (show_N (snd s))).
    rewrite split_app by assumption. rewrite split_end by (apply digits_no_char; reflexivity). cbn [parse_styles].
    rewrite parse_usize_show by assumption. now destruct s.
  - rewrite styles_text_cons.
    rewrite split_app by assumption. rewrite split_app by (apply digits_no_char; reflexivity). cbn [parse_styles].
    rewrite parse_usize_show by assumption. rewrite IH by (assumption || discriminate). now destruct s.
Qed.
Lemma styles_step q l rest t : quote_mark q -> Forall plain_style l -> it_styles t = [] ->
  parse_words (w_styles q l ++ rest) t = parse_words rest (set_styles l t).
Proof.
  intros Hq Hl Ht. destruct l as [|s l].
  - destruct t; cbn in Ht; subst; reflexivity.
  - cbn [w_styles app parse_words arg_switch String.eqb Ascii.eqb Bool.eqb].
    rewrite Ht. cbn [app]. rewrite unquote_quoted, parse_styles_text; try assumption; try discriminate; try reflexivity.
    + apply styles_text_char; [reflexivity|discriminate|]. eapply Forall_impl; [|exact Hl]. intros x ((_ & H & _) & _). exact H.
    + apply not_contains. change (styles_text (s :: l)) with (styles_text (s :: l)).
      clear Ht. revert s Hl. induction l as [|s2 l IH]; intros s Hl; inversion Hl as [|? ? ((_ & _ & Hc) & _) Hr]; subst; apply not_contains in Hc.
      * unfold styles_text; cbn [map join]. change (fst s +++ "," +++ show_N (snd s)) with (fst s +++ String "," (show_N (snd s))).
        rewrite find_app_sep by (assumption || reflexivity).
        rewrite (find_missing ch_amp); [reflexivity|reflexivity|]. cbn. apply digits_no_char. reflexivity.
      * rewrite styles_text_cons.
        rewrite find_app_sep by (assumption || reflexivity).
        replace (String "," (show_N (snd s) +++ String "," (styles_text (s2 :: l))))
          with ((String "," (show_N (snd s) +++ ",")) +++ styles_text (s2 :: l)) by (cbn; now rewrite append_assoc).
        rewrite find_skip; [now rewrite (IH s2 Hr)|]. cbn. rewrite has_char_app, digits_no_char by reflexivity. reflexivity.
Qed.

(** what becomes of the identifier of TC fields *)
Definition kept_id (o : option (option string)) (more : bool) : option (option string) :=
  match o with
  | Some (Some s) => Some (if s =s "" then None else Some s)
  | Some None => if more then Some None else None
  | None => None
  end.
Definition opens_switch (l : list string) : bool := match l with [] => false | _ => true end.
Lemma tc_step q o rest t : quote_mark q -> on_some (on_some plain_name) o -> it_tc_id t = None ->
  match rest with [] => True | w :: _ => starts_with "\" w = true end ->
  parse_words (w_tc q o ++ rest) t = parse_words rest (set_tc_id (kept_id o (opens_switch rest)) t).
Proof.
  intros Hq Ho Ht Hr. assert (Hn : set_tc_id None t = t) by (destruct t; cbn in Ht; subst; reflexivity).
  destruct o as [[s|]|].
  - cbn [w_tc app parse_words arg_switch String.eqb Ascii.eqb Bool.eqb].
    assert (E : starts_with "\" (quoted q s) = false) by (destruct Hq as [-> | ->]; reflexivity).
    rewrite E. rewrite unquote_quoted by (assumption || apply Ho). reflexivity.
  - cbn [w_tc app]. destruct rest as [|w rest].
    + cbn [kept_id opens_switch]. rewrite Hn. reflexivity.
    + cbn [parse_words arg_switch String.eqb Ascii.eqb Bool.eqb]. rewrite Hr. reflexivity.
  - cbn [w_tc app kept_id]. now rewrite Hn.
Qed.

Lemma after_opens q t : match w_after q t with [] => True | w :: _ => starts_with "\" w = true end.
Proof.
  unfold w_after.
  destruct (it_tc_level t); [reflexivity|]. destruct (it_omit_page t); [reflexivity|]. destruct (it_heading t); [reflexivity|].
  destruct (it_entry_sep t); [reflexivity|]. destruct (it_seq_prefix t); [reflexivity|]. destruct (it_styles t); [|reflexivity].
  destruct (it_hyperlink t); [reflexivity|]. destruct (it_line_level t); [reflexivity|]. destruct (it_preserve_tab t); [reflexivity|].
  destruct (it_preserve_nl t); [reflexivity|]. destruct (it_hide_web t); [reflexivity|exact I].
Qed.
Lemma after_later q t : opens_switch (w_after q t) = true <-> later_switch t.
Proof.
  unfold w_after, later_switch.
  destruct (it_tc_level t); [cbn; intuition congruence|]. destruct (it_omit_page t); [cbn; intuition congruence|].
  destruct (it_heading t); [cbn; intuition congruence|]. destruct (it_entry_sep t); [cbn; intuition congruence|].
  destruct (it_seq_prefix t); [cbn; intuition congruence|]. destruct (it_styles t); [|cbn; intuition congruence].
  destruct (it_hyperlink t); [cbn; intuition congruence|]. destruct (it_line_level t); [cbn; intuition congruence|].
  destruct (it_preserve_tab t); [cbn; intuition congruence|]. destruct (it_preserve_nl t); [cbn; intuition congruence|].
  destruct (it_hide_web t); cbn; intuition congruence.
Qed.

Ltac unset := let t := fresh in let H := fresh in intros t H; destruct t; cbn in H; subst; reflexivity.
Lemma parse_printed q t : quote_mark q -> plain_toc t ->
  parse_toc (print_toc_with q t) = set_tc_id (kept_id (it_tc_id t) (opens_switch (w_after q t))) t.
Proof.
  intros Hq Hp. unfold parse_toc. rewrite print_toc_words, split_spaced; [|now apply words_blank_free|reflexivity].
  cbn [parse_words arg_switch String.eqb Ascii.eqb Bool.eqb plain_switch].
  destruct Hp as (H1 & H2 & H3 & H4 & H5 & H6 & H7 & H8 & H9 & H10 & H11).
  unfold toc_words.
  rewrite (name_step q "\a" set_caption it_caption) by (assumption || reflexivity || unset).
  rewrite (name_step q "\b" set_bookmark it_bookmark) by (assumption || reflexivity || unset).
  rewrite (name_step q "\c" set_caption_numbers it_caption_numbers) by (assumption || reflexivity || unset).
  rewrite (name_step q "\d" set_seq_sep it_seq_sep) by (assumption || reflexivity || unset).
  rewrite tc_step by (assumption || reflexivity || apply after_opens).
  set (k := kept_id _ _). clearbody k. unfold w_after.
  rewrite (range_step q "\l" set_tc_level it_tc_level) by (assumption || reflexivity || unset).
  rewrite (range_step q "\n" set_omit_page it_omit_page) by (assumption || reflexivity || unset).
  rewrite (range_step q "\o" set_heading it_heading) by (assumption || reflexivity || unset).
  rewrite (name_step q "\p" set_entry_sep it_entry_sep) by (assumption || reflexivity || unset).
  rewrite (name_step q "\s" set_seq_prefix it_seq_prefix) by (assumption || reflexivity || unset).
  rewrite styles_step by (assumption || reflexivity).
  rewrite (flag_step "\h" set_hyperlink it_hyperlink) by (reflexivity || unset).
  rewrite (flag_step "\u" set_line_level it_line_level) by (reflexivity || unset).
  rewrite (flag_step "\w" set_preserve_tab it_preserve_tab) by (reflexivity || unset).
  rewrite (flag_step "\x" set_preserve_nl it_preserve_nl) by (reflexivity || unset).
  rewrite <- (app_nil_r (w_flag "\z" _)).
  rewrite (flag_step "\z" set_hide_web it_hide_web) by (reflexivity || unset).
  cbn [parse_words]. destruct t. reflexivity.
Qed.

(** ** What an XML reader reports for the printed instruction *)
From Verif Require Import XmlParser XmlSpec XmlProofs XmlTreeProofs.
Definition reads (a b : string) : Prop :=
  forall r, text_meaning None (a +++ r) = option_map (String.append b) (text_meaning None r).
Lemma reads_app a b a' b' : reads a b -> reads a' b' -> reads (a +++ a') (b +++ b').
Proof.
  intros H H' r. rewrite append_assoc, H, H'. destruct (text_meaning None r); [|reflexivity]. cbn. now rewrite append_assoc.
Qed.
Lemma reads_plain s : markup_free s -> reads s s.
Proof.
  intros (H1 & H2 & H3) r. induction s as [|c s IH]; [cbn [append]; destruct (text_meaning None r); reflexivity|].
  cbn [has_char] in *. apply orb_false_iff in H1 as [E1 H1]. apply orb_false_iff in H2 as [E2 H2]. apply orb_false_iff in H3 as [E3 H3].
  rewrite append_cons. cbn [text_meaning]. rewrite E1, E2, E3, (IH H1 H2 H3). destruct (text_meaning None r); reflexivity.
Qed.
Lemma reads_quot : reads "&quot;" (str1 ch_quot).
Proof. intros r. cbn. destruct (text_meaning None r); reflexivity. Qed.
Lemma reads_quoted s : markup_free s -> reads (quoted "&quot;" s) (quoted (str1 ch_quot) s).
Proof. intros H. unfold quoted. apply reads_app; [apply reads_quot|]. apply reads_app; [now apply reads_plain|apply reads_quot]. Qed.
Lemma reads_print_toc t : markup_free_toc t -> reads (print_toc_with "&quot;" t) (print_toc_with (str1 ch_quot) t).
Proof.
  intros (H1 & H2 & H3 & H4 & H5 & H6 & H7 & H8).
  assert (Hn : forall sw o, markup_free sw -> on_some markup_free o -> reads (print_name "&quot;" sw o) (print_name (str1 ch_quot) sw o)).
  { intros sw [s|] Hs Ho; cbn [print_name]; [|apply reads_plain; repeat split]. apply reads_app; [now apply reads_plain|now apply reads_quoted]. }
  assert (Hr : forall sw o, markup_free sw -> reads (print_range "&quot;" sw o) (print_range (str1 ch_quot) sw o)).
  { intros sw [[a b]|] Hs; cbn [print_range]; [|apply reads_plain; repeat split]. apply reads_app; [now apply reads_plain|apply reads_quoted].
    change (show_N a +++ "-" +++ show_N b) with (range_text (a, b)). repeat split; (apply range_text_char; [reflexivity|discriminate]). }
  assert (Hf : forall sw b, markup_free sw -> reads (print_flag sw b) (print_flag sw b)).
  { intros sw [] Hs; apply reads_plain; [assumption|repeat split]. }
  unfold print_toc_with.
  repeat (apply reads_app;
    [first [apply Hn; [repeat split|assumption] | apply Hr; repeat split | apply Hf; repeat split | apply reads_plain; repeat split; fail | idtac]|]);
    try (apply Hf; repeat split).
  - destruct (it_tc_id t) as [[s|]|]; try (apply reads_plain; repeat split; fail). apply reads_app; [apply reads_plain; repeat split|].
    now apply reads_quoted.
  - unfold print_styles. destruct (it_styles t) as [|s l]; [apply reads_plain; repeat split|].
    apply reads_app; [apply reads_plain; repeat split|]. apply reads_quoted. change (markup_free (styles_text (s :: l))).
    repeat split; (apply styles_text_char; [reflexivity|discriminate|]); (eapply Forall_impl; [|exact H8]); intros x Hx; apply Hx.
Qed.
Lemma print_toc_read t : markup_free_toc t -> text_meaning None (print_toc t) = Some (print_toc_with (str1 ch_quot) t).
Proof.
  intros H. pose proof (reads_print_toc t H "") as E. rewrite append_nil_r in E. unfold print_toc. rewrite E. cbn. now rewrite append_nil_r.
Qed.

(** ** PAGEREF and TC *)
Lemma pageref_parsed key h p : has_char " " key = false ->
  parse_pageref (key +++ print_flag " \p" p +++ print_flag " \h" h) = (key, h, p).
Proof.
  intros H. unfold parse_pageref.
  change " \p" with (" " +++ "\p"). change " \h" with (" " +++ "\h"). rewrite !print_flag_spaced, <- spaced_app.
  rewrite split_spaced; [|destruct p, h; repeat constructor|assumption]. destruct p, h; reflexivity.
Qed.

Definition tc_words (t : instr_tc) : list string :=
  match tc_item t with Some i => ["\f"; i] | None => [] end ++
  match tc_level t with Some l => ["\l"; show_N l] | None => [] end ++ w_flag "\n" (tc_omit t).
Lemma print_tc_words t : print_tc t = "TC " +++ (str1 ch_quot +++ tc_text t +++ str1 ch_quot) +++ spaced (tc_words t).
Proof.
  unfold print_tc, tc_words. rewrite !spaced_app, <- print_flag_spaced, !append_assoc. do 4 f_equal.
  destruct (tc_item t), (tc_level t); cbn; now rewrite ?append_assoc, ?append_nil_r.
Qed.
Lemma unquote_plain s : plain_name s -> unquote s = s.
Proof.
  intros (_ & H1 & H2). unfold unquote. rewrite (replace_none "&quot;"); [|discriminate|now apply not_contains].
  apply replace_none; [discriminate|now apply find_quot].
Qed.
Lemma tc_parsed t : has_char " " (tc_text t) = false -> on_some plain_name (tc_item t) -> on_some (fun l => (l <= max_u64)%N) (tc_level t) ->
  parse_tc ((str1 ch_quot +++ tc_text t +++ str1 ch_quot) +++ spaced (tc_words t)) =
  {| tc_text := escape_owned (str1 ch_quot +++ tc_text t +++ str1 ch_quot); tc_omit := tc_omit t; tc_level := tc_level t; tc_item := tc_item t |}.
Proof.
  intros H1 H2 H3. unfold parse_tc. rewrite split_spaced.
  - unfold tc_words. destruct t as [text om lv it]. cbn [tc_text tc_omit tc_level tc_item] in *.
    assert (Hu : forall n, unquote (show_N n) = show_N n).
    { intros n. apply unquote_plain. repeat split; [| |apply no_amp_no_quot]; (apply digits_no_char; reflexivity). }
    destruct it as [i|], lv as [l|], om; cbn [app w_flag parse_tc_words String.eqb Ascii.eqb Bool.eqb tc_new tc_text tc_omit tc_level tc_item];
      rewrite ?Hu, ?unquote_plain by assumption; rewrite ?parse_usize_show by assumption; reflexivity.
  - unfold tc_words. destruct (tc_item t), (tc_level t), (tc_omit t); cbn; repeat constructor;
      try (apply H2); apply digits_no_char; reflexivity.
  - rewrite !has_char_app, H1. reflexivity.
Qed.

Lemma escape_length s : has_char ch_cr s = false -> String.length s <= String.length (escape s).
Proof.
  induction s as [|c s IH]; cbn; [lia|]. intros H. apply orb_false_iff in H as [E H]. specialize (IH H). rewrite append_length.
  assert (0 < String.length (escape_char c)); [|lia]. unfold escape_char. rewrite E.
  repeat match goal with |- context [if ?b then _ else _] => destruct b end; cbn; lia.
Qed.
Lemma escape_no_cr s : has_char ch_cr (escape s) = false.
Proof.
  induction s as [|c s IH]; [reflexivity|]. cbn [escape]. rewrite has_char_app, IH, orb_false_r. unfold escape_char.
  destruct (c =c ch_amp); [reflexivity|]. destruct (c =c ch_lt); [reflexivity|]. destruct (c =c ch_gt); [reflexivity|].
  destruct (c =c ch_quot); [reflexivity|]. destruct (c =c ch_apos); [reflexivity|]. destruct (c =c ch_nl); [reflexivity|].
  destruct (c =c ch_cr) eqn:E; [reflexivity|]. cbn [has_char str1]. now rewrite E.
Qed.
Lemma quoted_text_differs s : escape_owned (str1 ch_quot +++ s +++ str1 ch_quot) <> s.
Proof.
  unfold escape_owned. change (any_char needs_escape (str1 ch_quot +++ s +++ str1 ch_quot)) with true. cbv iota. intros E.
  assert (Hc : has_char ch_cr s = false) by (rewrite <- E; apply escape_no_cr).
  apply (f_equal String.length) in E. change (str1 ch_quot +++ s +++ str1 ch_quot) with (String ch_quot (s +++ str1 ch_quot)) in E. cbn [escape] in E. rewrite append_length in E.
  change (escape_char ch_quot) with "&quot;" in E.
  pose proof (escape_length (s +++ str1 ch_quot)) as H. rewrite has_char_app, Hc in H. specialize (H eq_refl).
  rewrite append_length in H. cbn in *. lia.
Qed.

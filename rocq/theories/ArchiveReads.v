(** The readers of OpenModel come back on complete texts. *)
From Coq Require Import NArith ZArith List Bool Lia.
From Verif Require Import Str Props Ast XmlParser XmlProofs XmlTree ReadBase ReadProps ReadModel OpenModel ReadSpec ReadProg ReadProofs ReadTextProofs.
From Verif Require Import ArchiveSpec ArchiveProofs.
Import ListNotations.
Open Scope list_scope.
Open Scope nat_scope.

(** ** Elements *)
Section Element.
Context {A B : Type} (own : string) (start : A -> qname -> list attribute -> R A) (fin : A -> B) (a0 : A).
Definition element_body (a : A) (e : event) : R (turn A B) :=
  match e with
  | EStart q atts => a' <- start a q atts ;; ret (Again a')
  | EEnd q => ret (if q_local q =s own then Done (fin a) else Again a)
  | EErr => fail
  | _ => ret (Again a)
  end.
Lemma element_loop : element own start fin a0 = loop element_body a0.
Proof. reflexivity. Qed.
Lemma element_body_takes : (forall a q atts, takes (start a q atts)) -> forall a e, takes (element_body a e).
Proof.
  intros H a [q atts|q|c|c| |]; cbn [element_body]; try (apply takes_pure; solve [pure_auto]).
  apply takes_bind; [apply H|intros; apply takes_pure; pure_auto].
Qed.
Lemma takes_element : (forall a q atts, takes (start a q atts)) -> takes (element own start fin a0).
Proof. intros H. rewrite element_loop. apply takes_loop. intros. now apply element_body_takes. Qed.
Lemma fueled_element k : (forall a q atts, takes (start a q atts)) -> (forall a q atts, fueled k (start a q atts)) ->
  fueled (S k) (element own start fin a0).
Proof.
  intros T H. rewrite element_loop. apply fueled_loop; intros a e; [now apply element_body_takes|].
  destruct e as [q atts|q|c|c| |]; cbn [element_body]; try (apply fueled_pure; solve [pure_auto]).
  apply fueled_bind; [apply T|apply H|intros; apply fueled_pure; pure_auto].
Qed.
Lemma closes_element : (forall a q atts, closes (q_local q) (start a q atts)) -> closes own (element own start fin a0).
Proof.
  intros H s q o Hq Hc. rewrite element_loop. unfold loop. apply (turns_above A B element_body q o) with (inner := []); [|exact Hc].
  clear s Hc. intros a e l c inner Hc. destruct e as [q' atts|q'|c'|c'| |]; cbn [element_body].
  - assert (Hc' : closing (q' :: inner ++ q :: o) l).
    { destruct Hc as [Hl Hn]. cbn in Hl. apply no_error_cons in Hn. now split. }
    pose proof (H a q' atts (st l c) q' (inner ++ q :: o) eq_refl Hc') as X. unfold bind.
    destruct (start a q' atts (st l c)) as [a' s'|s'| | |]; cbn in *; auto.
    + destruct X as [i X]. exists (i ++ inner). now rewrite <- app_assoc.
    + destruct X as [i X]. exists (i ++ inner ++ [q]). now rewrite <- !app_assoc.
  - apply closing_end in Hc as [(-> & -> & Hc)|[inner' Hc]].
    + rewrite Hq, String.eqb_refl. now exists [].
    + destruct (q_local q' =s own); cbn; [apply (above_weaken q)|]; now exists inner'.
  - exists inner. now apply (closing_other _ (EChars c')).
  - exists inner. now apply (closing_other _ (EWs c')).
  - exists inner. now apply (closing_other _ EDocEnd).
  - destruct Hc as [_ Hn]. exfalso. apply Hn. now left.
Qed.
End Element.

(** ** Parts *)
Section Whole.
Context {A B : Type} (body : A -> event -> R (turn A B)) (fin : A -> B).
Context (Tk : forall a e, e <> EDocEnd -> takes (body a e)).
Lemma whole_fueled k : (forall a e, e <> EDocEnd -> fueled k (body a e)) ->
  forall fuel a s, length (rs_events s) <= fuel -> length (rs_events s) <= k -> part_turns fuel body fin a s <> NoFuel.
Proof.
  intros Fs. induction fuel as [|n IH]; intros a s0 L Lk; cbn [part_turns]; destruct (rs_events s0) as [|e l] eqn:E;
    cbn [length] in *; try discriminate; try lia.
  assert (G : e <> EDocEnd -> match body a e {| rs_events := l; rs_para := rs_para s0 |} with
      | Val (Again a') s' => part_turns n body fin a' s' | Val (Done b) s' => Val b s' | Err s' => Err s' | Panic => Panic | Hang => Hang | NoFuel => NoFuel end <> NoFuel).
  { intros Hd. assert (Fb := Fs a e Hd (st l (rs_para s0)) ltac:(cbn; lia)). assert (Tb := Tk a e Hd (st l (rs_para s0))). unfold st in Fb, Tb.
    destruct (body a e _) as [[a'|b] s'|s'| | |]; try discriminate; try easy. apply IH; cbn in Tb; apply suffix_length in Tb; lia. }
  destruct e; try (apply G; discriminate). discriminate.
Qed.
Definition turn_leaves (o : list qname) (x : out (turn A B)) : Prop :=
  match x with
  | Val (Again _) s' => exists inner, closing (inner ++ o) (rs_events s')
  | Val (Done _) _ | Err _ | Panic | NoFuel => True
  | Hang => False
  end.
Context (Hs : forall a q atts s o, closing (q :: o) (rs_events s) -> turn_leaves o (body a (EStart q atts) s)).
Context (Hp : forall a e, match e with EStart _ _ | EDocEnd => False | _ => True end -> pure (body a e)).
Lemma whole_closing : forall fuel a s o, closing o (rs_events s) -> part_turns fuel body fin a s <> Hang.
Proof.
  induction fuel as [|n IH]; intros a s0 open Hc; cbn [part_turns]; destruct (rs_events s0) as [|e l] eqn:E; try discriminate; [destruct e; discriminate|].
  assert (Pure : match e with EStart _ _ | EDocEnd => False | _ => True end -> (exists o, closing o l) ->
    match body a e {| rs_events := l; rs_para := rs_para s0 |} with
      | Val (Again a') s' => part_turns n body fin a' s' | Val (Done b) s' => Val b s' | Err s' => Err s' | Panic => Panic | Hang => Hang | NoFuel => NoFuel end <> Hang).
  { intros He [o Ho]. destruct (Hp a e He (rs_para s0)) as [[[x|x] c|c|] X]; specialize (X l); unfold st in X; rewrite X; cbn [lift]; try discriminate. now apply (IH _ _ o). }
  destruct e as [q atts|q|c|c| |]; try discriminate.
  - assert (Hc' : closing (q :: open) l). { destruct Hc as [Hl Hn]. apply no_error_cons in Hn. now split. }
    specialize (Hs a q atts (st l (rs_para s0)) open Hc'). unfold st in Hs.
    destruct (body a (EStart q atts) _) as [[a'|b] s'|s'| | |]; try discriminate; try easy.
    destruct Hs as [inner Cb]. now apply (IH a' s' (inner ++ open)).
  - apply Pure; [exact I|]. destruct Hc as [Hl Hn]. apply no_error_cons in Hn. cbn in Hl. destruct open as [|m open]; [discriminate|].
    destruct (qname_eqb q m); [|discriminate]. now exists open.
  - apply Pure; [exact I|]. exists open. now apply (closing_other _ (EChars c)).
  - apply Pure; [exact I|]. exists open. now apply (closing_other _ (EWs c)).
  - destruct Hc as [_ Hn]. exfalso. apply Hn. now left.
Qed.
Lemma whole_returns s a : (forall a e, e <> EDocEnd -> fueled (length (rs_events s)) (body a e)) -> closing [] (rs_events s) ->
  returns (part_loop body fin a s).
Proof.
  intros F C. unfold part_loop. pose proof (whole_fueled _ F _ a s (le_n _) (le_n _)) as N. pose proof (whole_closing (length (rs_events s)) a s [] C) as H.
  destruct (part_turns _ body fin a s); cbn; auto.
Qed.
End Whole.
Lemma leaves_again A B (m : R A) (f : A -> turn A B) q o s :
  (forall a, exists a', f a = Again a') -> closes (q_local q) m -> closing (q :: o) (rs_events s) -> turn_leaves o (bind m (fun a => ret (f a)) s).
Proof.
  intros Hf Hm Hc. specialize (Hm s q o eq_refl Hc). unfold bind. destruct (m s) as [a s'|s'| | |]; cbn in *; auto.
  destruct (Hf a) as [a' ->]. exact Hm.
Qed.
Lemma leaves_ret A B (a : A) q o s : closing (q :: o) (rs_events s) -> turn_leaves (A := A) (B := B) o (ret (Again a) s).
Proof. intros H. cbn. now exists [q]. Qed.
(** Readers whose turns take no event always come back. *)
Lemma pure_returns A B (body : A -> event -> R (turn A B)) fin a s : (forall a e, e <> EDocEnd -> pure (body a e)) -> returns (part_loop body fin a s).
Proof.
  intros Hp. unfold part_loop. generalize (le_n (length (rs_events s))). generalize (length (rs_events s)) at 2 3 as fuel. intros fuel. revert a s.
  induction fuel as [|n IH]; intros a s L; cbn [part_turns]; destruct (rs_events s) as [|e l] eqn:E; cbn [length] in L; try lia; try exact I.
  assert (G : e <> EDocEnd -> returns (match body a e {| rs_events := l; rs_para := rs_para s |} with
      | Val (Again a') s' => part_turns n body fin a' s' | Val (Done b) s' => Val b s' | Err s' => Err s' | Panic => Panic | Hang => Hang | NoFuel => NoFuel end)).
  { intros He. destruct (Hp a e He (rs_para s)) as [[[x|x] c|c|] X]; specialize (X l); unfold st in X; rewrite X; cbn; auto. apply IH. cbn. lia. }
  destruct e; try (apply G; discriminate). exact I.
Qed.

(** ** Extended comments *)
Lemma ext_returns s : returns (read_comments_ext s).
Proof.
  unfold read_comments_ext. apply pure_returns. intros a [q atts|q|c|c| |] He; try congruence; try (pure_auto; fail).
  destruct (q_local q =s "commentEx"); [|pure_auto]. unfold read_comment_ext. pure_auto.
Qed.

(** ** Custom properties *)
Definition property_turn (key : string) (m : list (string * string)) (e : event) : R (turn (list (string * string)) (list (string * string))) :=
  match e with
  | EStart q _ =>
      if q_local q =s "lpwstr" then
        x <- next_event ;; ret (Again (match x with EChars c => put_custom key c m | _ => m end))
      else ret (Again m)
  | EEnd q => ret (if q_local q =s "property" then Done m else Again m)
  | _ => ret (Again m)
  end.
Lemma property_loop key : read_property key = loop (property_turn key).
Proof. reflexivity. Qed.
Lemma next_takes : takes next_event.
Proof. intros s. unfold next_event. destruct (rs_events s) as [|e l] eqn:E; cbn; [rewrite E|]; [apply suffix_refl|apply suffix_cons]. Qed.
Lemma next_fueled k : fueled k next_event.
Proof. intros s _. unfold next_event. destruct (rs_events s); discriminate. Qed.
Lemma property_turn_takes key m e : takes (property_turn key m e).
Proof.
  destruct e as [q atts|q|c|c| |]; cbn [property_turn]; try (apply takes_pure; solve [pure_auto]).
  destruct (q_local q =s "lpwstr"); [|apply takes_pure; pure_auto]. apply takes_bind; [apply next_takes|intros; apply takes_pure; pure_auto].
Qed.
Lemma property_takes key m : takes (read_property key m).
Proof. rewrite property_loop. apply takes_loop. apply property_turn_takes. Qed.
Lemma property_fueled key m k : fueled k (read_property key m).
Proof.
  apply (fueled_le _ k (S k)); [lia|]. rewrite property_loop. apply fueled_loop; [apply property_turn_takes|].
  intros a [q atts|q|c|c| |]; cbn [property_turn]; try (apply fueled_pure; solve [pure_auto]).
  destruct (q_local q =s "lpwstr"); [|apply fueled_pure; pure_auto]. apply fueled_bind; [apply next_takes|apply next_fueled|intros; apply fueled_pure; pure_auto].
Qed.
(** one event more *)
Lemma closing_next o l : closing o l -> o <> [] -> exists e l' o', l = e :: l' /\ closing o' l' /\ (o' = tl o \/ exists x, o' = x ++ o).
Proof.
  intros [H Hn] Ho. destruct l as [|e l]; [cbn in H; injection H as ->; congruence|]. exists e, l.
  pose proof (no_error_cons _ _ Hn) as Hn'. destruct e as [q atts|q|c|c| |]; cbn in H.
  - exists (q :: o). split; [reflexivity|]. split; [now split|]. right. now exists [q].
  - destruct o as [|m o]; [discriminate|]. destruct (qname_eqb q m); [|discriminate]. exists o. split; [reflexivity|]. split; [now split|]. now left.
  - exists o. split; [reflexivity|]. split; [now split|]. right. now exists [].
  - exists o. split; [reflexivity|]. split; [now split|]. right. now exists [].
  - exists o. split; [reflexivity|]. split; [now split|]. right. now exists [].
  - exfalso. apply Hn. now left.
Qed.
Lemma property_closes key m : closes "property" (read_property key m).
Proof.
  intros s q o Hq Hc. rewrite property_loop. unfold loop. apply (turns_above _ _ (property_turn key) q o) with (inner := []); [|exact Hc].
  clear s Hc. intros a e l c inner Hc. destruct e as [q' atts|q'|c'|c'| |]; cbn [property_turn].
  - assert (Hc' : closing ((q' :: inner) ++ q :: o) l).
    { destruct Hc as [Hl Hn]. cbn in Hl. apply no_error_cons in Hn. now split. }
    destruct (q_local q' =s "lpwstr"); [|now exists (q' :: inner)].
    destruct (closing_next _ _ Hc' ltac:(discriminate)) as (e & l' & o' & -> & Hc2 & Ho'). unfold bind, next_event. cbn [st rs_events rs_para ret].
    cbn. destruct Ho' as [->|[x ->]]; [now exists inner|]. exists (x ++ q' :: inner). rewrite <- app_assoc. exact Hc2.
  - apply closing_end in Hc as [(-> & -> & Hc)|[inner' Hc]].
    + rewrite Hq, String.eqb_refl. now exists [].
    + destruct (q_local q' =s "property"); cbn; [apply (above_weaken q)|]; now exists inner'.
  - exists inner. now apply (closing_other _ (EChars c')).
  - exists inner. now apply (closing_other _ (EWs c')).
  - exists inner. now apply (closing_other _ EDocEnd).
  - destruct Hc as [_ Hn]. exfalso. apply Hn. now left.
Qed.
Lemma custom_returns s : closing [] (rs_events s) -> returns (read_custom s).
Proof.
  intros Hc. unfold read_custom. apply whole_returns; [| | | |exact Hc].
  - intros a [q atts|q|c|c| |] He; try congruence; try (apply takes_pure; solve [pure_auto]). destruct (q_local q =s "property"); [|apply takes_pure; pure_auto].
    destruct (attr_get "name" atts); [|apply takes_pure; pure_auto]. apply takes_bind; [apply property_takes|intros; apply takes_pure; pure_auto].
  - intros a q atts s0 o Ho. destruct (q_local q =s "property") eqn:Q; [|now apply (leaves_ret _ _ _ q)]. apply String.eqb_eq in Q.
    destruct (attr_get "name" atts) as [key|]; [|now apply (leaves_ret _ _ _ q)].
    apply (leaves_again _ _ (read_property key a) (fun m => Again m) q); eauto. rewrite Q. apply property_closes.
  - intros a [q atts|q|c|c| |] He; try contradiction; pure_auto.
  - intros a [q atts|q|c|c| |] He; try congruence; try (apply fueled_pure; solve [pure_auto]). destruct (q_local q =s "property"); [|apply fueled_pure; pure_auto].
    destruct (attr_get "name" atts); [|apply fueled_pure; pure_auto]. apply fueled_bind; [apply property_takes|apply property_fueled|intros; apply fueled_pure; pure_auto].
Qed.

(** ** Themes *)
Lemma group_pure f e : pure ((fun f e =>
    match e with
    | EStart q atts => ret (Again (
        if q_local q =s "latin" then
          upd (attr_get "typeface" atts) (fun t f => {| fg_latin := t; fg_ea := fg_ea f; fg_cs := fg_cs f; fg_fonts := fg_fonts f |}) f
        else if q_local q =s "ea" then
          upd (attr_get "typeface" atts) (fun t f => {| fg_latin := fg_latin f; fg_ea := t; fg_cs := fg_cs f; fg_fonts := fg_fonts f |}) f
        else if q_local q =s "cs" then
          upd (attr_get "typeface" atts) (fun t f => {| fg_latin := fg_latin f; fg_ea := fg_ea f; fg_cs := t; fg_fonts := fg_fonts f |}) f
        else if q_local q =s "font" then
          match last_attr "script" atts, last_attr "typeface" atts with
          | Some s, Some t => {| fg_latin := fg_latin f; fg_ea := fg_ea f; fg_cs := fg_cs f; fg_fonts := fg_fonts f ++ [(s, t)] |}
          | _, _ => f
          end
        else f))
    | EEnd q => ret (if (q_local q =s "majorFont") || (q_local q =s "minorFont") then Done f else Again f)
    | EErr => fail
    | _ => ret (Again f)
    end) f e : R (turn font_group font_group)).
Proof. destruct e; cbv beta iota; first [apply pure_ret|apply pure_fail]. Qed.
Lemma group_takes : takes read_font_group.
Proof. apply takes_loop. intros f e. apply takes_pure. apply group_pure. Qed.
Lemma group_fueled k : fueled k read_font_group.
Proof. apply (fueled_le _ k (S k)); [lia|]. apply fueled_loop; intros f e; [apply takes_pure|apply fueled_pure]; apply group_pure. Qed.
Lemma group_closes own : own = "majorFont"%string \/ own = "minorFont"%string -> closes own read_font_group.
Proof.
  intros Ho s q o Hq Hc. unfold read_font_group, loop. eapply turns_above with (q := q) (inner := []); [|exact Hc].
  clear s Hc. intros a e l c inner Hc. destruct e as [q' atts|q'|c'|c'| |].
  - exists (q' :: inner). destruct Hc as [Hl Hn]. cbn in Hl. apply no_error_cons in Hn. now split.
  - apply closing_end in Hc as [(-> & -> & Hc)|[inner' Hc]].
    + assert (E : (q_local q =s "majorFont") || (q_local q =s "minorFont") = true) by (rewrite Hq; destruct Ho as [->| ->]; reflexivity). rewrite E. now exists [].
    + destruct ((q_local q' =s "majorFont") || (q_local q' =s "minorFont")); cbn; [apply (above_weaken q)|]; now exists inner'.
  - exists inner. now apply (closing_other _ (EChars c')).
  - exists inner. now apply (closing_other _ (EWs c')).
  - exists inner. now apply (closing_other _ EDocEnd).
  - destruct Hc as [_ Hn]. exfalso. apply Hn. now left.
Qed.
Lemma scheme_takes : takes read_font_scheme.
Proof.
  apply takes_element. intros t q atts. destruct (_ && _); [|destruct (_ && _)]; try (apply takes_pure; solve [pure_auto]);
    (apply takes_bind; [apply takes_attempt, group_takes|intros; apply takes_pure; pure_auto]).
Qed.
Lemma scheme_fueled k : fueled k read_font_scheme.
Proof.
  apply (fueled_le _ k (S k)); [lia|]. apply fueled_element; intros t q atts; destruct (_ && _); try destruct (_ && _);
    try (apply takes_pure; solve [pure_auto]); try (apply fueled_pure; solve [pure_auto]).
  - apply takes_bind; [apply takes_attempt, group_takes|intros; apply takes_pure; pure_auto].
  - apply takes_bind; [apply takes_attempt, group_takes|intros; apply takes_pure; pure_auto].
  - apply fueled_bind; [apply takes_attempt, group_takes|apply fueled_attempt, group_fueled|intros; apply fueled_pure; pure_auto].
  - apply fueled_bind; [apply takes_attempt, group_takes|apply fueled_attempt, group_fueled|intros; apply fueled_pure; pure_auto].
Qed.
Lemma scheme_closes : closes "fontScheme" read_font_scheme.
Proof.
  apply closes_element. intros t q atts.
  destruct (prefixed_a q && (q_local q =s "majorFont")) eqn:Q1.
  - apply andb_prop in Q1 as [_ Q1]. apply String.eqb_eq in Q1. apply closes_then; [|intros; pure_auto]. apply closes_attempt, group_closes. now left.
  - destruct (prefixed_a q && (q_local q =s "minorFont")) eqn:Q2; [|apply closes_pure; pure_auto].
    apply andb_prop in Q2 as [_ Q2]. apply String.eqb_eq in Q2. apply closes_then; [|intros; pure_auto]. apply closes_attempt, group_closes. now right.
Qed.
Lemma theme_returns s : closing [] (rs_events s) -> returns (read_theme s).
Proof.
  intros Hc. unfold read_theme. apply whole_returns; [| | | |exact Hc].
  - intros a [q atts|q|c|c| |] He; try congruence; try (apply takes_pure; solve [pure_auto]). destruct (q_local q =s "fontScheme"); [|apply takes_pure; pure_auto].
    apply takes_bind; [apply takes_attempt, scheme_takes|intros; apply takes_pure; pure_auto].
  - intros a q atts s0 o Ho. destruct (q_local q =s "fontScheme") eqn:Q; [|now apply (leaves_ret _ _ _ q)]. apply String.eqb_eq in Q.
    pose proof (closes_attempt _ _ _ scheme_closes s0 q o Q Ho) as X. unfold bind. destruct (attempt read_font_scheme s0) as [x s'|s'| | |]; cbn in *; auto.
  - intros a [q atts|q|c|c| |] He; try contradiction; pure_auto.
  - intros a [q atts|q|c|c| |] He; try congruence; try (apply fueled_pure; solve [pure_auto]). destruct (q_local q =s "fontScheme"); [|apply fueled_pure; pure_auto].
    apply fueled_bind; [apply takes_attempt, scheme_takes|apply fueled_attempt, scheme_fueled|intros; apply fueled_pure; pure_auto].
Qed.

(** ** Web settings *)
Lemma divs_child_takes sub d : (forall a, takes (sub a)) -> takes (read_divs_child sub d).
Proof.
  intros H. apply takes_element. intros x q a. destruct (q_local q =s "div"); [|apply takes_pure; pure_auto].
  apply takes_bind; [apply takes_attempt, H|intros; apply takes_pure; pure_auto].
Qed.
Lemma div_takes n : forall a, takes (read_div n a).
Proof.
  induction n as [|n IH]; intros a; cbn [read_div]; [apply takes_no_fuel|]. apply takes_element. intros x q b.
  destruct (existsb _ _); [apply takes_pure; pure_auto|]. destruct (q_local q =s "divsChild"); [now apply divs_child_takes|apply takes_pure; pure_auto].
Qed.
Lemma divs_child_fueled k sub d : (forall a, takes (sub a)) -> (forall a, fueled k (sub a)) -> fueled (S k) (read_divs_child sub d).
Proof.
  intros T H. apply fueled_element; intros x q a; (destruct (q_local q =s "div"); [|first [apply takes_pure|apply fueled_pure]; pure_auto]).
  - apply takes_bind; [apply takes_attempt, T|intros; apply takes_pure; pure_auto].
  - apply fueled_bind; [apply takes_attempt, T|apply fueled_attempt, H|intros; apply fueled_pure; pure_auto].
Qed.
Lemma div_fueled n : forall a, fueled n (read_div n a).
Proof.
  induction n as [|n IH]; intros a; cbn [read_div]; [intros s L; lia|]. apply fueled_element; intros x q b;
    (destruct (existsb _ _); [first [apply takes_pure|apply fueled_pure]; pure_auto|]); (destruct (q_local q =s "divsChild"); [|first [apply takes_pure|apply fueled_pure]; pure_auto]).
  - apply divs_child_takes, div_takes.
  - apply (fueled_le _ n (S n)); [lia|]. apply divs_child_fueled; [apply div_takes|exact IH].
Qed.
Lemma div_closes n : forall a, closes "div" (read_div n a).
Proof.
  induction n as [|n IH]; intros a; cbn [read_div]; [intros s q o _ _; exact I|]. apply closes_element. intros x q b.
  destruct (existsb _ _); [apply closes_pure; pure_auto|]. destruct (q_local q =s "divsChild") eqn:Q; [|apply closes_pure; pure_auto].
  apply String.eqb_eq in Q. rewrite Q. apply closes_element. intros y r c. destruct (q_local r =s "div") eqn:Q2; [|apply closes_pure; pure_auto].
  apply String.eqb_eq in Q2. rewrite Q2. apply closes_then; [apply closes_attempt, IH|intros; pure_auto].
Qed.
Lemma web_returns s : closing [] (rs_events s) -> returns (read_web_settings s).
Proof.
  intros Hc. unfold read_web_settings. apply whole_returns; [| | | |exact Hc].
  - intros a [q atts|q|c|c| |] He; try congruence; try (apply takes_pure; solve [pure_auto]). destruct (q_local q =s "div"); [|apply takes_pure; pure_auto].
    apply takes_bind; [apply takes_attempt, div_takes|intros; apply takes_pure; pure_auto].
  - intros a q atts s0 o Ho. destruct (q_local q =s "div") eqn:Q; [|now apply (leaves_ret _ _ _ q)]. apply String.eqb_eq in Q.
    pose proof (closes_attempt _ _ _ (div_closes (S (length (rs_events s))) atts) s0 q o Q Ho) as X. unfold bind.
    destruct (attempt (read_div (S (length (rs_events s))) atts) s0) as [x s'|s'| | |]; cbn in *; auto.
  - intros a [q atts|q|c|c| |] He; try contradiction; pure_auto.
  - intros a [q atts|q|c|c| |] He; try congruence; try (apply fueled_pure; solve [pure_auto]). destruct (q_local q =s "div"); [|apply fueled_pure; pure_auto].
    apply fueled_bind; [apply takes_attempt, div_takes|apply fueled_attempt|intros; apply fueled_pure; pure_auto].
    apply (fueled_le _ _ (S (length (rs_events s)))); [lia|apply div_fueled].
Qed.

(** ** Relationships *)
Lemma rels_returns dir s : ~ In EErr (rs_events s) -> (exists q, In (EEnd q) (rs_events s) /\ q_local q = "Relationships"%string) ->
  exists l s', read_rels_xml dir s = Val l s'.
Proof.
  change (read_rels_xml dir) with (loop (rels_turn dir) []). unfold loop. generalize (le_n (length (rs_events s))). generalize (length (rs_events s)) at 2 3 as fuel.
  intros fuel. generalize (@nil (string * list target)) as a. revert s. induction fuel as [|n IH]; intros s a L He (q & Hq & En); cbn [turns];
    destruct (rs_events s) as [|e l] eqn:E; cbn [length] in L; try lia; try contradiction.
  assert (G : forall a', e <> EEnd q -> exists l0 s', turns n (rels_turn dir) a' {| rs_events := l; rs_para := rs_para s |} = Val l0 s').
  { intros a' Ne. apply IH; cbn [rs_events]; [lia|intros X; apply He; now right|]. exists q. split; [|exact En]. destruct Hq as [Hq|Hq]; [congruence|exact Hq]. }
  destruct e as [q' atts|q'|c|c| |]; cbn [rels_turn bind ret fail].
  - apply G. discriminate.
  - destruct (q_local q' =s "Relationships") eqn:Q; [eauto|]. apply G. intros X. injection X as ->. rewrite En in Q. discriminate.
  - apply G. discriminate.
  - apply G. discriminate.
  - apply G. discriminate.
  - exfalso. apply He. now left.
Qed.

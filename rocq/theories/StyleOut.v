(** What reading styles, numberings and settings can end in. *)
From Coq Require Import NArith ZArith List Bool Lia.
From Verif Require Import Str ListFacts TypesModel Props XmlParser XmlTree ReadBase ReadProps ReadModel ReadSpec ReadProg ReadProofs ReadCalm
  ReadPartProofs StyleRead StyleSpec StyleProg.
Import ListNotations.

(** ** No panic *)
Section Quiet.
Context (needs : list string).
Definition quiet {A} (k : N) (m : R A) : Prop := forall s,
  Forall (sound_for needs) (rs_events s) -> (budget s + k < 4294967296)%N ->
  match m s with
  | Val _ s' | Err s' => Forall (sound_for needs) (rs_events s') /\ (budget s' <= budget s + k)%N
  | Panic => False
  | Hang | NoFuel => True
  end.
Lemma quiet_of A k (m : R A) : calm k m -> takes m -> quiet k m.
Proof.
  intros Hc Ht s H1 H2. specialize (Hc s ltac:(eapply Forall_impl; [|exact H1]; now intros e []) H2). specialize (Ht s).
  destruct (m s) as [a s'|s'| | |]; auto; cbn in Ht; destruct Ht as [pre E]; rewrite E in H1; apply Forall_app in H1; intuition.
Qed.
Lemma quiet_ret A k (a : A) : quiet k (ret a).
Proof. intros s H1 H2. cbn. split; auto; lia. Qed.
Lemma quiet_fail A k : quiet k (@fail A).
Proof. intros s H1 H2. cbn. split; auto; lia. Qed.
Lemma quiet_more A j k (m : R A) : quiet j m -> (j <= k)%N -> quiet k m.
Proof. intros H L s H1 H2. specialize (H s H1 ltac:(lia)). destruct (m s); auto; destruct H; split; auto; lia. Qed.
Lemma quiet_bind A B i j k (m : R A) (f : A -> R B) : quiet i m -> (forall a, quiet j (f a)) -> (i + j <= k)%N -> quiet k (bind m f).
Proof.
  intros Hm Hf L s H1 H2. unfold bind. specialize (Hm s H1 ltac:(lia)). destruct (m s) as [a s'|s'| | |]; auto.
  - destruct Hm as [Hm1 Hm2]. specialize (Hf a s' Hm1 ltac:(lia)). destruct (f a s'); auto; destruct Hf; split; auto; lia.
  - destruct Hm; split; auto; lia.
Qed.
Lemma quiet_attempt A k (m : R A) : quiet k m -> quiet k (attempt m).
Proof. intros Hm s H1 H2. unfold attempt. specialize (Hm s H1 H2). destruct (m s); auto. Qed.
Lemma quiet_or_fail A k (o : option A) : quiet k (or_fail o).
Proof. destruct o; [apply quiet_ret | apply quiet_fail]. Qed.
Lemma quiet_or_crash A k (o : option A) : o <> None -> quiet k (or_crash o).
Proof. destruct o; [intros _; apply quiet_ret | congruence]. Qed.
Lemma quiet_each A k (f : A -> string -> string -> R A) atts :
  (forall a q v, quiet 0 (f a (q_local q) v)) -> forall a, quiet k (each_attr_m f atts a).
Proof.
  intros Hf. induction atts as [|[q v] atts IH]; intros a; cbn [each_attr_m]; [apply quiet_ret|].
  apply (quiet_bind _ _ 0 k); auto; lia.
Qed.
Lemma quiet_loop A B k (body : A -> event -> R (turn A B)) a0 :
  (forall a e, sound_for needs e -> quiet 1 (body a e)) -> quiet k (loop body a0).
Proof.
  intros Hb. apply (quiet_more _ 0); [|lia].
  intros s H1 H2. unfold loop. generalize (length (rs_events s)) at 1 as fuel. intros fuel.
  revert a0 s H1 H2. induction fuel as [|n IH]; intros a0 s H1 H2; cbn [turns]; destruct (rs_events s) as [|e l] eqn:E; auto.
  inversion H1 as [|? ? He Hl]; subst.
  assert (Bs : budget s = (rs_para s + N.of_nat (length l) + 1)%N) by (unfold budget; rewrite E; cbn [length]; lia).
  specialize (Hb a0 e He {| rs_events := l; rs_para := rs_para s |} Hl). rewrite budget_st in Hb.
  specialize (Hb ltac:(lia)).
  destruct (body a0 e _) as [[a'|b] s'|s'| | |]; auto.
  - destruct Hb as [Hb1 Hb2]. specialize (IH a' s' Hb1 ltac:(lia)). destruct (turns n body a' s'); auto; destruct IH; split; auto; lia.
  - destruct Hb; split; auto; lia.
  - destruct Hb; split; auto; lia.
Qed.
Lemma quiet_element A B k own (start : A -> qname -> list attribute -> R A) (fin : A -> B) a0 :
  (forall a q atts, sound_for needs (EStart q atts) -> quiet 1 (start a q atts)) -> quiet k (element own start fin a0).
Proof.
  intros H. unfold element. apply quiet_loop. intros a [q atts|q|c|c| |] He; try apply quiet_ret; try apply quiet_fail.
  apply (quiet_bind _ _ 1 0); [auto | intros; apply quiet_ret | lia].
Qed.
Lemma quiet_lax A B k own (start : A -> qname -> list attribute -> R A) (fin : A -> B) a0 :
  (forall a q atts, sound_for needs (EStart q atts) -> quiet 1 (start a q atts)) -> quiet k (element_lax own start fin a0).
Proof.
  intros H. unfold element_lax. apply quiet_loop. intros a [q atts|q|c|c| |] He; try apply quiet_ret.
  apply (quiet_bind _ _ 1 0); [auto | intros; apply quiet_ret | lia].
Qed.
Lemma quiet_first k q atts : sound_for needs (EStart q atts) -> In (q_local q) (needs_attribute ++ needs) ->
  quiet k (or_crash (attr_first atts)).
Proof.
  intros [[H _] Hn] Hi. apply quiet_or_crash. intros E. apply some_attr in E. apply in_app_or in Hi as [Hi|Hi]; [now apply H | now apply Hn].
Qed.
Context (s : subs) (Cs : (forall k, calm k (s_rpr s)) /\ (forall k, calm k (s_ppr s))) (Ts : all_subs (fun A _ m => takes m) s).
Lemma quiet_rpr k : quiet k (s_rpr s).
Proof. apply quiet_of; [apply Cs | apply Ts]. Qed.
Lemma quiet_ppr k : quiet k (s_ppr s).
Proof. apply quiet_of; [apply Cs | apply Ts]. Qed.
Lemma quiet_tblpr k : quiet k read_tblpr.
Proof. apply quiet_of; [apply calm_tblpr | exact (proj2 shape_takes _ _ _ reader_tblpr s Ts)]. Qed.
Lemma quiet_tcpr k : quiet k read_tcpr.
Proof. apply quiet_of; [apply calm_tcpr | exact (proj2 shape_takes _ _ _ reader_tcpr s Ts)]. Qed.
Lemma quiet_indent k q atts : sound_for needs (EStart q atts) -> In (q_local q) has_points -> quiet k (read_indent atts).
Proof.
  intros [Hs _] Hi. apply quiet_of; [now apply (calm_read_indent _ q)|]. apply takes_pure, pure_read_indent.
Qed.
End Quiet.

Ltac quiet_in := match goal with H : (q_local ?q =s ?b) = true |- In (q_local ?q) _ => apply String.eqb_eq in H; rewrite H end; cbn; tauto.
Ltac quiet_leaf :=
  first
  [ apply quiet_ret | apply quiet_fail | apply quiet_or_fail
  | eapply quiet_first; [eassumption | quiet_in]
  | eapply quiet_indent; [eassumption | quiet_in]
  | solve [auto] ].
Ltac quiet1 :=
  cbv beta;
  first
  [ quiet_leaf
  | lazymatch goal with
    | |- quiet _ _ (attempt _) => apply quiet_attempt
    | |- quiet _ _ (if ?b then _ else _) => destruct b eqn:?; cbv iota
    | |- quiet _ _ (bind _ _) =>
        first [ apply (quiet_bind _ _ _ 0 1); [solve [repeat quiet1] | intros | lia]
              | apply (quiet_bind _ _ _ 1 0); [ | intros; solve [repeat quiet1] | lia ]
              | apply (quiet_bind _ _ _ 0 0); [solve [repeat quiet1] | intros | lia] ]
    end ].

Section StyleQuiet.
Context (s : subs) (Cs : (forall k, calm k (s_rpr s)) /\ (forall k, calm k (s_ppr s))) (Ts : all_subs (fun A _ m => takes m) s).
Lemma quiet_style k atts : quiet style_needs k (read_style s atts).
Proof.
  pose proof (quiet_rpr style_needs s Cs Ts) as Qr. pose proof (quiet_ppr style_needs s Cs Ts) as Qp.
  pose proof (quiet_tblpr style_needs s Ts) as Qt. pose proof (quiet_tcpr style_needs s Ts) as Qc.
  unfold read_style. apply (quiet_bind _ _ _ 0 k); [apply quiet_each; intros; repeat quiet1 | intros h | lia].
  apply quiet_element. intros. repeat quiet1.
Qed.
Lemma quiet_doc_defaults k : quiet style_needs k (read_doc_defaults s).
Proof.
  pose proof (quiet_rpr style_needs s Cs Ts) as Qr. pose proof (quiet_ppr style_needs s Cs Ts) as Qp.
  unfold read_doc_defaults. apply quiet_element. intros. repeat quiet1.
Qed.
Lemma quiet_styles k : quiet style_needs k (read_styles_with s).
Proof.
  pose proof quiet_style as Qs. pose proof quiet_doc_defaults as Qd.
  unfold read_styles_with. apply quiet_element. intros. repeat quiet1.
Qed.
Lemma quiet_level k atts : quiet numbering_needs k (read_level s atts).
Proof.
  pose proof (quiet_rpr numbering_needs s Cs Ts) as Qr. pose proof (quiet_ppr numbering_needs s Cs Ts) as Qp.
  unfold read_level, read_number_attr. apply (quiet_bind _ _ _ 0 k); [apply quiet_each; intros; repeat quiet1 | intros h | lia].
  apply quiet_element. intros. repeat quiet1.
Qed.
Lemma quiet_override k q atts : sound_for numbering_needs (EStart q atts) -> q_local q = "lvlOverride"%string ->
  quiet numbering_needs k (read_override s atts).
Proof.
  intros Hs Hq. pose proof quiet_level as Ql. unfold read_override.
  apply (quiet_bind _ _ _ 0 k); [eapply quiet_first; [eassumption | rewrite Hq; cbn; tauto] | intros v | lia].
  apply (quiet_bind _ _ _ 0 k); [apply quiet_or_fail | intros i | lia].
  apply quiet_element. intros. repeat quiet1.
Qed.
Lemma quiet_abstract k atts : quiet numbering_needs k (read_abstract s atts).
Proof.
  pose proof quiet_level as Ql. unfold read_abstract, read_number_attr.
  apply (quiet_bind _ _ _ 0 k); [apply quiet_each; intros; repeat quiet1 | intros h | lia].
  apply quiet_lax. intros. repeat quiet1.
Qed.
Lemma quiet_num k atts : quiet numbering_needs k (read_num s atts).
Proof.
  unfold read_num, read_number_attr.
  apply (quiet_bind _ _ _ 0 k); [apply quiet_each; intros; repeat quiet1 | intros h | lia].
  apply quiet_lax. intros. repeat quiet1. eapply quiet_override; [eassumption|]. now apply String.eqb_eq.
Qed.
Lemma quiet_numberings k : quiet numbering_needs k (read_numberings_with s).
Proof.
  apply (quiet_more _ _ 0); [|lia]. pose proof quiet_abstract as Qa. pose proof quiet_num as Qn.
  assert (Qs : forall t q a, quiet numbering_needs 1 (numberings_start s t q a)) by (intros; unfold numberings_start; repeat quiet1).
  unfold read_numberings_with. intros st0 H1 H2. unfold part_loop. generalize (length (rs_events st0)) at 1 as fuel. intros fuel.
  generalize (StyleModel.Build_numberings [] []) as t0. revert st0 H1 H2.
  induction fuel as [|n IH]; intros st0 H1 H2 t0; cbn [part_turns]; destruct (rs_events st0) as [|e l] eqn:Ev.
  - rewrite Ev. split; auto; lia.
  - destruct e; auto. cbn. inversion H1. split; auto. unfold budget. rewrite Ev. cbn [rs_events rs_para length]. lia.
  - rewrite Ev. split; auto; lia.
  - inversion H1 as [|? ? Hse Hl]; subst.
    assert (Bs : budget st0 = (rs_para st0 + N.of_nat (length l) + 1)%N) by (unfold budget; rewrite Ev; cbn [length]; lia).
    destruct e as [q a|q|c|c| |].
    + unfold bind. specialize (Qs t0 q a {| rs_events := l; rs_para := rs_para st0 |} Hl). rewrite budget_st in Qs. specialize (Qs ltac:(lia)).
      destruct (numberings_start s t0 q a _) as [t1 s1|s1| | |]; auto; cbn [ret]; [|destruct Qs; split; auto; lia].
      destruct Qs as [Q1 Q2]. specialize (IH s1 Q1 ltac:(lia) t1). destruct (part_turns n _ _ t1 s1); auto; destruct IH; split; auto; lia.
    + cbn [ret]. destruct (q_local q =s "numbering").
      * cbn [rs_events]. split; auto. rewrite budget_st. lia.
      * specialize (IH {| rs_events := l; rs_para := rs_para st0 |} Hl ltac:(rewrite budget_st; lia) t0). rewrite budget_st in IH.
        destruct (part_turns n _ _ t0 _); auto; destruct IH; split; auto; lia.
    + cbn [ret]. specialize (IH {| rs_events := l; rs_para := rs_para st0 |} Hl ltac:(rewrite budget_st; lia) t0). rewrite budget_st in IH.
      destruct (part_turns n _ _ t0 _); auto; destruct IH; split; auto; lia.
    + cbn [ret]. specialize (IH {| rs_events := l; rs_para := rs_para st0 |} Hl ltac:(rewrite budget_st; lia) t0). rewrite budget_st in IH.
      destruct (part_turns n _ _ t0 _); auto; destruct IH; split; auto; lia.
    + cbn. split; auto. rewrite budget_st. lia.
    + cbn. split; auto. rewrite budget_st. lia.
Qed.
End StyleQuiet.
Lemma depth_quiet A needs (f : subs -> R A) st0 : (forall d, quiet needs 0 (f (readers d))) ->
  Forall (sound_for needs) (rs_events st0) -> ids_suffice st0 -> with_depth f st0 <> Panic.
Proof.
  intros Hf H1 H2 X. unfold with_depth in X. specialize (Hf (S (length (rs_events st0))) st0 H1). unfold ids_suffice, budget in *.
  rewrite X in Hf. apply Hf. lia.
Qed.
Lemma calm_props d : (forall k, calm k (s_rpr (readers d))) /\ (forall k, calm k (s_ppr (readers d))).
Proof. pose proof (calm_readers d) as H. cbv zeta in H. split; apply H. Qed.
Lemma styles_calm st0 : Forall (sound_for style_needs) (rs_events st0) -> ids_suffice st0 -> read_styles st0 <> Panic.
Proof. apply depth_quiet. intros d. apply quiet_styles; [apply calm_props | apply readers_take]. Qed.
Lemma numberings_calm st0 : Forall (sound_for numbering_needs) (rs_events st0) -> ids_suffice st0 -> read_numberings st0 <> Panic.
Proof. apply depth_quiet. intros d. apply quiet_numberings; [apply calm_props | apply readers_take]. Qed.

(** ** Reading ends *)
Definition numberings_body (s : subs) (t : StyleModel.numberings) (e : event) : R (turn StyleModel.numberings StyleModel.numberings) :=
  match e with
  | EStart q a => t' <- numberings_start s t q a ;; ret (Again t')
  | EEnd q => ret (if q_local q =s "numbering" then Done t else Again t)
  | EErr => fail
  | _ => ret (Again t)
  end.
Lemma numberings_unfold s : read_numberings_with s = part_loop (numberings_body s) (fun t => t) (StyleModel.Build_numberings [] []).
Proof. reflexivity. Qed.
Lemma numberings_shape : part_shape numberings_body.
Proof.
  split.
  - intros t q a. unfold numberings_body, numberings_start. prog_tac.
  - intros s t q a s0 v s'. unfold numberings_body. part_val; unfold ret; intros X; injection X as <- _; eauto.
  - intros d q. now eexists.
  - reflexivity.
  - intros d c. now eexists.
  - intros d c. now eexists.
Qed.
Lemma numberings_return s : closing [] (rs_events s) -> returns (read_numberings s).
Proof. exact (part_returns _ _ _ _ _ _ numberings_unfold numberings_shape s). Qed.

(** ** Settings *)
Lemma settings_out st0 : (exists c s', read_settings st0 = Val c s') \/ (exists s', read_settings st0 = Err s').
Proof.
  unfold read_settings, part_loop. generalize StyleModel.settings_default as c0.
  assert (G : forall fuel c0 s0, length (rs_events s0) <= fuel ->
    (exists c s', part_turns fuel (fun (c : StyleModel.settings) e =>
      match e with
      | EStart q a => ret (Again (settings_start c q a))
      | EEnd q => ret (if q_local q =s "settings" then Done c else Again c)
      | EErr => fail
      | _ => ret (Again c)
      end) (fun c => c) c0 s0 = Val c s') \/
    (exists s', part_turns fuel (fun (c : StyleModel.settings) e =>
      match e with
      | EStart q a => ret (Again (settings_start c q a))
      | EEnd q => ret (if q_local q =s "settings" then Done c else Again c)
      | EErr => fail
      | _ => ret (Again c)
      end) (fun c => c) c0 s0 = Err s')); [|intros; now apply G].
  induction fuel as [|n IH]; intros c0 s0 L; cbn [part_turns]; destruct (rs_events s0) as [|e l] eqn:Ev; cbn [length] in L; try lia;
    [left; eauto | left; eauto|].
  destruct e as [q a|q|t|t| |]; cbn [ret fail]; try (apply IH; cbn [rs_events]; lia); try (right; eauto; fail); try (left; eauto; fail).
  destruct (q_local q =s "settings"); [left; eauto | apply IH; cbn [rs_events]; lia].
Qed.
(** Without a parse error none is reported. *)
Lemma settings_error st0 s' : read_settings st0 = Err s' -> In EErr (rs_events st0).
Proof.
  unfold read_settings, part_loop. generalize StyleModel.settings_default as c0. generalize (length (rs_events st0)) as fuel.
  intros fuel. revert st0. induction fuel as [|n IH]; intros st0 c0; cbn [part_turns]; destruct (rs_events st0) as [|e l] eqn:Ev; try discriminate.
  - destruct e; discriminate.
  - destruct e as [q a|q|t|t| |]; cbn [ret fail]; try discriminate.
    + intros X. right. exact (IH (st l (rs_para st0)) _ X).
    + destruct (q_local q =s "settings"); [discriminate|]. intros X. right. exact (IH (st l (rs_para st0)) _ X).
    + intros X. right. exact (IH (st l (rs_para st0)) _ X).
    + intros X. right. exact (IH (st l (rs_para st0)) _ X).
    + intros _. now left.
Qed.

(** ** Styles *)
Definition first_start (l : list event) (q : qname) (atts : list attribute) (rest : list event) : Prop :=
  exists pre, l = pre ++ EStart q atts :: rest /\ forall q' a', ~ In (EStart q' a') pre.
Lemma styles_skip s e l c : match e with EStart q _ => q_local q = "styles"%string | EChars _ | EWs _ | EDocEnd => True | _ => False end ->
  read_styles_with s (st (e :: l) c) = read_styles_with s (st l c).
Proof.
  intros H. unfold read_styles_with, element, loop. cbn [st rs_events length turns rs_para].
  destruct e as [q a|q|t|t| |]; try easy; try reflexivity. rewrite H. cbn [String.eqb Ascii.eqb Bool.eqb]. reflexivity.
Qed.
Lemma styles_open s l c q atts rest : closing [] l -> first_start l q atts rest -> q_local q = "styles"%string ->
  read_styles_with s (st l c) = read_styles_with s (st rest c) /\ closing [q] rest.
Proof.
  intros Hc (pre & -> & Hp) Hq. induction pre as [|e pre IH]; cbn [app] in *.
  - split; [now apply (styles_skip s (EStart q atts))|]. destruct Hc as [H1 H2]. split; [exact H1 | now apply no_error_cons in H2].
  - assert (Hn : forall q' a', ~ In (EStart q' a') pre) by (intros q' a' X; apply (Hp q' a'); now right).
    assert (He : match e with EStart q _ => q_local q = "styles"%string | EChars _ | EWs _ | EDocEnd => True | _ => False end /\
                 closing [] (pre ++ EStart q atts :: rest)).
    { destruct Hc as [H1 H2]. destruct e as [q' a'|q'|t|t| |].
      - exfalso. apply (Hp q' a'). now left.
      - cbn in H1. discriminate.
      - split; auto. split; [exact H1 | now apply no_error_cons in H2].
      - split; auto. split; [exact H1 | now apply no_error_cons in H2].
      - split; auto. split; [exact H1 | now apply no_error_cons in H2].
      - exfalso. apply H2. now left. }
    destruct He as [He1 He2]. destruct (IH He2 Hn) as [IH1 IH2]. split; [|exact IH2].
    rewrite (styles_skip s e _ c He1). exact IH1.
Qed.
Lemma styles_no_err s st0 s' : all_subs (fun A _ m => takes m) s -> read_styles_with s st0 = Err s' -> In EErr (rs_events st0).
Proof.
  intros Ts. unfold read_styles_with, element, loop. generalize (StyleModel.Build_styles rpr_empty ppr_empty []) as t0.
  generalize (length (rs_events st0)) at 1 as fuel. intros fuel. revert st0.
  induction fuel as [|n IH]; intros st0 t0; cbn [turns]; destruct (rs_events st0) as [|e l] eqn:Ev; try discriminate.
  destruct e as [q a|q|t|t| |]; cbn [ret fail].
  - unfold bind at 1. destruct (q_local q =s "style"); [|destruct (q_local q =s "docDefaults")].
    + pose proof (proj2 shape_takes _ _ _ (reader_style a) s Ts (st l (rs_para st0))) as T. cbn beta in T. unfold bind, attempt.
      unfold st in T. destruct (read_style s a {| rs_events := l; rs_para := rs_para st0 |}) as [y s1|s1| | |]; cbn [ret]; try discriminate;
        intros X; apply IH in X; cbn in T; destruct T as [pre ->]; right; apply in_or_app; now right.
    + pose proof (proj2 shape_takes _ _ _ reader_doc_defaults s Ts (st l (rs_para st0))) as T. unfold bind, attempt.
      unfold st in T. destruct (read_doc_defaults s {| rs_events := l; rs_para := rs_para st0 |}) as [y s1|s1| | |]; cbn [ret]; try discriminate;
        intros X; apply IH in X; cbn in T; destruct T as [pre ->]; right; apply in_or_app; now right.
    + cbn [ret]. intros X. right. exact (IH (st l (rs_para st0)) _ X).
  - destruct (q_local q =s "styles"); [discriminate|]. intros X. right. exact (IH (st l (rs_para st0)) _ X).
  - intros X. right. exact (IH (st l (rs_para st0)) _ X).
  - intros X. right. exact (IH (st l (rs_para st0)) _ X).
  - intros X. right. exact (IH (st l (rs_para st0)) _ X).
  - intros _. now left.
Qed.
Lemma styles_return st0 q atts rest : closing [] (rs_events st0) -> first_start (rs_events st0) q atts rest -> q_local q = "styles"%string ->
  (exists t s', read_styles st0 = Val t s') \/ read_styles st0 = Panic.
Proof.
  intros Hc Hf Hq. unfold read_styles, with_depth. set (s := readers _).
  assert (Ts : all_subs (fun A _ m => takes m) s) by apply readers_take.
  pose proof (styles_no_err s st0) as Ne.
  destruct (styles_open s _ (rs_para st0) q atts rest Hc Hf Hq) as [E1 E2].
  change (st (rs_events st0) (rs_para st0)) with (st (rs_events st0) (rs_para st0)) in E1. rewrite <- st_eta in E1.
  pose proof (proj2 shape_closes _ _ _ reader_styles s (readers_close _) (st rest (rs_para st0)) q [] Hq E2) as C.
  pose proof (proj2 shape_fueled _ _ _ reader_styles s (S (length (rs_events st0))) Ts (readers_fueled _) (st rest (rs_para st0))) as F.
  assert (L : length rest < S (S (length (rs_events st0)))).
  { destruct Hf as (pre & -> & _). rewrite app_length. cbn [length]. lia. }
  rewrite E1 in *. destruct (read_styles_with s (st rest (rs_para st0))) as [t s'|s'| | |]; cbn in C; eauto.
  - exfalso. destruct Hc as [_ Hn]. apply Hn, (Ne s' Ts eq_refl).
  - now destruct C.
  - exfalso. apply F; auto.
Qed.
Lemma styles_unclosed st0 : never_closed "styles" (rs_events st0) ->
  read_styles st0 = Hang \/ (exists s', read_styles st0 = Err s' /\ In EErr (rs_events st0)) \/ read_styles st0 = Panic.
Proof.
  intros Hn. unfold read_styles, with_depth. set (s := readers _).
  assert (Ts : all_subs (fun A _ m => takes m) s) by apply readers_take.
  pose proof (reader_sees_end _ _ _ reader_styles s Ts st0) as V.
  pose proof (styles_no_err s st0) as Ne.
  pose proof (proj2 shape_fueled _ _ _ reader_styles s (S (length (rs_events st0))) Ts (readers_fueled _) st0) as F.
  destruct (read_styles_with s st0) as [t s'|s'| | |] eqn:X; auto.
  - exfalso. destruct (V t s' eq_refl) as (q & Hin & Hq). now apply (Hn q).
  - right; left. exists s'. split; auto. now apply (Ne s').
  - exfalso. apply F; [lia | reflexivity].
Qed.
Lemma root_first s st0 name : reads_from s st0 -> root_named name s ->
  exists q atts rest, first_start (rs_events st0) q atts rest /\ q_local q = name.
Proof.
  intros Hr (n & q & atts & Hn & Hq & Hb). rewrite <- Hr in Hn.
  assert (L : n < length (rs_events st0)).
  { destruct (Nat.lt_ge_cases n (length (rs_events st0))) as [L|L]; auto. rewrite nth_overflow in Hn by assumption. discriminate. }
  exists q, atts, (skipn (S n) (rs_events st0)). split; auto. exists (firstn n (rs_events st0)). split.
  - rewrite <- Hn. revert L. clear. generalize (rs_events st0) as l. induction n as [|n IH]; intros [|e l] L; cbn [length] in L; try lia; auto.
    cbn [firstn skipn nth app]. f_equal. apply IH. lia.
  - intros q' a' Hin. apply (In_nth _ _ EDocEnd) in Hin as (m & Lm & Em). rewrite firstn_length in Lm.
    apply (Hb m q' a'); [lia|]. rewrite <- Hr, <- Em.
    assert (Lm' : m < n) by lia. clear - Lm'. revert m Lm' st0. intros m Lm st0. generalize (rs_events st0) as l. revert m Lm.
    induction n as [|n IH]; intros [|m] Lm [|e l]; try lia; auto; cbn [firstn nth]. apply IH. lia.
Qed.

(** Runs: build and read. *)
From Coq Require Import NArith ZArith List Bool Lia.
From Verif Require Import Str StrFacts StrFind TypesModel Props PropsSet Ast EscapeModel FloatModel FloatProofs XmlParser XmlSpec
  InstrModel ReadBase ReadProps ReadModel ReadProg ReadProofs.
From Verif Require BuildModel.
From Verif Require Import RoundSpec RoundBase RoundNums RoundRpr RoundSect RoundPpr RoundTable RoundPic.
Import ListNotations.
Import BuildModel (xml, E, L, leaf, opt, on, valued, valued_n, valued_z, attr_s, attr_n, attr_z).

Definition runF (d : nat) : run_state -> R node := loop (run_body (readers d)).
Lemma run_takes d r e : takes (run_body (readers d) r e).
Proof.
  destruct e as [q atts|q|s|s| |]; cbn [run_body]; [|apply takes_pure; pure_auto ..].
  match goal with |- takes (if ?b then _ else _) => destruct b end.
  - apply takes_bind; [apply takes_instr | intros; apply takes_pure; pure_auto].
  - apply takes_bind; [|intros; apply takes_pure; pure_auto].
    apply (proj1 shape_takes (q_local q) _ _ (prog_run_start r q atts)), readers_take.
Qed.
Lemma run_at d r e l c : runF d r (st (e :: l) c) =
  match run_body (readers d) r e (st l c) with
  | Val (Again a') s' => runF d a' s'
  | Val (Done b) s' => Val b s'
  | Err s' => Err s' | Panic => Panic | Hang => Hang | NoFuel => NoFuel
  end.
Proof. unfold runF. apply loop_step. apply run_takes. Qed.
Definition is_instr (q : qname) : bool :=
  match q_prefix q with Some pre => pre =s "w" | None => false end && (q_local q =s "instrText").
Lemma run_at_start d r q atts l c r' s' : is_instr q = false -> run_start (readers d) r q atts (st l c) = Val r' s' ->
  runF d r (st (EStart q atts :: l) c) = runF d r' s'.
Proof. intros H K. rewrite run_at. cbn [run_body]. fold (is_instr q). rewrite H. unfold bind. rewrite K. reflexivity. Qed.
Lemma run_at_end d r q l c : (q_local q =s "r") = false -> rn_text r = TIdle ->
  runF d r (st (EEnd q :: l) c) = runF d r (st l c).
Proof.
  intros H K. rewrite run_at. cbn [run_body]. rewrite H. destruct (_ || _); cbn [ret]; [|reflexivity].
  destruct r. cbn in K. now subst.
Qed.
Definition rn (p : rpr) (ch : list node) : run_state := {| rn_prop := p; rn_children := ch; rn_text := TIdle |}.

Section Run.
  Local Notation ea := (eats runF 0).
  Lemma run_leaf n atts p ch ch' : is_instr (split_qname n) = false -> (q_local (split_qname n) =s "r") = false ->
    (forall d l c, run_start (readers d) (rn p ch) (split_qname n) (meant atts) (st l c) = Val (rn p ch') (st l c)) ->
    ea (rn p ch) (events_of_xml (leaf n atts)) (rn p ch').
  Proof.
    intros Hi Hr H d l c _ _. cbn [leaf events_of_xml flat_map app]. rewrite (run_at_start _ _ _ _ _ _ _ _ Hi (H d _ _)).
    rewrite run_at_end; [|exact Hr | reflexivity]. now rewrite N.add_0_r.
  Qed.
  Lemma run_sub n atts inner p ch r' : is_instr (split_qname n) = false ->
    reads 0 (fun d => run_start (readers d) (rn p ch) (split_qname n) (meant atts)) (xml_events inner ++ [EEnd (split_qname n)]) r' ->
    ea (rn p ch) (events_of_xml (E n atts inner)) r'.
  Proof.
    intros Hi H d l c Ld Kd. cbn [events_of_xml app length] in *.
    apply run_at_start; [exact Hi|]. apply H; [unfold xml_events; lia | exact Kd].
  Qed.
  (** Texts. *)
  Lemma run_text n atts t f p ch s : (n, t, f) = ("w:t"%string, TText, NText) \/ (n, t, f) = ("w:delText"%string, TDelete, NDelText) ->
    ea (rn p ch) (events_of_xml (L n atts [s])) (rn p (ch ++ reread_text f s)).
  Proof.
    intros H d l c _ _. cbn [events_of_xml app concat_str fold_right]. rewrite N.add_0_r, append_nil_r.
    assert (Hs : forall l c, run_start (readers d) (rn p ch) (split_qname n) (meant atts) (st l c) = Val (rn_state t (rn p ch)) (st l c))
      by (intros; destruct H as [H|H]; injection H as -> -> ->; reflexivity).
    assert (Hi : is_instr (split_qname n) = false) by (destruct H as [H|H]; injection H as -> -> ->; reflexivity).
    rewrite (run_at_start _ _ _ _ _ _ _ _ Hi (Hs _ _)).
    assert (He : forall ch', runF d {| rn_prop := p; rn_children := ch'; rn_text := t |} (st (EEnd (split_qname n) :: l) c) = runF d (rn p ch') (st l c))
      by (intros; rewrite run_at; destruct H as [H|H]; injection H as -> -> ->; reflexivity).
    unfold text_events, reread_text. destruct s as [|a s].
    - cbn [app]. rewrite app_nil_r. apply He.
    - rewrite <- app_assoc. cbn [app]. rewrite <- (He (ch ++ [f (one_line (replace_escaped (text_seen (String a s))))])).
      destruct (all_char is_ws (text_seen (String a s))); rewrite run_at; cbn [run_body];
        (destruct H as [H|H]; injection H as -> -> ->; reflexivity).
  Qed.
  Lemma run_unread n atts s p ch : is_instr (split_qname n) = false -> (q_local (split_qname n) =s "r") = false ->
    (forall d l c, run_start (readers d) (rn p ch) (split_qname n) (meant atts) (st l c) = Val (rn p ch) (st l c)) ->
    ea (rn p ch) (events_of_xml (L n atts [s])) (rn p ch).
  Proof.
    intros Hi Hr H d l c _ _. cbn [events_of_xml app concat_str fold_right]. rewrite N.add_0_r, append_nil_r.
    rewrite (run_at_start _ _ _ _ _ _ _ _ Hi (H d _ _)). unfold text_events. destruct s as [|a s].
    - cbn [app]. now apply run_at_end.
    - rewrite <- app_assoc. cbn [app]. destruct (all_char is_ws (text_seen (String a s))); rewrite run_at; cbn [run_body ret rn_chars rn_text rn]; now apply run_at_end.
  Qed.
  Lemma instr_takes : forall (a : unit) e, takes ((fun (_ : unit) e =>
    match e with
    | EChars c => ret (Done (Some c))
    | EEnd q => ret (if q_local q =s "r" then Done None else Again tt)
    | EErr => fail
    | _ => ret (Again tt)
    end) a e).
  Proof. intros a []; apply takes_pure; pure_auto. Qed.
  Lemma run_instr atts s p ch : not_blank s = true ->
    ea (rn p ch) (events_of_xml (L "w:instrText" atts [s])) (rn p (ch ++ [NInstrString (text_seen s)])).
  Proof.
    intros H d l c _ _. cbn [events_of_xml app concat_str fold_right]. rewrite N.add_0_r, append_nil_r.
    unfold not_blank in H. apply negb_true_iff in H. unfold text_events. destruct s as [|a s]; [discriminate|]. rewrite H. cbn [app].
    rewrite run_at. cbn [run_body]. change (_ && _) with true. cbv iota. unfold bind, read_instr_text. rewrite loop_step by apply instr_takes.
    cbn [ret rn_add rn]. now rewrite run_at_end.
  Qed.

  Ltac one := rewrite xml_events_cons; change (xml_events []) with (@nil event); rewrite app_nil_r.
  Ltac rleaf := one; apply run_leaf; [reflexivity | reflexivity | intros ? ? ?; unfold run_start ].
  Ltac same := rewrite app_nil_r.
  Lemma eats_in_run n p ch s xs s' : kept_in_run n = true -> fits_in_run n ->
    BuildModel.b_node n s = Some (xs, s') -> ea (rn p ch) (xml_events xs) (rn p (ch ++ reread_in_run n)).
  Proof.
    intros Hk Hf H.
    destruct n; try discriminate Hk; cbn [BuildModel.b_node BuildModel.b_leaf] in H; cbn [reread_in_run];
      try (injection H as <- <-); try discriminate H.
    - one. apply (run_text _ _ TText). now left.
    - one. apply (run_text _ _ TDelete). now right.
    - rleaf. go. reflexivity.
    - rleaf. go. reflexivity.
    - one. apply run_sub; [reflexivity|]. intros d l c Ld Kd. change (xml_events []) with (@nil event).
      pose proof (reads_ptab t d l c Ld Kd) as X. unfold run_start, atts_of in *. cbv [BuildModel.x_ptab leaf] in X |- *.
      revert X. go. intros X. rewrite X. reflexivity.
    - rleaf. fin.
    - rleaf. go. reflexivity.
    - one. apply run_sub; [reflexivity|]. intros d l c Ld Kd. pose proof (reads_drawing _ Hf d l c Ld Kd) as X.
      match type of X with _ ?s2 = _ => match goal with |- _ ?s1 = _ => change s1 with s2 end; revert X; generalize s2 end.
      intros s0. unfold run_start. go. intros X. rewrite X. reflexivity.
    - rleaf. unfold read_field_char. destruct dirty; fin.
    - destruct i; cbn [BuildModel.b_instr] in H; try discriminate H; injection H as <- <-; one; apply run_instr; exact Hk.
    - same. destruct i; cbn [BuildModel.b_instr] in H; try discriminate H; injection H as <- <-; one;
        (apply run_unread; [reflexivity | reflexivity | intros d l c; unfold run_start; go; reflexivity]).
    - one. apply run_instr. exact Hk.
    - same. rleaf. go. reflexivity.
    - same. rleaf. go. reflexivity.
    - same. rleaf. go. reflexivity.
  Qed.
  Lemma eats_in_runs l : forall p ch s xs s', forallb kept_in_run l = true -> Forall fits_in_run l ->
    BuildModel.each BuildModel.b_node l s = Some (xs, s') -> ea (rn p ch) (xml_events xs) (rn p (ch ++ flat_map reread_in_run l)).
  Proof.
    induction l as [|n l IH]; intros p ch s xs s' Hk Hf H.
    - injection H as <- <-. cbn. rewrite app_nil_r. apply eats_nil.
    - cbn [forallb] in Hk. apply andb_true_iff in Hk as [Hk Hks]. inversion Hf as [|? ? Hn Hl]; subst.
      cbn [BuildModel.each] in H. unfold BuildModel.bind in H.
      destruct (BuildModel.b_node n s) as [[x s1]|] eqn:H1; [|discriminate].
      match type of H with (match ?t with _ => _ end) = _ => destruct t as [[y s2]|] eqn:H2; [|discriminate] end.
      injection H as <- <-. rewrite xml_events_app. cbn [flat_map]. rewrite app_assoc.
      eapply eats_app0; [eapply eats_in_run; eassumption | eapply IH; eassumption].
  Qed.
  Lemma run_prop r p ch s xs s' : fits_rpr r -> BuildModel.b_rpr r s = Some (xs, s') -> ea (rn p ch) (xml_events xs) (rn (reread_rpr r) ch).
  Proof.
    intros Hf H. destruct (reads_rpr r s xs s' Hf H) as (inner & -> & Hr). one. apply run_sub; [reflexivity|].
    intros d l c Ld Kd. pose proof (Hr d l c Ld Kd) as X.
    match type of X with _ ?s2 = _ => match goal with |- _ ?s1 = _ => change s1 with s2 end; revert X; generalize s2 end.
    intros s0. unfold run_start. go. intros X. rewrite X. reflexivity.
  Qed.
  Lemma runF_whole ev p ch q : q_local q = "r"%string -> ea (rn rpr_empty []) ev (rn p ch) ->
    reads 0 (fun d => s_run (readers d)) (ev ++ [EEnd q]) (NRun p ch).
  Proof.
    intros Hq H d l c Ld Kd. rewrite app_length in Ld. cbn [length] in Ld. destruct d as [|d]; [lia|].
    cbn [readers next_subs s_run]. change (read_run (readers d)) with (runF d (rn rpr_empty [])).
    rewrite <- app_assoc. rewrite H by lia. cbn [app]. rewrite run_at. cbn [run_body]. rewrite Hq. reflexivity.
  Qed.
  Theorem reads_run r ch s xs s' : forallb kept_in_run ch = true -> Forall fits_in_run ch -> fits_rpr r ->
    BuildModel.b_node (NRun r ch) s = Some (xs, s') ->
    exists inner, xs = [E "w:r" [] inner] /\
      reads 0 (fun d => s_run (readers d)) (xml_events inner ++ [EEnd (split_qname "w:r")]) (NRun (reread_rpr r) (flat_map reread_in_run ch)).
  Proof.
    intros Hk Hf Hr H. cbn [BuildModel.b_node] in H. unfold BuildModel.b_run, BuildModel.bind in H.
    destruct (BuildModel.b_rpr r s) as [[x s1]|] eqn:H1; [|discriminate].
    match type of H with (match ?t with _ => _ end) = _ => destruct t as [[y s2]|] eqn:H2; [|discriminate] end.
    injection H as <- <-. eexists. split; [reflexivity|]. apply runF_whole; [reflexivity|]. rewrite xml_events_app.
    eapply eats_app0; [eapply run_prop; eassumption|]. now apply (eats_in_runs ch _ [] _ _ _ Hk Hf H2).
  Qed.
End Run.

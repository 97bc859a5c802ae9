From Coq Require Import List Bool Arith Lia.
From Verif Require Import Str StrFacts WriterModel WriterSpec XmlParser XmlSpec XmlProofs XmlTree XmlTreeProofs ItemModel ItemSpec.
Import ListNotations.
Open Scope list_scope.

(** ** Trimming *)
Lemma strip_prefix_some p : forall s r, strip_prefix p s = Some r <-> s = p +++ r.
Proof.
  induction p as [|c p IH]; intros s r; cbn [strip_prefix String.append].
  - split; [intros H; injection H as ->; reflexivity | intros ->; reflexivity].
  - destruct s as [|d s]; [split; discriminate|]. destruct (Ascii.eqb_spec c d) as [->|N].
    + rewrite IH. split; [intros ->; reflexivity | intros H; injection H as ->; reflexivity].
    + split; [discriminate|]. intros H. injection H as -> _. now destruct N.
Qed.
Lemma strip_one_some l : forall s r, strip_one l s = Some r -> exists w, In w l /\ s = w +++ r.
Proof.
  induction l as [|w l IH]; intros s r H; cbn [strip_one] in H; [discriminate|].
  destruct (strip_prefix w s) as [t|] eqn:P.
  - injection H as <-. apply strip_prefix_some in P. exists w. cbn; auto.
  - destruct (IH _ _ H) as (v & Hv & E). exists v. cbn; auto.
Qed.
Lemma strip_one_none l : forall s, strip_one l s = None -> forall w r, In w l -> s <> w +++ r.
Proof.
  induction l as [|v l IH]; intros s H w r Hw; cbn [strip_one] in H; [destruct Hw|].
  destruct (strip_prefix v s) as [t|] eqn:P; [discriminate|]. destruct Hw as [->|Hw]; [|now apply IH].
  intros E. apply strip_prefix_some in E. congruence.
Qed.
Lemma append_length a b : String.length (a +++ b) = String.length a + String.length b.
Proof. induction a; cbn; auto. Qed.

Section Strip.
  Context (l : list string) (nonempty : forall w, In w l -> w <> ""%string).
  Inductive cover : string -> Prop := cover_nil : cover "" | cover_cons w s : In w l -> cover s -> cover (w +++ s).
  Lemma strip_all_spec : forall fuel s, String.length s <= fuel ->
    (exists a, cover a /\ s = a +++ strip_all fuel l s) /\ (forall w r, In w l -> strip_all fuel l s <> w +++ r).
  Proof.
    induction fuel as [|f IH]; intros s Hs; cbn [strip_all].
    - destruct s; [|cbn in Hs; lia]. split; [exists ""%string; split; [constructor|reflexivity]|].
      intros w r Hw E. destruct w as [|c w]; [now apply (nonempty _ Hw)|discriminate].
    - destruct (strip_one l s) as [t|] eqn:P.
      + apply strip_one_some in P as (w & Hw & ->). rewrite append_length in Hs.
        assert (0 < String.length w) by (specialize (nonempty _ Hw); destruct w; [congruence|cbn; lia]).
        destruct (IH t ltac:(lia)) as [(a & Ca & E) N]. split; [|exact N].
        exists (w +++ a). split; [constructor; assumption|]. rewrite append_assoc. now rewrite <- E.
      + split; [exists ""%string; split; [constructor|reflexivity]|]. now apply strip_one_none.
  Qed.
  Lemma strip_all_id : forall fuel s, (forall w r, In w l -> s <> w +++ r) -> strip_all fuel l s = s.
  Proof.
    intros fuel s N. destruct fuel as [|f]; [reflexivity|]. cbn [strip_all].
    destruct (strip_one l s) as [t|] eqn:P; [|reflexivity]. apply strip_one_some in P as (w & Hw & E). now destruct (N _ _ Hw E).
  Qed.
End Strip.

Lemma reversed_app a b : reversed (a +++ b) = reversed b +++ reversed a.
Proof. induction a as [|c a IH]; cbn [String.append reversed]; [now rewrite append_nil_r|]. now rewrite IH, append_assoc. Qed.
Lemma reversed_twice s : reversed (reversed s) = s.
Proof. induction s as [|c s IH]; [reflexivity|]. cbn [reversed]. rewrite reversed_app, IH. reflexivity. Qed.
Lemma reversed_length s : String.length (reversed s) = String.length s.
Proof. induction s as [|c s IH]; [reflexivity|]. cbn [reversed]. rewrite append_length, IH. cbn. lia. Qed.

Lemma white_nonempty w : In w white -> w <> ""%string.
Proof. cbn. intuition (subst; discriminate). Qed.
Lemma white_back_nonempty w : In w (map reversed white) -> w <> ""%string.
Proof.
  intros H. apply in_map_iff in H as (v & <- & Hv) . intros E. apply (f_equal reversed) in E. rewrite reversed_twice in E. cbn in E.
  now apply (white_nonempty v Hv).
Qed.
Lemma in_white w : In w white <-> is_white w.
Proof.
  split.
  - intros H. assert (A : Forall is_white white).
    { unfold white. cbn [map].
      repeat (apply Forall_cons; [first [
        exists 9%N; split; [unfold white_space; lia | reflexivity] | exists 10%N; split; [unfold white_space; lia | reflexivity]
      | exists 11%N; split; [unfold white_space; lia | reflexivity] | exists 12%N; split; [unfold white_space; lia | reflexivity]
      | exists 13%N; split; [unfold white_space; lia | reflexivity] | exists 32%N; split; [unfold white_space; lia | reflexivity]
      | exists 133%N; split; [unfold white_space; lia | reflexivity] | exists 160%N; split; [unfold white_space; lia | reflexivity]
      | exists 5760%N; split; [unfold white_space; lia | reflexivity] | exists 8192%N; split; [unfold white_space; lia | reflexivity]
      | exists 8193%N; split; [unfold white_space; lia | reflexivity] | exists 8194%N; split; [unfold white_space; lia | reflexivity]
      | exists 8195%N; split; [unfold white_space; lia | reflexivity] | exists 8196%N; split; [unfold white_space; lia | reflexivity]
      | exists 8197%N; split; [unfold white_space; lia | reflexivity] | exists 8198%N; split; [unfold white_space; lia | reflexivity]
      | exists 8199%N; split; [unfold white_space; lia | reflexivity] | exists 8200%N; split; [unfold white_space; lia | reflexivity]
      | exists 8201%N; split; [unfold white_space; lia | reflexivity] | exists 8202%N; split; [unfold white_space; lia | reflexivity]
      | exists 8232%N; split; [unfold white_space; lia | reflexivity] | exists 8233%N; split; [unfold white_space; lia | reflexivity]
      | exists 8239%N; split; [unfold white_space; lia | reflexivity] | exists 8287%N; split; [unfold white_space; lia | reflexivity]
      | exists 12288%N; split; [unfold white_space; lia | reflexivity] ]|]).
      apply Forall_nil. }
    rewrite Forall_forall in A. now apply A.
  - intros (n & W & ->).
    assert (C : In n [9; 10; 11; 12; 13; 32; 133; 160; 5760; 8192; 8193; 8194; 8195; 8196; 8197; 8198; 8199; 8200; 8201; 8202; 8232; 8233; 8239; 8287; 12288]%N)
      by (cbn [In]; unfold white_space in W; lia).
    cbn [In] in C. repeat (destruct C as [<-|C]; [vm_compute; tauto|]). destruct C.
Qed.
Lemma all_white_app a b : all_white a -> all_white b -> all_white (a +++ b).
Proof. intros A B. induction A as [|w s Hw A IH]; [exact B|]. rewrite append_assoc. now constructor. Qed.
Lemma cover_white a : cover white a -> all_white a.
Proof. induction 1; constructor; auto. now apply in_white. Qed.
Lemma cover_back a : cover (map reversed white) a -> all_white (reversed a).
Proof.
  induction 1 as [|w s Hw C IH]; [constructor|]. rewrite reversed_app. apply all_white_app; [exact IH|].
  apply in_map_iff in Hw as (v & <- & Hv). rewrite reversed_twice, <- (append_nil_r v). constructor; [now apply in_white|constructor].
Qed.

Lemma trim_start_spec s : (exists a, all_white a /\ s = a +++ ItemModel.trim_start s) /\ forall w r, is_white w -> ItemModel.trim_start s <> w +++ r.
Proof.
  destruct (strip_all_spec white white_nonempty (String.length s) s (le_n _)) as [(a & C & E) N]. split; [|intros w r Hw; apply N; now apply in_white].
  exists a. split; [now apply cover_white|exact E].
Qed.
Lemma trim_end_spec s : (exists a, all_white a /\ s = ItemModel.trim_end s +++ a) /\ forall w r, is_white w -> ItemModel.trim_end s <> r +++ w.
Proof.
  unfold ItemModel.trim_end. destruct (strip_all_spec _ white_back_nonempty (String.length s) (reversed s) ltac:(rewrite reversed_length; lia)) as [(a & C & E) N]. split.
  - exists (reversed a). split; [now apply cover_back|]. apply (f_equal reversed) in E. rewrite reversed_twice, reversed_app in E. exact E.
  - intros w r Hw X. apply (f_equal reversed) in X. rewrite reversed_twice, reversed_app in X. revert X. apply N. apply in_map. now apply in_white.
Qed.
Lemma trim_spec s : trimmed (trim s) /\ exists a b, all_white a /\ all_white b /\ s = a +++ trim s +++ b.
Proof.
  unfold trim. destruct (trim_start_spec s) as [(a & Wa & Ea) Na]. destruct (trim_end_spec (ItemModel.trim_start s)) as [(b & Wb & Eb) Nb].
  split.
  - intros w r Hw. split; [|now apply Nb]. intros X. apply (Na w (r +++ b) Hw). rewrite Eb at 1. rewrite X. now rewrite append_assoc.
  - exists a, b. repeat split; try assumption. rewrite <- Eb. exact Ea.
Qed.
Lemma trim_id t : trimmed t -> trim t = t.
Proof.
  intros T. unfold trim, ItemModel.trim_start. rewrite strip_all_id by (intros w r Hw; exact (proj1 (T w r (proj1 (in_white w) Hw)))).
  unfold ItemModel.trim_end. rewrite strip_all_id; [apply reversed_twice|].
  intros w r Hw X. apply in_map_iff in Hw as (v & <- & Hv). apply (f_equal reversed) in X.
  rewrite reversed_twice, reversed_app, reversed_twice in X. now destruct (T v (reversed r) (proj1 (in_white v) Hv)) as [_ []].
Qed.

(** ** The iterator *)
Lemma read_text_fin ts : forall text fin, finished (snd (read_text_event ts text fin)) = fin.
Proof. induction ts as [|k ts IH]; intros text fin; cbn [read_text_event]; [reflexivity|]. destruct k; auto; try (destruct (build_start _ _); reflexivity). destruct (resolve_ref _); auto. Qed.
Lemma read_next_fin ts : forall fin e st, read_next_loop ts fin = (e, st) -> e <> EDocEnd -> finished st = fin.
Proof.
  induction ts as [|k ts IH]; intros fin e st H N; cbn [read_next_loop] in H; [injection H as <- <-; congruence|].
  destruct k; try (destruct (build_start _ _)); try (injection H as <- <-; reflexivity).
  - pose proof (read_text_fin ts (norm_text raw) fin) as R. now rewrite H in R.
  - destruct (resolve_ref _) as [d|]; [|injection H as <- <-; reflexivity]. pose proof (read_text_fin ts d fin) as R. now rewrite H in R.
  - now apply (IH _ _ _ H).
Qed.
Lemma next_event_fin st e st' : next_event st = (e, st') -> e <> EDocEnd -> finished st' = finished st.
Proof.
  unfold next_event. destruct (queue st) as [|x q]; intros H N; [now apply (read_next_fin _ _ _ _ H)|]. injection H as <- <-. reflexivity.
Qed.
Definition is_err (e : event) : bool := match e with EErr => true | _ => false end.
Lemma iter_collect : forall fuel st l, finished st = false -> same_stream (drain_state st) l -> ~ In EDocEnd l ->
  S (length l) < fuel -> collect fuel st = if existsb is_err l then CPanic else CEvents (l ++ [EDocEnd]).
Proof.
  induction fuel as [|f IH]; intros st l F S N Hf; [lia|].
  cbn [collect]. unfold iter_next. rewrite F. destruct (next_event st) as [e st'] eqn:E.
  pose proof (next_event_drain _ _ _ E) as D.
  destruct l as [|x l].
  - pose proof (S 0) as S0. pose proof (D 0) as D0. cbn in S0, D0. assert (He : e = EDocEnd) by congruence. clear S0 D0. subst e.
    destruct f as [|f]; [cbn in Hf; lia|reflexivity].
  - pose proof (S 0) as S0. pose proof (D 0) as D0. cbn [nth] in S0, D0. assert (He : e = x) by congruence. clear S0 D0. subst e.
    assert (Nx : x <> EDocEnd) by (intros ->; apply N; now left).
    assert (R : collect f st' = if existsb is_err l then CPanic else CEvents (l ++ [EDocEnd])).
    { apply IH.
      - now rewrite (next_event_fin _ _ _ E Nx).
      - intros n. pose proof (S (Datatypes.S n)) as S1. pose proof (D (Datatypes.S n)) as D1. cbn [nth] in S1, D1. congruence.
      - intros H. apply N. now right.
      - cbn in Hf. lia. }
    destruct x; try congruence; cbn [existsb is_err orb]; try reflexivity; rewrite R; destruct (existsb is_err l); reflexivity.
Qed.
Lemma events_length s : length (events_of s) <= 2 * String.length s.
Proof.
  destruct (docend_reached s) as (n & Hn & E). rewrite nth_request_events in E.
  destruct (Nat.lt_ge_cases n (length (events_of s))) as [L|L]; [|lia].
  exfalso. apply (drain_no_docend (tokens [] s) None). fold (events_of s). rewrite <- E. now apply nth_In.
Qed.
Lemma collect_all s : collect (2 * String.length s + 2) (reader_of s) = if existsb is_err (events_of s) then CPanic else CEvents (events_of s ++ [EDocEnd]).
Proof.
  apply iter_collect; [reflexivity|apply same_stream_refl|apply drain_no_docend|].
  pose proof (events_length s). lia.
Qed.

(** ** Parsing *)
Lemma parse_more : forall f evs cur v r, parse f evs cur v = r -> r <> PFuel -> forall g, f <= g -> parse g evs cur v = r.
Proof.
  induction f as [|f IH]; intros evs cur v r H N g Hg; [cbn in H; congruence|].
  destruct g as [|g]; [lia|]. assert (Hg' : f <= g) by lia. cbn [parse] in *.
  destruct evs as [|e evs]; [exact H|].
  destruct e; try (now apply (IH _ _ _ _ H)).
  - destruct (parse f evs (Some (XData (shown name) (shown_attrs attrs) None [])) []) as [inner rest| |] eqn:P; [| |congruence].
    + rewrite (IH _ _ _ _ P ltac:(discriminate) g Hg'). destruct cur; now apply (IH _ _ _ _ H).
    + rewrite (IH _ _ _ _ P ltac:(discriminate) g Hg'). exact H.
  - exact H.
  - destruct cur; [now apply (IH _ _ _ _ H)|exact H].
Qed.
Lemma parse_enough : forall f evs cur v, length evs < f ->
  parse f evs cur v <> PFuel /\ forall w rest, parse f evs cur v = POk w rest -> length rest <= length evs.
Proof.
  induction f as [|f IH]; intros evs cur v Hf; [lia|]. cbn [parse].
  destruct evs as [|e evs].
  { destruct cur; split; try discriminate. intros w rest H. injection H as <- <-. cbn; lia. }
  cbn [length] in Hf. assert (Hf' : length evs < f) by lia.
  assert (Skip : forall c u, parse f evs c u <> PFuel /\ forall w rest, parse f evs c u = POk w rest -> length rest <= length (e :: evs)).
  { intros c u. destruct (IH evs c u Hf') as [A B]. split; [exact A|]. intros w rest H. specialize (B _ _ H). cbn. lia. }
  destruct e; try apply Skip.
  - destruct (IH evs (Some (XData (shown name) (shown_attrs attrs) None [])) [] Hf') as [A B].
    destruct (parse f evs (Some (XData (shown name) (shown_attrs attrs) None [])) []) as [inner rest| |]; [|split; discriminate|congruence].
    specialize (B _ _ eq_refl).
    assert (K : forall c u, parse f rest c u <> PFuel /\ forall w r, parse f rest c u = POk w r -> length r <= length (EStart name attrs :: evs)).
    { intros c u. destruct (IH rest c u ltac:(lia)) as [A' B']. split; [exact A'|]. intros w r H. specialize (B' _ _ H). cbn. lia. }
    destruct cur; apply K.
  - destruct cur; [|split; discriminate]. destruct (_ =s _); split; try discriminate. intros w rest H. injection H as <- <-. cbn; lia.
  - destruct cur; [apply Skip|split; discriminate].
Qed.

(** [parses] hides the fuel. *)
Definition parses evs cur v r := exists f, parse f evs cur v = r /\ r <> PFuel.
Lemma parses_of f evs cur v r : parses evs cur v r -> length evs < f -> parse f evs cur v = r.
Proof.
  intros (g & H & N) Hf. destruct (parse_enough f evs cur v Hf) as [A _].
  destruct (Nat.le_ge_cases f g) as [L|L].
  - rewrite <- H. symmetry. now apply (parse_more f).
  - now apply (parse_more g).
Qed.
Lemma parses_start q a evs inner rest cur v r :
  parses evs (Some (XData (shown q) (shown_attrs a) None [])) [] (POk inner rest) ->
  match cur with Some c => parses rest (Some (with_children inner c)) v r | None => parses rest None (v ++ inner) r end ->
  parses (EStart q a :: evs) cur v r.
Proof.
  intros (f & Hf & _) H. assert (exists g, match cur with Some c => parse g rest (Some (with_children inner c)) v | None => parse g rest None (v ++ inner) end = r /\ r <> PFuel) as (g & Hg & N)
    by (destruct cur; exact H).
  exists (S (f + g)). split; [|exact N]. cbn [parse]. rewrite (parse_more _ _ _ _ _ Hf ltac:(discriminate) (f + g) ltac:(lia)).
  destruct cur; apply (parse_more _ _ _ _ _ Hg N); lia.
Qed.
Lemma parses_text t evs c v r : parses evs (Some (with_text (trim t) c)) v r -> parses (EChars t :: evs) (Some c) v r.
Proof. intros (f & H & N). exists (S f). split; [exact H|exact N]. Qed.
Lemma parses_blank t evs cur v r : parses evs cur v r -> parses (EWs t :: evs) cur v r.
Proof. intros (f & H & N). exists (S f). split; [exact H|exact N]. Qed.
Lemma parses_end q evs c v : name_of c = shown q -> parses (EEnd q :: evs) (Some c) v (POk (v ++ [c]) evs).
Proof. intros E. exists 1. cbn [parse]. rewrite E, String.eqb_refl. split; [reflexivity|discriminate]. Qed.

Lemma node_ind' (P : node -> Prop) : (forall q a ch, Forall P ch -> P (NElem q a ch)) -> (forall s, P (NText s)) -> (forall s, P (NBlank s)) -> forall n, P n.
Proof.
  intros A B C. fix IH 1. intros [q a ch|s|s]; [|apply B|apply C]. apply A. induction ch as [|n ch IHc]; constructor; [apply IH|exact IHc].
Qed.
Definition more_text (o : option string) (l : list node) : option string :=
  fold_left (fun acc n => match n with NText s => Some (trim s) | _ => acc end) l o.
Definition grown (c : xdata) (l : list node) : xdata :=
  match c with XData n a d ch => XData n a (more_text d l) (ch ++ flat_map kept_of l) end.
Lemma grown_cons c n l : grown c (n :: l) = grown (grown c [n]) l.
Proof. destruct c as [m a d ch]. cbn [grown more_text fold_left flat_map]. now rewrite app_nil_r, app_assoc. Qed.
Lemma parses_forest l : Forall (fun n => forall c v rest r, parses rest (Some (grown c [n])) v r -> parses (told n ++ rest) (Some c) v r) l ->
  forall c v rest r, parses rest (Some (grown c l)) v r -> parses (flat_map told l ++ rest) (Some c) v r.
Proof.
  intros F. induction F as [|n l Hn F IH]; intros c v rest r H.
  - destruct c as [m a d ch]. cbn [grown more_text fold_left flat_map] in H. rewrite app_nil_r in H. exact H.
  - cbn [flat_map]. rewrite <- app_assoc. apply Hn, IH. now rewrite <- grown_cons.
Qed.
Lemma parses_node n : forall c v rest r, parses rest (Some (grown c [n])) v r -> parses (told n ++ rest) (Some c) v r.
Proof.
  induction n as [q a ch IH|s|s] using node_ind'; intros c v rest r H; cbn [told app].
  - eapply parses_start.
    + rewrite <- app_assoc. apply parses_forest; [exact IH|]. apply parses_end. reflexivity.
    + cbn [app]. destruct c as [m b d k]. cbn [with_children grown more_text fold_left flat_map kept_of app] in *. exact H.
  - apply parses_text. destruct c as [m b d k]. cbn [grown more_text fold_left flat_map kept_of app] in H. rewrite app_nil_r in H. exact H.
  - apply parses_blank. destruct c as [m b d k]. cbn [grown more_text fold_left flat_map kept_of app] in H. rewrite app_nil_r in H. exact H.
Qed.
Lemma parses_top l : Forall no_text l -> forall v, parses (flat_map told l ++ [EDocEnd]) None v (POk (v ++ flat_map kept_of l) []).
Proof.
  intros F. induction F as [|n l Hn F IH]; intros v; cbn [flat_map].
  - exists 2. cbn [parse app]. split; [now rewrite app_nil_r|discriminate].
  - rewrite <- app_assoc. destruct n as [q a ch|s|s]; [|destruct Hn|].
    + cbn [told app]. rewrite <- app_assoc. eapply parses_start.
      * apply parses_forest; [apply Forall_forall; intros n _; apply parses_node|]. apply parses_end. reflexivity.
      * cbn [app kept_of]. specialize (IH (v ++ [grown (XData (shown q) (shown_attrs a) None []) ch])). rewrite <- app_assoc in IH. exact IH.
    + cbn [told kept_of app]. now apply parses_blank.
Qed.

(** *** What was parsed was a document *)
Lemma qname_eqb_eq a b : qname_eqb a b = true -> a = b.
Proof.
  destruct a as [[p|] l], b as [[p'|] l']; unfold qname_eqb; cbn [q_prefix q_local]; intros H; apply andb_true_iff in H as [A B]; try discriminate.
  - apply String.eqb_eq in A, B. now subst.
  - apply String.eqb_eq in A. now subst.
Qed.
Lemma still_open_told n : forall open rest, still_open open (told n ++ rest) = still_open open rest.
Proof.
  induction n as [q a ch IH|s|s] using node_ind'; intros open rest; try reflexivity. cbn [told app still_open]. rewrite <- app_assoc.
  assert (F : forall o r, still_open o (flat_map told ch ++ r) = still_open o r).
  { clear -IH. induction IH as [|n ch Hn F IH]; intros o r; [reflexivity|]. cbn [flat_map]. now rewrite <- app_assoc, Hn, IH. }
  rewrite F. cbn [app still_open]. now rewrite qname_eqb_refl.
Qed.
Lemma still_open_forest l : forall open rest, still_open open (flat_map told l ++ rest) = still_open open rest.
Proof. induction l as [|n l IH]; intros; [reflexivity|]. cbn [flat_map]. now rewrite <- app_assoc, still_open_told, IH. Qed.
Definition ordinary (e : event) : Prop := e <> EDocEnd /\ e <> EErr.
Lemma parsed_inside : forall f evs c v w rest open q o,
  parse f (evs ++ [EDocEnd]) (Some c) v = POk w rest -> Forall ordinary evs -> still_open (q :: open) evs = Some o -> name_of c = shown q ->
  exists l evs', evs = flat_map told l ++ EEnd q :: evs' /\ rest = evs' ++ [EDocEnd] /\ w = v ++ [grown c l].
Proof.
  induction f as [|f IH]; intros evs c v w rest open q o H F S Hn; [discriminate|]. cbn [parse] in H.
  destruct evs as [|e evs]; cbn [app] in H.
  { destruct f; [discriminate|]. cbn in H. discriminate. }
  inversion F as [|? ? He F']; subst. destruct He as [He1 He2].
  assert (Gn : forall l, name_of (grown c l) = name_of c) by (intros l; now destruct c).
  destruct e as [q2 a2|q2|t|t| |]; try congruence.
  - cbn [still_open] in S. destruct (parse f (evs ++ [EDocEnd]) (Some (XData (shown q2) (shown_attrs a2) None [])) []) as [inner rest1| |] eqn:P; try discriminate.
    destruct (IH _ _ _ _ _ _ _ _ P F' S eq_refl) as (l1 & evs1 & -> & -> & ->).
    rewrite still_open_forest in S. cbn [still_open] in S. rewrite qname_eqb_refl in S.
    assert (F1 : Forall ordinary evs1) by (apply Forall_app in F' as [_ F']; inversion F'; assumption).
    destruct (IH _ _ _ _ _ _ _ _ H F1 S) as (l2 & evs2 & -> & -> & ->); [destruct c; exact Hn|].
    exists (NElem q2 a2 l1 :: l2), evs2. split; [|split; [reflexivity|]].
    + cbn [flat_map told app]. now rewrite <- !app_assoc.
    + do 2 f_equal. rewrite (grown_cons c). f_equal.
  - destruct (name_of c =s shown q2); [|discriminate]. injection H as <- <-. cbn [still_open] in S.
    destruct (qname_eqb q2 q) eqn:Q; [|discriminate]. apply qname_eqb_eq in Q. subst q2.
    exists [], evs. split; [reflexivity|]. split; [reflexivity|]. do 2 f_equal. destruct c as [m b d k]. cbn. now rewrite app_nil_r.
  - cbn [still_open] in S. destruct (IH _ _ _ _ _ _ _ _ H F' S) as (l & evs' & -> & -> & ->); [destruct c; exact Hn|].
    exists (NText t :: l), evs'. split; [reflexivity|]. split; [reflexivity|]. do 2 f_equal. rewrite (grown_cons c). f_equal. destruct c as [m b d k]. cbn. now rewrite app_nil_r.
  - cbn [still_open] in S. destruct (IH _ _ _ _ _ _ _ _ H F' S) as (l & evs' & -> & -> & ->); [exact Hn|].
    exists (NBlank t :: l), evs'. split; [reflexivity|]. split; [reflexivity|]. destruct c; reflexivity.
Qed.
Lemma parsed_top : forall f evs v w rest o,
  parse f (evs ++ [EDocEnd]) None v = POk w rest -> Forall ordinary evs -> still_open [] evs = Some o ->
  exists l, Forall no_text l /\ evs = flat_map told l /\ w = v ++ flat_map kept_of l.
Proof.
  induction f as [|f IH]; intros evs v w rest o H F S; [discriminate|]. cbn [parse] in H.
  destruct evs as [|e evs]; cbn [app] in H.
  { destruct f; [discriminate|]. cbn in H. injection H as <- <-. exists []. cbn. rewrite app_nil_r. auto. }
  inversion F as [|? ? He F']; subst. destruct He as [He1 He2].
  destruct e as [q2 a2|q2|t|t| |]; try congruence; try discriminate.
  - cbn [still_open] in S. destruct (parse f (evs ++ [EDocEnd]) (Some (XData (shown q2) (shown_attrs a2) None [])) []) as [inner rest1| |] eqn:P; try discriminate.
    destruct (parsed_inside _ _ _ _ _ _ _ _ _ P F' S eq_refl) as (l1 & evs1 & -> & -> & ->).
    rewrite still_open_forest in S. cbn [still_open] in S. rewrite qname_eqb_refl in S.
    assert (F1 : Forall ordinary evs1) by (apply Forall_app in F' as [_ F']; inversion F'; assumption).
    destruct (IH _ _ _ _ _ H F1 S) as (l2 & N2 & -> & ->).
    exists (NElem q2 a2 l1 :: l2). split; [constructor; [exact I|exact N2]|]. split.
    + cbn [flat_map told app]. now rewrite <- !app_assoc.
    + rewrite <- !app_assoc. reflexivity.
  - cbn [still_open] in S. destruct (IH _ _ _ _ _ H F' S) as (l & N & -> & ->). exists (NBlank t :: l). split; [constructor; [exact I|exact N]|]. split; reflexivity.
Qed.

Lemma answers_events s l : ~ In EDocEnd l -> (answers s l <-> events_of s = l).
Proof.
  intros N. unfold answers. setoid_rewrite nth_request_events. split; [|intros ->; reflexivity].
  assert (M : ~ In EDocEnd (events_of s)) by apply drain_no_docend. revert l N M.
  induction (events_of s) as [|x m IH]; intros l N M H.
  - destruct l as [|y l]; [reflexivity|]. specialize (H 0). cbn in H. exfalso. apply N. left. congruence.
  - destruct l as [|y l]; [specialize (H 0); cbn in H; exfalso; apply M; left; congruence|].
    f_equal; [apply (H 0)|]. apply IH; [intros X; apply N; now right|intros X; apply M; now right|]. intros n. apply (H (S n)).
Qed.
Lemma told_ordinary n : Forall ordinary (told n).
Proof.
  induction n as [q a ch IH|s|s] using node_ind'; cbn [told]; repeat constructor; try discriminate.
  apply Forall_app. split; [|repeat constructor; discriminate].
  clear q a. induction IH; cbn [flat_map]; [constructor|]. apply Forall_app. now split.
Qed.
Lemma all_ordinary l : Forall ordinary (flat_map told l).
Proof. induction l; cbn [flat_map]; [constructor|]. apply Forall_app. split; [apply told_ordinary|assumption]. Qed.
Lemma ordinary_no_docend l : Forall ordinary l -> ~ In EDocEnd l.
Proof. intros F H. rewrite Forall_forall in F. destruct (F _ H). congruence. Qed.
Lemma ordinary_no_err l : Forall ordinary l -> existsb is_err l = false.
Proof. intros F. induction F as [|e l [A B] F IH]; [reflexivity|]. cbn [existsb]. rewrite IH. destruct e; try reflexivity. congruence. Qed.

Lemma keep_iff s v : keep s = Kept v <-> exists l, Forall no_text l /\ answers s (flat_map told l) /\ v = flat_map kept_of l.
Proof.
  unfold keep. rewrite collect_all. split.
  - destruct (existsb is_err (events_of s)) eqn:X; [discriminate|].
    destruct (parse _ _ None []) as [w rest| |] eqn:P; try discriminate. intros H. injection H as <-.
    assert (F : Forall ordinary (events_of s)).
    { apply Forall_forall. intros e He. split; intros ->; [exact (drain_no_docend (tokens [] s) None He)|].
      apply not_true_iff_false in X. apply X. apply existsb_exists. exists EErr. auto. }
    assert (exists o, still_open [] (events_of s) = Some o) as [o S].
    { destruct (drain_bracketed (String.length s) [] None s (le_n _)) as [o Ho]. cbn [map] in Ho. fold (events_of s) in Ho.
      exists o. rewrite <- Ho. f_equal. clear -F. induction F as [|e l [A B] F IH]; [reflexivity|]. cbn [before_err]. destruct e; cbn [not_err]; congruence. }
    destruct (parsed_top _ _ _ _ _ _ P F S) as (l & N & E & ->). exists l. split; [exact N|]. split; [|reflexivity].
    apply answers_events; [apply ordinary_no_docend, all_ordinary|exact E].
  - intros (l & N & A & ->). apply answers_events in A; [|apply ordinary_no_docend, all_ordinary]. rewrite A.
    rewrite (ordinary_no_err _ (all_ordinary l)).
    rewrite (parses_of _ _ _ _ _ (parses_top l N [])); [reflexivity|lia].
Qed.
Lemma keep_panics s : keep s = Panicked <-> exists n, nth_request n (reader_of s) = EErr.
Proof.
  unfold keep. rewrite collect_all. setoid_rewrite nth_request_events. destruct (existsb is_err (events_of s)) eqn:X.
  - split; [intros _|reflexivity]. apply existsb_exists in X as (e & He & Xe). destruct e; try discriminate.
    apply (In_nth _ _ EDocEnd) in He as (n & _ & Hn). eauto.
  - split; [destruct (parse _ _ None []); discriminate|]. intros (n & Hn). exfalso.
    apply not_true_iff_false in X. apply X. apply existsb_exists. exists EErr. split; [|reflexivity].
    destruct (Nat.lt_ge_cases n (length (events_of s))) as [L|L]; [rewrite <- Hn; now apply nth_In|].
    rewrite nth_overflow in Hn by lia. discriminate.
Qed.
Lemma keep_ends s : keep s <> OutOfFuel.
Proof.
  unfold keep. rewrite collect_all. destruct (existsb is_err (events_of s)); [discriminate|].
  destruct (parse_enough (S (length (events_of s ++ [EDocEnd]))) (events_of s ++ [EDocEnd]) None [] ltac:(lia)) as [A _].
  destruct (parse _ _ None []); congruence.
Qed.

(** ** The stored text *)
Lemma split_shown n : local_part n -> shown (split_qname n) = n.
Proof.
  intros L. unfold split_qname.
  assert (Sp : forall f s, let (p, r) := span_until f s in s = p +++ r /\ all_char (fun c => negb (f c)) p = true /\ match r with String c _ => f c = true | EmptyString => True end).
  { clear. intros f s. induction s as [|c s IH]; cbn [span_until]; [repeat split|]. destruct (f c) eqn:Fc; [repeat split; exact Fc|].
    destruct (span_until f s) as [p r]. destruct IH as (-> & A & B). cbn [String.append all_char]. rewrite Fc, A. auto. }
  specialize (Sp (fun c => c =c ":"%char) n). destruct (span_until _ n) as [p r]. destruct Sp as (E & A & B).
  destruct r as [|c l]; [reflexivity|]. unfold shown. cbn [q_prefix q_local]. apply Ascii.eqb_eq in B. subst c.
  destruct (String.eqb_spec l "") as [->|Nl].
  - exfalso. specialize (L p E). clear -A L. induction p as [|c p IH]; [discriminate|]. cbn [all_char has_char] in *.
    apply andb_true_iff in A as [A1 A2]. apply orb_true_iff in L as [L|L]; [|now apply IH].
    rewrite L in A1. discriminate.
  - now rewrite E.
Qed.
Lemma xdata_ind' (P : xdata -> Prop) : (forall n a d ch, Forall P ch -> P (XData n a d ch)) -> forall x, P x.
Proof. intros A. fix IH 1. intros [n a d ch]. apply A. induction ch as [|x ch IHc]; constructor; [apply IH|exact IHc]. Qed.
Lemma kept_node x : plain_item x -> kept_of (as_node x) = [x].
Proof.
  induction x as [n a d ch IH] using xdata_ind'. intros H. inversion H as [? ? ? ? Hn Hl Ha Hd Hc]; subst.
  cbn [as_node kept_of]. f_equal. f_equal.
  - now apply split_shown.
  - unfold shown_attrs. rewrite map_map. clear -Ha. induction Ha as [|[k v] a (A & B & C) F IHa]; [reflexivity|]. cbn [map fst snd] in *. rewrite IHa, split_shown by assumption. reflexivity.
  - assert (T : forall o, more_text o (map as_node ch) = o).
    { clear. unfold more_text. induction ch as [|[n a d k] ch IH]; intros o; [reflexivity|]. cbn. apply IH. }
    unfold last_text. destruct d as [t|]; cbn [app fold_left].
    + rewrite trim_id by (now destruct (Hd t eq_refl) as (_ & D & _)). apply T.
    + apply T.
  - rewrite flat_map_app. assert (Z : flat_map kept_of match d with Some t => [NText t] | None => [] end = []) by (destruct d; reflexivity). rewrite Z. cbn [app].
    clear -IH Hc. induction IH as [|x ch Hx F IH]; [reflexivity|]. inversion Hc; subst. cbn [map flat_map]. rewrite Hx, IH by assumption. reflexivity.
Qed.
Lemma kept_nodes v : Forall plain_item v -> flat_map kept_of (map as_node v) = v.
Proof. intros F. induction F as [|x v Hx F IH]; [reflexivity|]. cbn [map flat_map]. now rewrite kept_node, IH. Qed.

Lemma plain_value_decodes v : all_char plain_value_char v = true -> has_char ch_quot v = false /\ decode_attr None v = Some v.
Proof.
  induction v as [|c v IH]; intros H; [split; reflexivity|]. cbn [all_char] in H. apply andb_true_iff in H as [Hc H]. destruct (IH H) as [A B].
  unfold plain_value_char in Hc. rewrite negb_true_iff, !orb_false_iff in Hc. destruct Hc as [[[[Q Am] T] Nl] Cr].
  cbn [has_char decode_attr]. rewrite A. split; [rewrite orb_false_r, Q; reflexivity|].
  rewrite Am. rewrite Cr. unfold is_ws. rewrite T, Nl, Cr, B. destruct (c =c ch_sp) eqn:Sp; [apply Ascii.eqb_eq in Sp; subst; reflexivity|reflexivity].
Qed.
Lemma plain_attrs_mean a : Forall plain_attr a -> attrs_meaning a = Some (map (fun kv => (split_qname (fst kv), snd kv)) a).
Proof.
  intros F. induction F as [|[k v] a (A & B & C) F IH]; [reflexivity|]. cbn [attrs_meaning map fst snd] in *.
  destruct (plain_value_decodes v C) as [Q D]. rewrite A, Q, D, IH. reflexivity.
Qed.
Lemma plain_text_means t : all_char plain_text_char t = true -> text_meaning None t = Some t.
Proof.
  induction t as [|c t IH]; intros H; [reflexivity|]. cbn [all_char] in H. apply andb_true_iff in H as [Hc H].
  unfold plain_text_char in Hc. rewrite negb_true_iff, !orb_false_iff in Hc. destruct Hc as [[Lt Am] Cr].
  cbn [text_meaning]. rewrite Lt, Am, Cr, (IH H). reflexivity.
Qed.
Lemma trimmed_not_blank t : t <> ""%string -> trimmed t -> all_char is_ws t = false.
Proof.
  intros N T. destruct t as [|c t]; [congruence|]. cbn [all_char]. apply andb_false_iff. left.
  destruct (is_ws c) eqn:W; [|reflexivity]. exfalso. destruct (T (str1 c) t) as [X _]; [|now apply X].
  unfold is_ws in W. rewrite !orb_true_iff in W. destruct W as [[[W|W]|W]|W]; apply Ascii.eqb_eq in W; subst; cbn; apply in_white; vm_compute; tauto.
Qed.

Definition before (txt : option string) : list event := match txt with Some t => [text_event t] | None => [] end.
Lemma show_open n a d ch : show_data (XData n a d ch) =
  tag_bytes n a +++ ">" +++ match d with Some t => t | None => "" end +++ show_items ch +++ "</" +++ n +++ ">".
Proof. cbn [show_data]. unfold tag_bytes, show_items, attr_bytes. now rewrite !append_assoc. Qed.
Lemma lt_or_end_items ch n rest : lt_or_end (show_items ch +++ "</" +++ n +++ ">" +++ rest).
Proof. destruct ch as [|[m a d k] ch]; reflexivity. Qed.
Lemma shown_data x : plain_item x -> forall txt open rest,
  drain txt (tokens open (show_data x +++ rest)) = before txt ++ told (as_node x) ++ drain None (tokens open rest).
Proof.
  induction x as [n a d ch IH] using xdata_ind'. intros H txt open rest. inversion H as [? ? ? ? Hn Hl Ha Hd Hc]; subst.
  assert (Fo : forall txt, drain txt (tokens (n :: open) (show_items ch +++ "</" +++ n +++ ">" +++ rest)) =
     before txt ++ flat_map told (map as_node ch) ++ EEnd (split_qname n) :: drain None (tokens open rest)).
  { clear Ha Hd H. induction IH as [|x ch Hx F IHc]; intros t.
    - cbn [show_items map concat_str flat_map]. change (""%string +++ ?z) with z. rewrite tokens_eq.
      pose proof (next_tok_end n rest Hn) as Z. rewrite Z. rewrite String.eqb_refl. cbn [drain]. destruct t; reflexivity.
    - inversion Hc; subst. unfold show_items. cbn [map concat_str flat_map]. rewrite append_assoc. fold (show_items ch). rewrite Hx by assumption.
      rewrite (IHc ltac:(assumption) None). cbn [before app]. now rewrite <- !app_assoc. }
  rewrite show_open, !append_assoc. rewrite tokens_eq.
  pose proof (plain_attrs_mean a Ha) as M. rewrite (next_tok_start n a _ Hn (attrs_meaning_ok _ _ M)).
  rewrite (drain_before _ _ _ _ (EStart (split_qname n) (map (fun kv => (split_qname (fst kv), snd kv)) a))).
  2:{ rewrite <- (append_nil_r (concat_str _)). now apply build_start_bytes. }
  cbn [as_node told]. cbn [app]. f_equal. f_equal. rewrite flat_map_app, <- !app_assoc. cbn [app].
  destruct d as [t|].
  - destruct (Hd t eq_refl) as (Ne & Tr & Pl).
    assert (R : text_report t = Some [EChars t]).
    { destruct t as [|c t]; [congruence|]. unfold text_report. rewrite (plain_text_means _ Pl). cbn [option_map]. now rewrite (trimmed_not_blank _ Ne Tr). }
    destruct (drain_text (n :: open) _ t _ (lt_or_end_items ch n rest) R) as (o & E1 & E2).
    rewrite E1, Fo. cbn [flat_map told app]. unfold before. rewrite <- E2. reflexivity.
  - cbn [flat_map app]. change (""%string +++ ?z) with z. rewrite Fo. reflexivity.
Qed.
Lemma shown_items v : Forall plain_item v -> events_of (show_items v) = flat_map told (map as_node v).
Proof.
  intros F. unfold events_of. induction F as [|x v Hx F IH]; [reflexivity|].
  unfold show_items in *. cbn [map concat_str flat_map]. rewrite shown_data by assumption. cbn [before app]. now rewrite IH.
Qed.
Lemma stored_answers v : Forall plain_item v -> answers (show_items v) (flat_map told (map as_node v)).
Proof. intros F. apply answers_events; [apply ordinary_no_docend, all_ordinary|]. now apply shown_items. Qed.
Lemma stored_again v : Forall plain_item v -> keep (show_items v) = Kept v.
Proof.
  intros F. apply keep_iff. exists (map as_node v). split; [|split; [now apply stored_answers|symmetry; now apply kept_nodes]].
  apply Forall_forall. intros n Hn. apply in_map_iff in Hn as ([? ? ? ?] & <- & _). exact I.
Qed.

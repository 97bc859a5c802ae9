From Coq Require Import Permutation.
From Verif Require Import Str StrFacts StrFind StrFindFacts ListFacts IdsModel IdsProofs Props Ast Pass PassFacts TocModel TocSpec.

(** ** Entries, numbered by the counters *)
Record entry := { e_text : string; e_level : N; e_key : string; e_id : N }.
Definition item_of (e : entry) : toc_item := new_item (e_text e) (e_key e) (e_level e).
Definition mark_of (e : entry) : N * string := (e_id e, e_key e).
Definition pair_of (e : entry) : string * N := (e_text e, e_level e).
Definition key_no (n : N) : string := "_Toc" +++ pad0 8 (show_N n).
Definition next (k : counters) : counters := {| k_toc := k_toc k + 1; k_bookmark := wrapping_succ (k_bookmark k) |}.
Inductive numbered : counters -> list entry -> counters -> Prop :=
| num_nil k : numbered k [] k
| num_cons k e es k' : e_key e = key_no (k_toc k) -> e_id e = k_bookmark k -> (k_toc k + 1 < two64)%N ->
    numbered (next k) es k' -> numbered k (e :: es) k'.
Lemma numbered_app k es k1 es2 k2 : numbered k es k1 -> numbered k1 es2 k2 -> numbered k (es ++ es2) k2.
Proof. induction 1; [auto|]. intros. cbn. constructor; auto. Qed.

Lemma between_app ms ms2 ch : between ms2 (between ms ch) = between (ms ++ ms2) ch.
Proof. unfold between. rewrite rev_app_distr, !map_app. now rewrite <- !app_assoc. Qed.
Lemma between_nil ch : between [] ch = ch.
Proof. unfold between. cbn. apply app_nil_r. Qed.

Lemma raw_text_app a b : raw_text (a ++ b) = raw_text a +++ raw_text b.
Proof. unfold raw_text. now rewrite map_app, concat_str_app. Qed.
Lemma raw_text_between ms ch : raw_text (between ms ch) = raw_text ch.
Proof.
  unfold between. rewrite !raw_text_app.
  assert (H1 : forall l, raw_text (map (fun m : N * string => NBookmarkStart (fst m) (snd m)) l) = "") by (induction l; auto).
  assert (H2 : forall l, raw_text (map (fun m : N * string => NBookmarkEnd (fst m)) l) = "") by (induction l; auto).
  now rewrite H1, H2, append_nil_r.
Qed.
Lemma concat_str_flat {A} (f : A -> list string) l : concat_str (flat_map f l) = concat_str (map (fun x => concat_str (f x)) l).
Proof. induction l; cbn; [reflexivity|]. now rewrite concat_str_app, IHl. Qed.
Lemma runs_text (g : node -> string) l :
  concat_str (map g (concat (runs l))) = concat_str (map (fun c => match c with NRun _ r => concat_str (map g r) | _ => "" end) l).
Proof.
  induction l as [|n l IH]; [reflexivity|]. cbn. rewrite <- IH. unfold runs. cbn [flat_map].
  destruct n; cbn; try reflexivity. now rewrite map_app, concat_str_app.
Qed.
Lemma visible_raw id p nb ch : visible_text (NPara id p nb ch) = raw_text ch.
Proof.
  unfold visible_text, raw_text. cbn [children]. rewrite concat_str_flat. f_equal. apply map_ext. intros n.
  destruct n; try reflexivity; cbn [para_child_text]; apply runs_text.
Qed.

(** ** One paragraph *)
Definition lvl (m : list (string * N)) (st : option string) : option N :=
  match st with Some st => last_get st m | None => None end.
Definition in_bounds (min max : N) (o : option N) : list N :=
  match o with Some l => if (min <=? l)%N && (l <=? max)%N then [l] else [] | None => [] end.

Lemma entry_if_spec min max o ch items k ch' items' k' :
  entry_if min max o ch (items, k) = Some (ch', (items', k')) ->
  exists es, map pair_of es = map (fun l => (raw_text ch, l)) (in_bounds min max o) /\
    ch' = between (map mark_of es) ch /\ items' = items ++ map item_of es /\ numbered k es k'.
Proof.
  unfold entry_if, in_bounds. destruct o as [l|].
  - destruct ((min <=? l)%N && (l <=? max)%N).
    + unfold add_entry. cbn [fst snd]. destruct (gen_toc_key (k_toc k)) as [(key & t')|] eqn:E; [|discriminate].
      intros [= <- <- <-]. unfold gen_toc_key in E. destruct (k_toc k + 1 <? two64)%N eqn:E2; [|discriminate].
      injection E as <- <-. exists [{| e_text := raw_text ch; e_level := l; e_key := key_no (k_toc k); e_id := k_bookmark k |}].
      split; [reflexivity|]. split; [|split; [reflexivity|]].
      * unfold between, wrap_by_bookmark. cbn. reflexivity.
      * constructor; try reflexivity; [now apply N.ltb_lt|]. constructor.
    + intros [= <- <- <-]. exists []. repeat split; cbn; rewrite ?between_nil, ?app_nil_r; try reflexivity. constructor.
  - intros [= <- <- <-]. exists []. repeat split; cbn; rewrite ?between_nil, ?app_nil_r; try reflexivity. constructor.
Qed.
Lemma entry_if_total min max o ch items k : (k_toc k + N.of_nat (length (in_bounds min max o)) < two64)%N ->
  exists r, entry_if min max o ch (items, k) = Some r.
Proof.
  unfold entry_if, in_bounds. destruct o as [l|]; [|eauto]. destruct ((min <=? l)%N && (l <=? max)%N); [|eauto].
  cbn [length]. unfold add_entry, gen_toc_key. cbn [snd]. intros H.
  destruct (N.ltb_spec (k_toc k + 1) two64); [eauto|lia].
Qed.

Definition node_levels (heads customs : list (string * N)) (min max : N) (n : node) : list N :=
  match n with
  | NPara _ _ _ _ => in_bounds min max (lvl heads (style_of n)) ++ in_bounds min max (lvl customs (style_of n))
  | _ => []
  end.
Definition rewrap (ms : list (N * string)) (n : node) : node :=
  match n with NPara id p nb ch => NPara id p nb (between ms ch) | _ => n end.
Definition own_text (n : node) : string := match n with NPara _ _ _ ch => raw_text ch | _ => "" end.

Lemma toc_visit_spec heads customs min max n items k n' items' k' :
  toc_visit heads customs min max n (items, k) = Some (n', (items', k')) ->
  exists es, map pair_of es = map (fun l => (own_text n, l)) (node_levels heads customs min max n) /\
    n' = rewrap (map mark_of es) n /\ items' = items ++ map item_of es /\ numbered k es k'.
Proof.
  assert (Hn : Some (n, (items, k)) = Some (n', (items', k')) -> node_levels heads customs min max n = [] ->
    (forall ms, rewrap ms n = n) ->
    exists es, map pair_of es = map (fun l => (own_text n, l)) (node_levels heads customs min max n) /\
    n' = rewrap (map mark_of es) n /\ items' = items ++ map item_of es /\ numbered k es k').
  { intros [= <- <- <-] Hl Hr. exists []. rewrite Hl, Hr. repeat split; cbn; rewrite ?app_nil_r; try reflexivity. constructor. }
  destruct n; try (intros E; apply (Hn E); reflexivity). clear Hn.
  cbn [toc_visit node_levels rewrap own_text]. fold (lvl heads (style_of (NPara id p numbering ch))). fold (lvl customs (style_of (NPara id p numbering ch))).
  destruct (entry_if _ _ (lvl heads _) _ _) as [(ch1 & items1 & k1)|] eqn:E1; [|discriminate].
  unfold then_. destruct (entry_if _ _ (lvl customs _) _ _) as [(ch2 & items2 & k2)|] eqn:E2; [|discriminate].
  intros [= <- <- <-]. apply entry_if_spec in E1 as (es1 & A1 & -> & -> & B1). apply entry_if_spec in E2 as (es2 & A2 & -> & -> & B2).
  rewrite raw_text_between in A2. exists (es1 ++ es2). rewrite !map_app, A1, A2. repeat split.
  - now rewrite between_app.
  - now rewrite app_assoc.
  - eapply numbered_app; eauto.
Qed.
Lemma toc_visit_total heads customs min max n items k :
  (k_toc k + N.of_nat (length (node_levels heads customs min max n)) < two64)%N ->
  exists r, toc_visit heads customs min max n (items, k) = Some r.
Proof.
  destruct n; cbn [toc_visit]; eauto. cbn [node_levels].
  fold (lvl heads (style_of (NPara id p numbering ch))). fold (lvl customs (style_of (NPara id p numbering ch))).
  rewrite app_length, Nat2N.inj_add. intros H.
  destruct (entry_if_total min max (lvl heads (style_of (NPara id p numbering ch))) ch items k) as ((ch1 & items1 & k1) & E); [lia|].
  rewrite E. apply entry_if_spec in E as (es & A & _ & _ & B).
  assert (Hk : k_toc k1 = (k_toc k + N.of_nat (length es))%N).
  { clear -B. induction B; cbn in *; lia. }
  assert (Hl : length es = length (in_bounds min max (lvl heads (style_of (NPara id p numbering ch))))).
  { apply (f_equal (@length _)) in A. now rewrite !map_length in A. }
  destruct (entry_if_total min max (lvl customs (style_of (NPara id p numbering ch))) ch1 items1 k1) as ((ch2 & s2) & E2); [lia|].
  rewrite E2. cbn. eauto.
Qed.

(** ** One pass over the body *)
Lemma pass_spec heads customs min max l : forall items k l' items' k',
  pass (toc_visit heads customs min max) l (items, k) = Some (l', (items', k')) ->
  exists ess, Forall2 (fun n es => map pair_of es = map (fun l => (own_text n, l)) (node_levels heads customs min max n)) l ess /\
    l' = map (fun p => rewrap (map mark_of (snd p)) (fst p)) (combine l ess) /\
    items' = items ++ map item_of (concat ess) /\ numbered k (concat ess) k'.
Proof.
  induction l as [|n l IH]; cbn [pass]; intros items k l' items' k'.
  - intros [= <- <- <-]. exists []. repeat split; cbn; rewrite ?app_nil_r; constructor.
  - destruct (toc_visit _ _ _ _ n _) as [(n' & items1 & k1)|] eqn:E; [|discriminate].
    destruct (pass _ l _) as [(l1 & items2 & k2)|] eqn:E2; [|discriminate]. intros [= <- <- <-].
    apply toc_visit_spec in E as (es & A & -> & -> & B). apply IH in E2 as (ess & C & -> & -> & D).
    exists (es :: ess). repeat split.
    + constructor; assumption.
    + cbn [concat]. now rewrite map_app, app_assoc.
    + cbn [concat]. eapply numbered_app; eauto.
Qed.
Lemma numbered_count k es k' : numbered k es k' -> k_toc k' = (k_toc k + N.of_nat (length es))%N.
Proof. induction 1; cbn in *; lia. Qed.
Lemma pass_total heads customs min max l : forall items k,
  (k_toc k + N.of_nat (length (flat_map (node_levels heads customs min max) l)) < two64)%N ->
  exists r, pass (toc_visit heads customs min max) l (items, k) = Some r.
Proof.
  induction l as [|n l IH]; cbn [pass flat_map]; intros items k H; [eauto|].
  rewrite app_length, Nat2N.inj_add in H.
  destruct (toc_visit_total heads customs min max n items k) as ((n' & items1 & k1) & E); [lia|]. rewrite E.
  apply toc_visit_spec in E as (es & A & _ & _ & B). apply numbered_count in B.
  assert (Hl : length es = length (node_levels heads customs min max n)).
  { apply (f_equal (@length _)) in A. now rewrite !map_length in A. }
  destruct (IH items1 k1) as ((l' & s') & E2); [lia|]. rewrite E2. eauto.
Qed.

(** ** Positions *)
Record trip := { o : node; es : list entry; c : node }.
Definition bounds (i : instr_toc) : N * N := match it_heading i with Some r => r | None => (0, 9)%N end.
Definition entries_of (heads : list (string * N)) (i : instr_toc) (n : node) : list (string * N) :=
  map (fun l => (own_text n, l)) (node_levels heads (it_styles i) (fst (bounds i)) (snd (bounds i)) n).

Lemma last_get_find m st : last_get st m = option_map snd (List.find (fun s => fst s =s st) (rev m)).
Proof.
  induction m as [|(k & v) m IH]; [reflexivity|]. cbn [last_get rev].
  assert (Hf : forall l (x : string * N), List.find (fun s => fst s =s st) (l ++ [x]) =
    match List.find (fun s => fst s =s st) l with Some y => Some y | None => if fst x =s st then Some x else None end).
  { induction l as [|y l IHl]; intros x; cbn; [reflexivity|]. destruct (fst y =s st); [reflexivity|apply IHl]. }
  rewrite Hf, IH. destruct (List.find _ (rev m)); cbn; [reflexivity|]. destruct (k =s st); reflexivity.
Qed.
Lemma in_bounds_range i l : ((fst (bounds i) <=? l)%N && (l <=? snd (bounds i))%N) = in_range i l.
Proof. unfold bounds, in_range. destruct (it_heading i) as [(a & b)|]; [reflexivity|]. destruct l; reflexivity. Qed.
Lemma in_bounds_filter i ol : in_bounds (fst (bounds i)) (snd (bounds i)) ol = filter (in_range i) (match ol with Some l => [l] | None => [] end).
Proof. destruct ol as [l|]; [|reflexivity]. cbn [in_bounds filter]. now rewrite in_bounds_range. Qed.
Lemma entries_listed heads i n :
  entries_of heads i n = map (fun l => (visible_text n, l)) (listed_levels (fun st => last_get st heads) i n).
Proof.
  unfold entries_of. destruct n; try reflexivity. rewrite visible_raw. cbn [own_text]. f_equal.
  cbn [node_levels listed_levels style_of]. destruct (p_style (base_of p)) as [st|]; [|reflexivity]. cbn [lvl].
  rewrite filter_app, !in_bounds_filter. f_equal. unfold given_level. now rewrite last_get_find.
Qed.

(** Shape of a triple: the current node is the old one with its marks. *)
Definition shaped (t : trip) : Prop :=
  match o t with
  | NPara id p nb ch => c t = NPara id p nb (between (map mark_of (es t)) ch) /\ Forall (fun e => e_text e = raw_text ch) (es t)
  | NToc d b a => es t = [] /\ exists items, c t = NToc (with_items d items) b a
  | _ => es t = [] /\ c t = o t
  end.
Definition untouched (t : trip) : Prop := match o t with NToc _ _ _ => c t = o t | _ => True end.
Definition items_at (t : trip) : list toc_item :=
  if to_fill (o t) then match c t with NToc d _ _ => td_items d | _ => [] end else [].
Definition add_marks (p : trip * list entry) : trip :=
  {| o := o (fst p); es := es (fst p) ++ snd p; c := rewrap (map mark_of (snd p)) (c (fst p)) |}.

Lemma shaped_levels heads customs min max t : shaped t ->
  node_levels heads customs min max (c t) = node_levels heads customs min max (o t) /\ own_text (c t) = own_text (o t).
Proof.
  unfold shaped. destruct t as [n l n']; cbn [o es c]. destruct n; intros H;
    try (destruct H as [_ ->]; split; reflexivity).
  - destruct H as [-> _]. cbn. split; [reflexivity|apply raw_text_between].
  - destruct H as [_ (items & ->)]. split; reflexivity.
Qed.
Lemma shaped_add heads customs min max t l : shaped t ->
  map pair_of l = map (fun v => (own_text (c t), v)) (node_levels heads customs min max (c t)) -> shaped (add_marks (t, l)).
Proof.
  intros Hs. pose proof (shaped_levels heads customs min max t Hs) as [E1 E2]. rewrite E1, E2. clear E1 E2.
  unfold shaped in *. destruct t as [n m n']; cbn [o es c add_marks fst snd] in *.
  assert (Hnil : map pair_of l = [] -> l = []) by (destruct l; [reflexivity|discriminate]).
  destruct n; cbn [node_levels map own_text]; intros Hl;
    try (apply Hnil in Hl; subst l; destruct Hs as [-> ->]; split; reflexivity).
  - destruct Hs as [-> Hf]. cbn [rewrap]. rewrite map_app, between_app. split; [reflexivity|]. apply Forall_app. split; [exact Hf|].
    apply (f_equal (map fst)) in Hl. rewrite !map_map in Hl. cbn in Hl. clear -Hl. set (x := raw_text ch) in *. clearbody x.
    revert Hl. generalize (in_bounds min max (lvl heads (p_style (base_of p))) ++ in_bounds min max (lvl customs (p_style (base_of p)))).
    induction l as [|e l IH]; intros [|y r] H; try discriminate; constructor; injection H; [auto|]. intros. eapply IH. eauto.
  - apply Hnil in Hl; subst l. destruct Hs as [-> (items & ->)]. split; [reflexivity|]. exists items. reflexivity.
Qed.

Lemma put_at_app x l r y : put_at (length l) x (l ++ y :: r) = l ++ x :: r.
Proof. induction l; cbn; [reflexivity|]. now rewrite IHl. Qed.
Lemma nth_app_here {A} (l : list A) x r : nth_error (l ++ x :: r) (length l) = Some x.
Proof. induction l; cbn; auto. Qed.

Lemma combine_app {A B} (l1 l2 : list A) (m1 m2 : list B) : length l1 = length m1 ->
  combine (l1 ++ l2) (m1 ++ m2) = combine l1 m1 ++ combine l2 m2.
Proof. revert m1. induction l1 as [|x l1 IH]; intros [|y m1] H; try discriminate; cbn; [reflexivity|]. now rewrite IH by now injection H. Qed.
Lemma Forall2_len {A B} (R : A -> B -> Prop) l m : Forall2 R l m -> length l = length m.
Proof. induction 1; cbn; congruence. Qed.
Lemma Forall2_app_split {A B} (R : A -> B -> Prop) l1 x l2 m : Forall2 R (l1 ++ x :: l2) m ->
  exists m1 y m2, m = m1 ++ y :: m2 /\ Forall2 R l1 m1 /\ R x y /\ Forall2 R l2 m2.
Proof.
  intros H. apply Forall2_app_inv_l in H as (m1 & m2 & H1 & H2 & ->). inversion H2; subst. exists m1, y, l'. auto.
Qed.

(** ** One table of contents *)
Definition zip (tr : list trip) (ess : list (list entry)) : list trip := map add_marks (combine tr ess).
Lemma zip_length0 tr ess : length (zip tr ess) = Nat.min (length tr) (length ess).
Proof. unfold zip. now rewrite map_length, combine_length. Qed.
Lemma expand_at_spec styles tr1 t tr2 k b' k' : let tr := tr1 ++ t :: tr2 in
  Forall shaped tr -> to_fill (o t) = true -> untouched t ->
  expand_at styles (length tr1) (map c tr, k) = Some (b', k') ->
  exists ess1 ess2 new d b a items, length ess1 = length tr1 /\ length ess2 = length tr2 /\
    o t = NToc d b a /\ new = concat ess1 ++ concat ess2 /\ items = map item_of new /\
    Forall shaped (zip tr1 ess1) /\ Forall shaped (zip tr2 ess2) /\
    b' = map c (zip tr1 ess1) ++ NToc (with_items d items) b a :: map c (zip tr2 ess2) /\ numbered k new k' /\
    map pair_of new = expected_entries (fun st => last_get st (heading_map styles)) (td_instr d) (map o tr).
Proof.
  intros tr Hs Hf Hu. unfold expand_at, tr. rewrite map_app. cbn [map fst snd].
  replace (length tr1) with (length (map c tr1)) at 1 by apply map_length. rewrite nth_app_here.
  unfold untouched, to_fill in Hu, Hf. destruct (o t) as [| | | | | | | | | | | | | | | | | | | | | | | | | | | | | | | | | |d b a| |] eqn:Ho; try discriminate.
  rewrite Hu. replace (length tr1) with (length (map c tr1)) by apply map_length. rewrite put_at_app.
  unfold update_by_toc.
  set (heads := heading_map styles). set (i := td_instr d).
  assert (Hsh : forall l ess, Forall shaped l -> Forall2 (fun n es => map pair_of es = map (fun v => (own_text n, v)) (node_levels heads (it_styles i) (fst (bounds i)) (snd (bounds i)) n)) (map c l) ess ->
     Forall shaped (zip l ess)).
  { intros l. induction l as [|x l IH]; intros ess Hl H2; inversion H2; subst; [constructor|]. inversion Hl; subst.
    cbn. constructor; [eapply shaped_add; eauto|]. now apply IH. }
  assert (Hz : forall l ess, length ess = length l -> map (fun p => rewrap (map mark_of (snd p)) (fst p)) (combine (map c l) ess) = map c (zip l ess)).
  { intros l. induction l as [|x l IH]; intros [|e ess] H; try discriminate; [reflexivity|]. cbn. f_equal. apply IH. now injection H. }
  assert (He : forall l ess, Forall shaped l -> Forall2 (fun n es => map pair_of es = map (fun v => (own_text n, v)) (node_levels heads (it_styles i) (fst (bounds i)) (snd (bounds i)) n)) (map c l) ess ->
     map pair_of (concat ess) = flat_map (entries_of heads i) (map o l)).
  { intros l. induction l as [|x l IH]; intros ess Hl H2; inversion H2; subst; [reflexivity|]. inversion Hl; subst. cbn. rewrite map_app.
    f_equal; [|now apply IH]. unfold entries_of. destruct (shaped_levels heads (it_styles i) (fst (bounds i)) (snd (bounds i)) x) as [<- <-]; assumption. }
  unfold tr in Hs. apply Forall_app in Hs as [Hs1 Hs2]. inversion Hs2 as [|? ? Ht Hs3]; subst. clear Hs2.
  destruct (lists_nothing i) eqn:El.
  - (* nothing is listed *)
    assert (E : (match it_heading i, it_styles i with
       | None, _ :: _ => Some (put_at (length (map c tr1)) (NToc d b a) (map c tr1 ++ toc_default :: map c tr2), k)
       | _, _ => let (min, max) := match it_heading i with Some r => r | None => (0, 9)%N end in
         match pass (toc_visit heads (it_styles i) min max) (map c tr1 ++ toc_default :: map c tr2) ([], k) with
         | None => None
         | Some (body', (items, k')) => Some (put_at (length (map c tr1)) (NToc (set_items d items) b a) body', k')
         end end) = Some (put_at (length (map c tr1)) (NToc d b a) (map c tr1 ++ toc_default :: map c tr2), k)).
    { unfold lists_nothing in El. destruct (it_heading i); [discriminate|]. destruct (it_styles i); [discriminate|reflexivity]. }
    rewrite E. clear E. rewrite put_at_app. intros [= <- <-].
    exists (map (fun _ => []) tr1), (map (fun _ => []) tr2), [], d, b, a, [].
    rewrite !map_length. split; [reflexivity|]. split; [reflexivity|]. split; [reflexivity|].
    assert (Hn : forall l : list trip, concat (map (fun _ => @nil entry) l) = []) by (induction l; auto).
    split; [now rewrite !Hn|]. split; [reflexivity|].
    assert (Hi : forall l, Forall shaped l -> zip l (map (fun _ => []) l) = l).
    { induction l as [|x l IH]; intros Hl; [reflexivity|]. inversion Hl as [|? ? Hx Hl']; subst. unfold zip in *. cbn. rewrite IH by assumption. f_equal.
      unfold add_marks. cbn. rewrite app_nil_r. destruct x as [n e n']. cbn. f_equal. unfold rewrap. destruct n'; try reflexivity. now rewrite between_nil. }
    rewrite !Hi by assumption. split; [assumption|]. split; [assumption|].
    assert (Hd : with_items d [] = d).
    { unfold with_items. destruct d; cbn in *. destruct td_items; [reflexivity|discriminate]. }
    rewrite Hd. split; [reflexivity|]. split; [constructor|]. unfold expected_entries. fold i. now rewrite El.
  - assert (E : forall X Y, (match it_heading i, it_styles i with None, _ :: _ => X | _, _ => Y end) = Y :> option (list node * counters)).
    { unfold lists_nothing in El. intros. destruct (it_heading i); [reflexivity|]. destruct (it_styles i); [reflexivity|discriminate]. }
    rewrite E. clear E. change (match it_heading i with Some r => r | None => (0, 9)%N end) with (bounds i).
    rewrite (surjective_pairing (bounds i)).
    destruct (pass _ _ _) as [(body' & items & k1)|] eqn:Ep; [|discriminate]. intros [= <- <-].
    apply pass_spec in Ep as (ess & H2 & -> & -> & Hn).
    apply Forall2_app_split in H2 as (ess1 & e0 & ess2 & -> & F1 & F0 & F2).
    pose proof (Forall2_len _ _ _ F1) as L1. pose proof (Forall2_len _ _ _ F2) as L2. rewrite map_length in L1, L2.
    cbn in F0. assert (e0 = []) as -> by (destruct e0; [reflexivity|discriminate]).
    rewrite combine_app by (now rewrite map_length). cbn [combine]. rewrite map_app. cbn [map fst snd].
    rewrite !Hz by lia. rewrite concat_app. cbn [concat app] in *.
    replace (length (map c tr1)) with (length (map c (zip tr1 ess1))).
    2:{ unfold zip. rewrite !map_length, combine_length. lia. }
    rewrite put_at_app. rewrite concat_app in Hn. cbn [concat app] in Hn.
    exists ess1, ess2, (concat ess1 ++ concat ess2), d, b, a, (map item_of (concat ess1 ++ concat ess2)).
    split; [rewrite map_length, zip_length0; lia|]. split; [lia|]. do 3 (split; [reflexivity|]).
    split; [eapply Hsh; eassumption|]. split; [eapply Hsh; eassumption|]. split; [reflexivity|]. split; [assumption|].
    unfold expected_entries. fold i. rewrite El, map_app, (He tr1 ess1 Hs1 F1), (He tr2 ess2 Hs3 F2).
    unfold tr. rewrite map_app. cbn [map]. rewrite Ho. rewrite flat_map_app. cbn [flat_map listed_levels map app].
    f_equal; apply flat_map_in_ext, Forall_forall; intros n _; apply entries_listed.
Qed.

(** ** All of them *)
Definition filled (heading : string -> option N) (body : list node) (t : trip) : Prop :=
  match o t with
  | NToc d b a =>
      if to_fill (o t) then exists items, c t = NToc (with_items d items) b a /\
                          map (fun it => (ti_text it, ti_level it)) items = expected_entries heading (td_instr d) body
      else c t = o t
  | _ => True
  end.
Lemma zip_o tr ess : length ess = length tr -> map o (zip tr ess) = map o tr.
Proof. revert ess. induction tr as [|t tr IH]; intros [|e ess] H; try discriminate; [reflexivity|]. unfold zip in *. cbn. f_equal. apply IH. now injection H. Qed.
Lemma zip_length tr ess : length ess = length tr -> length (zip tr ess) = length tr.
Proof. intros H. unfold zip. rewrite map_length, combine_length. lia. Qed.
Lemma zip_Forall (P : trip -> Prop) tr ess : (forall t l, P t -> P (add_marks (t, l))) -> Forall P tr -> Forall P (zip tr ess).
Proof.
  intros H Hf. revert ess. induction Hf as [|t tr Ht Hf IH]; intros [|e ess]; unfold zip in *; cbn; try constructor; auto.
Qed.
Lemma zip_items tr ess : length ess = length tr -> flat_map items_at (zip tr ess) = flat_map items_at tr.
Proof.
  revert ess. induction tr as [|t tr IH]; intros [|e ess] H; try discriminate; [reflexivity|]. unfold zip in *. cbn.
  f_equal; [|apply IH; now injection H]. unfold items_at. cbn. destruct (to_fill (o t)); [|reflexivity].
  destruct (c t); reflexivity.
Qed.
Lemma zip_entries tr ess : length ess = length tr -> Permutation (flat_map es (zip tr ess)) (flat_map es tr ++ concat ess).
Proof.
  revert ess. induction tr as [|t tr IH]; intros [|e ess] H; try discriminate; [constructor|]. unfold zip in *. cbn.
  rewrite <- !app_assoc. apply Permutation_app_head.
  etransitivity; [apply Permutation_app_head, IH; now injection H|]. rewrite !app_assoc. apply Permutation_app_tail, Permutation_app_comm.
Qed.
Lemma filled_add heading body t l : shaped t -> filled heading body t -> filled heading body (add_marks (t, l)).
Proof.
  unfold shaped, filled. cbn [add_marks o c fst snd]. destruct (o t); auto. intros (_ & its & E). rewrite E. cbn [rewrap]. auto.
Qed.
Lemma untouched_add t l : untouched t -> untouched (add_marks (t, l)).
Proof. unfold untouched. cbn [add_marks o c fst snd]. destruct (o t) eqn:E; auto. intros ->. reflexivity. Qed.
Lemma untouched_items t : untouched t -> items_at t = [].
Proof.
  unfold untouched, items_at, to_fill. destruct (o t); try reflexivity. destruct (td_items d) eqn:E; [|reflexivity].
  intros ->. destruct (td_auto d); [exact E|reflexivity].
Qed.
Lemma eligible_to_fill n : eligible n = to_fill n.
Proof. reflexivity. Qed.

Lemma expand_all_spec styles k0 : let heading st := last_get st (heading_map styles) in
  forall m tr2 tr1 E k b' k', length tr2 = m ->
  Forall shaped (tr1 ++ tr2) -> Forall untouched tr2 -> numbered k0 E k -> Permutation E (flat_map es (tr1 ++ tr2)) ->
  flat_map items_at tr1 = map item_of E -> Forall (filled heading (map o (tr1 ++ tr2))) tr1 ->
  expand_all styles (eligible_indexes (length tr1) (map o tr2)) (map c (tr1 ++ tr2), k) = Some (b', k') ->
  exists tr' E', map o tr' = map o (tr1 ++ tr2) /\ b' = map c tr' /\ Forall shaped tr' /\
    Forall (filled heading (map o (tr1 ++ tr2))) tr' /\ numbered k0 E' k' /\ Permutation E' (flat_map es tr') /\
    flat_map items_at tr' = map item_of E'.
Proof.
  intros heading m. induction m as [|m IH]; intros tr2 tr1 E k b' k' Hm Hs Hu Hn Hp Hi Hf.
  - destruct tr2; [|discriminate]. cbn. rewrite app_nil_r in *. intros [= <- <-]. exists tr1, E. auto 10.
  - destruct tr2 as [|t tr2]; [discriminate|]. injection Hm as Hm. inversion Hu as [|? ? Hut Hu2]; subst.
    cbn [map eligible_indexes]. rewrite eligible_to_fill. destruct (to_fill (o t)) eqn:Et.
    + cbn [expand_all]. destruct (expand_at _ _ _) as [(b1 & k1)|] eqn:Ex; [|discriminate].
      apply expand_at_spec in Ex as (ess1 & ess2 & new & d & b & a & items & L1 & L2 & Ho & Enew & Eit & S1 & S2 & -> & Hn1 & He); try assumption.
      intros Hex.
      set (t' := {| o := o t; es := []; c := NToc (with_items d items) b a |}).
      assert (Hso : es t = []).
      { apply Forall_app in Hs as [_ Hs]. inversion Hs as [|? ? Hst _]; subst. unfold shaped in Hst. rewrite Ho in Hst. apply Hst. }
      assert (Eo : map o (zip tr1 ess1 ++ t' :: zip tr2 ess2) = map o (tr1 ++ t :: tr2)).
      { rewrite !map_app. cbn [map]. rewrite !zip_o by assumption. reflexivity. }
      destruct (IH (zip tr2 ess2) (zip tr1 ess1 ++ [t']) (E ++ new) k1 b' k') as (tr' & E' & R).
      * apply zip_length. assumption.
      * rewrite <- app_assoc. cbn [app]. apply Forall_app. split; [assumption|]. constructor; [|assumption].
        unfold shaped. cbn. rewrite Ho. split; [reflexivity|eauto].
      * apply zip_Forall; [apply untouched_add|assumption].
      * eapply numbered_app; eauto.
      * rewrite <- app_assoc. cbn [app]. rewrite flat_map_app. cbn [flat_map es t' app].
        rewrite !zip_entries by assumption. rewrite flat_map_app in Hp. cbn [flat_map] in Hp. rewrite Hso in Hp. cbn [app] in Hp.
        rewrite Enew, Hp, <- !app_assoc. apply Permutation_app_head. rewrite !app_assoc. apply Permutation_app_tail, Permutation_app_comm.
      * rewrite flat_map_app, zip_items, Hi by assumption. cbn [flat_map items_at t' o c]. unfold items_at. cbn [o c t']. rewrite Et.
        cbn [td_items with_items]. rewrite app_nil_r, map_app. now subst items.
      * rewrite <- app_assoc. cbn [app]. rewrite Eo. apply Forall_app. split.
        -- apply Forall_app in Hs as [Hs1 _]. revert Hf. generalize (map o (tr1 ++ t :: tr2)). intros bd Hf. clear -Hf Hs1. revert ess1. induction tr1 as [|x l IHl]; intros [|e ess1]; unfold zip in *; cbn; try constructor.
           ++ inversion Hf; inversion Hs1; subst. now apply filled_add.
           ++ inversion Hf; inversion Hs1; subst. now apply IHl.
        -- constructor; [|constructor]. unfold filled. cbn [o c t']. rewrite Ho, <- Ho, Et. exists items. split; [reflexivity|].
           fold heading in He. rewrite <- He. subst items. rewrite map_map. reflexivity.
      * rewrite <- app_assoc. cbn [app]. rewrite app_length, zip_length by assumption. cbn [length]. rewrite Nat.add_comm. cbn [Nat.add].
        rewrite zip_o by assumption. rewrite map_app. cbn [map]. exact Hex.
      * rewrite <- app_assoc in R. cbn [app] in R. rewrite Eo in R. eauto.
    + intros Hex. destruct (IH tr2 (tr1 ++ [t]) E k b' k') as (tr' & E' & R); try assumption; rewrite <- ?app_assoc; cbn [app]; try assumption.
      * reflexivity.
      * rewrite flat_map_app. cbn. rewrite untouched_items by assumption. now rewrite !app_nil_r.
      * apply Forall_app. split; [assumption|]. constructor; [|constructor]. unfold filled. unfold untouched in Hut.
        destruct (o t) eqn:Eo; try exact I. rewrite Et. assumption.
      * rewrite app_length. cbn [length]. rewrite Nat.add_comm. exact Hex.
      * rewrite <- app_assoc in R. cbn [app] in R. eauto.
Qed.

(** ** Consequences of the numbering *)
Lemma key_no_inj a b : key_no a = key_no b -> a = b.
Proof. unfold key_no. intros H. apply append_inj_l in H. now apply pad0_dec_inj in H. Qed.
Lemma numbered_keys k es k' : numbered k es k' -> forall i, In i (map e_key es) -> exists n, i = key_no n /\ (k_toc k <= n)%N.
Proof.
  induction 1 as [k|k e es k' Hk Hi Hb Hn IH]; cbn; [tauto|]. intros i [<-|Hin].
  - exists (k_toc k). split; [assumption|lia].
  - destruct (IH i Hin) as (n & -> & Hle). exists n. split; [reflexivity|]. cbn in Hle. lia.
Qed.
Lemma numbered_nodup_keys k es k' : numbered k es k' -> NoDup (map e_key es).
Proof.
  induction 1 as [k|k e es k' Hk Hi Hb Hn IH]; cbn; constructor; [|assumption].
  intros Hin. destruct (numbered_keys _ _ _ Hn _ Hin) as (n & E & Hle). rewrite Hk in E. apply key_no_inj in E. cbn in Hle. lia.
Qed.
Lemma numbered_ids k es k' : numbered k es k' -> (k_bookmark k + N.of_nat (length es) <= two64)%N ->
  NoDup (map e_id es) /\ forall i, In i (map e_id es) -> (k_bookmark k <= i)%N.
Proof.
  induction 1 as [k|k e es k' Hk Hi Hb Hn IH]; cbn [map length]; intros Hc; [split; [constructor|intros ? []]|].
  destruct es as [|e2 es].
  - cbn. rewrite Hi. split; [constructor; [tauto|constructor]|]. intros i [<-|[]]. lia.
  - assert (Hw : k_bookmark (next k) = (k_bookmark k + 1)%N).
    { cbn. unfold wrapping_succ. apply N.mod_small. cbn [length] in Hc. lia. }
    destruct IH as [H1 H2]; [rewrite Hw; cbn [length] in *; lia|]. rewrite Hw in H2. split.
    + constructor; [|assumption]. intros Hin. apply H2 in Hin. lia.
    + intros i [<-|Hin]; [lia|]. apply H2 in Hin. lia.
Qed.

(** ** Success *)
Lemma expand_at_total styles tr1 t tr2 k : let tr := tr1 ++ t :: tr2 in
  Forall shaped tr -> to_fill (o t) = true -> untouched t ->
  (k_toc k + N.of_nat (length (match o t with
     | NToc d _ _ => expected_entries (fun st => last_get st (heading_map styles)) (td_instr d) (map o tr)
     | _ => [] end)) < two64)%N ->
  exists r, expand_at styles (length tr1) (map c tr, k) = Some r.
Proof.
  intros tr Hs Hf Hu Hc. unfold expand_at, tr. rewrite map_app. cbn [map fst snd].
  replace (length tr1) with (length (map c tr1)) by apply map_length. rewrite nth_app_here.
  unfold untouched, to_fill in Hu, Hf. destruct (o t) as [| | | | | | | | | | | | | | | | | | | | | | | | | | | | | | | | | |d b a| |] eqn:Ho; try discriminate.
  rewrite Hu, put_at_app. unfold update_by_toc.
  set (heads := heading_map styles). set (i := td_instr d).
  unfold tr in Hs. apply Forall_app in Hs as [Hs1 Hs2]. inversion Hs2 as [|? ? Ht Hs3]; subst. clear Hs2.
  unfold expected_entries in Hc. fold i in Hc.
  destruct (lists_nothing i) eqn:El.
  - unfold lists_nothing in El. destruct (it_heading i); [discriminate|]. destruct (it_styles i); [discriminate|]. eauto.
  - assert (E : forall X Y, (match it_heading i, it_styles i with None, _ :: _ => X | _, _ => Y end) = Y :> option (list node * counters)).
    { unfold lists_nothing in El. intros. destruct (it_heading i); [reflexivity|]. destruct (it_styles i); [reflexivity|discriminate]. }
    rewrite E. clear E. change (match it_heading i with Some r => r | None => (0, 9)%N end) with (bounds i).
    rewrite (surjective_pairing (bounds i)).
    destruct (pass_total heads (it_styles i) (fst (bounds i)) (snd (bounds i)) (map c tr1 ++ toc_default :: map c tr2) [] k) as ((l' & items & k1) & ->); [|eauto].
    unfold tr in Hc. rewrite map_app in Hc. cbn [map] in Hc. rewrite Ho in Hc. rewrite flat_map_app in *. cbn [flat_map listed_levels map app] in Hc. cbn [flat_map node_levels toc_default app].
    assert (G : forall l, Forall shaped l -> length (flat_map (fun n => map (fun v => (visible_text n, v)) (listed_levels (fun st => last_get st heads) i n)) (map o l)) =
        length (flat_map (node_levels heads (it_styles i) (fst (bounds i)) (snd (bounds i))) (map c l))).
    { intros l Hl. induction Hl as [|x l Hx Hl IH]; [reflexivity|]. cbn [map flat_map]. rewrite !app_length, IH. f_equal.
      rewrite <- (entries_listed heads i (o x)). unfold entries_of. rewrite map_length. now destruct (shaped_levels heads (it_styles i) (fst (bounds i)) (snd (bounds i)) x Hx) as [-> _]. }
    rewrite flat_map_app in Hc. cbn [flat_map listed_levels map app] in Hc. fold heads in Hc. rewrite app_length in *. rewrite (G tr1 Hs1), (G tr2 Hs3) in Hc. exact Hc.
Qed.

Definition fills (heading : string -> option N) (body : list node) (n : node) : list (string * N) :=
  match n with NToc d _ _ => if to_fill n then expected_entries heading (td_instr d) body else [] | _ => [] end.
Lemma expand_all_total styles : let heading st := last_get st (heading_map styles) in
  forall m tr2 tr1 k, length tr2 = m -> Forall shaped (tr1 ++ tr2) -> Forall untouched tr2 ->
  (k_toc k + N.of_nat (length (flat_map (fills heading (map o (tr1 ++ tr2))) (map o tr2))) < two64)%N ->
  exists r, expand_all styles (eligible_indexes (length tr1) (map o tr2)) (map c (tr1 ++ tr2), k) = Some r.
Proof.
  intros heading m. induction m as [|m IH]; intros tr2 tr1 k Hm Hs Hu Hc.
  - destruct tr2; [|discriminate]. cbn. eauto.
  - destruct tr2 as [|t tr2]; [discriminate|]. injection Hm as Hm. inversion Hu as [|? ? Hut Hu2]; subst.
    cbn [map eligible_indexes flat_map] in *. rewrite eligible_to_fill. rewrite app_length, Nat2N.inj_add in Hc.
    destruct (to_fill (o t)) eqn:Et.
    + cbn [expand_all].
      destruct (expand_at_total styles tr1 t tr2 k) as ((b1 & k1) & Ex); try assumption.
      { unfold fills in Hc. destruct (o t) eqn:Eo; try discriminate. rewrite Et in Hc. fold heading. lia. }
      rewrite Ex.
      apply expand_at_spec in Ex as (ess1 & ess2 & new & d & b & a & items & L1 & L2 & Ho & Enew & Eit & S1 & S2 & -> & Hn1 & He); try assumption.
      set (t' := {| o := o t; es := []; c := NToc (with_items d items) b a |}).
      assert (Eo : map o (zip tr1 ess1 ++ t' :: zip tr2 ess2) = map o (tr1 ++ t :: tr2)).
      { rewrite !map_app. cbn [map]. rewrite !zip_o by assumption. reflexivity. }
      destruct (IH (zip tr2 ess2) (zip tr1 ess1 ++ [t']) k1) as (r & R).
      * apply zip_length. assumption.
      * rewrite <- app_assoc. cbn [app]. apply Forall_app. split; [assumption|]. constructor; [|assumption].
        unfold shaped. cbn. rewrite Ho. split; [reflexivity|eauto].
      * apply zip_Forall; [apply untouched_add|assumption].
      * rewrite <- app_assoc. cbn [app]. rewrite Eo, zip_o by assumption. apply numbered_count in Hn1. rewrite Hn1.
        assert (Hl : length new = length (fills heading (map o (tr1 ++ t :: tr2)) (o t))).
        { unfold fills. rewrite Ho, <- Ho, Et. fold heading in He. rewrite <- He. now rewrite map_length. }
        lia.
      * rewrite <- app_assoc in R. cbn [app] in R. rewrite app_length, zip_length in R by assumption. cbn [length] in R.
        rewrite Nat.add_comm in R. cbn [Nat.add] in R. rewrite zip_o in R by assumption. rewrite map_app in R. cbn [map] in R. eauto.
    + destruct (IH tr2 (tr1 ++ [t]) k) as (r & R); rewrite <- ?app_assoc; cbn [app]; try assumption.
      * reflexivity.
      * lia.
      * rewrite <- app_assoc, app_length in R. cbn [app length] in R. rewrite Nat.add_comm in R. eauto.
Qed.

(** ** Start *)
Definition start_trip (n : node) : trip := {| o := n; es := []; c := n |}.
Lemma start_shaped l : Forall shaped (map start_trip l).
Proof.
  apply Forall_forall. intros t H. apply in_map_iff in H as (n & <- & _). unfold shaped, start_trip; cbn [o es c].
  destruct n; try (split; reflexivity).
  - cbn. rewrite app_nil_r. split; [reflexivity|constructor].
  - split; [reflexivity|]. exists (td_items d). now destruct d.
Qed.
Lemma start_untouched l : Forall untouched (map start_trip l).
Proof. apply Forall_forall. intros t H. apply in_map_iff in H as (n & <- & _). unfold untouched; cbn. now destruct n. Qed.
Lemma start_o l : map o (map start_trip l) = l.
Proof. rewrite map_map. cbn. apply map_id. Qed.
Lemma start_c l : map c (map start_trip l) = l.
Proof. rewrite map_map. cbn. apply map_id. Qed.
Lemma start_es l : flat_map es (map start_trip l) = [].
Proof. induction l; auto. Qed.

Lemma toc_expanded styles body k body' k' has : let heading st := last_get st (heading_map styles) in
  expand_auto_tocs styles body k = Some (body', k', has) ->
  exists tr E, map o tr = body /\ map c tr = body' /\ Forall shaped tr /\ Forall (filled heading body) tr /\
    numbered k E k' /\ Permutation E (flat_map es tr) /\ flat_map items_at tr = map item_of E.
Proof.
  intros heading. unfold expand_auto_tocs. destruct (expand_all _ _ _) as [(b1 & k1)|] eqn:E; [|discriminate]. intros [= <- <- <-].
  destruct (expand_all_spec styles k (length body) (map start_trip body) [] [] k b1 k1) as (tr & E' & H1 & H2 & H3 & H4 & H5 & H6 & H7).
  - apply map_length.
  - apply start_shaped.
  - apply start_untouched.
  - constructor.
  - cbn [app]. now rewrite start_es.
  - reflexivity.
  - constructor.
  - cbn [app length]. rewrite start_o, start_c. exact E.
  - cbn [app] in *. rewrite start_o in *. exists tr, E'. auto 10.
Qed.

(** ** The theorems *)
Lemma forall3_of heading body tr : Forall shaped tr -> Forall (filled heading body) tr ->
  Forall3 (changed heading body) (map o tr) (map (fun t => map mark_of (es t)) tr) (map c tr).
Proof.
  intros H. induction H as [|t l Ht Hl IH]; intros Hf; inversion Hf as [|? ? Hft Hfl]; subst; cbn [map]; constructor; [|now apply IH].
  unfold shaped in Ht. unfold filled in Hft. unfold changed. destruct (o t) eqn:Eo; try (destruct Ht as [-> ->]; split; reflexivity).
  - now destruct Ht as [-> _].
  - destruct Ht as [-> _]. split; [reflexivity|]. exact Hft.
Qed.
Lemma marks_of (f : N * string -> N) tr : concat (map (fun t => map mark_of (es t)) tr) = map mark_of (flat_map es tr).
Proof. induction tr; cbn; [reflexivity|]. now rewrite IHtr, map_app. Qed.
Lemma filled_items_of tr : filled_items (map o tr) (map c tr) = flat_map items_at tr.
Proof. unfold filled_items. induction tr as [|t tr IH]; [reflexivity|]. cbn [map combine flat_map fst snd]. now rewrite IH. Qed.

Lemma toc_expansion_proof styles body k body' k' has : let heading st := last_get st (heading_map styles) in
  expand_auto_tocs styles body k = Some (body', k', has) ->
  exists marks,
    Forall3 (changed heading body) body marks body' /\
    NoDup (map snd (concat marks)) /\
    Permutation (map ti_key (filled_items body body')) (map snd (concat marks)) /\
    (forall it, In it (filled_items body body') ->
       exists n ms, In (n, ms) (combine body marks) /\ In (ti_key it) (map snd ms) /\ visible_text n = ti_text it) /\
    ((k_bookmark k + N.of_nat (length (filled_items body body')) <= two64)%N -> NoDup (map fst (concat marks))).
Proof.
  intros heading H. apply toc_expanded in H as (tr & E & <- & <- & Hs & Hf & Hn & Hp & Hi). fold heading in Hf.
  exists (map (fun t => map mark_of (es t)) tr). rewrite marks_of, !map_map, filled_items_of, Hi by exact fst. cbn [mark_of fst snd].
  split; [now apply forall3_of|]. split; [|split; [|split]].
  - eapply Permutation_NoDup; [apply Permutation_map; exact Hp|]. eapply numbered_nodup_keys; eassumption.
  - rewrite map_map. cbn. now apply Permutation_map.
  - intros it Hin. apply in_map_iff in Hin as (e & <- & He). apply (Permutation_in _ Hp) in He. apply in_flat_map in He as (t & Ht & He).
    exists (o t), (map mark_of (es t)). split; [|split].
    + clear -Ht. induction tr as [|x tr IH]; [destruct Ht|]. cbn. destruct Ht as [->|Ht]; auto.
    + rewrite map_map. cbn. now apply in_map.
    + rewrite Forall_forall in Hs. specialize (Hs t Ht). unfold shaped in Hs. destruct (o t); try (destruct Hs as [Hs _]; rewrite Hs in He; destruct He).
      rewrite visible_raw. destruct Hs as [_ Hs]. rewrite Forall_forall in Hs. cbn. symmetry. now apply Hs.
  - rewrite map_length. intros Hb. eapply Permutation_NoDup; [apply Permutation_map; exact Hp|]. eapply numbered_ids; eassumption.
Qed.

Lemma toc_expansion_succeeds_proof styles body k :
  (k_toc k + N.of_nat (entry_count (fun st => last_get st (heading_map styles)) body) < two64)%N ->
  exists body' k', expand_auto_tocs styles body k = Some (body', k', existsb (fun n => match n with NToc _ _ _ => true | _ => false end) body).
Proof.
  intros H. destruct (expand_all_total styles (length body) (map start_trip body) [] k) as ((b & k') & E).
  - apply map_length.
  - apply start_shaped.
  - apply start_untouched.
  - cbn [app]. rewrite start_o. exact H.
  - cbn [app length] in E. rewrite start_o, start_c in E. exists b, k'. unfold expand_auto_tocs. now rewrite E.
Qed.

(** ** Heading styles *)
Lemma heading_known n s : lower s = "heading " +++ show_N n -> (n <= max_u64)%N -> is_heading s = true /\ heading_number s = Some n.
Proof.
  intros E H. unfold is_heading, heading_number. rewrite E. split; [apply (starts_with_app "heading" (" " +++ show_N n))|].
  unfold replace. cbn [replace_from append starts_with].
  assert (R : replace_from "heading " "" 0 (show_N n) = show_N n).
  { apply replace_none; [discriminate|]. apply (find_missing "h"); [reflexivity|]. eapply all_char_has; [apply show_N_digits|reflexivity]. }
  cbn. rewrite R. now apply parse_usize_show.
Qed.
Lemma last_get_in st m v : NoDup (map fst m) -> In (st, v) m -> last_get st m = Some v.
Proof.
  induction m as [|(k & w) m IH]; [intros _ []|]. cbn. intros Hd Hin. inversion Hd as [|? ? Hk Hm]; subst. destruct Hin as [[= -> ->]|Hin].
  - assert (Hn : last_get st m = None).
    { clear -Hk. induction m as [|(k & w) m IH]; [reflexivity|]. cbn in *. rewrite IH by tauto. destruct (String.eqb_spec k st); [tauto|reflexivity]. }
    now rewrite Hn, String.eqb_refl.
  - now rewrite IH.
Qed.
Lemma last_get_none st m : ~ In st (map fst m) -> last_get st m = None.
Proof. induction m as [|(k & w) m IH]; [reflexivity|]. cbn in *. intros H. rewrite IH by tauto. destruct (String.eqb_spec k st); [tauto|reflexivity]. Qed.
Lemma heading_map_ids styles : forall st, In st (map fst (heading_map styles)) -> exists name, In (st, name) styles /\ is_heading name = true.
Proof.
  intros st H. apply in_map_iff in H as ((st' & n) & E & H). cbn in E. subst st'. apply in_flat_map in H as ((id & name) & H1 & H2). cbn [fst snd] in H2.
  destruct (is_heading name) eqn:Eh; [|destruct H2]. destruct (heading_number name); [|destruct H2]. destruct H2 as [[= <- <-]|[]]. eauto.
Qed.
Lemma heading_map_nodup styles : NoDup (map fst styles) -> NoDup (map fst (heading_map styles)).
Proof.
  induction styles as [|(id & name) l IH]; [constructor|]. cbn [map fst]. intros H. inversion H as [|? ? H1 H2]; subst.
  unfold heading_map. cbn [flat_map fst snd]. fold (heading_map l). rewrite map_app.
  destruct (is_heading name); [|now apply IH]. destruct (heading_number name); [|now apply IH]. cbn. constructor; [|now apply IH].
  intros Hin. apply heading_map_ids in Hin as (nm & Hin & _). apply H1. now apply (in_map fst) in Hin.
Qed.
Lemma heading_level_proof styles id name n : NoDup (map fst styles) -> In (id, name) styles ->
  lower name = "heading " +++ show_N n -> (n <= max_u64)%N -> last_get id (heading_map styles) = Some n.
Proof.
  intros Hd Hin E H. apply last_get_in; [now apply heading_map_nodup|]. apply in_flat_map. exists (id, name). split; [assumption|].
  cbn [fst snd]. destruct (heading_known n name E H) as [-> ->]. now left.
Qed.
Lemma no_heading_proof styles id : (forall name, In (id, name) styles -> starts_with "heading" (lower name) = false) ->
  last_get id (heading_map styles) = None.
Proof.
  intros H. apply last_get_none. intros Hin. apply heading_map_ids in Hin as (name & Hin & E). apply H in Hin. unfold is_heading in E. congruence.
Qed.

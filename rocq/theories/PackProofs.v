(** Names of the entries; streaming against buffering; ids of relationships. *)
From Coq Require Import NArith List Bool Lia Sorting.Sorted.
From Verif Require Import Str StrFacts ListFacts Props Ast TreeModel PackModel PackSpec.
Import ListNotations.

(** ** Entry names *)
Lemma names_of_entries St (render : renderer St) l : forall c, map entry_name (fst (run_steps render l c)) = map step_name l.
Proof.
  induction l as [|s l IH]; intros c; [reflexivity|].
  destruct s; cbn [run_steps]; try (specialize (IH c); destruct (run_steps render l c); cbn in *; now rewrite IH).
  destruct (render p c) as [d c1]. specialize (IH c1). destruct (run_steps render l c1). cbn in *. now rewrite IH.
Qed.

(** The group of a name, told by its prefix. *)
Definition prefixes : list (string * nat) :=
  [("word/header", 1); ("word/_rels/header", 2); ("word/footer", 3); ("word/_rels/footer", 4); ("word/media/", 5);
   ("word/webextensions/webextension", 7); ("word/webextensions/", 6); ("customXml/_rels/item", 8); ("customXml/itemProps", 10);
   ("customXml/item", 9); ("customXml/_rels/", 11)].
Fixpoint group_in (l : list (string * nat)) (s : string) : nat :=
  match l with [] => 0 | (p, g) :: r => if starts_with p s then g else group_in r s end.
Definition group (s : string) : nat := group_in prefixes s.
(* "word/footnotes.xml" must not fall into group 3 *)
Example group_fixed : map (fun f => group (fst f)) fixed_files = repeat 0 14. Proof. reflexivity. Qed.

Lemma nth_name_inj b a i j : nth_name b i a = nth_name b j a -> i = j.
Proof.
  unfold nth_name. intros H. apply append_inj_l in H. apply append_inj_r in H. apply show_N_inj in H. lia.
Qed.

Lemma NoDup_nums b a (l : list nat) : NoDup l -> NoDup (map (fun i => nth_name b i a) l).
Proof.
  intros H. apply NoDup_map_in; [|exact H]. intros i j _ _ E. now apply nth_name_inj in E.
Qed.

(** Names by kind. *)
Definition part_names (kind : string) (i : nat) (parts : list node) (rels : list (nat * list (string * string))) : list string :=
  map step_name (part_steps kind i parts rels).
Lemma part_names_in kind parts : forall i rels s, In s (part_names kind i parts rels) ->
  exists j, i <= j < i + length parts /\ (s = nth_name ("word/" +++ kind) j ".xml" \/ s = nth_name ("word/_rels/" +++ kind) j ".xml.rels").
Proof.
  unfold part_names. induction parts as [|n parts IH]; intros i rels s H; [destruct H|].
  cbn [part_steps map step_name] in H. destruct H as [<-|H]; [exists i; cbn [length]; split; [lia|auto]|].
  assert (K : In s (map step_name (part_steps kind (S i) parts rels)) \/
     exists j l rels', rels = (j, l) :: rels' /\ (s = nth_name ("word/_rels/" +++ kind) i ".xml.rels" \/ In s (map step_name (part_steps kind (S i) parts rels')))).
  { destruct rels as [|[j l] rels']; [now left|]. destruct (Nat.eqb j i); [|now left].
    cbn [map step_name] in H. right. exists j, l, rels'. split; [reflexivity|]. destruct H as [<-|H]; auto. }
  assert (Step : forall r, In s (map step_name (part_steps kind (S i) parts r)) ->
     exists j, i <= j < i + length (n :: parts) /\ (s = nth_name ("word/" +++ kind) j ".xml" \/ s = nth_name ("word/_rels/" +++ kind) j ".xml.rels")).
  { intros r Hr. destruct (IH _ _ _ Hr) as (j & Hj & D). exists j. cbn [length]. split; [lia|exact D]. }
  destruct K as [K|(j & l & rels' & _ & [->|K])]; [eapply Step, K| |eapply Step, K].
  exists i. cbn [length]. split; [lia|auto].
Qed.

Lemma part_names_nodup kind parts (Hk : forall i j, nth_name ("word/" +++ kind) i ".xml" <> nth_name ("word/_rels/" +++ kind) j ".xml.rels") :
  forall i rels, NoDup (part_names kind i parts rels).
Proof.
  unfold part_names. induction parts as [|n parts IH]; intros i rels; [constructor|].
  assert (Fresh : forall r, ~ In (nth_name ("word/" +++ kind) i ".xml") (map step_name (part_steps kind (S i) parts r)) /\
                            ~ In (nth_name ("word/_rels/" +++ kind) i ".xml.rels") (map step_name (part_steps kind (S i) parts r))).
  { intros r. split; intros H; destruct (part_names_in _ _ _ _ _ H) as (j & Hj & [E|E]).
    - apply nth_name_inj in E. lia.
    - exact (Hk _ _ E).
    - exact (Hk _ _ (eq_sym E)).
    - apply nth_name_inj in E. lia. }
  cbn [part_steps map step_name].
  destruct rels as [|[j l] rels']; [constructor; [apply Fresh|apply IH]|].
  destruct (Nat.eqb j i); [|constructor; [apply Fresh|apply IH]].
  cbn [map step_name]. constructor.
  - intros [E|H]; [exact (Hk _ _ (eq_sym E))|]. now apply (proj1 (Fresh rels')).
  - constructor; [apply Fresh|apply IH].
Qed.

Lemma web_names i l : map step_name (web_steps i l) = map (fun j => nth_name "word/webextensions/webextension" j ".xml") (seq i (length l)).
Proof. revert i; induction l; intros i; cbn; f_equal; auto. Qed.
Lemma item_names i l : map step_name (item_steps i l) =
  flat_map (fun j => [nth_name "customXml/_rels/item" j ".xml.rels"; nth_name "customXml/item" j ".xml"; nth_name "customXml/itemProps" j ".xml"]) (seq i (length l)).
Proof. revert i; induction l as [|[id x] l IH]; intros i; cbn; [reflexivity|]. do 3 f_equal. apply IH. Qed.

Lemma group_nth_item j : group (nth_name "customXml/item" j ".xml") = 9.
Proof.
  unfold group, prefixes, nth_name. cbn [group_in]. cbn.
  pose proof (show_N_digits (N.of_nat j + 1)) as A. pose proof (show_N_nonempty (N.of_nat j + 1)) as B.
  destruct (show_N (N.of_nat j + 1)) as [|d t]; [congruence|]. cbn in *.
  destruct (starts_with "customXml/itemProps" _) eqn:E; [|reflexivity].
  apply starts_with_spec in E. destruct E as (r & E). cbn in E. injection E as -> _. discriminate A.
Qed.

Lemma items_nodup l : forall i, NoDup (map step_name (item_steps i l)).
Proof.
  intros i. rewrite item_names. pose proof (seq_NoDup (length l) i) as H. induction H as [|j r Hj Hr IH]; [constructor|].
  cbn [flat_map app].
  assert (F : forall s, In s (flat_map (fun j => [nth_name "customXml/_rels/item" j ".xml.rels"; nth_name "customXml/item" j ".xml"; nth_name "customXml/itemProps" j ".xml"]) r) ->
     exists k, In k r /\ ((s = nth_name "customXml/_rels/item" k ".xml.rels") \/ (s = nth_name "customXml/item" k ".xml") \/ (s = nth_name "customXml/itemProps" k ".xml"))).
  { intros s Hs. apply in_flat_map in Hs. destruct Hs as (k & Hk & [<-|[<-|[<-|[]]]]); exists k; auto. }
  assert (G8 : forall k, group (nth_name "customXml/_rels/item" k ".xml.rels") = 8) by reflexivity.
  assert (G10 : forall k, group (nth_name "customXml/itemProps" k ".xml") = 10) by reflexivity.
  assert (D : forall k, nth_name "customXml/_rels/item" k ".xml.rels" = nth_name "customXml/_rels/item" j ".xml.rels" -> ~ In k r)
    by (intros k E; apply nth_name_inj in E; now subst).
  repeat constructor.
  - intros [E|[E|H]]; try (apply (f_equal group) in E; rewrite ?group_nth_item, ?G8, ?G10 in E; discriminate).
    destruct (F _ H) as (k & Hk & [E|[E|E]]); [apply nth_name_inj in E; now subst| |];
      apply (f_equal group) in E; rewrite ?group_nth_item, ?G8, ?G10 in E; discriminate.
  - intros [E|H]; try (apply (f_equal group) in E; rewrite ?group_nth_item, ?G8, ?G10 in E; discriminate).
    destruct (F _ H) as (k & Hk & [E|[E|E]]); [|apply nth_name_inj in E; now subst|];
      apply (f_equal group) in E; rewrite ?group_nth_item, ?G8, ?G10 in E; discriminate.
  - intros H.
    destruct (F _ H) as (k & Hk & [E|[E|E]]); [| |apply nth_name_inj in E; now subst];
      apply (f_equal group) in E; rewrite ?group_nth_item, ?G8, ?G10 in E; discriminate.
  - exact IH.
Qed.

Definition in_groups (gs : list nat) (l : list string) : Prop := Forall (fun s => In (group s) gs) l.
Lemma nodup_groups gs hs l m : NoDup l -> NoDup m -> in_groups gs l -> in_groups hs m ->
  forallb (fun g => negb (existsb (Nat.eqb g) hs)) gs = true -> NoDup (l ++ m).
Proof.
  intros A B Gl Gm D. apply NoDup_app_intro; [exact A|exact B|].
  intros s Hl Hm. unfold in_groups in *. rewrite Forall_forall in Gl, Gm. specialize (Gl _ Hl). specialize (Gm _ Hm).
  rewrite forallb_forall in D. specialize (D _ Gl). apply negb_true_iff in D.
  assert (existsb (Nat.eqb (group s)) hs = true) as E; [|congruence].
  apply existsb_exists. exists (group s). split; [exact Gm|apply Nat.eqb_refl].
Qed.
Lemma in_groups_app gs hs l m : in_groups gs l -> in_groups hs m -> in_groups (gs ++ hs) (l ++ m).
Proof.
  intros A B. apply Forall_app. split; eapply Forall_impl; try eassumption; cbn; intros s H; apply in_or_app; auto.
Qed.

Theorem entry_names_distinct : forall k c, NoDup (map fst (c_media c)) -> NoDup (map step_name (stream_steps k c)).
Proof.
  intros k c Hm. unfold stream_steps. rewrite !map_app.
  assert (Hh : in_groups [1; 2] (map step_name (part_steps "header" 0 (headers (k_doc k)) (sparse (c_header_rels c))))).
  { apply Forall_forall. intros s Hs. destruct (part_names_in _ _ _ _ _ Hs) as (j & _ & [-> | ->]); cbn; auto. }
  assert (Hf : in_groups [3; 4] (map step_name (part_steps "footer" 0 (footers (k_doc k)) (sparse (c_footer_rels c))))).
  { apply Forall_forall. intros s Hs. destruct (part_names_in _ _ _ _ _ Hs) as (j & _ & [-> | ->]); cbn; auto. }
  assert (Nh : NoDup (map step_name (part_steps "header" 0 (headers (k_doc k)) (sparse (c_header_rels c))))).
  { apply part_names_nodup. intros i j E. apply (f_equal group) in E. discriminate. }
  assert (Nf : NoDup (map step_name (part_steps "footer" 0 (footers (k_doc k)) (sparse (c_footer_rels c))))).
  { apply part_names_nodup. intros i j E. apply (f_equal group) in E. discriminate. }
  set (media := unless_nil (c_media c) _). set (panes := if k_taskpanes k then _ else _).
  set (cdir := unless_nil (k_custom k) _).
  assert (Gm : in_groups [5] (map step_name media)).
  { subst media. unfold unless_nil. destruct (c_media c) as [|m0 ms]; [constructor|]. generalize (m0 :: ms). intros l. cbn [map step_name].
    constructor; [cbn; auto|]. apply Forall_map, Forall_map, Forall_forall. intros m _. cbn. auto. }
  assert (Nm : NoDup (map step_name media)).
  { subst media. unfold unless_nil. destruct (c_media c) as [|m0 ms]; [constructor|]. revert Hm. generalize (m0 :: ms). intros l Hm.
    cbn [map step_name]. rewrite map_map. cbn [step_name].
    constructor.
    - intros H. apply in_map_iff in H. destruct H as ([id b] & E & _). unfold media_name in E. cbn [fst] in E.
      apply (f_equal String.length) in E. rewrite !append_length in E. cbn in E. lia.
    - change (fun x => media_name (fst x)) with (fun x : string * string => media_name (fst x)).
      rewrite <- (map_map fst media_name). apply NoDup_map_in; [|exact Hm].
      intros a b _ _ E. unfold media_name in E. apply append_inj_l in E. now apply append_inj_r in E. }
  assert (Gp : in_groups [6; 7] (map step_name panes)).
  { subst panes. destruct (k_taskpanes k); [|constructor]. cbn [map step_name]. rewrite web_names.
    repeat (constructor; [cbn; auto|]). apply Forall_map, Forall_forall. intros j _. cbn. auto. }
  assert (Np : NoDup (map step_name panes)).
  { subst panes. destruct (k_taskpanes k); [|constructor]. cbn [map step_name]. rewrite web_names.
    assert (W : forall s, group s = 6 -> ~ In s (map (fun j => nth_name "word/webextensions/webextension" j ".xml") (seq 0 (length (k_web k))))).
    { intros s Gs H. apply in_map_iff in H. destruct H as (j & E & _). subst s. discriminate Gs. }
    repeat constructor; try (intros [E|H]; [discriminate E|revert H]); cbn [In].
    - intros [E|[E|H]]; try discriminate. now apply W in H.
    - intros [E|H]; try discriminate. now apply W in H.
    - now apply W.
    - now apply W.
    - apply NoDup_nums, seq_NoDup. }
  assert (Gi : in_groups [8; 9; 10] (map step_name (item_steps 0 (k_custom k)))).
  { rewrite item_names. apply Forall_forall. intros s Hs. apply in_flat_map in Hs.
    destruct Hs as (j & _ & [<-|[<-|[<-|[]]]]); [cbn; auto|rewrite group_nth_item; cbn; auto|cbn; auto]. }
  assert (Gd : in_groups [11] (map step_name cdir)).
  { subst cdir. unfold unless_nil. destruct (k_custom k); repeat constructor. }
  assert (Nd : NoDup (map step_name cdir)).
  { subst cdir. unfold unless_nil. destruct (k_custom k); repeat constructor. intros []. }
  assert (G0 : in_groups [0] (map step_name (map SDir first_dirs))) by (cbn; repeat constructor).
  assert (G1 : in_groups [0] (map step_name (map (fun f => SXml (fst f) (PFixed (snd f))) fixed_files))) by (cbn; repeat constructor).
  rewrite app_assoc.
  eapply (nodup_groups [0] [1;2;3;4;5;6;7;11;8;9;10]); [ | | | |reflexivity].
  - cbn. repeat (constructor; [cbn; intuition discriminate|]). constructor.
  - eapply (nodup_groups _ [3;4;5;6;7;11;8;9;10]); [exact Nh| |exact Hh| |reflexivity].
    + eapply (nodup_groups _ [5;6;7;11;8;9;10]); [exact Nf| |exact Hf| |reflexivity].
      * eapply (nodup_groups _ [6;7;11;8;9;10]); [exact Nm| |exact Gm| |reflexivity].
        -- eapply (nodup_groups _ [11;8;9;10]); [exact Np| |exact Gp| |reflexivity].
           ++ eapply nodup_groups; [exact Nd|apply items_nodup|exact Gd|exact Gi|reflexivity].
           ++ exact (in_groups_app [11] [8;9;10] _ _ Gd Gi).
        -- exact (in_groups_app [6;7] _ _ _ Gp (in_groups_app [11] [8;9;10] _ _ Gd Gi)).
      * exact (in_groups_app [5] _ _ _ Gm (in_groups_app [6;7] _ _ _ Gp (in_groups_app [11] [8;9;10] _ _ Gd Gi))).
    + exact (in_groups_app [3;4] _ _ _ Hf (in_groups_app [5] _ _ _ Gm (in_groups_app [6;7] _ _ _ Gp (in_groups_app [11] [8;9;10] _ _ Gd Gi)))).
  - apply Forall_app. split; assumption.
  - exact (in_groups_app [1;2] _ _ _ Hh (in_groups_app [3;4] _ _ _ Hf (in_groups_app [5] _ _ _ Gm (in_groups_app [6;7] _ _ _ Gp (in_groups_app [11] [8;9;10] _ _ Gd Gi))))).
Qed.

(** ** Streaming and buffering *)
Section Render.
  Context {St : Type}.
  Variable render : renderer St.
  Notation rels_of := (list (nat * list (string * string))).
  (** Indexes grow, from [i] on. *)
  Definition grows (i : nat) (rels : rels_of) : Prop := StronglySorted lt (map fst rels) /\ Forall (fun x => i <= fst x) rels.
  (** [D] holds the renderings of [rels] at their indexes and nothing elsewhere, from [i] on. *)
  Definition serves (i : nat) (rels : rels_of) (D : list string) : Prop :=
    (forall j l, In (j, l) rels -> exists c, nth_error D j = Some (fst (render (PPartRels l) c))) /\
    (forall j, i <= j -> (forall l, ~ In (j, l) rels) -> nth_error D j = None \/ nth_error D j = Some "").

  Lemma grows_tail i j l rels : grows i ((j, l) :: rels) -> grows (S j) rels.
  Proof.
    intros [S F]. cbn in S. inversion S as [|? ? S' F' E]; subst. split; [exact S'|].
    clear -F'. induction rels as [|x r IH]; constructor; inversion F'; subst; auto.
  Qed.
  Lemma grows_le i j rels : grows i rels -> j <= i -> grows j rels.
  Proof. intros [S F] H. split; [exact S|]. eapply Forall_impl; [|exact F]. cbn. lia. Qed.
  Lemma grows_skip i j l rels : grows i ((j, l) :: rels) -> j <> i -> grows (S i) ((j, l) :: rels).
  Proof.
    intros G N. pose proof (grows_tail _ _ _ _ G) as T. destruct G as [S F]. split; [exact S|].
    inversion F; subst. cbn in *. constructor; [cbn; lia|]. destruct T as [_ T]. eapply Forall_impl; [|exact T]. cbn. lia.
  Qed.
  Lemma grows_in i rels j l : grows i rels -> In (j, l) rels -> i <= j.
  Proof. intros [_ F] H. rewrite Forall_forall in F. exact (F _ H). Qed.
  Lemma grows_nil i : grows i []. Proof. repeat constructor. Qed.

  Lemma sparse_grows l : grows 0 (sparse l).
  Proof.
    unfold sparse. generalize 0 at 2. assert (A : forall i, grows i (filter (fun p : nat * list (string * string) => match snd p with [] => false | _ => true end) (combine (seq i (length l)) l))).
    { induction l as [|x l IH]; intros i; [apply grows_nil|]. cbn [length seq combine filter snd].
      destruct x; [apply (grows_le (S i)); auto|].
      destruct (IH (S i)) as [Ss Ff]. split; cbn [map fst].
      - constructor; [exact Ss|]. rewrite Forall_map. eapply Forall_impl; [|exact Ff]. cbn. lia.
      - constructor; [cbn; lia|]. eapply Forall_impl; [|exact Ff]. cbn. lia. }
    intros i. apply (grows_le i); [apply A|lia].
  Qed.

  Lemma pad_to_spec n l : length l <= n -> length (pad_to n l) = n /\
    forall j, j < n -> nth_error (pad_to n l) j = match nth_error l j with Some s => Some s | None => Some "" end.
  Proof.
    revert l; induction n as [|n IH]; intros l H.
    - destruct l; [|cbn in H; lia]. split; [reflexivity|]. intros j Hj. lia.
    - destruct l as [|x l]; cbn [pad_to length].
      + destruct (IH [] ltac:(cbn; lia)) as [L E]. split; [now rewrite L|]. intros [|j] Hj; [reflexivity|]. cbn. rewrite E by lia. now destruct j.
      + destruct (IH l ltac:(cbn in H; lia)) as [L E]. split; [now rewrite L|]. intros [|j] Hj; [reflexivity|]. cbn. now rewrite E by lia.
  Qed.

  Lemma build_sparse_dense rels : forall acc c, grows (length acc) rels ->
    (forall j l, In (j, l) rels -> exists c', nth_error (fst (build_sparse render rels acc c)) j = Some (fst (render (PPartRels l) c'))) /\
    (forall j, j < length acc -> nth_error (fst (build_sparse render rels acc c)) j = nth_error acc j) /\
    (forall j, length acc <= j -> (forall l, ~ In (j, l) rels) ->
       nth_error (fst (build_sparse render rels acc c)) j = None \/ nth_error (fst (build_sparse render rels acc c)) j = Some "").
  Proof.
    induction rels as [|[i l] rels IH]; intros acc c G; cbn [build_sparse].
    - cbn. split; [intros ? ? []|]. split; [reflexivity|]. intros j Hj _. left. now apply nth_error_None.
    - destruct (render (PPartRels l) c) as [d c1] eqn:R.
      assert (Hi : length acc <= i) by (apply (grows_in _ _ i l G); left; reflexivity).
      destruct (pad_to_spec i acc Hi) as [L E].
      set (acc' := firstn i (pad_to i acc) ++ [d]).
      assert (L' : length acc' = S i) by (unfold acc'; rewrite app_length, firstn_length, L; cbn; lia).
      assert (F : firstn i (pad_to i acc) = pad_to i acc) by (apply firstn_all2; lia).
      assert (G' : grows (length acc') rels) by (rewrite L'; exact (grows_tail _ _ _ _ G)).
      destruct (IH acc' c1 G') as (A & B & C).
      assert (At : forall j, j < i -> nth_error acc' j = match nth_error acc j with Some s => Some s | None => Some "" end).
      { intros j Hj. unfold acc'. rewrite F, nth_error_app1 by lia. now apply E. }
      split; [|split].
      + intros j x [X|X]; [injection X as <- <-|exact (A _ _ X)].
        exists c. rewrite B by lia. unfold acc'. rewrite F, nth_error_app2, L, Nat.sub_diag by lia. now rewrite R.
      + intros j Hj. rewrite B by lia. rewrite At by lia. destruct (nth_error acc j) eqn:X; [reflexivity|].
        apply nth_error_None in X. lia.
      + intros j Hj N. destruct (Nat.lt_trichotomy j i) as [Lt|[->|Gt]].
        * rewrite B by lia. rewrite At by lia. rewrite (proj2 (nth_error_None acc j)) by lia. auto.
        * exfalso. apply (N l). left. reflexivity.
        * apply C; [lia|]. intros x Hx. apply (N x). right. exact Hx.
  Qed.
  Lemma build_sparse_ok l c : serves 0 (sparse l) (fst (build_sparse render (sparse l) [] c)).
  Proof. destruct (build_sparse_dense (sparse l) [] c (sparse_grows l)) as (A & _ & C). split; [exact A|exact C]. Qed.

  Lemma serves_next i rels D : serves i rels D -> serves (S i) rels D.
  Proof. intros [A B]. split; [exact A|]. intros j Hj N. apply B; [lia|exact N]. Qed.
  Lemma serves_tail i l rels D : serves i ((i, l) :: rels) D -> serves (S i) rels D.
  Proof.
    intros [A B]. split; [intros j x H; apply (A j x); right; exact H|].
    intros j Hj N. apply B; [lia|]. intros x [E|H]; [injection E; lia|exact (N x H)].
  Qed.

  (** Texts of the parts in order. *)
  Lemma render_all_length l : forall c, length (fst (render_all render l c)) = length l.
  Proof.
    induction l as [|p l IH]; intros c; [reflexivity|]. cbn [render_all]. destruct (render p c) as [d c1].
    specialize (IH c1). destruct (render_all render l c1). cbn in *. now rewrite IH.
  Qed.

  Hypothesis rels_written : forall l c, fst (render (PPartRels l) c) <> "".

  (** What stands after part [i] in the archive. *)
  Lemma rel_entry kind i rels D : grows i rels -> serves i rels D ->
    match nth_error D i with
    | Some (String _ _ as rel) => [File (nth_name ("word/_rels/" +++ kind) i ".xml.rels") rel]
    | _ => []
    end =
    match rels with
    | (j, l) :: _ => if Nat.eqb j i then [File (nth_name ("word/_rels/" +++ kind) i ".xml.rels") (nth i D "")] else []
    | [] => []
    end.
  Proof.
    intros G [A B]. destruct rels as [|[j l] rels].
    - destruct (B i (le_n i) (fun _ H => H)) as [-> | ->]; reflexivity.
    - destruct (Nat.eqb_spec j i) as [->|N].
      + destruct (A i l (or_introl eq_refl)) as (c & E). rewrite E. rewrite (nth_error_nth _ _ _ E).
        specialize (rels_written l c). destruct (fst (render (PPartRels l) c)); [congruence|reflexivity].
      + assert (X : forall x, ~ In (i, x) ((j, l) :: rels)).
        { intros x [H|H]; [congruence|]. pose proof (grows_tail _ _ _ _ G) as T. pose proof (grows_in _ _ _ _ T H).
          pose proof (grows_in _ _ j l G (or_introl eq_refl)). lia. }
        destruct (B i (le_n i) X) as [-> | ->]; reflexivity.
  Qed.

  Lemma zip_parts_names kind parts : forall i texts rels D, length texts = length parts -> grows i rels -> serves i rels D ->
    map entry_name (zip_parts kind i texts D) = map step_name (part_steps kind i parts rels).
  Proof.
    induction parts as [|n parts IH]; intros i [|d texts] rels D L G V; try discriminate L; [reflexivity|].
    injection L as L. cbn [zip_parts part_steps map step_name entry_name]. rewrite (rel_entry kind i rels D G V).
    rewrite map_app. f_equal. destruct rels as [|[j l] rels].
    - cbn. apply (IH (S i) texts []); auto using grows_nil, serves_next.
    - destruct (Nat.eqb_spec j i) as [->|N]; cbn [map entry_name step_name app].
      + f_equal. apply (IH (S i) texts rels); [exact L|exact (grows_tail _ _ _ _ G)|exact (serves_tail _ _ _ _ V)].
      + apply (IH (S i) texts); [exact L|exact (grows_skip _ _ _ _ G N)|exact (serves_next _ _ _ V)].
  Qed.

  Lemma zip_web_names ds l : length ds = length l -> forall i, map entry_name (zip_web i ds) = map step_name (web_steps i l).
  Proof.
    revert l; induction ds as [|d ds IH]; intros [|x l] L i; try discriminate L; [reflexivity|].
    injection L as L. cbn. f_equal. now apply IH.
  Qed.
  Lemma zip_items_names ds l rels props : length ds = length l -> forall i, map entry_name (zip_items i ds rels props) = map step_name (item_steps i l).
  Proof.
    revert l; induction ds as [|d ds IH]; intros [|[x y] l] L i; try discriminate L; [reflexivity|].
    injection L as L. cbn. do 3 f_equal. now apply IH.
  Qed.
  Lemma unless_nil_length {A B C} (l : list A) (m : list B) (x : list C) : length l = length m -> unless_nil l x = unless_nil m x.
  Proof. destruct l, m; intros H; try discriminate; reflexivity. Qed.
  Lemma map_unless_nil {A B C} (f : B -> C) (l : list A) x : map f (unless_nil l x) = unless_nil l (map f x).
  Proof. destruct l; reflexivity. Qed.

  Lemma names_agree k c n : map entry_name (zip (fst (build render k c n))) = map entry_name (fst (pack render k c n)).
  Proof.
    unfold pack. rewrite names_of_entries. unfold build.
    repeat match goal with |- context [render_all render ?l ?m] =>
      let H := fresh "L" in pose proof (render_all_length l m) as H; destruct (render_all render l m); cbn [fst] in H end.
    repeat match goal with |- context [build_sparse render (sparse ?r) [] ?m] =>
      let V := fresh "V" in pose proof (build_sparse_ok r m) as V; destruct (build_sparse render (sparse r) [] m); cbn [fst] in V end.
    rewrite !map_length in *.
    match goal with |- context [render_all render (map PFixed ?o) ?m] => destruct (render_all render (map PFixed o) m) as [rest ?] end. cbn [fst].
    unfold zip, stream_steps. cbn [x_fixed x_headers x_footers x_header_rels x_footer_rels x_media x_taskpanes x_web x_items x_item_rels x_item_props].
    rewrite !map_app. apply (f_equal2 (@app _)); [reflexivity|]. apply (f_equal2 (@app _)); [reflexivity|].
    apply (f_equal2 (@app _)); [apply zip_parts_names; auto using sparse_grows|].
    apply (f_equal2 (@app _)); [apply zip_parts_names; auto using sparse_grows|].
    apply (f_equal2 (@app _)); [|apply (f_equal2 (@app _)); [|apply (f_equal2 (@app _))]].
    - rewrite !map_unless_nil. cbn [map entry_name step_name]. rewrite !map_map. reflexivity.
    - destruct (k_taskpanes k); [|reflexivity]. cbn [map entry_name step_name]. now rewrite (zip_web_names _ (k_web k)).
    - rewrite !map_unless_nil. cbn [map entry_name step_name]. now apply unless_nil_length.
    - now apply zip_items_names.
  Qed.

  (** *** Contents *)
  Variable text : part -> string.
  Hypothesis Q : forall p, noisy p = false -> forall c, render p c = (text p, c).
  Definition step_entry (s : step) : entry :=
    match s with SDir n => Dir n | SRaw n d => File n d | SXml n p => File n (text p) end.
  Definition step_quiet (s : step) : Prop := match s with SXml _ p => noisy p = false | _ => True end.

  Lemma run_steps_app l m c : run_steps render (l ++ m) c =
    let (a, c1) := run_steps render l c in let (b, c2) := run_steps render m c1 in (a ++ b, c2).
  Proof.
    revert c; induction l as [|s l IH]; intros c; [cbn; now destruct (run_steps render m c)|].
    destruct s; cbn [run_steps app].
    - rewrite IH. destruct (run_steps render l c) as [a c1]. now destruct (run_steps render m c1).
    - destruct (render p c) as [d c0]. rewrite IH. destruct (run_steps render l c0) as [a c1]. now destruct (run_steps render m c1).
    - rewrite IH. destruct (run_steps render l c) as [a c1]. now destruct (run_steps render m c1).
  Qed.
  Lemma run_steps_quiet l : Forall step_quiet l -> forall c, run_steps render l c = (map step_entry l, c).
  Proof.
    induction 1 as [|s l Hs _ IH]; intros c; [reflexivity|]. destruct s; cbn [run_steps map step_entry]; try now rewrite IH.
    cbn in Hs. rewrite (Q _ Hs c), IH. reflexivity.
  Qed.
  Lemma render_all_quiet l : Forall (fun p => noisy p = false) l -> forall c, render_all render l c = (map text l, c).
  Proof. induction 1 as [|p l Hp _ IH]; intros c; [reflexivity|]. cbn. rewrite (Q _ Hp c), IH. reflexivity. Qed.

  (** The relationships of the headers or footers by index. *)
  Definition dense (rels : rels_of) : list string := fst (build_sparse (fun p (_ : unit) => (text p, tt)) rels [] tt).
  Lemma build_sparse_text rels : forall acc c, build_sparse render rels acc c = (fst (build_sparse (fun p (_ : unit) => (text p, tt)) rels acc tt), c).
  Proof.
    induction rels as [|[i l] rels IH]; intros acc c; [reflexivity|]. cbn [build_sparse]. rewrite (Q (PPartRels l) eq_refl c). apply IH.
  Qed.
  Lemma dense_serves l (n : St) : serves 0 (sparse l) (dense (sparse l)).
  Proof. pose proof (build_sparse_ok l n) as H. rewrite build_sparse_text in H. exact H. Qed.

  Lemma part_steps_run kind parts : forall i rels D c, grows i rels -> serves i rels D ->
    run_steps render (part_steps kind i parts rels) c =
    (zip_parts kind i (fst (render_all render (map PPart parts) c)) D, snd (render_all render (map PPart parts) c)).
  Proof.
    induction parts as [|n parts IH]; intros i rels D c G V; [reflexivity|].
    cbn [part_steps run_steps map render_all]. destruct (render (PPart n) c) as [d c1].
    specialize (fun rels G V => IH (S i) rels D c1 G V).
    destruct (render_all render (map PPart parts) c1) as [ds c2] eqn:R. cbn [fst snd] in *.
    cbn [zip_parts]. rewrite (rel_entry kind i rels D G V).
    destruct rels as [|[j l] rels].
    - rewrite (IH [] (grows_nil _) (serves_next _ _ _ V)). reflexivity.
    - destruct (Nat.eqb_spec j i) as [->|N].
      + cbn [run_steps]. rewrite (Q (PPartRels l) eq_refl c1), (IH rels (grows_tail _ _ _ _ G) (serves_tail _ _ _ _ V)).
        destruct V as [A _]. destruct (A i l (or_introl eq_refl)) as (c' & E). rewrite (nth_error_nth _ _ _ E), (Q (PPartRels l) eq_refl c'). reflexivity.
      + rewrite (IH _ (grows_skip _ _ _ _ G N) (serves_next _ _ _ V)). reflexivity.
  Qed.
  Lemma zip_web_text l : forall i, zip_web i (map text (map PWeb l)) = map step_entry (web_steps i l).
  Proof. induction l as [|e l IH]; intros i; [reflexivity|]. cbn. now rewrite IH. Qed.
  Lemma zip_items_text l : forall i (pre : list string) pre', length pre = i -> length pre' = i ->
    zip_items i (map text (map (fun x => PItem (snd x)) l)) (pre ++ map text (map PItemRels (seq i (length l))))
      (pre' ++ map text (map (fun x => PItemProps (fst x)) l)) = map step_entry (item_steps i l).
  Proof.
    induction l as [|[id x] l IH]; intros i pre pre' L L'; [reflexivity|].
    cbn [length seq map zip_items item_steps fst snd step_entry].
    rewrite !app_nth2, L, L', Nat.sub_diag by lia. cbn [nth]. do 3 f_equal.
    replace (pre ++ text (PItemRels i) :: map text (map PItemRels (seq (S i) (length l))))
      with ((pre ++ [text (PItemRels i)]) ++ map text (map PItemRels (seq (S i) (length l)))) by (now rewrite <- app_assoc).
    replace (pre' ++ text (PItemProps id) :: map text (map (fun x => PItemProps (fst x)) l))
      with ((pre' ++ [text (PItemProps id)]) ++ map text (map (fun x => PItemProps (fst x)) l)) by (now rewrite <- app_assoc).
    apply IH; rewrite app_length; cbn; lia.
  Qed.

  (** The archive, from the texts of the parts that are not quiet: document, styles,
      comments, numbering, footnotes; headers; footers. *)
  Notation five := (string * string * string * string * string)%type.
  Definition fixed_text (t : five) (f : fixed) : string :=
    let '(d, s, c, n, fo) := t in
    match f with XDocument => d | XStyles => s | XComments => c | XNumbering => n | XFootnotes => fo | _ => text (PFixed f) end.
  Definition whole (k : pkg) (c : collected) (t : five) (hs fs : list string) : xmldocx :=
    {| x_fixed := fixed_text t; x_headers := hs; x_footers := fs; x_header_rels := dense (sparse (c_header_rels c));
       x_footer_rels := dense (sparse (c_footer_rels c)); x_media := c_media c; x_taskpanes := k_taskpanes k;
       x_web := map text (map PWeb (k_web k)); x_items := map text (map (fun i => PItem (snd i)) (k_custom k));
       x_item_rels := map text (map PItemRels (seq 0 (length (k_custom k)))); x_item_props := map text (map (fun i => PItemProps (fst i)) (k_custom k)) |}.

  Lemma pack_whole k c n d s co nu fo hs fs c1 c2 c3 c4 c5 c6 c7 :
    render (PFixed XDocument) n = (d, c1) -> render (PFixed XStyles) c1 = (s, c2) -> render (PFixed XComments) c2 = (co, c3) ->
    render (PFixed XNumbering) c3 = (nu, c4) -> render (PFixed XFootnotes) c4 = (fo, c5) ->
    render_all render (map PPart (headers (k_doc k))) c5 = (hs, c6) -> render_all render (map PPart (footers (k_doc k))) c6 = (fs, c7) ->
    pack render k c n = (zip (whole k c (d, s, co, nu, fo) hs fs), c7).
  Proof.
    intros R1 R2 R3 R4 R5 Hh Hf. unfold pack, stream_steps.
    rewrite run_steps_app. rewrite run_steps_quiet by (cbn; repeat constructor).
    assert (M1 : run_steps render (map (fun f => SXml (fst f) (PFixed (snd f))) fixed_files) n =
      (map (fun f => File (fst f) (fixed_text (d, s, co, nu, fo) (snd f))) fixed_files, c5)).
    { cbn [fixed_files map run_steps fst snd].
      repeat (first [rewrite R1 | rewrite R2 | rewrite R3 | rewrite R4 | rewrite R5 | rewrite Q by reflexivity]). reflexivity. }
    rewrite run_steps_app, M1. rewrite run_steps_app, (part_steps_run "header" (headers (k_doc k)) 0 _ _ c5 (sparse_grows _) (dense_serves _ n)).
    rewrite Hh. cbn [fst snd].
    rewrite run_steps_app, (part_steps_run "footer" (footers (k_doc k)) 0 _ _ c6 (sparse_grows _) (dense_serves _ n)). rewrite Hf. cbn [fst snd].
    rewrite run_steps_quiet.
    2:{ apply Forall_app. split; [unfold unless_nil; destruct (c_media c) as [|x ms]; [constructor|]; generalize (x :: ms); intros l; constructor; [exact I|]; apply Forall_map, Forall_forall; intros; exact I|].
        apply Forall_app. split.
        { destruct (k_taskpanes k); [|constructor]. constructor; [exact I|]. constructor; [reflexivity|].
          constructor; [exact I|]. constructor; [reflexivity|].
          generalize 0. induction (k_web k); intros i; constructor; [reflexivity|auto]. }
        apply Forall_app. split; [unfold unless_nil; destruct (k_custom k); repeat constructor|].
        generalize 0. induction (k_custom k) as [|[id x] l IH]; intros i; [constructor|].
        repeat (constructor; [reflexivity|]). apply IH. }
    f_equal. unfold zip, whole. cbn [x_fixed x_headers x_footers x_header_rels x_footer_rels x_media x_taskpanes x_web x_items x_item_rels x_item_props fst].
    rewrite !map_app. apply (f_equal2 (@app _)); [reflexivity|].
    apply (f_equal2 (@app _)); [reflexivity|].
    apply (f_equal2 (@app _)); [reflexivity|]. apply (f_equal2 (@app _)); [reflexivity|].
    apply (f_equal2 (@app _)); [|apply (f_equal2 (@app _)); [|apply (f_equal2 (@app _))]].
    - rewrite map_unless_nil. cbn [map step_entry]. rewrite map_map. reflexivity.
    - destruct (k_taskpanes k) eqn:T; [|reflexivity]. cbn [map step_entry]. now rewrite zip_web_text.
    - rewrite map_unless_nil. cbn [map step_entry]. apply unless_nil_length. now rewrite !map_length.
    - symmetry. exact (zip_items_text (k_custom k) 0 [] [] eq_refl eq_refl).
  Qed.

  Lemma build_whole k c n d s co nu fo hs fs c1 c2 c3 c4 c5 c6 c7 :
    render_all render (map PPart (headers (k_doc k))) n = (hs, c1) -> render_all render (map PPart (footers (k_doc k))) c1 = (fs, c2) ->
    render (PFixed XStyles) c2 = (s, c3) -> render (PFixed XDocument) c3 = (d, c4) -> render (PFixed XComments) c4 = (co, c5) ->
    render (PFixed XNumbering) c5 = (nu, c6) -> render (PFixed XFootnotes) c6 = (fo, c7) ->
    zip (fst (build render k c n)) = zip (whole k c (d, s, co, nu, fo) hs fs) /\ snd (build render k c n) = c7.
  Proof.
    intros Hh Hf R1 R2 R3 R4 R5. unfold build.
    rewrite (render_all_quiet (map PWeb (k_web k))) by (apply Forall_map, Forall_forall; intros; reflexivity).
    rewrite (render_all_quiet (map (fun i => PItem (snd i)) (k_custom k))) by (apply Forall_map, Forall_forall; intros; reflexivity).
    rewrite (render_all_quiet (map (fun i => PItemProps (fst i)) (k_custom k))) by (apply Forall_map, Forall_forall; intros; reflexivity).
    rewrite (render_all_quiet (map PItemRels (seq 0 (length (k_custom k))))) by (apply Forall_map, Forall_forall; intros; reflexivity).
    rewrite Hh, Hf, !build_sparse_text.
    assert (RA : render_all render (map PFixed (build_order k)) c2 = (map (fixed_text (d, s, co, nu, fo)) (build_order k), c7)).
    { unfold build_order. destruct (k_taskpanes k); cbn [map app render_all];
        repeat (first [rewrite R1 | rewrite R2 | rewrite R3 | rewrite R4 | rewrite R5 | rewrite Q by reflexivity]); reflexivity. }
    rewrite RA. split; [|reflexivity]. cbn [fst].
    assert (M3 : forall f, f <> XTaskpanes \/ k_taskpanes k = true ->
      pick f (combine (build_order k) (map (fixed_text (d, s, co, nu, fo)) (build_order k))) = fixed_text (d, s, co, nu, fo) f).
    { intros f Hf'. unfold build_order. destruct (k_taskpanes k); destruct f; try reflexivity; destruct Hf'; congruence. }
    unfold zip, whole. cbn [x_fixed x_headers x_footers x_header_rels x_footer_rels x_media x_taskpanes x_web x_items x_item_rels x_item_props fst].
    apply (f_equal2 (@app _)); [reflexivity|].
    apply (f_equal2 (@app _)); [apply map_ext_in; intros f Hin; f_equal; apply M3; left; intros E;
      cbn in Hin; repeat (destruct Hin as [Hin|Hin]; [subst f; discriminate E|]); destruct Hin|].
    apply (f_equal2 (@app _)); [reflexivity|]. apply (f_equal2 (@app _)); [reflexivity|].
    apply (f_equal2 (@app _)); [reflexivity|]. apply (f_equal2 (@app _)); [|reflexivity].
    destruct (k_taskpanes k) eqn:T; [|reflexivity]. rewrite !M3 by auto. reflexivity.
  Qed.
End Render.

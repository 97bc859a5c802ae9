(** Proofs about whole parts, from those about the tree. *)
From Coq Require Import NArith List Bool Lia Permutation.
From Verif Require Import Str StrFacts ListFacts TypesModel Props Ast IdsModel BuildModel BuildSpec BuildProofs BuildIdsProofs
  VocabSpec VocabProofs CellProofs MarkProofs.
Import ListNotations.

(** ** When building succeeds *)
Lemma costs_success {A} (m : M A) ok k s : costs m ok k -> ((exists a s', m s = Some (a, s')) <-> ok = true /\ enough s k).
Proof.
  intros H. specialize (H s). split.
  - intros (a & s' & E). rewrite E in H. tauto.
  - intros [Ho He]. destruct (m s) as [[a s']|]; [eauto | now destruct H].
Qed.
Lemma costs_after {A} (m : M A) ok k s a s' : costs m ok k -> m s = Some (a, s') -> s' = after s k.
Proof. intros H E. specialize (H s). rewrite E in H. tauto. Qed.
Lemma writable_iff l : writable l = true <-> forall n, In n (flat_map written l) -> unwritable n = false.
Proof.
  unfold writable. rewrite forallb_forall. split; intros H n Hn; specialize (H n Hn); now apply negb_true_iff.
Qed.
Lemma costs_document body p : costs (b_document body p) (writable body) (nodes_spend body).
Proof.
  eapply costs_eq; [unfold b_document; chain ltac:(apply costs_nodes) | now rewrite andb_true_r | now rewrite plus_0_r].
Qed.
Lemma costs_part s rid nb ch : costs (b_part (NPart s rid nb ch)) (writable ch) (nodes_spend ch).
Proof.
  eapply costs_eq; [unfold b_part; chain ltac:(apply costs_nodes) | now rewrite andb_true_r | now rewrite plus_0_r].
Qed.
Lemma costs_comments l : costs (b_comments l) (writable (flat_map snd l)) (nodes_spend (flat_map snd l)).
Proof.
  assert (H : costs (each b_comment l) (writable (flat_map snd l)) (nodes_spend (flat_map snd l))).
  { induction l as [|c l IH]; cbn [each flat_map]; [apply costs_ret|]. rewrite writable_app, nodes_spend_app.
    eapply costs_eq; [eapply costs_bind; [unfold b_comment; chain ltac:(apply costs_nodes) | intros; eapply costs_bind; [exact IH | intros; apply costs_ret]] | |].
    - now rewrite !andb_true_r.
    - sums. }
  eapply costs_eq; [unfold b_comments; chain ltac:(exact H) | now rewrite andb_true_r | now rewrite plus_0_r].
Qed.
Lemma costs_footnotes l : costs (b_footnotes l) (writable (flat_map snd l)) (footnotes_spend l).
Proof.
  assert (H : costs (each b_footnote l) (writable (flat_map snd l)) (footnotes_spend l)).
  { induction l as [|c l IH]; cbn [each flat_map]; [apply costs_ret|]. rewrite writable_app. unfold footnotes_spend. cbn [map]. rewrite total_cons.
    fold (footnotes_spend l).
    eapply costs_eq; [eapply costs_bind; [unfold b_footnote; eapply costs_bind; [|intros; apply costs_ret] | intros; eapply costs_bind; [exact IH | intros; apply costs_ret]] | |].
    - instantiate (1 := match snd c with [] => a_para 1 | ch => nodes_spend ch end). instantiate (1 := writable (snd c)).
      destruct (snd c) as [|n r]; [|apply costs_nodes]. eapply costs_eq; [apply costs_new_para, costs_ret | reflexivity | reflexivity].
    - now rewrite !andb_true_r.
    - sums. }
  eapply costs_eq; [unfold b_footnotes; chain ltac:(exact H) | now rewrite andb_true_r | now rewrite plus_0_r].
Qed.

(** ** Paragraph ids *)
Lemma document_root body p s x s' : b_document body p s = Some (x, s') ->
  exists c, b_nodes body s = Some (c, s') /\ x = E "w:document" document_attrs [E "w:body" [] (c ++ [x_sectpr p])].
Proof. unfold b_document. intros H. apply bind_inv in H as (c & s1 & S & H). inversion H; subst. eauto. Qed.
Lemma part_root_inv n s x s' : b_part n s = Some (x, s') ->
  exists sl rid nb ch c, n = NPart sl rid nb ch /\ b_nodes ch s = Some (c, s') /\ x = E (part_root sl) part_attrs c.
Proof. destruct n; try discriminate. unfold b_part. intros H. apply bind_inv in H as (c & s1 & S & H). inversion H; subst. eauto 10. Qed.
Lemma document_ids_perm body p s x s' : b_document body p s = Some (x, s') ->
  exists lost, List.length lost = List.length (filter drops_id (flat_map written body)) /\
    Permutation (ids_in [x] ++ lost) (stored_ids body ++ next_ids (id_para s) (k_para (nodes_spend body))).
Proof.
  intros H. assert (Ha := costs_after _ _ _ _ _ _ (costs_document body p) H).
  destruct (document_root _ _ _ _ _ H) as (c & Hc & ->).
  destruct (writes_nodes body s c s' Hc) as (_ & w & Lw & U). exists w. split; [exact Lw|].
  apply (Permutation_count_occ string_dec). intros y. specialize (U y).
  rewrite ids_in_E by reflexivity. rewrite ids_in_E by reflexivity. rewrite ids_in_app, ids_sectpr, app_nil_r, !count_occ_app, U.
  f_equal. f_equal. unfold between. f_equal. rewrite Ha. unfold after. cbn [id_para]. lia.
Qed.
Lemma next_ids_NoDup c k : NoDup (next_ids c k).
Proof.
  unfold next_ids. apply NoDup_map_in; [|apply seq_NoDup]. intros i j _ _ E. apply pad0_hex_inj in E. lia.
Qed.
Lemma In_next_ids c k x : In x (next_ids c k) <-> exists n, (c <= n < c + k)%N /\ x = pad0 8 (show_hex n).
Proof.
  unfold next_ids. rewrite in_map_iff. split.
  - intros (i & <- & Hi). apply in_seq in Hi. exists (c + N.of_nat i)%N. split; [lia | reflexivity].
  - intros (n & Hn & ->). exists (N.to_nat (n - c)). split; [do 2 f_equal; lia|]. apply in_seq. lia.
Qed.
Lemma document_ids_distinct_lemma body p s x s' : b_document body p s = Some (x, s') ->
  NoDup (stored_ids body) ->
  (forall n, (id_para s <= n < id_para s + k_para (nodes_spend body))%N -> ~ In (pad0 8 (show_hex n)) (stored_ids body)) ->
  NoDup (ids_in [x]).
Proof.
  intros H Hn Hd. destruct (document_ids_perm _ _ _ _ _ H) as (w & _ & Hp).
  assert (N2 : NoDup (stored_ids body ++ next_ids (id_para s) (k_para (nodes_spend body)))).
  { apply NoDup_app_intro; [exact Hn | apply next_ids_NoDup|]. intros y Hy Hy2. apply In_next_ids in Hy2 as (n & Hr & ->). exact (Hd n Hr Hy). }
  apply (Permutation_NoDup (Permutation_sym Hp)) in N2. now apply NoDup_app_elim in N2.
Qed.
Lemma document_ids_distinct_iff_lemma body p s x s' : b_document body p s = Some (x, s') ->
  (forall n, In n (flat_map written body) -> drops_id n = false) ->
  (NoDup (ids_in [x]) <-> NoDup (stored_ids body) /\
    forall n, (id_para s <= n < id_para s + k_para (nodes_spend body))%N -> ~ In (pad0 8 (show_hex n)) (stored_ids body)).
Proof.
  intros H Hdr. destruct (document_ids_perm _ _ _ _ _ H) as (w & Lw & Hp).
  assert (W : w = []).
  { destruct w; [reflexivity|]. exfalso. destruct (filter drops_id (flat_map written body)) as [|n r] eqn:Ef; [discriminate|].
    assert (Hi : In n (filter drops_id (flat_map written body))) by (rewrite Ef; now left).
    apply filter_In in Hi as [Hi Hd]. now rewrite (Hdr n Hi) in Hd. }
  subst w. rewrite app_nil_r in Hp. split.
  - intros N2. apply (Permutation_NoDup Hp) in N2. apply NoDup_app_elim in N2 as (A & B & C). split; [exact A|].
    intros n Hr Hi. apply (C _ Hi). apply In_next_ids. eauto.
  - intros [A B]. eapply document_ids_distinct_lemma; eauto.
Qed.

(** ** Cells *)
Lemma document_cells body p s x s' : Forall well_formed body -> b_document body p s = Some (x, s') ->
  forall y, In y (elements x) -> xname y = "w:tc" -> has_blocks y.
Proof.
  intros W H y Hy. destruct (document_root _ _ _ _ _ H) as (c & Hc & ->). assert (F := built_cells _ _ _ _ W Hc). rewrite Forall_forall in F.
  cbn [elements flat_map] in Hy. rewrite app_nil_r in Hy. destruct Hy as [<- | [<- | Hy]]; [discriminate | discriminate|].
  rewrite flat_map_app in Hy. apply in_app_iff in Hy as [Hy|Hy]; [now apply F|].
  intros E. exfalso.
  assert (G := every_sectpr (fun z => xname z <> "w:tc")). unfold every in G.
  specialize (G ltac:(intros z _ Hz Ez; rewrite Ez in Hz; discriminate) p). rewrite Forall_forall in G. exact (G y Hy E).
Qed.
Lemma document_cells_close body p s x s' : Forall well_formed body ->
  (forall q nb ch, In (NCell q nb ch) (flat_map all_nodes body) -> cell_closes ch = true) ->
  b_document body p s = Some (x, s') ->
  forall y, In y (elements x) -> xname y = "w:tc" -> last_is closes (xchildren y) = true.
Proof.
  intros W Cl H y Hy. destruct (document_root _ _ _ _ _ H) as (c & Hc & ->).
  assert (Cl' : Forall (fun n => match n with NCell _ _ ch => cell_closes ch = true | _ => True end) (flat_map all_nodes body)).
  { apply Forall_forall. intros n Hn. destruct n; try exact I. eapply Cl, Hn. }
  assert (F := built_cells_close _ _ _ _ W Cl' Hc). rewrite Forall_forall in F.
  cbn [elements flat_map] in Hy. rewrite app_nil_r in Hy. destruct Hy as [<- | [<- | Hy]]; [discriminate | discriminate|].
  rewrite flat_map_app in Hy. apply in_app_iff in Hy as [Hy|Hy]; [now apply F|].
  intros E. exfalso.
  assert (G := every_sectpr (fun z => xname z <> "w:tc")). unfold every in G.
  specialize (G ltac:(intros z _ Hz Ez; rewrite Ez in Hz; discriminate) p). rewrite Forall_forall in G. exact (G y Hy E).
Qed.

(** ** Tracked changes *)
Lemma numbers_NoDup c k : NoDup (numbers c k).
Proof. unfold numbers. apply NoDup_map_in; [|apply seq_NoDup]. intros i j _ _ E. apply show_N_inj in E. lia. Qed.
Lemma document_marks body p s x s' : b_document body p s = Some (x, s') ->
  change_ids [x] = numbers (id_hist s) (k_hist (nodes_spend body)) /\
  former_ids [x] = numbers (id_change s) (k_change (nodes_spend body)).
Proof.
  intros H. assert (Ha := costs_after _ _ _ _ _ _ (costs_document body p) H).
  destruct (document_root _ _ _ _ _ H) as (c & Hc & ->). destruct (marks_nodes body s c s' Hc) as (_ & _ & C & D).
  rewrite !change_E, !former_E by reflexivity. rewrite change_app, former_app.
  destruct (every_no_marks _ (every_sectpr no_marks plain_no_marks p)) as [-> ->]. rewrite !app_nil_r, C, D.
  unfold range. rewrite Ha. unfold after. cbn [id_hist id_change]. split; f_equal; lia.
Qed.

(** ** Vocabulary *)
Lemma document_known body p s x s' : Forall well_formed body -> b_document body p s = Some (x, s') ->
  exists c, x = E "w:document" document_attrs [E "w:body" [] c] /\ Forall known (flat_map elements c).
Proof.
  intros W H. destruct (document_root _ _ _ _ _ H) as (c & Hc & ->). exists (c ++ [x_sectpr p]). split; [reflexivity|].
  rewrite flat_map_app. apply Forall_app. split; [exact (built_known _ _ _ _ W Hc)|].
  exact (every_sectpr known (fun y K _ => K) p).
Qed.
Lemma part_known n s x s' : well_formed n -> b_part n s = Some (x, s') ->
  exists root c, x = E root part_attrs c /\ Forall known (flat_map elements c).
Proof.
  intros W H. destruct (part_root_inv _ _ _ _ H) as (sl & rid & nb & ch & c & -> & Hc & ->). exists (part_root sl), c. split; [reflexivity|].
  apply (all_q_children (fun n => local_ok n = true)) in W. exact (built_known _ _ _ _ W Hc).
Qed.

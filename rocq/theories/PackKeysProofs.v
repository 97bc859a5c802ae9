(** The content types name no part twice. *)
From Coq Require Import NArith List Bool Lia Sorting.Sorted String Ascii.
From Verif Require Import Str Props Ast TreeModel DepsModel TocModel PackModel PackSpec PrepareModel PrepareProofs PackFinalProofs.
Import ListNotations.

Lemma compare_trans : forall a b c, String.compare a b = Lt -> String.compare b c = Lt -> String.compare a c = Lt.
Proof.
  induction a as [|x a IH]; intros [|y b] [|z c]; cbn; try discriminate; auto.
  unfold Ascii.compare. destruct (N.compare_spec (N_of_ascii x) (N_of_ascii y)) as [E|L|G]; try discriminate.
  - rewrite E. destruct (N.compare (N_of_ascii y) (N_of_ascii z)); try discriminate; auto. apply IH.
  - intros _. destruct (N.compare_spec (N_of_ascii y) (N_of_ascii z)) as [E|L'|G]; try discriminate.
    + rewrite <- E. apply N.compare_lt_iff in L. now rewrite L.
    + intros _. assert (H : (N_of_ascii x < N_of_ascii z)%N) by lia. apply N.compare_lt_iff in H. now rewrite H.
Qed.
Definition less (a b : string * string) : Prop := String.compare (fst a) (fst b) = Lt.
Lemma insert_sorted k v m : StronglySorted less m -> StronglySorted less (bt_insert k v m).
Proof.
  assert (F : forall a m, Forall (less a) m -> less a (k, v) -> Forall (less a) (bt_insert k v m)).
  { intros a l H Ha. induction H as [|[k' v'] l L F IH]; cbn [bt_insert]; [constructor; [exact Ha|constructor]|].
    destruct (String.compare k k'); constructor; auto. }
  induction 1 as [|[k' v'] m S IH H]; cbn [bt_insert]; [constructor; constructor|].
  destruct (String.compare k k') eqn:E.
  - apply String.compare_eq_iff in E. subst k'. constructor; [exact S|]. exact H.
  - constructor; [constructor; assumption|]. constructor; [exact E|]. eapply Forall_impl; [|exact H]. intros [x y]. unfold less. cbn. now apply compare_trans.
  - constructor; [exact IH|]. apply F; [exact H|]. unfold less. cbn. rewrite String.compare_antisym, E. reflexivity.
Qed.
Lemma sorted_keys m : StronglySorted less m -> NoDup (map fst m).
Proof.
  induction 1 as [|a m S IH F]; cbn; constructor; [|exact IH]. intros I. apply in_map_iff in I. destruct I as (b & E & I).
  rewrite Forall_forall in F. specialize (F b I). unfold less in F. rewrite E in F. 
  assert (R : String.compare (fst a) (fst a) = Eq).
  { generalize (String.compare_antisym (fst a) (fst a)). destruct (String.compare (fst a) (fst a)); [reflexivity| |]; discriminate. }
  rewrite R in F. discriminate.
Qed.
Definition ordered (t : types) : Prop := StronglySorted less (t_map t).
Lemma put_ordered t k v : ordered t -> ordered (t_put t k v).
Proof. apply insert_sorted. Qed.
Lemma attach_ordered x c s : ordered (snd (fst s)) -> ordered (snd (fst (attach x c s))).
Proof.
  destruct s as [[r t] [p parts]]. cbn [attach fst snd]. unfold typed, ordered. destruct (is_header_slot x); cbn [add_header add_footer t_map]; apply insert_sorted.
Qed.
Lemma calls_ordered l : ordered (k_types (calls l)).
Proof.
  unfold calls. assert (H : ordered (k_types pkg_new)).
  { unfold pkg_new, k_types, set_default. generalize types_default, (SSorted_nil less : ordered types_default).
    induction default_types as [|[k v] d IH]; intros t H; [exact H|]. cbn [fold_left]. apply IH, put_ordered, H. }
  revert H. generalize pkg_new. induction l as [|a l IH]; intros k H; [exact H|]. cbn [fold_left]. apply IH. destruct a; cbn [call].
  - exact H.
  - unfold add_section.
    assert (A : forall x s', ordered (snd (fst s')) -> ordered (snd (fst (attach_if x (sa_pending s x) s')))).
    { intros x s' H'. unfold attach_if. destruct (sa_pending s x); [now apply attach_ordered|exact H']. }
    set (s0 := (number_if (sa_numbering s) (k_doc_rels k), k_types k, (sa_prop s, []))).
    assert (H0 : ordered (snd (fst s0))) by exact H.
    pose proof (A FEven _ (A FFirst _ (A FDefault _ (A HEven _ (A HFirst _ (A HDefault _ H0)))))) as R.
    destruct (attach_if FEven _ _) as [[r t] [p parts]]. exact R.
  - unfold set_part. pose proof (attach_ordered x c (k_doc_rels k, k_types k, (d_sect (k_doc k), d_parts (k_doc k))) H) as R.
    destruct (attach x c _) as [[r t] [p parts]]. exact R.
  - now apply put_ordered.
  - apply insert_sorted, H.
  - apply insert_sorted, H.
  - exact H.
Qed.
Lemma types_once crc styles ext n l k' c ext' : typed_calls l -> prepare_package crc styles ext n (calls l) = Some (k', c, ext') ->
  NoDup (map fst (t_map (k_types k'))).
Proof.
  intros T E. destruct (prepare_found _ _ _ _ _ _ _ _ (typed_document l T) E) as (d1 & d & comments & links & -> & _).
  apply sorted_keys. unfold prepared. cbn [set_types k_types set_doc]. destruct (c_has_footnotes c); [apply put_ordered|]; apply calls_ordered.
Qed.

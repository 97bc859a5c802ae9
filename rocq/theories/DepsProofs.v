From Coq Require Import NArith List Bool Lia.
From Verif Require Import Str StrFacts ListFacts Props Ast DepsModel DepsSpec.
Import ListNotations.

Lemma fold_left_flat_map {A B S} (f : S -> B -> S) (g : A -> list B) l : forall s,
  fold_left f (flat_map g l) s = fold_left (fun s x => fold_left f (g x) s) l s.
Proof. induction l as [|x l IH]; intros s; cbn [flat_map fold_left]; [reflexivity|]. now rewrite fold_left_app, IH. Qed.
Lemma fold_left_ext_in {A S} (f g : S -> A -> S) l :
  Forall (fun x => forall s, f s x = g s x) l -> forall s, fold_left f l s = fold_left g l s.
Proof. induction 1 as [|x l H _ IH]; intros s; cbn; [reflexivity|]. now rewrite H, IH. Qed.
Lemma fold_left_map {A B S} (f : S -> B -> S) (g : A -> B) l : forall s,
  fold_left f (map g l) s = fold_left (fun s x => f s (g x)) l s.
Proof. induction l as [|x l IH]; intros s; cbn; [reflexivity|]. apply IH. Qed.

(** The walk is a loop over the paragraphs seen. *)
Lemma walk_paras {S} (f : list node -> S -> S) n : forall s,
  walk f n s = fold_left (fun s p => f (children p) s) (paras_below n) s.
Proof.
  induction n as [n IH] using node_tree_ind. intros s.
  assert (Hb : forall l, Forall (fun n => forall s, walk f n s = fold_left (fun s p => f (children p) s) (paras_below n) s) l ->
    forall s, fold_left (fun s c => if block_walks c then walk f c s else s) l s =
      fold_left (fun s p => f (children p) s) (flat_map (fun c => if block c then paras_below c else []) l) s).
  { intros l H s0. rewrite fold_left_flat_map. apply fold_left_ext_in. eapply Forall_impl; [|exact H].
    intros c Hc s1. change (block c) with (block_walks c). destruct (block_walks c); [apply Hc|reflexivity]. }
  destruct n; cbn [walk paras_below fold_left children] in *; try reflexivity;
    try (rewrite fold_left_flat_map; apply fold_left_ext_in; exact IH).
  - apply Hb, IH.
  - apply Forall_app in IH as [H1 H2]. rewrite fold_left_app, <- (Hb before H1). apply Hb, H2.
Qed.
Lemma walk_body_paras {S} (f : list node -> S -> S) l s :
  walk_body f l s = fold_left (fun s p => f (children p) s) (seen_paras l) s.
Proof.
  unfold walk_body, seen_paras. rewrite fold_left_flat_map. apply fold_left_ext_in, Forall_forall.
  intros n _ s0. destruct n; cbn [top_walks]; try reflexivity; apply walk_paras.
Qed.

(** First phase. *)
Definition link_ins (m : link_map) (kv : string * string) : link_map := put_link (fst kv) (snd kv) m.
Lemma map_paragraph_spec p s :
  map_paragraph (children p) s =
  (fold_left (fun m c => insert_comment c m) (comments_in p) (fst s), fold_left link_ins (links_in p) (snd s)).
Proof.
  unfold map_paragraph, comments_in, links_in. revert s. induction (children p) as [|c l IH]; intros s; cbn [fold_left flat_map].
  - now destruct s.
  - rewrite IH, !fold_left_app. f_equal.
    + f_equal. destruct c; try reflexivity. cbn [map_child fst]. rewrite fold_left_flat_map. apply fold_left_ext_in, Forall_forall.
      intros x _ m. now destruct x.
    + f_equal. destruct c; try reflexivity. destruct l0; reflexivity.
Qed.
Lemma map_phase l : forall s,
  fold_left (fun s p => map_paragraph (children p) s) l s =
  (fold_left (fun m c => insert_comment c m) (flat_map comments_in l) (fst s), fold_left link_ins (flat_map links_in l) (snd s)).
Proof.
  induction l as [|p l IH]; intros s; cbn [fold_left flat_map]; [now destruct s|].
  now rewrite IH, map_paragraph_spec, !fold_left_app.
Qed.

(** Second phase. *)
Definition ext_entries (m : comment_map) (c : comment) : list comment_ext :=
  flat_map (fun id =>
    match cd_parent (fst c) with
    | None => [{| ce_para := id; ce_done := false; ce_parent := None |}]
    | Some q => match map_get q m with
                | Some pid => [{| ce_para := id; ce_done := false; ce_parent := Some pid |}]
                | None => [] end
    end) (paras_of_comment c).
Lemma push_comment_spec m c s :
  push_comment m c s = {| f_comments := f_comments s ++ repeat c (List.length (paras_of_comment c));
                          f_ext := f_ext s ++ ext_entries m c; f_links := f_links s |}.
Proof.
  unfold push_comment, ext_entries. change (para_ids_of c) with (paras_of_comment c).
  revert s. induction (paras_of_comment c) as [|id l IH]; intros s; cbn [fold_left List.length repeat flat_map].
  - rewrite !app_nil_r. now destruct s.
  - rewrite IH. cbn [f_comments f_ext f_links]. rewrite <- !app_assoc. f_equal.
    destruct (cd_parent (fst c)) as [q|]; [|now rewrite <- app_assoc]. destruct (map_get q m); [now rewrite <- app_assoc|reflexivity].
Qed.
Definition copies (c : comment) : list comment := repeat c (List.length (paras_of_comment c)).
Lemma dep_paragraph_spec m p s :
  dep_paragraph m (children p) s =
  {| f_comments := f_comments s ++ flat_map copies (comments_in p);
     f_ext := f_ext s ++ flat_map (ext_entries m) (comments_in p);
     f_links := fold_left link_ins (links_in p) (f_links s) |}.
Proof.
  unfold dep_paragraph, comments_in, links_in. revert s. induction (children p) as [|c l IH]; intros s; cbn [fold_left flat_map].
  - cbn. rewrite !app_nil_r. now destruct s.
  - rewrite IH, !flat_map_app, !fold_left_app.
    enough (dep_child m s c =
      {| f_comments := f_comments s ++ flat_map copies (match c with NLink _ _ ch => flat_map comment_at ch | _ => comment_at c end);
         f_ext := f_ext s ++ flat_map (ext_entries m) (match c with NLink _ _ ch => flat_map comment_at ch | _ => comment_at c end);
         f_links := fold_left link_ins (link_at c) (f_links s) |}) as ->.
    { cbn [f_comments f_ext f_links]. now rewrite <- !app_assoc. }
    destruct c as [ | | | | | | | | | | | | | | | | | |d lc| | | | | | | | ln h lc| | | | | | | | | | ];
      try (cbn; rewrite !app_nil_r; now destruct s).
    + cbn [dep_child]. rewrite push_comment_spec. cbn [comment_at flat_map link_at fold_left]. now rewrite !app_nil_r.
    + cbn [dep_child].
      replace (insert_link ln (f_links s)) with (fold_left link_ins (link_at (NLink ln h lc)) (f_links s)) by (destruct ln; reflexivity).
      generalize (fold_left link_ins (link_at (NLink ln h lc)) (f_links s)). intros lm.
      enough (H : forall s0, fold_left (fun s1 c => match c with NCommentStart d ch => push_comment m (d, ch) s1 | _ => s1 end) lc s0 =
        {| f_comments := f_comments s0 ++ flat_map copies (flat_map comment_at lc);
           f_ext := f_ext s0 ++ flat_map (ext_entries m) (flat_map comment_at lc); f_links := f_links s0 |}) by now rewrite H.
      clear. induction lc as [|x lc IH]; intros s0; cbn [fold_left flat_map].
      * rewrite !app_nil_r. now destruct s0.
      * rewrite IH, !flat_map_app. destruct x; try (cbn [comment_at flat_map app]; reflexivity).
        rewrite push_comment_spec. cbn [comment_at flat_map f_comments f_ext f_links]. now rewrite !app_nil_r, <- !app_assoc.
Qed.
Lemma dep_phase m l : forall s,
  fold_left (fun s p => dep_paragraph m (children p) s) l s =
  {| f_comments := f_comments s ++ flat_map copies (flat_map comments_in l);
     f_ext := f_ext s ++ flat_map (ext_entries m) (flat_map comments_in l);
     f_links := fold_left link_ins (flat_map links_in l) (f_links s) |}.
Proof.
  induction l as [|p l IH]; intros s; cbn [fold_left flat_map].
  - cbn. rewrite !app_nil_r. now destruct s.
  - rewrite IH, dep_paragraph_spec, !flat_map_app, !fold_left_app. cbn [f_comments f_ext f_links]. now rewrite <- !app_assoc.
Qed.

(** The comment map finds the last paragraph. *)
Lemma insert_comment_rev c m :
  insert_comment c m = rev (map (fun id => (cd_id (fst c), id)) (paras_of_comment c)) ++ m.
Proof.
  unfold insert_comment. change (para_ids_of c) with (paras_of_comment c). revert m.
  induction (paras_of_comment c) as [|x l IH]; intros m; cbn; [reflexivity|]. now rewrite IH, <- app_assoc.
Qed.
Lemma insert_comments_rev l : forall m,
  fold_left (fun m c => insert_comment c m) l m =
  rev (flat_map (fun c => map (fun id => (cd_id (fst c), id)) (paras_of_comment c)) l) ++ m.
Proof.
  induction l as [|c l IH]; intros m; cbn [fold_left flat_map]; [reflexivity|].
  now rewrite IH, insert_comment_rev, rev_app_distr, app_assoc.
Qed.
Lemma map_get_first q m :
  map_get q m = match filter (fun kv => N.eqb q (fst kv)) m with [] => None | kv :: _ => Some (snd kv) end.
Proof. induction m as [|(k, v) m IH]; cbn; [reflexivity|]. destruct (N.eqb q k); [reflexivity|exact IH]. Qed.
Lemma filter_rev {A} (f : A -> bool) l : filter f (rev l) = rev (filter f l).
Proof.
  induction l as [|x l IH]; cbn; [reflexivity|]. rewrite filter_app, IH. cbn. destruct (f x); cbn; [reflexivity|apply app_nil_r].
Qed.
Lemma map_get_last_para l q :
  map_get q (fold_left (fun m c => insert_comment c m) l []) = last_para l q.
Proof.
  rewrite insert_comments_rev, app_nil_r, map_get_first, filter_rev. unfold last_para.
  enough (E : flat_map (fun c : comment => if N.eqb (cd_id (fst c)) q then paras_of_comment c else []) l
     = map snd (filter (fun kv => N.eqb q (fst kv)) (flat_map (fun c : comment => map (fun id => (cd_id (fst c), id)) (paras_of_comment c)) l))).
  { rewrite E, <- map_rev. now destruct (rev _). }
  induction l as [|c l IH]; cbn [flat_map]; [reflexivity|]. rewrite filter_app, map_app, <- IH. f_equal.
  rewrite N.eqb_sym. induction (paras_of_comment c) as [|x r IHr]; cbn; [now destruct (N.eqb _ _)|].
  destruct (N.eqb q (cd_id (fst c))); cbn in *; [now f_equal|exact IHr].
Qed.

(** The link map *)
Lemma put_link_keys k v m : In k (map fst m) -> map fst (put_link k v m) = map fst m.
Proof.
  induction m as [|(a, b) m IH]; cbn; [tauto|]. destruct (k =s a) eqn:E.
  - intros _. apply String.eqb_eq in E. now subst.
  - intros [H|H]; [subst; now rewrite String.eqb_refl in E|]. cbn. now rewrite IH.
Qed.
Lemma put_link_new k v m : ~ In k (map fst m) -> put_link k v m = m ++ [(k, v)].
Proof.
  induction m as [|(a, b) m IH]; cbn; [reflexivity|]. intros H. destruct (k =s a) eqn:E.
  - apply String.eqb_eq in E. subst. tauto.
  - rewrite IH; tauto.
Qed.
Lemma put_link_nodup k v m : NoDup (map fst m) -> NoDup (map fst (put_link k v m)).
Proof.
  intros H. destruct (in_dec string_dec k (map fst m)) as [Hk|Hk].
  - now rewrite put_link_keys.
  - rewrite put_link_new, map_app by assumption. now apply NoDup_snoc.
Qed.
Lemma put_link_in k v m k' v' : NoDup (map fst m) ->
  In (k', v') (put_link k v m) <-> (k' = k /\ v' = v) \/ (k' <> k /\ In (k', v') m).
Proof.
  induction m as [|(a, b) m IH]; cbn [put_link map fst]; intros Hn.
  - cbn. split.
    + intros [E|[]]. injection E as -> ->. tauto.
    + intros [[-> ->]|[_ []]]. now left.
  - inversion Hn as [|x y Ha Hm]; subst. destruct (k =s a) eqn:E.
    + apply String.eqb_eq in E. subst a. cbn. split.
      * intros [H|H]; [injection H as -> ->; tauto|]. right. split; [|tauto]. intros ->. apply Ha. apply (in_map fst) in H. exact H.
      * intros [[-> ->]|[H1 [H2|H2]]]; [tauto| |tauto]. injection H2 as -> ->. tauto.
    + cbn. rewrite IH by assumption. apply String.eqb_neq in E. split.
      * intros [H|[H|H]]; [injection H as -> ->|tauto|tauto]. right. split; [congruence|tauto].
      * tauto.
Qed.
Lemma links_nodup l : forall m, NoDup (map fst m) -> NoDup (map fst (fold_left link_ins l m)).
Proof. induction l as [|(k, v) l IH]; intros m H; cbn; [exact H|]. apply IH. now apply put_link_nodup. Qed.
Lemma links_sound l : forall m, NoDup (map fst m) -> forall kv, In kv (fold_left link_ins l m) -> In kv l \/ In kv m.
Proof.
  induction l as [|(k, v) l IH]; intros m Hm kv H; cbn in *; [tauto|].
  apply IH in H; [|now apply put_link_nodup]. destruct H as [H|H]; [tauto|]. destruct kv as (k', v').
  apply put_link_in in H; [|exact Hm]. destruct H as [[-> ->]|[_ H]]; tauto.
Qed.
Lemma links_keys l : forall m k, In k (map fst (fold_left link_ins l m)) <-> In k (map fst l) \/ In k (map fst m).
Proof.
  induction l as [|(k, v) l IH]; intros m k'; cbn; [tauto|]. rewrite IH. unfold link_ins. cbn.
  destruct (in_dec string_dec k (map fst m)) as [Hk|Hk].
  - rewrite put_link_keys by exact Hk. split; [tauto|]. intros [[->|H]|H]; tauto.
  - rewrite put_link_new, map_app, in_app_iff by exact Hk. cbn. intuition.
Qed.
Lemma links_twice l m : fold_left link_ins l (fold_left link_ins l m) = fold_left link_ins l (fold_left link_ins l m).
Proof. reflexivity. Qed.

(** Exact result. *)
Definition ext_spec (l : list comment) (c : comment) : list comment_ext :=
  flat_map (fun id =>
    match cd_parent (fst c) with
    | None => [{| ce_para := id; ce_done := false; ce_parent := None |}]
    | Some q => match last_para l q with
                | Some pid => [{| ce_para := id; ce_done := false; ce_parent := Some pid |}]
                | None => [] end
    end) (paras_of_comment c).
Lemma map_empty_iff l : fold_left (fun m c => insert_comment c m) l [] = [] <-> flat_map paras_of_comment l = [].
Proof.
  rewrite insert_comments_rev, app_nil_r. split; intros H.
  - apply (f_equal (@rev _)) in H. rewrite rev_involutive in H. cbn in H.
    induction l as [|c l IH]; cbn in *; [reflexivity|]. apply app_eq_nil in H as [H1 H2]. rewrite (IH H2), app_nil_r. now destruct (paras_of_comment c).
  - induction l as [|c l IH]; cbn in *; [reflexivity|]. apply app_eq_nil in H as [H1 H2]. rewrite H1. cbn. now apply IH.
Qed.
Lemma copies_nil l : flat_map copies l = [] <-> flat_map paras_of_comment l = [].
Proof.
  induction l as [|c l IH]; cbn; [tauto|]. unfold copies at 1. split; intros H; apply app_eq_nil in H as [H1 H2]; apply IH in H2; rewrite H2, app_nil_r.
  - now destruct (paras_of_comment c).
  - now rewrite H1.
Qed.
Lemma collected_exactly body old :
  dp_comments (update_dependencies body old) =
    (if match flat_map paras_of_comment (seen_comments body) with [] => true | _ => false end then dp_comments old
     else flat_map copies (seen_comments body)) /\
  dp_ext (update_dependencies body old) =
    (if match flat_map paras_of_comment (seen_comments body) with [] => true | _ => false end then dp_ext old
     else flat_map (ext_spec (seen_comments body)) (seen_comments body)) /\
  dp_has_comments (update_dependencies body old) =
    (if match flat_map paras_of_comment (seen_comments body) with [] => true | _ => false end then dp_has_comments old else true) /\
  exists links, dp_links (update_dependencies body old) = dp_links old ++ external links /\
    NoDup (map fst links) /\ incl links (seen_links body) /\ (forall k, In k (map fst (seen_links body)) -> In k (map fst links)).
Proof.
  unfold update_dependencies. rewrite walk_body_paras, map_phase. cbn [fst snd].
  fold (seen_comments body) (seen_links body).
  destruct (fold_left (fun m c => insert_comment c m) (seen_comments body) []) as [|kv m] eqn:Em.
  - assert (flat_map paras_of_comment (seen_comments body) = []) as -> by (apply map_empty_iff; exact Em). cbn.
    repeat split. exists (fold_left link_ins (seen_links body) []). split; [reflexivity|]. split; [apply links_nodup; constructor|]. split.
    + intros kv H. apply links_sound in H; [|constructor]. destruct H as [H|[]]. exact H.
    + intros k H. apply links_keys. tauto.
  - destruct (flat_map paras_of_comment (seen_comments body)) eqn:Ep.
    { apply map_empty_iff in Ep. congruence. }
    rewrite walk_body_paras, dep_phase. cbn [f_comments f_ext f_links dp_comments dp_ext dp_has_comments dp_links app].
    fold (seen_comments body) (seen_links body). repeat split.
    + rewrite <- Em. unfold ext_spec, ext_entries. apply flat_map_in_ext, Forall_forall. intros c _.
      apply flat_map_in_ext, Forall_forall. intros id _. destruct (cd_parent (fst c)); [|reflexivity]. now rewrite map_get_last_para.
    + destruct (flat_map copies (seen_comments body)) eqn:Ec; [|reflexivity]. apply copies_nil in Ec. congruence.
    + exists (fold_left link_ins (seen_links body) (fold_left link_ins (seen_links body) [])).
      split; [reflexivity|]. split; [apply links_nodup, links_nodup; constructor|]. split.
      * intros x H. apply links_sound in H; [|apply links_nodup; constructor]. destruct H as [H|H]; [exact H|].
        apply links_sound in H; [|constructor]. destruct H as [H|[]]. exact H.
      * intros k H. apply links_keys. tauto.
Qed.

(** Nothing is missed where nothing is hidden. *)
Lemma well_formed_local n : well_formed n -> local_ok n = true.
Proof. unfold well_formed. intros H. destruct n; cbn [all_nodes] in H; now inversion H. Qed.
Lemma all_nodes_split n : exists l, all_nodes n = n :: l /\ (forall m, In m (children n) -> incl (all_nodes m) l).
Proof.
  destruct n; cbn [all_nodes children]; eexists; (split; [reflexivity|]); intros m Hm x Hx;
    try contradiction; try (apply in_flat_map; eauto; fail);
    apply in_app_or in Hm as [Hm|Hm]; apply in_or_app; [left|right|left|right]; apply in_flat_map; eauto.
Qed.
Lemma well_formed_child n m : well_formed n -> In m (children n) -> well_formed m.
Proof.
  unfold well_formed. intros H Hm. destruct (all_nodes_split n) as (l & E & Hl). rewrite E in H. inversion H; subst.
  rewrite Forall_forall in *. intros x Hx. apply H3. now apply (Hl m Hm).
Qed.
Lemma all_of_children {X} (at_ : node -> list X) n :
  all_of at_ [n] = at_ n ++ all_of at_ (children n).
Proof.
  unfold all_of. cbn [flat_map]. rewrite app_nil_r.
  assert (all_nodes n = n :: flat_map all_nodes (children n)) as ->.
  { destruct n; cbn [all_nodes children flat_map]; rewrite ?flat_map_app; reflexivity. }
  reflexivity.
Qed.
Lemma all_of_flat {X} (at_ : node -> list X) l : all_of at_ l = flat_map (fun n => all_of at_ [n]) l.
Proof.
  unfold all_of. induction l as [|x l IH]; cbn [flat_map]; [reflexivity|]. now rewrite flat_map_app, IH, app_nil_r.
Qed.
Lemma flat_map_nil {A B} (f : A -> list B) l : flat_map f l = [] <-> Forall (fun x => f x = []) l.
Proof.
  induction l as [|x l IH]; cbn; [split; [constructor|reflexivity]|]. split; intros H.
  - apply app_eq_nil in H as [H1 H2]. constructor; [exact H1|now apply IH].
  - inversion H; subst. rewrite H2. cbn. now apply IH.
Qed.

(** [g] collects, from a paragraph, no more than is in it. *)
Lemma paras_below_incl n p : In p (paras_below n) -> In p (all_nodes n).
Proof.
  revert p. induction n as [n IH] using node_tree_ind. intros p Hp. rewrite Forall_forall in IH.
  destruct (all_nodes_split n) as (l & E & Hl). rewrite E.
  destruct n; cbn [paras_below children] in *; try contradiction;
    try (destruct Hp as [<-|[]]; now left);
    try (right; apply in_flat_map in Hp as (m & Hm & Hp); apply (Hl m Hm); now apply IH).
  - right. apply in_flat_map in Hp as (m & Hm & Hp). destruct (block m); [|contradiction]. apply (Hl m Hm). now apply IH.
  - right. apply in_app_or in Hp as [Hp|Hp]; apply in_flat_map in Hp as (m & Hm & Hp); (destruct (block m); [|contradiction]);
      (apply (Hl m); [apply in_or_app; tauto|]); (apply IH; [apply in_or_app; tauto|exact Hp]).
Qed.
Lemma all_of_trans {X} (at_ : node -> list X) n m : In m (all_nodes n) -> all_of at_ [n] = [] -> all_of at_ [m] = [].
Proof.
  revert m. induction n as [n IH] using node_tree_ind. rewrite Forall_forall in IH. intros m Hm H.
  assert (E : all_nodes n = n :: flat_map all_nodes (children n)).
  { destruct n; cbn [all_nodes children flat_map]; rewrite ?flat_map_app; reflexivity. }
  rewrite E in Hm. destruct Hm as [<-|Hm]; [exact H|]. apply in_flat_map in Hm as (c & Hc & Hm).
  apply (IH c Hc m Hm). rewrite all_of_children in H. apply app_eq_nil in H as [_ H].
  rewrite all_of_flat in H. rewrite flat_map_nil, Forall_forall in H. now apply H.
Qed.

Section Complete.
  Context {X : Type} (at_ : node -> list X) (get : node -> list X).
  (** [ok n]: local condition at every node; [get] reads a paragraph. *)
  Variable ok : node -> Prop.
  Hypothesis at_blocks : forall n, block n = true \/ is_row n = true \/ is_cell n = true \/ (exists d b a, n = NToc d b a) \/ (exists p nb c, n = NSdt p nb c) -> at_ n = [].
  Hypothesis get_para : forall i p nb ch, well_formed (NPara i p nb ch) -> Forall ok (all_nodes (NPara i p nb ch)) ->
    get (NPara i p nb ch) = all_of at_ ch.
  Hypothesis ok_sdt : forall p nb ch, ok (NSdt p nb ch) -> all_of at_ ch = [].
  Hypothesis get_incl : forall p, all_of at_ [p] = [] -> get p = [].
  Lemma complete_below n : (block n || is_row n || is_cell n || match n with NToc _ _ _ | NSdt _ _ _ => true | _ => false end) = true ->
    well_formed n -> Forall ok (all_nodes n) -> flat_map get (paras_below n) = all_of at_ [n].
  Proof.
    induction n as [n IH] using node_tree_ind. rewrite Forall_forall in IH. intros Hk Hw Hok.
    assert (Hch : forall m, In m (children n) -> Forall ok (all_nodes m)).
    { intros m Hm. destruct (all_nodes_split n) as (l & E & Hl). rewrite E in Hok. inversion Hok; subst.
      rewrite Forall_forall in *. intros x Hx. apply H2. now apply (Hl m Hm). }
    assert (Hwc : forall m, In m (children n) -> well_formed m) by (intros m; now apply well_formed_child).
    pose proof (well_formed_local n Hw) as Hl.
    destruct n as [ | | | | | | | | | | | | | | | | | | | | | | | | | | |sp snb sch| | |pi pp pnb pch|tp tg tnb rows|rp rnb cells|cp cnb cch|td tb ta|qp qparts qnb qch| ];
      try discriminate Hk; rewrite all_of_children, at_blocks by (cbn; eauto 8); cbn [app].
    - (* sdt *) inversion Hok; subst. cbn [children]. rewrite (ok_sdt _ _ _ H1). apply flat_map_nil, Forall_forall. intros p Hp.
      apply get_incl. apply paras_below_incl in Hp. apply (all_of_trans at_ _ p Hp).
      rewrite all_of_children, at_blocks by (cbn; eauto 8). cbn. now apply (ok_sdt sp snb sch).
    - cbn [paras_below flat_map children]. rewrite app_nil_r. now apply get_para.
    - cbn [paras_below]. rewrite flat_map_flat_map, all_of_flat. apply flat_map_in_ext, Forall_forall. intros m Hm.
      cbn [local_ok] in Hl. rewrite forallb_forall in Hl. apply (IH m Hm); [|now apply Hwc|now apply Hch]. rewrite (Hl m Hm). now rewrite orb_true_r.
    - cbn [paras_below]. rewrite flat_map_flat_map, all_of_flat. apply flat_map_in_ext, Forall_forall. intros m Hm.
      cbn [local_ok] in Hl. rewrite forallb_forall in Hl. apply (IH m Hm); [|now apply Hwc|now apply Hch]. rewrite (Hl m Hm). now rewrite orb_true_r.
    - cbn [paras_below]. rewrite flat_map_flat_map, all_of_flat. apply flat_map_in_ext, Forall_forall. intros m Hm.
      cbn [local_ok] in Hl. rewrite forallb_forall in Hl. apply (IH m Hm); [|now apply Hwc|now apply Hch].
      specialize (Hl m Hm). destruct m; try discriminate Hl; reflexivity.
    - cbn [local_ok] in Hl. apply andb_prop in Hl as [Hb Ha]. rewrite forallb_forall in Hb, Ha.
      cbn [paras_below children]. rewrite flat_map_app, all_of_flat, flat_map_app, !flat_map_flat_map. f_equal.
      + apply flat_map_in_ext, Forall_forall. intros m Hm. change (plain_block m) with (block m) in *.
        assert (Em : block m = true) by (specialize (Hb m Hm); destruct m; try discriminate Hb; reflexivity). rewrite Em.
        apply IH; [apply in_or_app; tauto|now rewrite Em|apply Hwc; apply in_or_app; tauto|apply Hch; apply in_or_app; tauto].
      + apply flat_map_in_ext, Forall_forall. intros m Hm.
        assert (Em : block m = true) by (specialize (Ha m Hm); destruct m; try discriminate Ha; reflexivity). rewrite Em.
        apply IH; [apply in_or_app; tauto|now rewrite Em|apply Hwc; apply in_or_app; tauto|apply Hch; apply in_or_app; tauto].
  Qed.
  (** [hid n]: direct children of the body that are skipped hold nothing. *)
  Hypothesis ok_skipped : forall n, doc_child n = true -> top_walks n = false -> at_ n = [] -> ok n -> all_of at_ [n] = [].
  Lemma complete_body body : forallb doc_child body = true -> Forall well_formed body ->
    Forall (fun n => at_ n = []) body -> Forall ok (flat_map all_nodes body) ->
    flat_map get (seen_paras body) = all_of at_ body.
  Proof.
    intros Hd Hw Ha Hok. unfold seen_paras. rewrite flat_map_flat_map, all_of_flat.
    apply flat_map_in_ext, Forall_forall. intros n Hn. rewrite forallb_forall in Hd. rewrite Forall_forall in Hw, Ha, Hok.
    assert (Hokn : Forall ok (all_nodes n)) by (apply Forall_forall; intros x Hx; apply Hok; apply in_flat_map; eauto).
    assert (Hs : top_walks n = false -> all_of at_ [n] = []).
    { intros Ht. apply ok_skipped; auto. destruct (all_nodes_split n) as (l & E & _). rewrite E in Hokn. now inversion Hokn. }
    specialize (Hd n Hn). specialize (Hw n Hn).
    destruct n; cbn in Hd; try discriminate Hd;
      try (rewrite Hs by reflexivity; reflexivity); apply complete_below; auto.
  Qed.
End Complete.

Definition comment_ok (n : node) : Prop :=
  match n with
  | NLink _ _ ch => Forall (none_below comment_at) ch
  | _ => transparent n = true \/ none_below comment_at n
  end.
Definition link_ok (n : node) : Prop := transparent n = true \/ none_below link_at n.

Lemma comments_in_incl p : all_of comment_at [p] = [] -> comments_in p = [].
Proof.
  rewrite all_of_children. intros H. apply app_eq_nil in H as [_ H]. unfold comments_in.
  rewrite all_of_flat, flat_map_nil in H. apply flat_map_nil. eapply Forall_impl; [|exact H]. intros c Hc.
  cbv beta in Hc. rewrite all_of_children in Hc. apply app_eq_nil in Hc as [H1 H2].
  destruct c; try exact H1. cbn [children] in H2. rewrite all_of_flat, flat_map_nil in H2. apply flat_map_nil.
  eapply Forall_impl; [|exact H2]. intros x Hx. cbv beta in Hx. rewrite all_of_children in Hx. now apply app_eq_nil in Hx.
Qed.
Lemma links_in_incl p : all_of link_at [p] = [] -> links_in p = [].
Proof.
  rewrite all_of_children. intros H. apply app_eq_nil in H as [_ H]. unfold links_in.
  rewrite all_of_flat, flat_map_nil in H. apply flat_map_nil. eapply Forall_impl; [|exact H]. intros c Hc.
  cbv beta in Hc. rewrite all_of_children in Hc. now apply app_eq_nil in Hc.
Qed.
Lemma ok_child (ok : node -> Prop) n : Forall ok (all_nodes n) -> forall c, In c (children n) -> ok c.
Proof.
  intros H c Hc. destruct (all_nodes_split n) as (l & E & Hl). rewrite E in H. inversion H; subst.
  rewrite Forall_forall in H3. apply H3. apply (Hl c Hc). destruct (all_nodes_split c) as (l' & E' & _). rewrite E'. now left.
Qed.

Lemma seen_comments_all body : forallb doc_child body = true -> Forall well_formed body -> comments_plain body ->
  seen_comments body = all_of comment_at body.
Proof.
  intros Hd Hw [Ha Hok]. apply (complete_body comment_at comments_in comment_ok); auto.
  - intros n [H|[H|[H|[(? & ? & ? & ->)|(? & ? & ? & ->)]]]]; try reflexivity; destruct n; try discriminate H; reflexivity.
  - intros i p nb ch Hwf Hall. unfold comments_in. cbn [children]. rewrite all_of_flat. apply flat_map_in_ext, Forall_forall.
    intros c Hc. rewrite all_of_children. pose proof (ok_child _ _ Hall c Hc) as Hcok.
    pose proof (well_formed_local _ Hwf) as Hl. cbn [local_ok] in Hl. rewrite forallb_forall in Hl. specialize (Hl c Hc).
    destruct c; try discriminate Hl; cbn [comment_ok transparent] in Hcok;
      try (destruct Hcok as [Hc0|Hc0]; [discriminate Hc0|unfold none_below in Hc0; rewrite Hc0, app_nil_r; reflexivity]).
    cbn [comment_at app children]. rewrite all_of_flat. apply flat_map_in_ext. eapply Forall_impl; [|exact Hcok].
    intros x Hx. rewrite all_of_children. unfold none_below in Hx. now rewrite Hx, app_nil_r.
  - intros p nb ch [H|H]; [discriminate H|exact H].
  - apply comments_in_incl.
  - intros n H1 H2 H3 H4. rewrite all_of_children, H3. cbn [app].
    destruct n; try discriminate H1; try discriminate H2; destruct H4 as [H4|H4]; try discriminate H4; exact H4.
Qed.
Lemma seen_links_all body : forallb doc_child body = true -> Forall well_formed body -> links_plain body ->
  seen_links body = all_of link_at body.
Proof.
  intros Hd Hw Hok. apply (complete_body link_at links_in link_ok); auto.
  - intros n [H|[H|[H|[(? & ? & ? & ->)|(? & ? & ? & ->)]]]]; try reflexivity; destruct n; try discriminate H; reflexivity.
  - intros i p nb ch Hwf Hall. unfold links_in. cbn [children]. rewrite all_of_flat. apply flat_map_in_ext, Forall_forall.
    intros c Hc. rewrite all_of_children. pose proof (ok_child _ _ Hall c Hc) as Hcok.
    pose proof (well_formed_local _ Hwf) as Hl. cbn [local_ok] in Hl. rewrite forallb_forall in Hl. specialize (Hl c Hc).
    destruct c; try discriminate Hl;
      (destruct Hcok as [Hcok|Hcok]; [discriminate Hcok|unfold none_below in Hcok; rewrite Hcok, app_nil_r; reflexivity]).
  - intros p nb ch [H|H]; [discriminate H|exact H].
  - apply links_in_incl.
  - intros n H1 H2 H3 H4. rewrite all_of_children, H3. cbn [app].
    destruct n; try discriminate H1; try discriminate H2; destruct H4 as [H4|H4]; try discriminate H4; exact H4.
  - rewrite forallb_forall in Hd. apply Forall_forall. intros n Hn. specialize (Hd n Hn). now destruct n.
Qed.

(** ** Comments with one paragraph each *)
Lemma single_paras c : single c -> paras_of_comment c = [para_id c].
Proof. intros (id & p & nb & ch & E). unfold para_id, paras_of_comment. now rewrite E. Qed.
Lemma copies_single l : Forall single l -> flat_map copies l = l.
Proof.
  induction 1 as [|c l H _ IH]; cbn; [reflexivity|]. unfold copies at 1. rewrite single_paras by exact H. cbn. now rewrite IH.
Qed.
Lemma single_nonempty l : Forall single l -> flat_map paras_of_comment l = map para_id l.
Proof. induction 1 as [|c l H _ IH]; cbn; [reflexivity|]. now rewrite single_paras, IH by exact H. Qed.

Lemma last_para_single l c : Forall single l -> NoDup (comment_ids l) -> In c l -> last_para l (cd_id (fst c)) = Some (para_id c).
Proof.
  intros Hs Hn Hc. unfold last_para.
  enough (flat_map (fun x : comment => if N.eqb (cd_id (fst x)) (cd_id (fst c)) then paras_of_comment x else []) l = [para_id c]) as -> by reflexivity.
  apply in_split in Hc as (l1 & l2 & ->). apply Forall_app in Hs as [_ Hs]. inversion Hs; subst.
  unfold comment_ids in Hn. rewrite map_app in Hn. cbn in Hn. apply NoDup_remove_2 in Hn. rewrite in_app_iff in Hn.
  rewrite flat_map_app. cbn [flat_map]. rewrite N.eqb_refl, single_paras by assumption.
  assert (forall r : list comment, ~ In (cd_id (fst c)) (map (fun c => cd_id (fst c)) r) ->
    flat_map (fun x : comment => if N.eqb (cd_id (fst x)) (cd_id (fst c)) then paras_of_comment x else []) r = []) as Hr.
  { intros r Hr. apply flat_map_nil, Forall_forall. intros x Hx. destruct (N.eqb_spec (cd_id (fst x)) (cd_id (fst c))) as [E|]; [|reflexivity].
    exfalso. apply Hr. rewrite <- E. apply (in_map (fun c : comment => cd_id (fst c))). exact Hx. }
  rewrite !Hr by tauto. reflexivity.
Qed.
Lemma last_para_none l q : ~ In q (comment_ids l) -> last_para l q = None.
Proof.
  intros H. unfold last_para.
  enough (flat_map (fun x : comment => if N.eqb (cd_id (fst x)) q then paras_of_comment x else []) l = []) as -> by reflexivity.
  apply flat_map_nil, Forall_forall. intros x Hx. destruct (N.eqb_spec (cd_id (fst x)) q) as [E|]; [|reflexivity].
  exfalso. apply H. rewrite <- E. apply (in_map (fun c : comment => cd_id (fst c))). exact Hx.
Qed.

Lemma comments_collected body old : Forall single (seen_comments body) -> seen_comments body <> [] ->
  dp_comments (update_dependencies body old) = seen_comments body /\
  dp_has_comments (update_dependencies body old) = true /\
  dp_ext (update_dependencies body old) = flat_map (ext_spec (seen_comments body)) (seen_comments body).
Proof.
  intros Hs Hne. destruct (collected_exactly body old) as (H1 & H2 & H3 & _).
  rewrite single_nonempty in * by exact Hs.
  destruct (map para_id (seen_comments body)) eqn:E.
  - apply map_eq_nil in E. contradiction.
  - rewrite H1, H2, H3, copies_single by exact Hs. auto.
Qed.
Lemma ext_single l c : Forall single l -> NoDup (comment_ids l) -> In c l ->
  (cd_parent (fst c) = None -> ext_spec l c = [{| ce_para := para_id c; ce_done := false; ce_parent := None |}]) /\
  (forall p, In p l -> cd_parent (fst c) = Some (cd_id (fst p)) ->
     ext_spec l c = [{| ce_para := para_id c; ce_done := false; ce_parent := Some (para_id p) |}]) /\
  (forall q, cd_parent (fst c) = Some q -> ~ In q (comment_ids l) -> ext_spec l c = []).
Proof.
  intros Hs Hn Hc. assert (Hsc : single c) by (rewrite Forall_forall in Hs; auto).
  unfold ext_spec. rewrite single_paras by exact Hsc. cbn [flat_map]. rewrite !app_nil_r. repeat split.
  - now intros ->.
  - intros p Hp ->. now rewrite last_para_single.
  - intros q -> Hq. now rewrite last_para_none.
Qed.

(** ** Threads *)
Lemma last_such_app {A B} (f : A -> option B) l m :
  last_such f (l ++ m) = match last_such f m with Some y => Some y | None => last_such f l end.
Proof. induction l as [|x l IH]; cbn; [now destruct (last_such f m)|]. rewrite IH. now destruct (last_such f m). Qed.
Lemma last_such_none {A B} (f : A -> option B) l : Forall (fun x => f x = None) l -> last_such f l = None.
Proof. induction 1 as [|x l H _ IH]; cbn; [reflexivity|]. now rewrite IH. Qed.
Lemma last_such_in {A B} (f : A -> option B) l y : last_such f l = Some y -> exists x, In x l /\ f x = Some y.
Proof.
  induction l as [|x l IH]; cbn; [discriminate|]. destruct (last_such f l) as [z|].
  - intros E. destruct (IH E) as (a & H1 & H2). eauto.
  - intros E. eauto.
Qed.

Definition keyed (l : list comment) : list (N * string) :=
  flat_map (fun c => map (fun id => (cd_id (fst c), id)) (para_ids_of c)) l.
Lemma keyed_snd l : map snd (keyed l) = flat_map paras_of_comment l.
Proof.
  unfold keyed. rewrite map_flat_map. apply flat_map_in_ext, Forall_forall. intros c _. rewrite map_map. cbn. apply map_id.
Qed.
Lemma comment_of_para_iff l pid q : NoDup (flat_map paras_of_comment l) ->
  comment_of_para l pid = Some q <-> exists c, In c l /\ In pid (paras_of_comment c) /\ cd_id (fst c) = q.
Proof.
  intros Hn. unfold comment_of_para. fold (keyed l). split.
  - intros H. apply last_such_in in H as ((k, p) & Hin & E). cbn in E.
    destruct (p =s pid) eqn:Ep; [|discriminate]. apply String.eqb_eq in Ep. injection E as <-. subst p.
    unfold keyed in Hin. apply in_flat_map in Hin as (c & Hc & Hin). apply in_map_iff in Hin as (x & E & Hx). injection E as <- <-. eauto.
  - intros (c & Hc & Hp & <-).
    assert (Hin : In (cd_id (fst c), pid) (keyed l)).
    { unfold keyed. apply in_flat_map. exists c. split; [exact Hc|]. apply in_map_iff. exists pid. auto. }
    rewrite <- keyed_snd in Hn. apply in_split in Hin as (a & b & E). rewrite E in *.
    rewrite map_app in Hn. cbn in Hn. apply NoDup_remove_2 in Hn. rewrite last_such_app. cbn [last_such snd fst].
    rewrite last_such_none. { now rewrite String.eqb_refl. }
    apply Forall_forall. intros (k, p) Hkp. cbn. destruct (p =s pid) eqn:Ep; [|reflexivity]. apply String.eqb_eq in Ep. subst.
    exfalso. apply Hn. apply in_or_app. right. apply (in_map snd) in Hkp. exact Hkp.
Qed.
Lemma parent_of_para_iff ext pid q : NoDup (map ce_para ext) ->
  parent_of_para ext pid = Some q <-> exists e, In e ext /\ ce_para e = pid /\ ce_parent e = Some q.
Proof.
  intros Hn. unfold parent_of_para. split.
  - intros H. apply last_such_in in H as (e & Hin & E). destruct (ce_para e =s pid) eqn:Ep; [|discriminate].
    apply String.eqb_eq in Ep. eauto.
  - intros (e & He & <- & E). apply in_split in He as (a & b & ->). rewrite map_app in Hn. cbn in Hn. apply NoDup_remove_2 in Hn.
    rewrite last_such_app. cbn [last_such]. rewrite last_such_none. { now rewrite String.eqb_refl, E. }
    apply Forall_forall. intros x Hx. destruct (ce_para x =s ce_para e) eqn:Ep; [|reflexivity]. apply String.eqb_eq in Ep.
    exfalso. apply Hn. apply in_or_app. right. rewrite <- Ep. now apply in_map.
Qed.

Definition marks_of (ext : list comment_ext) : list (string * option string) := map (fun e => (ce_para e, ce_parent e)) ext.
Lemma first_some_in {A B} (f : A -> option B) l y : first_some f l = Some y -> exists x, In x l /\ f x = Some y.
Proof. induction l as [|x l IH]; cbn; [discriminate|]. destruct (f x) eqn:E; intros H; [injection H as <-; eauto|]. destruct (IH H) as (a & ? & ?); eauto. Qed.
Lemma first_some_none {A B} (f : A -> option B) l : first_some f l = None -> forall x, In x l -> f x = None.
Proof. induction l as [|x l IH]; cbn; intros H y []; destruct (f x) eqn:E; try discriminate; subst; auto. Qed.

Lemma thread_one ext l c : NoDup (flat_map paras_of_comment l) -> NoDup (map ce_para ext) ->
  let r := first_some (fun pid => match parent_of_para ext pid with Some q => comment_of_para l q | None => None end) (para_ids_of c) in
  match r with
  | Some q => replies_to (marks_of ext) l c q
  | None => forall q, ~ replies_to (marks_of ext) l c q
  end.
Proof.
  intros Hn He r. destruct r as [q|] eqn:E; unfold r in E.
  - apply first_some_in in E as (pid & Hp & E). destruct (parent_of_para ext pid) as [x|] eqn:Ex; [|discriminate].
    apply comment_of_para_iff in E as (p & H1 & H2 & H3); [|exact Hn].
    apply parent_of_para_iff in Ex as (e & H4 & H5 & H6); [|exact He].
    exists pid, x, p. repeat split; auto. unfold marks_of. apply in_map_iff. exists e. now rewrite H5, H6.
  - intros q (pid & x & p & H1 & H2 & H3 & H4 & H5). apply in_map_iff in H2 as (e & H6 & H7). injection H6 as H6 H8.
    pose proof (first_some_none _ _ E pid H1) as Hno. cbv beta in Hno.
    rewrite (proj2 (parent_of_para_iff ext pid x He)) in Hno by eauto.
    rewrite (proj2 (comment_of_para_iff l x q Hn)) in Hno by eauto. discriminate.
Qed.
Lemma threads_read ext l : ext <> [] -> NoDup (flat_map paras_of_comment l) -> NoDup (map ce_para ext) ->
  Forall2 (fun c c' => apart_from_parent c' = apart_from_parent c /\
     match cd_parent (fst c') with
     | Some q => replies_to (marks_of ext) l c q
     | None => forall q, ~ replies_to (marks_of ext) l c q
     end) l (thread_comments ext l).
Proof.
  intros Hne Hn He. unfold thread_comments. destruct ext as [|e0 ext0] eqn:Ext; [contradiction|]. rewrite <- Ext in *.
  assert (H : forall m, Forall2 (fun c c' => apart_from_parent c' = apart_from_parent c /\
     match cd_parent (fst c') with
     | Some q => replies_to (marks_of ext) l c q
     | None => forall q, ~ replies_to (marks_of ext) l c q
     end) m (map (fun c => set_parent
                (first_some (fun pid => match parent_of_para ext pid with
                                        | Some q => comment_of_para l q
                                        | None => None
                                        end) (para_ids_of c)) c) m)); [|apply H].
  induction m as [|c m IH]; cbn [map]; constructor; [|exact IH]. split; [reflexivity|]. cbn [set_parent fst cd_parent].
  apply (thread_one ext l c Hn He).
Qed.

Lemma first_some_single {B} (f : string -> option B) c : single c -> first_some f (para_ids_of c) = f (para_id c).
Proof. intros H. change (para_ids_of c) with (paras_of_comment c). rewrite single_paras by exact H. cbn. now destruct (f (para_id c)). Qed.

Lemma replies_unique ext l c q q' : Forall single l -> single c -> NoDup (flat_map paras_of_comment l) -> NoDup (map ce_para ext) ->
  replies_to (marks_of ext) l c q -> replies_to (marks_of ext) l c q' -> q = q'.
Proof.
  intros Hs Hc Hn He (pid & x & p & H1 & H2 & H3 & H4 & H5) (pid' & x' & p' & H1' & H2' & H3' & H4' & H5').
  rewrite single_paras in H1, H1' by exact Hc. destruct H1 as [<-|[]]. destruct H1' as [<-|[]].
  unfold marks_of in *. apply in_map_iff in H2 as (e & E & Hin). injection E as E1 E2.
  apply in_map_iff in H2' as (e' & E' & Hin'). injection E' as E1' E2'.
  assert (Hx : Some x = Some x').
  { rewrite <- (proj2 (parent_of_para_iff ext (para_id c) x He)) by eauto.
    apply (parent_of_para_iff ext (para_id c) x' He). eauto. }
  injection Hx as <-.
  assert (Hq : Some q = Some q').
  { rewrite <- (proj2 (comment_of_para_iff l x q Hn)) by eauto. apply (comment_of_para_iff l x q' Hn). eauto. }
  now injection Hq.
Qed.

(** The two readers agree. *)
Lemma find_ext_single ext c : single c -> NoDup (map ce_para ext) ->
  match find (fun e => existsb (fun id => ce_para e =s id) (para_ids_of c)) ext with
  | Some e => ce_parent e | None => None end = parent_of_para ext (para_id c).
Proof.
  intros Hs Hn. change (para_ids_of c) with (paras_of_comment c). rewrite single_paras by exact Hs. cbn [existsb].
  induction ext as [|e ext IH]; cbn [find]; [reflexivity|]. cbn in Hn. inversion Hn; subst. rewrite orb_false_r.
  unfold parent_of_para. cbn [last_such]. fold (parent_of_para ext (para_id c)). destruct (ce_para e =s para_id c) eqn:E.
  - apply String.eqb_eq in E. unfold parent_of_para. rewrite last_such_none; [reflexivity|].
    apply Forall_forall. intros x Hx. destruct (ce_para x =s para_id c) eqn:Ex; [|reflexivity]. apply String.eqb_eq in Ex.
    exfalso. apply H1. rewrite E, <- Ex. now apply in_map.
  - rewrite (IH H2). now destruct (parent_of_para ext (para_id c)).
Qed.
Lemma find_comment_single l q : Forall single l -> NoDup (flat_map paras_of_comment l) ->
  option_map (fun p => cd_id (fst p)) (find (fun c => existsb (fun id => id =s q) (para_ids_of c)) l) = comment_of_para l q.
Proof.
  intros Hs Hn. induction l as [|c l IH]; cbn [find]; [reflexivity|]. inversion Hs; subst.
  cbn [flat_map] in Hn. change (para_ids_of c) with (paras_of_comment c). rewrite single_paras in * by assumption. cbn [existsb app] in *.
  inversion Hn; subst. rewrite orb_false_r. unfold comment_of_para. cbn [flat_map].
  change (para_ids_of c) with (paras_of_comment c). rewrite single_paras by assumption. cbn [map app last_such snd fst].
  fold (comment_of_para l q). destruct (para_id c =s q) eqn:E.
  - apply String.eqb_eq in E. destruct (comment_of_para l q) eqn:Eq; [|reflexivity].
    apply comment_of_para_iff in Eq as (c' & H5 & H6 & H7); [|assumption]. exfalso. apply H3. rewrite E. apply in_flat_map. eauto.
  - rewrite IH by assumption. now destruct (comment_of_para l q).
Qed.
Lemma flat_threads_agree ext l : Forall single l -> NoDup (flat_map paras_of_comment l) -> NoDup (map ce_para ext) ->
  Forall (fun c => cd_parent (fst c) = None) l -> thread_flat ext l = thread_comments ext l.
Proof.
  intros Hs Hn He Hp.
  assert (Hset : forall c : comment, cd_parent (fst c) = None -> set_parent None c = c).
  { intros ([i a d q], ch) H. cbn in H. unfold set_parent. cbn. now rewrite H. }
  unfold thread_comments. destruct ext as [|e0 ext0] eqn:Ext.
  - unfold thread_flat. cbn [find]. apply map_id.
  - rewrite <- Ext in *. unfold thread_flat. apply map_ext_in. intros c Hc.
    rewrite Forall_forall in Hp. specialize (Hp c Hc). assert (Hsc : single c) by (rewrite Forall_forall in Hs; auto).
    rewrite first_some_single by exact Hsc. rewrite <- (find_ext_single ext c Hsc He).
    destruct (find _ ext) as [[cp cdn [q|]]|]; cbn [ce_parent]; [|symmetry; now apply Hset|symmetry; now apply Hset].
    rewrite <- (find_comment_single l q Hs Hn). destruct (find _ l) as [p|]; cbn; [reflexivity|symmetry; now apply Hset].
Qed.

(** Writing threads and reading them back. *)
Definition forget_parent (c : comment) : comment := set_parent None c.
Lemma para_id_set p c : para_id (set_parent p c) = para_id c.
Proof. reflexivity. Qed.
Lemma paras_set p c : paras_of_comment (set_parent p c) = paras_of_comment c.
Proof. reflexivity. Qed.
Lemma ext_written l : Forall single l -> NoDup (comment_ids l) ->
  Forall (fun c => match cd_parent (fst c) with None => True | Some q => In q (comment_ids l) end) l ->
  forall m, incl m l -> exists f, flat_map (ext_spec l) m =
    map (fun c => {| ce_para := para_id c; ce_done := false; ce_parent := f c |}) m /\
    Forall (fun c => match cd_parent (fst c) with
                     | None => f c = None
                     | Some q => exists p, In p l /\ cd_id (fst p) = q /\ f c = Some (para_id p) end) m.
Proof.
  intros Hs Hn Hp m Hm.
  exists (fun c => match cd_parent (fst c) with None => None | Some q => last_para l q end).
  induction m as [|c m IH]; cbn [flat_map map]; [split; [reflexivity|constructor]|].
  destruct IH as [IH1 IH2]; [intros x Hx; apply Hm; now right|].
  assert (Hc : In c l) by (apply Hm; now left). rewrite Forall_forall in Hp. specialize (Hp c Hc).
  destruct (ext_single l c Hs Hn Hc) as (E1 & E2 & _). rewrite IH1. destruct (cd_parent (fst c)) as [q|] eqn:Eq.
  - unfold comment_ids in Hp. apply in_map_iff in Hp as (p & <- & Hpl). rewrite (E2 p Hpl eq_refl).
    rewrite (last_para_single l p Hs Hn Hpl). split; [reflexivity|]. constructor; [|exact IH2]. rewrite Eq. eauto using last_para_single.
  - rewrite (E1 eq_refl). split; [reflexivity|]. constructor; [now rewrite Eq|exact IH2].
Qed.
Lemma threads_survive l : Forall single l -> NoDup (comment_ids l) -> NoDup (flat_map paras_of_comment l) ->
  Forall (fun c => match cd_parent (fst c) with None => True | Some q => In q (comment_ids l) end) l ->
  thread_comments (flat_map (ext_spec l) l) (map forget_parent l) = l.
Proof.
  intros Hs Hn Hd Hp. destruct (ext_written l Hs Hn Hp l (incl_refl l)) as (f & E & Hf).
  rewrite E. destruct l as [|c0 l0] eqn:El; [reflexivity|]. rewrite <- El in *.
  assert (Hne : exists e es, map (fun c => {| ce_para := para_id c; ce_done := false; ce_parent := f c |}) l = e :: es) by (rewrite El; cbn; eauto).
  unfold thread_comments. destruct Hne as (e & es & Ee). rewrite Ee, <- Ee. clear e es Ee.
  set (ext := map _ l). rewrite map_map.
  assert (Hmap : map ce_para ext = flat_map paras_of_comment l).
  { unfold ext. rewrite map_map. cbn. now rewrite single_nonempty. }
  assert (Hfm : flat_map paras_of_comment (map forget_parent l) = flat_map paras_of_comment l).
  { rewrite flat_map_map. apply flat_map_in_ext, Forall_forall. intros; reflexivity. }
  transitivity (map (fun c : comment => c) l); [|apply map_id]. apply map_ext_in. intros c Hc.
  assert (Hsc : single c) by (rewrite Forall_forall in Hs; auto).
  rewrite first_some_single by (destruct Hsc as (i & p & nb & ch & E'); exists i, p, nb, ch; exact E').
  change (para_id (forget_parent c)) with (para_id c).
  rewrite Forall_forall in Hf. specialize (Hf c Hc).
  assert (Hin : In {| ce_para := para_id c; ce_done := false; ce_parent := f c |} ext) by (apply in_map_iff; eauto).
  destruct (cd_parent (fst c)) as [q|] eqn:Eq.
  - destruct Hf as (p & H1 & H2 & H3).
    rewrite (proj2 (parent_of_para_iff ext (para_id c) (para_id p) ltac:(now rewrite Hmap))) by eauto.
    rewrite (proj2 (comment_of_para_iff (map forget_parent l) (para_id p) q ltac:(now rewrite Hfm))).
    + destruct c as ([i a d pp], ch). cbn in *. now rewrite Eq.
    + exists (forget_parent p). split; [now apply in_map|]. split; [|exact H2].
      change (In (para_id p) (paras_of_comment p)). rewrite single_paras; [now left|]. rewrite Forall_forall in Hs; auto.
  - destruct (parent_of_para ext (para_id c)) as [x|] eqn:Ex.
    + apply parent_of_para_iff in Ex as (e & He & E1 & E2); [|now rewrite Hmap].
      assert (e = {| ce_para := para_id c; ce_done := false; ce_parent := f c |}) as ->.
      { assert (Hnd : NoDup (map ce_para ext)) by now rewrite Hmap. clear -Hnd He Hin E1.
        apply in_split in Hin as (a & b & Hab). rewrite Hab in *. apply in_app_or in He as [He|[He|He]]; [|auto|];
          rewrite map_app in Hnd; apply NoDup_remove_2 in Hnd; exfalso; apply Hnd; cbn; rewrite <- E1; apply in_or_app;
          [left|right]; now apply in_map. }
      cbn in E2. rewrite Hf in E2. discriminate.
    + destruct c as ([i a d pp], ch). cbn in *. now rewrite Eq.
Qed.

(** ** Storing comment texts *)
Lemma comment_by_id_find l id : NoDup (comment_ids l) -> comment_by_id l id = find (fun x => N.eqb (cd_id (fst x)) id) l.
Proof.
  intros Hn. unfold comment_by_id. induction l as [|c l IH]; cbn [last_such find]; [reflexivity|]. cbn in Hn. inversion Hn; subst.
  rewrite IH by assumption. destruct (N.eqb_spec (cd_id (fst c)) id) as [E|E].
  - destruct (find _ l) as [x|] eqn:Ef; [|reflexivity]. apply find_some in Ef as [Hx Ex]. apply N.eqb_eq in Ex.
    exfalso. apply H1. rewrite E, <- Ex. apply (in_map (fun c : comment => cd_id (fst c))). exact Hx.
  - now destruct (find _ l).
Qed.
Lemma store_start_at l n : NoDup (comment_ids l) -> comment_at (store_start l n) = map (text_for l) (comment_at n).
Proof.
  intros Hn. destruct n; try reflexivity. cbn [store_start comment_at map]. unfold text_for. cbn [fst]. rewrite comment_by_id_find by exact Hn.
  destruct (find _ l) as [(d, ch')|]; reflexivity.
Qed.
Definition no_link_comments (n : node) : Prop := match n with NLink _ _ ch => flat_map comment_at ch = [] | _ => True end.
Definition head_comments (n : node) : list comment := match n with NLink _ _ ch => flat_map comment_at ch | _ => comment_at n end.
Lemma store_child_head l n : NoDup (comment_ids l) -> no_link_comments n ->
  head_comments (store_child l n) = map (text_for l) (head_comments n).
Proof.
  intros Hn Hl. destruct n; try reflexivity.
  - apply (store_start_at l (NCommentStart c ch) Hn) || (cbn [store_child head_comments]; rewrite <- store_start_at by exact Hn; cbn [store_start]; destruct (comment_by_id l (cd_id c)); reflexivity).
  - cbn [store_child store_start head_comments]. cbn in Hl. rewrite Hl. reflexivity.
Qed.
Lemma store_top_child_head l n : NoDup (comment_ids l) -> no_link_comments n ->
  head_comments (store_top_child l n) = map (text_for l) (head_comments n).
Proof.
  intros Hn Hl. rewrite <- store_child_head by assumption. destruct n; reflexivity.
Qed.
Lemma heads_map (f : node -> node) g ch :
  Forall (fun n => head_comments (f n) = map g (head_comments n)) ch ->
  flat_map head_comments (map f ch) = map g (flat_map head_comments ch).
Proof. intros H. rewrite flat_map_map, map_flat_map. now apply flat_map_in_ext. Qed.

Lemma store_block_paras l n : paras_below (store_block l n) = map (store_block l) (paras_below n).
Proof.
  induction n as [n IH] using node_tree_ind.
  assert (Hb : forall ch, Forall (fun n => paras_below (store_block l n) = map (store_block l) (paras_below n)) ch ->
    flat_map (fun c => if block c then paras_below c else []) (map (fun c => if block_walks c then store_block l c else c) ch)
    = map (store_block l) (flat_map (fun c => if block c then paras_below c else []) ch)).
  { intros ch H. rewrite flat_map_map, map_flat_map. apply flat_map_in_ext. eapply Forall_impl; [|exact H]. intros c Hc.
    destruct c; cbn [block block_walks] in *; try reflexivity; exact Hc. }
  destruct n; cbn [paras_below store_block map children] in *; try reflexivity;
    try (rewrite flat_map_map, map_flat_map; apply flat_map_in_ext; exact IH).
  - now apply Hb.
  - apply Forall_app in IH as [H1 H2]. rewrite map_app, !Hb by assumption. reflexivity.
Qed.
Lemma paras_below_para n p : In p (paras_below n) -> exists i q nb ch, p = NPara i q nb ch.
Proof.
  revert p. induction n as [n IH] using node_tree_ind. intros p Hp. rewrite Forall_forall in IH.
  destruct n; cbn [paras_below children] in *; try contradiction.
  - apply in_flat_map in Hp as (m & Hm & Hp). destruct (block m); [|contradiction]. now apply (IH m).
  - destruct Hp as [<-|[]]. eauto.
  - apply in_flat_map in Hp as (m & Hm & Hp). now apply (IH m).
  - apply in_flat_map in Hp as (m & Hm & Hp). now apply (IH m).
  - apply in_flat_map in Hp as (m & Hm & Hp). now apply (IH m).
  - apply in_app_or in Hp as [Hp|Hp]; apply in_flat_map in Hp as (m & Hm & Hp); (destruct (block m); [|contradiction]);
      apply (IH m); auto; apply in_or_app; tauto.
Qed.
Lemma stored_comments l body : NoDup (comment_ids l) -> stored_plain body ->
  seen_comments (store_comments l body) = map (text_for l) (seen_comments body).
Proof.
  intros Hn [Ht Hl]. unfold seen_comments, seen_paras, store_comments.
  rewrite flat_map_map, !flat_map_flat_map, map_flat_map. apply flat_map_in_ext, Forall_forall. intros n Hin.
  rewrite Forall_forall in Ht, Hl. specialize (Ht n Hin).
  assert (Hln : forall m, In m (all_nodes n) -> no_link_comments m) by (intros m Hm; apply (Hl m); apply in_flat_map; eauto).
  destruct n; try reflexivity; try contradiction.
  - cbn [paras_below flat_map]. rewrite !app_nil_r. unfold comments_in. cbn [children].
    apply (heads_map (store_top_child l) (text_for l)). apply Forall_forall. intros c Hc. apply store_top_child_head; [exact Hn|].
    apply Hln. destruct (all_nodes_split (NPara id p numbering ch)) as (r & E & Hr). rewrite E. right. apply (Hr c Hc).
    destruct (all_nodes_split c) as (r' & E' & _). rewrite E'. now left.
  - change (match store_block l (NTable p grid numbering rows) with NPara _ _ _ _ | NTable _ _ _ _ | NToc _ _ _ => paras_below (store_block l (NTable p grid numbering rows)) | _ => [] end)
      with (paras_below (store_block l (NTable p grid numbering rows))).
    rewrite store_block_paras, flat_map_map, map_flat_map. apply flat_map_in_ext, Forall_forall. intros q Hq.
    pose proof (paras_below_incl _ _ Hq) as Hqn. apply paras_below_para in Hq as (i & qp & nb & ch & ->).
    unfold comments_in. cbn [children store_block]. apply (heads_map (store_child l) (text_for l)). apply Forall_forall. intros c Hc.
    apply store_child_head; [exact Hn|]. apply Hln.
    assert (Hcq : In c (all_nodes (NPara i qp nb ch))).
    { destruct (all_nodes_split (NPara i qp nb ch)) as (r & E & Hr). rewrite E. right. apply (Hr c Hc).
      destruct (all_nodes_split c) as (r' & E' & _). rewrite E'. now left. }
    clear -Hqn Hcq. revert Hqn. generalize (NTable p grid numbering rows). intros m. revert Hcq. generalize (NPara i qp nb ch). intros q Hcq.
    induction m as [m IH] using node_tree_ind. intros Hqn. rewrite Forall_forall in IH.
    assert (E : all_nodes m = m :: flat_map all_nodes (children m)).
    { destruct m; cbn [all_nodes children flat_map]; rewrite ?flat_map_app; reflexivity. }
    rewrite E in Hqn. destruct Hqn as [<-|Hqn]; [exact Hcq|]. rewrite E. right.
    apply in_flat_map in Hqn as (x & Hx & Hqx). apply in_flat_map. exists x. split; [exact Hx|]. now apply IH.
Qed.

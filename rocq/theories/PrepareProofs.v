(** Preparation keeps the layout and the typing of the document. *)
From Coq Require Import NArith List Bool Lia.
From Verif Require Import Str ListFacts Props Ast IdsModel ParaIdModel ParaIdSpec ParaIdProofs TreeModel TreeSpec TreeProofs DepsModel DepsSpec DepsProofs
  TocModel TocSpec TocProofs PackModel PackSpec PackRelsProofs PackOrderProofs PrepareModel.
Import ListNotations.

Lemma well_formed_iff n : well_formed n <-> local_ok n = true /\ Forall well_formed (children n).
Proof.
  split.
  - intros H. split; [now apply well_formed_local|]. apply Forall_forall. intros m I. eapply well_formed_child; eassumption.
  - intros [L F]. unfold well_formed in *. rewrite <- Forall_flat_map in F. destruct n; cbn [children all_nodes] in *; constructor; try exact L; try constructor;
      try exact F; rewrite flat_map_app in F; exact F.
Qed.

(** ** Kinds are enough *)
Section Kinds.
  Variable w : node -> node.
  Hypothesis same_local : forall n, local_ok (w n) = local_ok n.
  Hypothesis same_children : forall n, children (w n) = map w (children n) \/ w n = n.
  Lemma well_formed_map n : well_formed (w n) <-> well_formed n.
  Proof.
    induction n as [n IH] using node_tree_ind. destruct (same_children n) as [E|E]; [|now rewrite E].
    rewrite !well_formed_iff, same_local, E, Forall_map. split; intros [L F]; (split; [exact L|]).
    - rewrite Forall_forall in *. intros m I. apply IH; auto.
    - rewrite Forall_forall in *. intros m I. apply IH; auto.
  Qed.
End Kinds.
Lemma forallb_map_same {A} (f : A -> bool) (w : A -> A) l : (forall a, f (w a) = f a) -> forallb f (map w l) = forallb f l.
Proof. intros H. induction l as [|a l IH]; [reflexivity|]. cbn. now rewrite H, IH. Qed.
Ltac kinds_same := let a := fresh in intros a; destruct a; reflexivity.
Lemma wipe_local n : local_ok (wipe n) = local_ok n.
Proof. destruct n; cbn [wipe local_ok]; rewrite ?forallb_map_same by kinds_same; reflexivity. Qed.
Lemma wipe_children n : children (wipe n) = map wipe (children n) \/ wipe n = n.
Proof. destruct n; cbn [wipe children]; rewrite ?map_app; auto. Qed.
Lemma well_formed_wipe n : well_formed (wipe n) <-> well_formed n.
Proof. apply well_formed_map; [apply wipe_local|apply wipe_children]. Qed.

Lemma shape_wipe n : shape (wipe n) = shape n. Proof. destruct n; reflexivity. Qed.
Lemma shape_wipe_pics n : shape (wipe_pics n) = shape n. Proof. destruct n; reflexivity. Qed.
Lemma map_same {A B} (f : A -> B) (w : A -> A) l l' : (forall a, f (w a) = f a) -> map w l = map w l' -> map f l = map f l'.
Proof.
  intros H E. assert (X : forall l, map f l = map f (map w l)). { intros m. rewrite map_map. apply map_ext. intros a. now rewrite H. }
  now rewrite (X l), (X l'), E.
Qed.
(** The layout of one child of the body. *)
Definition lay (n : node) : option (sectpr * list (option (slot * string))) :=
  match n with NSection p ps _ _ => Some (p, map shape ps) | _ => None end.
Lemma layout_body d : map (fun s : sectpr * list node => (fst s, map shape (snd s))) (sections_of d) =
  flat_map (fun o => match o with Some x => [x] | None => [] end) (map lay (d_body d)).
Proof.
  unfold sections_of. induction (d_body d) as [|n b IH]; [reflexivity|]. cbn [flat_map map]. rewrite map_app, IH. f_equal. destruct n; reflexivity.
Qed.
Lemma layout_eq d d' : d_sect d = d_sect d' -> map shape (d_parts d) = map shape (d_parts d') -> map lay (d_body d) = map lay (d_body d') -> layout d = layout d'.
Proof. intros A B C. unfold layout. now rewrite !layout_body, A, B, C. Qed.
Lemma lay_wipe n : lay (wipe n) = lay n.
Proof. destruct n; cbn; try reflexivity. rewrite map_map. do 2 f_equal. apply map_ext, shape_wipe. Qed.
Lemma lay_wipe_pics n : lay (wipe_pics n) = lay n.
Proof. destruct n; cbn; try reflexivity. rewrite map_map. do 2 f_equal. apply map_ext, shape_wipe_pics. Qed.

(** ** The steps *)
Lemma expand_layout styles body n body' n' has : expand_auto_tocs styles body n = Some (body', n', has) ->
  map lay body' = map lay body /\ (Forall well_formed body -> Forall well_formed body') /\ forallb doc_child body' = forallb doc_child body.
Proof.
  intros E. apply toc_expansion_proof in E. destruct E as (marks & F & _). 
  assert (G : forall B l m l', Forall3 (changed (fun st => last_get st (heading_map styles)) B) l m l' ->
     map lay l' = map lay l /\ (Forall well_formed l -> Forall well_formed l') /\ forallb doc_child l' = forallb doc_child l).
  { intros B. induction 1 as [|a ms a' l m l' C _ (IH1 & IH2 & IH3)]; [repeat split; auto|]. cbn [map forallb]. rewrite IH1, IH3.
    assert (K : lay a' = lay a /\ (well_formed a -> well_formed a') /\ doc_child a' = doc_child a).
    { destruct a; cbn [changed] in C; try (destruct C as [? ->]; repeat split; auto; fail).
      - subst a'. repeat split. intros W. apply well_formed_iff in W. destruct W as [W1 W2]. apply well_formed_iff. cbn [local_ok children] in *.
        unfold between. rewrite !forallb_app, W1, !Forall_app. repeat split; try exact W2.
        + assert (P1 : forall l0, forallb para_child (map (fun m0 : N * string => NBookmarkStart (fst m0) (snd m0)) l0) = true) by (induction l0; auto).
          assert (P2 : forall l0, forallb para_child (map (fun m0 : N * string => NBookmarkEnd (fst m0)) l0) = true) by (induction l0; auto).
          now rewrite P1, P2.
        + apply Forall_map, Forall_forall. intros. repeat constructor.
        + apply Forall_map, Forall_forall. intros. repeat constructor.
      - destruct C as [_ C]. destruct (to_fill _); [|subst; repeat split; auto]. destruct C as (items & -> & _). repeat split. 
        intros W. apply well_formed_iff in W. apply well_formed_iff. exact W. }
    destruct K as (K1 & K2 & K3). rewrite K1, K3. repeat split. intros W. inversion W; subst. constructor; auto. }
  eapply G; exact F.
Qed.

Lemma wf_wipe_list l l' : map wipe l = map wipe l' -> Forall well_formed l' -> Forall well_formed l.
Proof.
  intros E H. assert (A : Forall well_formed (map wipe l)) by (rewrite E; apply Forall_map; eapply Forall_impl; [|exact H]; intros; now apply well_formed_wipe).
  rewrite Forall_map in A. eapply Forall_impl; [|exact A]. intros; now apply well_formed_wipe.
Qed.
Lemma flat_wipe {A} (l l' : list (A * list node)) : map (fun c => (fst c, map wipe (snd c))) l = map (fun c => (fst c, map wipe (snd c))) l' ->
  map wipe (flat_map snd l) = map wipe (flat_map snd l').
Proof.
  revert l'. induction l as [|a l IH]; intros [|b l'] E; try discriminate E; [reflexivity|]. cbn [map flat_map] in *. injection E as _ E1 E2.
  rewrite !map_app, E1. f_equal. now apply IH.
Qed.
Lemma kinds_wipe {A} (f : node -> bool) (l l' : list (A * list node)) : (forall n, f (wipe n) = f n) ->
  map (fun c => (fst c, map wipe (snd c))) l = map (fun c => (fst c, map wipe (snd c))) l' ->
  Forall (fun c => forallb f (snd c) = true) l' -> Forall (fun c => forallb f (snd c) = true) l.
Proof.
  intros H. revert l'. induction l as [|a l IH]; intros [|b l'] E F; try discriminate E; [constructor|]. cbn [map] in E. injection E as _ E1 E2.
  inversion F; subst. constructor; [|eapply IH; eassumption]. rewrite <- (forallb_map_same f wipe) by exact H. rewrite E1. now rewrite forallb_map_same.
Qed.
Lemma refresh_layout d d' : doc_well_formed d -> prepare_ids d = Some d' -> layout d' = layout d /\ doc_well_formed d'.
Proof.
  intros W E. destruct (prepare_spec d d' W E) as [_ Wp]. unfold wipe_docx in Wp. injection Wp as E1 E2 E3 E4 E5. split.
  - apply layout_eq; [exact E2|now apply (map_same shape wipe); [apply shape_wipe|]|now apply (map_same lay wipe); [apply lay_wipe|]].
  - destruct W as (W1 & W2 & W3 & W4 & W5). repeat split.
    + rewrite <- (forallb_map_same doc_child wipe) by kinds_same. rewrite E1. now rewrite forallb_map_same by kinds_same.
    + rewrite <- (forallb_map_same is_part wipe) by kinds_same. rewrite E3. now rewrite forallb_map_same by kinds_same.
    + eapply kinds_wipe; [|exact E4|exact W3]. kinds_same.
    + eapply kinds_wipe; [|exact E5|exact W4]. kinds_same.
    + unfold doc_roots in *. rewrite !Forall_app in *. destruct W5 as (V1 & V2 & V3 & V4).
      split; [exact (wf_wipe_list _ _ E1 V1)|]. split; [exact (wf_wipe_list _ _ E3 V2)|].
      split; [exact (wf_wipe_list _ _ (flat_wipe _ _ E4) V3)|exact (wf_wipe_list _ _ (flat_wipe _ _ E5) V4)].
Qed.

(** Comments found in the body are typed. *)
Lemma all_nodes_children n : all_nodes n = n :: flat_map all_nodes (children n).
Proof. destruct n; cbn [all_nodes children flat_map]; rewrite ?flat_map_app; reflexivity. Qed.
Lemma well_formed_in n m : well_formed n -> In m (all_nodes n) -> well_formed m.
Proof.
  revert m. induction n as [n IH] using node_tree_ind. intros m W I. rewrite all_nodes_children in I. destruct I as [<-|I]; [exact W|].
  apply in_flat_map in I. destruct I as (c & Ic & I). rewrite Forall_forall in IH. apply (IH c Ic); [|exact I]. eapply well_formed_child; eassumption.
Qed.
Lemma seen_typed body c : Forall well_formed body -> In c (seen_comments body) -> well_formed (NCommentStart (fst c) (snd c)).
Proof.
  intros W I. unfold seen_comments in I. apply in_flat_map in I. destruct I as (p & Ip & I).
  assert (Wp : well_formed p).
  { unfold seen_paras in Ip. apply in_flat_map in Ip. destruct Ip as (n & In_ & Ip). rewrite Forall_forall in W. apply (well_formed_in n); [now apply W|].
    apply paras_below_incl. destruct n; try destruct Ip; try exact Ip. now left. right; assumption. }
  unfold comments_in in I. apply in_flat_map in I. destruct I as (x & Ix & I). assert (Wx := well_formed_child _ _ Wp Ix).
  assert (D : In c (comment_at x) -> well_formed (NCommentStart (fst c) (snd c))).
  { intros K. destruct x; try destruct K as []. subst c. exact Wx. destruct H. }
  destruct x; try (now apply D). apply in_flat_map in I. destruct I as (y & Iy & I). assert (Wy := well_formed_child _ _ Wx Iy).
  destruct y; try destruct I as []. subst c. exact Wy. destruct H.
Qed.
Lemma found_comments body old : Forall well_formed body -> Forall (fun c => forallb plain_block (snd c) = true) (dp_comments old) ->
  Forall well_formed (flat_map snd (dp_comments old)) ->
  Forall (fun c => forallb plain_block (snd c) = true) (dp_comments (update_dependencies body old)) /\
  Forall well_formed (flat_map snd (dp_comments (update_dependencies body old))).
Proof.
  intros W A B. destruct (collected_exactly body old) as (-> & _). destruct (flat_map paras_of_comment (seen_comments body)); [auto|].
  assert (S : forall c, In c (flat_map copies (seen_comments body)) -> well_formed (NCommentStart (fst c) (snd c))).
  { intros c I. apply in_flat_map in I. destruct I as (c' & I' & I). unfold copies in I. apply repeat_spec in I. subst c.
    exact (seen_typed body c' W I'). }
  split.
  - apply Forall_forall. intros c I. apply S in I. apply well_formed_local in I. exact I.
  - apply Forall_forall. intros n I. apply in_flat_map in I. destruct I as (c & Ic & I). apply S in Ic. eapply well_formed_child; [exact Ic|exact I].
Qed.

Lemma collect_layout crc d d' c : doc_well_formed d -> collect_package crc d = Some (d', c) -> layout d' = layout d /\ NoDup (map fst (c_media c)).
Proof.
  intros W E. destruct (collect_package_ok crc d W) as (d1 & c1 & E1 & N & _ & _ & _ & _ & B & P & S & _). rewrite E in E1. injection E1 as <- <-.
  split; [|exact N]. apply layout_eq; [exact S|now apply (map_same shape wipe_pics); [apply shape_wipe_pics|]|now apply (map_same lay wipe_pics); [apply lay_wipe_pics|]].
Qed.

(** Preparing changes the record as [prepared] says, for a document with the same
    layout, and gives media files different names. *)
Lemma prepare_shape crc styles ext n k k' c ext' : doc_well_formed (k_doc k) ->
  prepare_package crc styles ext n k = Some (k', c, ext') ->
  exists d1 d comments links, k' = prepared k d comments links c /\ layout d = layout (k_doc k) /\ NoDup (map fst (c_media c)) /\
    doc_well_formed d1 /\ layout d1 = layout (k_doc k) /\ collect_package crc d1 = Some (d, c) /\
    (exists body n1 has, expand_auto_tocs styles (d_body (k_doc k)) n = Some (body, n1, has) /\ map wipe (d_body d1) = map wipe body /\
       map wipe (d_parts d1) = map wipe (d_parts (k_doc k))) /\
    links = dp_links (update_dependencies (d_body d1) {| dp_comments := []; dp_ext := []; dp_has_comments := false; dp_links := [] |}).
Proof.
  intros W E. unfold prepare_package in E.
  destruct (expand_auto_tocs styles (d_body (k_doc k)) n) as [[[body n1] has]|] eqn:X; [|discriminate].
  destruct (expand_layout _ _ _ _ _ _ X) as (L1 & W1 & K1). set (d0 := with_body (k_doc k) body) in *.
  assert (Wd0 : doc_well_formed d0).
  { destruct W as (A & B & C & D & F). unfold doc_well_formed, doc_roots, d0 in *. cbn [with_body d_body d_parts d_comments d_footnotes] in *. rewrite K1, !Forall_app in *.
    repeat split; tauto. }
  assert (Ld0 : layout d0 = layout (k_doc k)) by (apply layout_eq; [reflexivity|reflexivity|exact L1]).
  destruct (prepare_ids d0) as [d1|] eqn:P; [|discriminate]. destruct (refresh_layout _ _ Wd0 P) as [L2 W2].
  set (dp := update_dependencies (d_body d1) _) in *. set (d2 := with_comments d1 (dp_comments dp)) in *.
  assert (Wd2 : doc_well_formed d2).
  { destruct W2 as (A & B & C & D & F). unfold doc_roots in F. rewrite !Forall_app in F. destruct F as (F1 & F2 & F3 & F4).
    destruct (found_comments (d_body d1) {| dp_comments := d_comments d1; dp_ext := ext; dp_has_comments := r_comments (k_doc_rels k); dp_links := [] |} F1 C F3) as [G1 G2].
    unfold doc_well_formed, doc_roots, d2. cbn [with_comments d_body d_parts d_comments d_footnotes]. rewrite !Forall_app. fold dp in G1, G2. tauto. }
  destruct (collect_package crc d2) as [[d3 c3]|] eqn:Q; [|discriminate]. injection E as <- <- <-.
  destruct (collect_layout _ _ _ _ Wd2 Q) as [L3 N3].
  assert (L2' : layout d2 = layout (k_doc k)).
  { rewrite <- Ld0, <- L2. apply layout_eq; reflexivity. }
  exists d2, d3, (dp_has_comments dp), (dp_links dp). split; [reflexivity|]. split; [congruence|]. split; [exact N3|]. split; [exact Wd2|]. split; [exact L2'|]. split; [exact Q|].
  split. { exists body, n1, has. split; [reflexivity|]. destruct (prepare_spec d0 d1 Wd0 P) as [_ Wp]. unfold wipe_docx in Wp. split; [exact (f_equal d_body Wp)|exact (f_equal d_parts Wp)]. }
  unfold dp, update_dependencies. change (d_body d2) with (d_body d1). destruct (walk_body map_paragraph (d_body d1) ([], [])) as [[|m ms] lk]; reflexivity.
Qed.

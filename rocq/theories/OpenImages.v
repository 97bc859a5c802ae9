(** The images of an archive that was saved and opened. *)
From Coq Require Import NArith ZArith List Bool Lia Permutation.
From Verif Require Import Str StrFacts ListFacts TypesModel Props Ast MediaModel MediaSpec TreeModel TreeSpec TreeProofs DepsModel XmlParser XmlSpec ReadBase ReadProps ReadModel StyleModel StyleSpec
  ZipNameModel PathModel PackModel PackSpec PackProofs PrepareModel PrepareProofs PackFinalProofs RenderModel OpenModel WellSpec RestSpec RoundSpec RoundNums
  OpenSpec OpenText OpenPath OpenParts OpenRels OpenFiles OpenSides OpenCalls OpenAssign OpenProofs OpenNames OpenFinal.
From Verif Require BuildModel PackOrderProofs PackRelsProofs TocModel ParaIdModel ParaIdProofs DepsSpec DepsProofs ParaIdSpec MediaProofs.
Import ListNotations.
Import PackOrderProofs (side_name, side_parts, side_rid, side_count, side_rid_inj).
Open Scope list_scope.

(** ** The pictures of what is read *)
Definition pic_of (n : node) : list pic := match n with NPic p => [p] | _ => [] end.
Lemma pics_flat l : pics_in l = flat_map (fun n => pics_in [n]) l.
Proof.
  unfold pics_in. rewrite flat_map_flat_map. apply flat_map_ext. intros n. cbn [flat_map]. now rewrite app_nil_r.
Qed.
Lemma pics_app a b : pics_in (a ++ b) = pics_in a ++ pics_in b.
Proof. unfold pics_in. now rewrite !flat_map_app. Qed.
(** Inside a link nothing is moved away. *)
Definition no_moves (n : node) : Prop := Forall (fun m => match m with NMoveFrom _ _ => False | _ => True end) (all_nodes n).
Definition clean (p : place) (n : node) : Prop := links_hold [n] /\ (p = InLink -> no_moves n).
Lemma links_hold_app a b : links_hold (a ++ b) <-> links_hold a /\ links_hold b.
Proof. unfold links_hold. rewrite flat_map_app. apply Forall_app. Qed.
Lemma links_hold_in l n : links_hold l -> In n l -> links_hold [n].
Proof. intros H Hn. apply in_split in Hn as (a & b & ->). apply links_hold_app in H as [_ H]. change (n :: b) with ([n] ++ b) in H. now apply links_hold_app in H. Qed.
Lemma all_children n m : In m (children n) -> incl (all_nodes m) (all_nodes n).
Proof.
  intros H x Hx. destruct n; cbn [children] in H; try destruct H; cbn [all_nodes]; right; rewrite ?in_app_iff in *;
    try (apply in_flat_map; eexists; split; eassumption).
  - destruct H as [H|H]; [left|right]; apply in_flat_map; eexists; split; eassumption.
  - destruct H as [H|H]; [left|right]; apply in_flat_map; eexists; split; eassumption.
Qed.
Lemma child_clean p q n m : In m (children n) -> clean p n -> (q = InLink -> p = InLink \/ match n with NLink _ _ _ => True | _ => False end) -> clean q m.
Proof.
  intros Hm [H1 H2] Hq. pose proof (all_children _ _ Hm) as Hi. unfold clean, links_hold, no_moves in *. cbn [flat_map] in *. rewrite app_nil_r in *.
  split; [now apply (incl_Forall Hi)|]. intros Q. destruct (Hq Q) as [Hp|Hp]; [now apply (incl_Forall Hi), H2|].
  destruct n; try destruct Hp. cbn [all_nodes] in H1. inversion H1 as [|? ? X _]; subst. cbn [children] in Hm. revert X. apply incl_Forall. intros x Hx. apply in_flat_map. eauto.
Qed.
Lemma run_pics n : kept_in_run n = true -> pics_in (reread_in_run n) = map reread_pic (pics_in [n]).
Proof.
  destruct n; cbn [kept_in_run run_child]; intros H; try discriminate H; try reflexivity; cbn [reread_in_run]; unfold reread_text;
    repeat match goal with |- context [match ?x with _ => _ end] => destruct x end; reflexivity.
Qed.
Lemma pics_each f l : Forall (fun n => pics_in (f n) = map reread_pic (pics_in [n])) l -> pics_in (flat_map f l) = map reread_pic (pics_in l).
Proof. induction 1 as [|n l H _ IH]; [reflexivity|]. cbn [flat_map]. rewrite pics_app, IH, H, <- map_app. f_equal. symmetry. apply (pics_app [n] l). Qed.
Definition holder (n : node) : Prop := match n with NRun _ _ | NIns _ _ | NDel _ _ | NMoveFrom _ _ | NMoveTo _ _ | NLink _ _ _ | NSdt _ _ _ | NPara _ _ _ _ | NTable _ _ _ _ | NRow _ _ _ | NCell _ _ _ | NPart _ _ _ _ => True | _ => False end.
Lemma pics_node n : holder n -> pics_in [n] = pics_in (children n).
Proof. unfold pics_in. cbn [flat_map]. rewrite app_nil_r. destruct n; intros H; try destruct H; reflexivity. Qed.
Lemma reread_pics n : forall p, kept p n = true -> clean p n -> pics_in (reread p n) = map reread_pic (pics_in [n]).
Proof.
  induction n as [n IH] using node_tree_ind. rewrite Forall_forall in IH.
  assert (G : forall p q, clean p n -> (q = InLink -> p = InLink \/ match n with NLink _ _ _ => True | _ => False end) -> forallb (kept q) (children n) = true ->
              pics_in (flat_map (reread q) (children n)) = map reread_pic (pics_in (children n))).
  { intros p q Hc Hq Hk. apply pics_each, Forall_forall. intros m Hm. apply IH; [exact Hm| |now apply (child_clean p q n)]. rewrite forallb_forall in Hk. auto. }
  intros p Hk Hc. destruct n; try (destruct p; discriminate Hk); try (destruct p; reflexivity).
  - (* run *)
    rewrite (pics_node (NRun _ _) I). cbn [reread children]. rewrite (pics_node (NRun _ _) I). cbn [children].
    apply pics_each, Forall_forall. intros m Hm. apply run_pics. destruct p; try discriminate Hk; cbn [kept] in Hk; rewrite forallb_forall in Hk; auto.
  - rewrite (pics_node (NIns _ _) I). cbn [reread]. rewrite (pics_node (NIns _ _) I). cbn [children] in *. apply (G p); [exact Hc|discriminate|]. destruct p; try discriminate Hk; exact Hk.
  - rewrite (pics_node (NDel _ _) I). cbn [reread]. rewrite (pics_node (NDel _ _) I). cbn [children] in *. apply (G p); [exact Hc|discriminate|]. destruct p; try discriminate Hk; exact Hk.
  - rewrite (pics_node (NMoveFrom _ _) I). destruct p; try discriminate Hk.
    + cbn [reread]. rewrite (pics_node (NMoveFrom _ _) I). cbn [children] in *. apply (G InPara); [exact Hc|discriminate|exact Hk].
    + exfalso. destruct Hc as [_ Hc]. specialize (Hc eq_refl). unfold no_moves in Hc. cbn [all_nodes] in Hc. now inversion Hc.
  - rewrite (pics_node (NMoveTo _ _) I). destruct p; try discriminate Hk; cbn [reread].
    + rewrite (pics_node (NMoveTo _ _) I). cbn [children] in *. apply (G InPara); [exact Hc|discriminate|exact Hk].
    + cbn [children] in *. apply (G InLink); [exact Hc|now left|exact Hk].
  - rewrite (pics_node (NLink _ _ _) I). cbn [reread]. rewrite (pics_node (NLink _ _ _) I). cbn [children] in *. apply (G p); [exact Hc|now right|]. destruct p; try discriminate Hk; exact Hk.
  - rewrite (pics_node (NSdt _ _ _) I). cbn [children] in *.
    assert (O : forall A (f : A -> node) o, (forall m, pics_in [f m] = []) -> pics_in (BuildModel.opt f o) = []) by (intros A f [m|] Hf; [apply Hf|reflexivity]).
    destruct p; try discriminate Hk; cbn [reread]; try (rewrite (pics_node (NSdt _ _ _) I); cbn [children]; first [apply (G InDocument); [exact Hc|discriminate|exact Hk] | apply (G InPart); [exact Hc|discriminate|exact Hk]]).
    + rewrite !pics_app, !O by reflexivity. cbn [app]. apply (G InPara); [exact Hc|discriminate|exact Hk].
    + rewrite !pics_app, !O by reflexivity. cbn [app]. apply (G InLink); [exact Hc|now left|exact Hk].
  - rewrite (pics_node (NPara _ _ _ _) I). cbn [reread]. rewrite (pics_node (NPara _ _ _ _) I). cbn [children] in *. apply (G p); [exact Hc|discriminate|]. destruct p; try discriminate Hk; exact Hk.
  - rewrite (pics_node (NTable _ _ _ _) I). cbn [reread]. rewrite (pics_node (NTable _ _ _ _) I). cbn [children] in *. apply (G p); [exact Hc|discriminate|]. destruct p; try discriminate Hk; exact Hk.
  - rewrite (pics_node (NRow _ _ _) I). cbn [reread]. rewrite (pics_node (NRow _ _ _) I). cbn [children] in *. apply (G p); [exact Hc|discriminate|]. destruct p; try discriminate Hk; exact Hk.
  - rewrite (pics_node (NCell _ _ _) I). cbn [reread]. rewrite (pics_node (NCell _ _ _) I). cbn [children] in *. apply (G p); [exact Hc|discriminate|].
    destruct p; try discriminate Hk. cbn [kept] in Hk. destruct ch as [|[] []]; try discriminate Hk; exact Hk.
Qed.
(** Storing comments leaves the pictures. *)
Lemma pics_map f l : Forall (fun n => pics_in [f n] = pics_in [n]) l -> pics_in (map f l) = pics_in l.
Proof.
  induction 1 as [|n l H _ IH]; [reflexivity|]. cbn [map]. change (f n :: map f l) with ([f n] ++ map f l). rewrite pics_app, H, IH. symmetry. apply (pics_app [n] l).
Qed.
Lemma store_start_pics l n : pics_in [store_start l n] = pics_in [n].
Proof. destruct n; try reflexivity. cbn [store_start]. now destruct (comment_by_id l (cd_id c)). Qed.
Lemma store_top_pics l n : pics_in [store_top_child l n] = pics_in [n].
Proof.
  destruct n; try exact (store_start_pics l _); cbn [store_top_child].
  - rewrite !(pics_node (NIns _ _) I). apply pics_map, Forall_forall. intros m _. destruct m; try exact (store_start_pics l _).
    rewrite !(pics_node (NDel _ _) I). apply pics_map, Forall_forall. intros m _. apply store_start_pics.
  - rewrite !(pics_node (NDel _ _) I). apply pics_map, Forall_forall. intros m _. apply store_start_pics.
Qed.
Lemma store_child_pics l n : pics_in [store_child l n] = pics_in [n].
Proof.
  destruct n; try exact (store_start_pics l _); cbn [store_child].
  - rewrite !(pics_node (NIns _ _) I). apply pics_map, Forall_forall. intros m _. apply store_start_pics.
  - rewrite !(pics_node (NDel _ _) I). apply pics_map, Forall_forall. intros m _. apply store_start_pics.
Qed.
Lemma store_block_pics l n : pics_in [store_block l n] = pics_in [n].
Proof.
  induction n as [n IH] using node_tree_ind.
  assert (G : Forall (fun c => pics_in [if block_walks c then store_block l c else c] = pics_in [c]) (children n)).
  { revert IH. apply Forall_impl. intros c H. now destruct (block_walks c). }
  destruct n; try reflexivity; cbn [store_block children] in *.
  - rewrite !(pics_node (NSdt _ _ _) I). now apply pics_map.
  - rewrite !(pics_node (NPara _ _ _ _) I). apply pics_map, Forall_forall. intros m _. apply store_child_pics.
  - rewrite !(pics_node (NTable _ _ _ _) I). now apply pics_map.
  - rewrite !(pics_node (NRow _ _ _) I). now apply pics_map.
  - rewrite !(pics_node (NCell _ _ _) I). now apply pics_map.
  - assert (E : forall b a, pics_in [NToc d b a] = pics_in b ++ pics_in a).
    { intros b a. unfold pics_in. cbn [flat_map own_nodes app]. now rewrite app_nil_r, flat_map_app. }
    rewrite !E. apply Forall_app in G as [G1 G2]. now rewrite !pics_map.
Qed.
Lemma store_pics l body : pics_in (store_comments l body) = pics_in body.
Proof.
  unfold store_comments. apply pics_map, Forall_forall. intros n _. destruct n; try reflexivity; try apply store_block_pics.
  rewrite !(pics_node (NPara _ _ _ _) I). apply pics_map, Forall_forall. intros m _. apply store_top_pics.
Qed.

(** ** Names *)
Definition plainly (s : string) : Prop := all_char name_char s = true.
Lemma all_char_app P a b : all_char P (a +++ b) = all_char P a && all_char P b.
Proof. induction a as [|c a IH]; [reflexivity|]. cbn [append all_char]. now rewrite IH, andb_assoc. Qed.
Lemma all_char_weaken (P Q : ascii -> bool) s : (forall c, P c = true -> Q c = true) -> all_char P s = true -> all_char Q s = true.
Proof. intros H. induction s as [|c s IH]; [reflexivity|]. cbn [all_char]. rewrite !andb_true_iff. intros [A B]. split; auto. Qed.
Lemma name_char_plain c : name_char c = true -> plain_char c = true.
Proof. destruct c as [[] [] [] [] [] [] [] []]; intros H; try reflexivity; exact H. Qed.
Lemma name_char_path c : name_char c = true -> (c =c ch_back) = false /\ (c =c ch_slash) = false.
Proof. destruct c as [[] [] [] [] [] [] [] []]; intros H; try discriminate H; split; reflexivity. Qed.
Lemma plain_is_seen s : plainly s -> seen s = s.
Proof. intros H. apply seen_plain. revert H. apply all_char_weaken, name_char_plain. Qed.
Lemma show_plainly n : plainly (show_N n).
Proof.
  unfold plainly. pose proof (show_N_digits n) as H. revert H. apply all_char_weaken. intros c. destruct c as [[] [] [] [] [] [] [] []]; intros H; try reflexivity; discriminate H.
Qed.
Lemma plain_closed : closed plainly.
Proof. intros id n H. unfold plainly, suffixed in *. rewrite !all_char_app, H. cbn. apply show_plainly. Qed.
Lemma media_seen id : plainly id -> seen (media_target id) = media_target id.
Proof.
  intros H. apply seen_plain. unfold media_target. rewrite !all_char_app. cbn [andb]. rewrite (all_char_weaken name_char plain_char id name_char_plain H). reflexivity.
Qed.
Lemma media_path id : plainly id -> join word (seen (media_target id)) = media_name id /\ zip_path (media_name id) = media_name id.
Proof.
  intros H. rewrite (media_seen id H). split; [reflexivity|]. apply plain_path; [|intros r; discriminate].
  unfold media_name. rewrite !has_char_app, (all_char_has _ ch_back _ H) by reflexivity. reflexivity.
Qed.
Lemma prefix_plain a s : plainly a -> plainly s -> plainly (a +++ s).
Proof. unfold plainly. intros Ha Hs. now rewrite all_char_app, Ha, Hs. Qed.

(** ** Adding images *)
Lemma add_image_grows png preview id path d l : incl l (add_image png preview id path d l).
Proof.
  unfold add_image. repeat match goal with |- context [if ?b then _ else _] => destruct b end; try apply incl_appl, incl_refl. destruct (png d); [apply incl_appl, incl_refl|apply incl_refl].
Qed.
Lemma add_images_grows png preview a ts : forall l, incl l (add_images png preview a ts l).
Proof.
  induction ts as [|[[id path] m] ts IH]; intros l; cbn [add_images]; [apply incl_refl|]. eapply incl_tran; [|apply IH].
  destruct (read_zip a path); [apply add_image_grows|apply incl_refl].
Qed.
Definition kept_image (png : string -> option string) (preview : bool) (d : string) : Prop :=
  preview = false \/ has_emf_mark d = true \/ starts_with png_mark d = true \/ png d <> None.
Lemma add_image_in png preview id path d l : kept_image png preview d -> exists im, In im (add_image png preview id path d l) /\ im_id im = id /\ im_data im = d.
Proof.
  intros H. unfold add_image, kept_image, is_emf in *.
  assert (G : forall p, exists im, In im (l ++ [{| im_id := id; im_path := path; im_data := d; im_png := p |}]) /\ im_id im = id /\ im_data im = d).
  { intros p. eexists. split; [apply in_app_iff; right; now left|]. split; reflexivity. }
  destruct (ends_with ".emf" _); [apply G|]. cbn [orb]. destruct (has_emf_mark d); [apply G|]. destruct preview; cbn [negb]; [|apply G].
  destruct (starts_with png_mark d); [apply G|]. destruct (png d); [apply G|]. exfalso. intuition congruence.
Qed.
Lemma add_images_in png preview a ts id path m d : In (id, path, m) ts -> read_zip a path = Some d -> kept_image png preview d ->
  forall l, exists im, In im (add_images png preview a ts l) /\ im_id im = id /\ im_data im = d.
Proof.
  intros Hi Hz Hk. induction ts as [|[[i p] mo] ts IH]; intros l; [destruct Hi|]. cbn [add_images]. destruct Hi as [Hi|Hi]; [|now apply IH].
  injection Hi as -> -> ->. rewrite Hz. destruct (add_image_in png preview id path d l Hk) as (im & H1 & H2 & H3). exists im. split; [|auto]. now apply add_images_grows.
Qed.
Lemma add_images_only png preview a ts im : forall l, In im (add_images png preview a ts l) -> In im l \/ exists path m, In (im_id im, path, m) ts /\ read_zip a path = Some (im_data im).
Proof.
  induction ts as [|[[i p] mo] ts IH]; intros l H; cbn [add_images] in H; [now left|]. apply IH in H. destruct H as [H|(path & m & H1 & H2)]; [|right; exists path, m; split; [now right|exact H2]].
  destruct (read_zip a p) as [d|] eqn:Hz; [|now left]. unfold add_image in H.
  assert (G : forall q, In im (l ++ [{| im_id := i; im_path := p; im_data := d; im_png := q |}]) -> In im l \/ exists path m, In (im_id im, path, m) ((i, p, mo) :: ts) /\ read_zip a path = Some (im_data im)).
  { intros q X. apply in_app_iff in X as [X|[<-|[]]]; [now left|]. right. exists p, mo. split; [now left|exact Hz]. }
  repeat match type of H with context [if ?b then _ else _] => destruct b end; try exact (G _ H). destruct (png d); [exact (G _ H)|now left].
Qed.

(** ** From the documents to the packages *)
Lemma pics_wipe l : pics_in (map wipe_pics l) = map wipe_pic (pics_in l).
Proof.
  assert (G : forall l, Forall (fun n => pics_in [wipe_pics n] = map wipe_pic (pics_in [n])) l -> pics_in (map wipe_pics l) = map wipe_pic (pics_in l)).
  { induction 1 as [|n r H _ IH]; [reflexivity|]. cbn [map]. change (wipe_pics n :: map wipe_pics r) with ([wipe_pics n] ++ map wipe_pics r).
    rewrite pics_app, H, IH, <- map_app. f_equal. symmetry. apply (pics_app [n] r). }
  apply G, Forall_forall. intros n _. induction n as [n IH] using node_tree_ind.
  assert (T : forall d b a, pics_in [NToc d b a] = pics_in (b ++ a)) by (intros d b a; unfold pics_in; cbn [flat_map own_nodes app]; now rewrite app_nil_r, <- flat_map_app).
  assert (Se : forall q ps nb ch, pics_in [NSection q ps nb ch] = pics_in ch) by (intros q ps nb ch; unfold pics_in; cbn [flat_map own_nodes app]; now rewrite app_nil_r).
  destruct n; try reflexivity; cbn [wipe_pics]; try (rewrite !pics_node by exact I; apply G, IH).
  - rewrite !T, <- map_app. apply G, IH.
  - rewrite !Se. apply G. cbn [children] in IH. now apply Forall_app in IH.
Qed.
Lemma pics_wiped n : pics_in [ParaIdSpec.wipe n] = pics_in [n].
Proof.
  assert (Ap : forall n, pic_at (ParaIdSpec.wipe n) = pic_at n) by (intros []; reflexivity).
  exact (own_of_wipe pic_at Ap [n]).
Qed.
Lemma doc_parts_secs b d : doc_parts b d = TreeSpec.parts_of b (d_parts d) ++ flat_map (fun o => match o with Some ps => TreeSpec.parts_of b ps | None => [] end) (map sec_parts (d_body d)).
Proof. unfold doc_parts. f_equal. rewrite flat_map_map. apply flat_map_ext. now intros []. Qed.
Lemma parts_wiped b l : TreeSpec.parts_of b (map ParaIdSpec.wipe l) = map ParaIdSpec.wipe (TreeSpec.parts_of b l).
Proof.
  unfold TreeSpec.parts_of. induction l as [|n l IH]; [reflexivity|]. cbn [map filter]. rewrite IH.
  destruct n; try reflexivity. cbn [ParaIdSpec.wipe]. destruct s; cbn [negb]; destruct b; reflexivity.
Qed.
Lemma secs_wiped l : map sec_parts (map ParaIdSpec.wipe l) = map (option_map (map ParaIdSpec.wipe)) (map sec_parts l).
Proof. rewrite !map_map. apply map_ext. now intros []. Qed.
(** The pictures of the parts of two documents with the same parts but for paragraph ids. *)
Lemma same_part_pics b d d' : map ParaIdSpec.wipe (d_parts d) = map ParaIdSpec.wipe (d_parts d') ->
  map (option_map (map ParaIdSpec.wipe)) (map sec_parts (d_body d)) = map (option_map (map ParaIdSpec.wipe)) (map sec_parts (d_body d')) ->
  map (fun n => pics_in [n]) (doc_parts b d) = map (fun n => pics_in [n]) (doc_parts b d').
Proof.
  intros H1 H2. rewrite !doc_parts_secs. set (f := fun n => pics_in [n]).
  assert (W : forall l, map f (map ParaIdSpec.wipe l) = map f l) by (intros l; rewrite map_map; apply map_ext; intros n; apply pics_wiped).
  rewrite <- (W (TreeSpec.parts_of b (d_parts d) ++ _)), <- (W (TreeSpec.parts_of b (d_parts d') ++ _)). f_equal. rewrite !map_app, <- !parts_wiped, H1. f_equal.
  assert (F : forall l, map ParaIdSpec.wipe (flat_map (fun o => match o with Some ps => TreeSpec.parts_of b ps | None => [] end) l) =
                        flat_map (fun o => match o with Some ps => TreeSpec.parts_of b ps | None => [] end) (map (option_map (map ParaIdSpec.wipe)) l)).
  { intros l. rewrite map_flat, flat_map_map. apply flat_map_ext. intros [ps|]; [|reflexivity]. cbn [option_map]. symmetry. apply parts_wiped. }
  now rewrite !F, H2.
Qed.

(** ** What a saved document holds *)
Record holds (l : list api) (k : pkg) (c : collected) : Prop := {
  h_media : NoDup (map fst (c_media c));
  h_images : r_images (k_doc_rels k) = c_rels c;
  h_body : part_resolves (c_rels c) (c_media c) (pics_in (d_body (k_doc (calls l)))) (pics_in (d_body (k_doc k)));
  h_shape : map wipe_pic (pics_in (d_body (k_doc k))) = map wipe_pic (pics_in (d_body (k_doc (calls l))));
  h_names : forall P Q0 Q1 Q2 : string -> Prop, closed P -> closed Q0 -> closed Q1 -> closed Q2 ->
    Forall (fun x => named P Q0 (pic_id x)) (pics_in (d_body (k_doc (calls l)))) ->
    Forall (fun n => Forall (fun x => named P Q1 ("header" +++ pic_id x)) (pics_in [n])) (doc_parts true (k_doc (calls l))) ->
    Forall (fun n => Forall (fun x => named P Q2 ("footer" +++ pic_id x)) (pics_in [n])) (doc_parts false (k_doc (calls l))) ->
    Forall P (map fst (c_media c)) /\ Forall Q0 (map fst (c_rels c)) /\
    Forall (fun l => Forall Q1 (map fst l)) (c_header_rels c) /\ Forall (fun l => Forall Q2 (map fst l)) (c_footer_rels c);
  h_sides : forall h, exists mid, map (fun n => pics_in [n]) mid = map (fun n => pics_in [n]) (doc_parts h (k_doc (calls l))) /\
    parts_resolve (side_rels h c) (c_media c) mid (doc_parts h (k_doc k));
  h_parts : map bare (d_parts (k_doc k)) = map bare (d_parts (k_doc (calls l)));
  h_secs : map (option_map (map bare)) (map sec_parts (d_body (k_doc k))) = map (option_map (map bare)) (map sec_parts (d_body (k_doc (calls l)))) }.
Lemma Forall_pics (X : pic -> Prop) l l' : map (fun n => pics_in [n]) l = map (fun n => pics_in [n]) l' ->
  Forall (fun n => Forall X (pics_in [n])) l -> Forall (fun n => Forall X (pics_in [n])) l'.
Proof. intros E H. apply (proj2 (Forall_map (fun n => pics_in [n]) (Forall X) l)) in H. rewrite E in H. exact (proj1 (Forall_map _ _ _) H). Qed.
Lemma saved_holds l o k c es : saved l o k c es -> holds l k c.
Proof.
  intros (T & (crc & styles & ext & n & P) & _).
  destruct (prepare_shape _ _ _ _ _ _ _ _ (typed_document l T) P) as (d1 & d & comments & links & -> & _ & N & W & _ & Q & (body & n1 & has & X & Hb & Hp) & _).
  destruct (collect_package_ok crc d1 W) as (d2 & c2 & Q2 & _ & _ & R & Rh & Rf & Wb & Wq & _). rewrite Q in Q2. injection Q2 as <- <-.
  assert (Ep : pics_in (d_body d1) = pics_in (d_body (k_doc (calls l)))).
  { assert (Ap : forall n, pic_at (ParaIdSpec.wipe n) = pic_at n) by (intros []; reflexivity).
    change (own_of pic_at (d_body d1) = own_of pic_at (d_body (k_doc (calls l)))). rewrite <- (own_of_wipe _ Ap (d_body d1)), Hb, (own_of_wipe _ Ap).
    unfold own_of. eapply expand_of; [..|exact X]; intros; try split; reflexivity. }
  constructor; cbn [prepared set_types set_doc k_doc k_doc_rels r_images]; auto.
  - now rewrite <- Ep.
  - rewrite <- !pics_wipe, Wb, !pics_wipe. now rewrite Ep.
  - intros P0 Q0 Q1 Q2 C C0 C1 C2 H0 H1 H2. apply (collected_names crc P0 C Q0 Q1 Q2 d1 d c C0 C1 C2 W Q); [now rewrite Ep| |].
    + revert H1. apply Forall_pics. symmetry. apply same_part_pics; [exact Hp|]. rewrite <- !secs_wiped, Hb, !secs_wiped. f_equal. exact (expand_sections _ _ _ _ _ _ X).
    + revert H2. apply Forall_pics. symmetry. apply same_part_pics; [exact Hp|]. rewrite <- !secs_wiped, Hb, !secs_wiped. f_equal. exact (expand_sections _ _ _ _ _ _ X).
  - intros h. exists (doc_parts h d1). split.
    + apply same_part_pics; [exact Hp|]. rewrite <- !secs_wiped, Hb, !secs_wiped. f_equal. exact (expand_sections _ _ _ _ _ _ X).
    + destruct h; assumption.
  - unfold bare. rewrite <- !(map_map wipe_pics ParaIdSpec.wipe), Wq, !map_map. rewrite !(map_ext _ _ wipes_commute), <- !(map_map ParaIdSpec.wipe wipe_pics). now rewrite Hp.
  - assert (M1 : forall a b, map wipe_pics a = map wipe_pics b -> map bare a = map bare b).
    { intros a b H. unfold bare. rewrite <- !(map_map wipe_pics ParaIdSpec.wipe). now rewrite H. }
    assert (M2 : forall a b, map ParaIdSpec.wipe a = map ParaIdSpec.wipe b -> map bare a = map bare b).
    { intros a b H. unfold bare. rewrite !(map_ext _ _ wipes_commute). rewrite <- !(map_map ParaIdSpec.wipe wipe_pics). now rewrite H. }
    rewrite (bare_sections _ _ (M1 _ _ Wb)), (bare_sections _ _ (M2 _ _ Hb)). now rewrite (expand_sections _ _ _ _ _ _ X).
Qed.

Lemma sides_are d : headers d = doc_parts true d /\ footers d = doc_parts false d.
Proof.
  assert (H1 : forall l, filter is_header l = TreeSpec.parts_of true l) by (intros l; apply filter_ext; intros []; try reflexivity; destruct s; reflexivity).
  assert (H2 : forall l, filter is_footer l = TreeSpec.parts_of false l) by (intros l; apply filter_ext; intros []; try reflexivity; destruct s; reflexivity).
  split; unfold headers, footers, parts_where, doc_parts; rewrite ?H1, ?H2; f_equal; try (apply flat_map_ext; intros []; auto).
Qed.
Lemma names_found l k c : holds l k c -> names_plain l ->
  Forall plainly (map fst (c_media c)) /\ Forall plainly (map fst (c_rels c)) /\
  Forall (fun l => Forall (fun id => plainly id /\ starts_with "header" id = true) (map fst l)) (c_header_rels c) /\
  Forall (fun l => Forall (fun id => plainly id /\ starts_with "footer" id = true) (map fst l)) (c_footer_rels c).
Proof.
  intros H (N1 & N2). unfold parts_of in N2. destruct (sides_are (k_doc (calls l))) as [-> ->] in N2. apply Forall_app in N2 as [N2 N3].
  apply (h_names _ _ _ H).
  - apply plain_closed.
  - apply plain_closed.
  - intros id n [A B]. split; [now apply plain_closed|]. unfold suffixed. now apply PackRelsProofs.starts_with_app_more.
  - intros id n [A B]. split; [now apply plain_closed|]. unfold suffixed. now apply PackRelsProofs.starts_with_app_more.
  - revert N1. apply Forall_impl. intros p Hp. split; exact Hp.
  - revert N2. apply Forall_impl. intros n. apply Forall_impl. intros p Hp. assert (X : plainly ("header" +++ pic_id p)) by now apply prefix_plain. split; [exact X|]. now split.
  - revert N3. apply Forall_impl. intros n. apply Forall_impl. intros p Hp. assert (X : plainly ("footer" +++ pic_id p)) by now apply prefix_plain. split; [exact X|]. now split.
Qed.
Lemma body_first l k c : holds l k c -> Forall (fun p => starts_with "rIdImage" (pic_id p) = true) (pics_in (d_body (k_doc (calls l)))) ->
  Forall (fun id => starts_with "rIdImage" id = true) (map fst (c_rels c)).
Proof.
  intros H Hp. apply (h_names _ _ _ H (fun _ => True) (fun id => starts_with "rIdImage" id = true) (fun _ => True) (fun _ => True)); try (intros ? ? ?; exact I).
  - intros id n A. unfold suffixed. now apply PackRelsProofs.starts_with_app_more.
  - revert Hp. apply Forall_impl. intros p Hp. now split.
  - apply Forall_forall. intros n _. apply Forall_forall. intros p _. now split.
  - apply Forall_forall. intros n _. apply Forall_forall. intros p _. now split.
Qed.
(** The media file of an id. *)
Lemma media_read k o c s es s' : pack_docx k o c s = Some (es, s') -> NoDup (map fst (c_media c)) -> Forall plainly (map fst (c_media c)) ->
  forall target d, lookup target (media_files (c_media c)) = Some d ->
  seen target = target /\ read_zip (as_archive es) (join word target) = Some (without_bom d).
Proof.
  intros K N P target d H. assert (Hi : exists id, In (id, d) (c_media c) /\ target = media_target id).
  { revert H. induction (c_media c) as [|[i b] m IH]; [discriminate|]. cbn [media_files map lookup fst snd] in *. destruct (String.eqb_spec (media_target i) target) as [X|X].
    - unfold media_target in *. rewrite X, String.eqb_refl. intros H. injection H as ->. exists i. split; [now left|now symmetry].
    - unfold media_target in *. apply String.eqb_neq in X. rewrite X. intros H. inversion N; inversion P; subst. destruct IH as (id & Y1 & Y2); auto. exists id. split; [now right|exact Y2]. }
  destruct Hi as (id & Hi & ->). rewrite Forall_forall in P. assert (Pi : plainly id) by (apply P; now apply (in_map fst) in Hi).
  pose proof (media_seen id Pi) as Hs. destruct (media_path id Pi) as [H1 H2]. rewrite Hs in H1. split; [exact Hs|]. rewrite H1.
  apply (raw_file k o c s es s' K N); [|exact H2]. unfold stream_steps.
  enough (X : In (SRaw (media_name id) d) (map (fun m => SRaw (media_name (fst m)) (snd m)) (c_media c))).
  { destruct (c_media c) as [|m0 ms] eqn:Hm; [destruct Hi|]. rewrite <- Hm in *. unfold unless_nil. repeat (rewrite in_app_iff). rewrite Hm at 1. cbn [In]. tauto. }
  apply in_map_iff. now exists (id, d).
Qed.

Lemma part_target c k heads foots : heads_ok k c heads -> foots_ok k c foots -> forall sp x t, In t (pics sp heads foots x) ->
  exists rl im, In rl (side_rels (is_head x) c) /\ In im rl /\ t = image_target im.
Proof.
  intros [H1 H2] [F1 F2] sp x t Ht. unfold pics, table in Ht. destruct (ref_of sp x) as [r|]; [|destruct Ht].
  assert (G : forall (h : bool) l, (forall i, (i < (if h then r_headers (k_doc_rels k) else r_footers (k_doc_rels k)))%N -> right_entry k c h i l) ->
     (forall rid, (forall i, (i < (if h then r_headers (k_doc_rels k) else r_footers (k_doc_rels k)))%N -> rid <> side_rid h (i + 1)) -> part_by_id rid l = None) ->
     In t (match part_by_id (pr_id r) l with Some p => targets (snd p) (office_rel "image") | None => [] end) ->
     exists rl im, In rl (side_rels h c) /\ In im rl /\ t = image_target im).
  { intros h l A B I. set (m := if h then r_headers (k_doc_rels k) else r_footers (k_doc_rels k)) in *.
    destruct (List.find (fun i => (pr_id r =s side_rid h (i + 1))) (upto m)) as [i|] eqn:Hf.
    - apply find_some in Hf as [Hi He]. apply String.eqb_eq in He. apply PackOrderProofs.upto_in in Hi. specialize (A i Hi). unfold right_entry in A. rewrite He in I.
      destruct (nth_error (side_parts h (k_doc k)) (N.to_nat i)); [|rewrite A in I; destruct I]. destruct A as (rels & A1 & A2). rewrite A1 in I. cbn [snd] in I. rewrite A2 in I.
      apply set_of_in, in_map_iff in I as (im & <- & Him). exists (nth (N.to_nat i) (side_rels h c) []), im. repeat split; [|exact Him].
      apply nth_In. destruct (Nat.ltb_spec (N.to_nat i) (length (side_rels h c))) as [Y|Y]; [exact Y|]. rewrite nth_overflow in Him by exact Y. destruct Him.
    - rewrite B in I; [destruct I|]. intros i Hi X. pose proof (find_none _ _ Hf i) as Y. rewrite X, String.eqb_refl in Y. discriminate Y. now apply PackOrderProofs.upto_in. }
  destruct x; cbn [is_head] in *; first [apply (G true heads); assumption | apply (G false foots); assumption].
Qed.
Lemma starts_apart a b s : starts_with (String a "") s = true -> starts_with (String b "") s = true -> a = b.
Proof. intros H1 H2. apply starts_with_spec in H1 as (r & ->). apply starts_with_spec in H2 as (r' & H2). cbn [append] in H2. congruence. Qed.
Lemma starts_less a p s : starts_with (String a p) s = true -> starts_with (String a "") s = true.
Proof. intros H. apply starts_with_spec in H as (r & ->). apply starts_with_spec. exists (p +++ r). reflexivity. Qed.
Lemma cons_same {A} (x y : A) a b : x :: a = y :: b -> x = y /\ a = b.
Proof. intros H. now injection H. Qed.
Lemma body_images l o k c es png preview m op : saved l o k c es -> reopenable k o c -> opened_from k es png preview m op ->
  names_plain l -> links_hold (d_body (k_doc k)) -> Forall (image_lasts png preview) (pics_in (d_body (k_doc (calls l)))) ->
  Forall2 (comes_as (op_images op)) (pics_in (d_body (k_doc (calls l)))) (pics_in (d_body (k_doc (op_pkg op)))) /\
  (Forall (fun p => starts_with "rIdImage" (pic_id p) = true) (pics_in (d_body (k_doc (calls l)))) ->
   Forall2 (clearly_as (op_images op)) (pics_in (d_body (k_doc (calls l)))) (pics_in (d_body (k_doc (op_pkg op))))).
Proof.
  intros S Re O Hn Hl Hs. pose proof (saved_holds _ _ _ _ _ S) as H. destruct (names_found _ _ _ H Hn) as (N1 & N2 & N3 & N4).
  destruct (opened_back _ _ _ _ _ _ _ _ _ S Re O) as (heads & foots & Hh & Hf & B). unfold comes_back in B. cbv zeta in B.
  destruct B as (B1 & _ & _ & _ & _ & _ & _ & _ & _ & _ & _ & _ & B2 & _). rewrite B1, store_pics. clear B1.
  assert (E1 : pics_in (flat_map (reread InDocument) (d_body (k_doc k))) = map reread_pic (pics_in (d_body (k_doc k)))).
  { apply pics_each, Forall_forall. intros n Hi. destruct (re_body _ _ _ Re) as [K _]. rewrite forallb_forall in K. apply reread_pics; [now apply K|]. split; [now apply (links_hold_in (d_body (k_doc k)))|discriminate]. }
  rewrite E1. clear E1. destruct S as (T & _ & s & s' & K).
  assert (Hsh := h_shape _ _ _ H). destruct (h_body _ _ _ H) as [R1 R2].
  rewrite (h_images _ _ _ H) in B2.
  set (ts := flat_map (pics _ heads foots) all_slots) in *.
  assert (Ht : forall p q, In p (pics_in (d_body (k_doc (calls l)))) -> follow (c_rels c) (c_media c) (pic_id q) = Some (pic_image p) ->
    seen (pic_id q) = pic_id q /\ exists target, In (pic_id q, target) (c_rels c) /\ In (pic_id q, join word target, None) (set_of (map image_target (c_rels c))) /\
      read_zip (as_archive es) (join word target) = Some (without_bom (pic_image p))).
  { intros p q Hp Hq. unfold follow in Hq. destruct (lookup (pic_id q) (c_rels c)) as [target|] eqn:L; [|discriminate].
    assert (Li : In (pic_id q, target) (c_rels c)).
    { clear -L. induction (c_rels c) as [|[a b] r IH]; [discriminate|]. cbn [lookup] in L. destruct (String.eqb_spec a (pic_id q)) as [->|]; [injection L as ->; now left|right; auto]. }
    assert (Sq : seen (pic_id q) = pic_id q). { rewrite Forall_forall in N2. apply plain_is_seen, N2. now apply (in_map fst) in Li. }
    destruct (media_read _ _ _ _ _ _ K (h_media _ _ _ H) N1 _ _ Hq) as [M1 M2]. split; [exact Sq|]. exists target. split; [exact Li|]. split; [|exact M2].
    apply (Permutation_in (l := map image_target (c_rels c))).
    - symmetry. apply set_of_perm. rewrite map_map. cbn [image_target fst].
      rewrite (map_ext_in _ fst); [exact R1|]. intros x Hx. apply plain_is_seen. rewrite Forall_forall in N2. apply N2, in_map, Hx.
    - apply in_map_iff. exists (pic_id q, target). split; [|exact Li]. unfold image_target. cbn [fst snd]. now rewrite Sq, M1. }
  assert (C : Forall2 (fun p q => comes_as (op_images op) p q /\ (Forall (fun p => starts_with "rIdImage" (pic_id p) = true) (pics_in (d_body (k_doc (calls l)))) ->
              clearly_as (op_images op) p q)) (pics_in (d_body (k_doc (calls l)))) (map reread_pic (pics_in (d_body (k_doc k))))).
  { assert (G : forall a b, incl a (pics_in (d_body (k_doc (calls l)))) -> Forall2 (fun p p' => follow (c_rels c) (c_media c) (pic_id p') = Some (pic_image p)) a b -> map wipe_pic b = map wipe_pic a ->
              Forall2 (fun p q => comes_as (op_images op) p q /\ (Forall (fun p => starts_with "rIdImage" (pic_id p) = true) (pics_in (d_body (k_doc (calls l)))) ->
              clearly_as (op_images op) p q)) a (map reread_pic b)).
    { intros a b Hi F. induction F as [|p q a b Hq F IH]; intros W; cbn [map]; constructor.
      - cbn [map] in W. apply cons_same in W as [W _]. destruct (Ht p q (Hi p (or_introl eq_refl)) Hq) as (Sq & target & T1 & T2 & T3).
        assert (Cm : comes_as (op_images op) p (reread_pic q)).
        { split.
          - change (wipe_pic (reread_pic (wipe_pic q)) = wipe_pic (reread_pic (wipe_pic p))). now rewrite W.
          - rewrite B2. change (pic_id (reread_pic q)) with (seen (pic_id q)). rewrite Sq. apply (add_images_in png preview (as_archive es) _ _ (join word target) None); auto.
            + apply in_app_iff. now right.
            + rewrite Forall_forall in Hs. exact (Hs p (Hi p (or_introl eq_refl))). }
        split; [exact Cm|]. intros Hp. split; [exact Cm|]. intros im Him Hid. rewrite B2 in Him. apply add_images_only in Him as [[]|(path & mo & I1 & I2)].
        change (pic_id (reread_pic q)) with (seen (pic_id q)) in Hid. rewrite Sq in Hid. rewrite Hid in I1.
        pose proof (body_first _ _ _ H Hp) as Hb. rewrite Forall_forall in Hb. pose proof (Hb _ (in_map fst _ _ T1)) as Hq1. cbn [fst] in Hq1.
        apply in_app_iff in I1 as [I1|I1].
        + exfalso. apply in_flat_map in I1 as (x & _ & I1). apply (part_target c k heads foots Hh Hf) in I1 as (rl & i & J1 & J2 & J3). unfold image_target in J3. injection J3 as J3 _ _.
          assert (Y : plainly (fst i) /\ (starts_with "h" (fst i) = true \/ starts_with "f" (fst i) = true)).
          { assert (Y1 : In rl (c_header_rels c) -> plainly (fst i) /\ starts_with "h" (fst i) = true).
            { intros J. rewrite Forall_forall in N3. specialize (N3 _ J). rewrite Forall_forall in N3. destruct (N3 _ (in_map fst _ _ J2)) as [Z1 Z]. split; [exact Z1|exact (starts_less _ _ _ Z)]. }
            assert (Y2 : In rl (c_footer_rels c) -> plainly (fst i) /\ starts_with "f" (fst i) = true).
            { intros J. rewrite Forall_forall in N4. specialize (N4 _ J). rewrite Forall_forall in N4. destruct (N4 _ (in_map fst _ _ J2)) as [Z1 Z]. split; [exact Z1|exact (starts_less _ _ _ Z)]. }
            destruct x; cbn [is_head side_rels] in J1; first [destruct (Y1 J1) | destruct (Y2 J1)]; auto. }
          destruct Y as [Y1 Y2]. rewrite (plain_is_seen _ Y1) in J3. rewrite <- J3 in Y2. apply starts_less in Hq1. destruct Y2 as [Y2|Y2]; pose proof (starts_apart _ _ _ Hq1 Y2) as Z; discriminate Z.
        + apply set_of_in, in_map_iff in I1 as (i & J1 & J2). unfold image_target in J1. injection J1 as J1 J3 _. rewrite Forall_forall in N2.
          rewrite (plain_is_seen (fst i)) in J1 by (apply N2, in_map, J2).
          assert (i = (pic_id q, target)) as ->.
          { clear -R1 T1 J2 J1. induction (c_rels c) as [|z r IH]; [destruct J2|]. cbn [map] in R1. inversion R1 as [|? ? X1 X2]; subst. destruct T1 as [->|T1], J2 as [->|J2]; [reflexivity| | |now apply IH].
            - exfalso. apply X1. cbn [fst]. rewrite <- J1. now apply in_map.
            - exfalso. apply X1. rewrite J1. now apply (in_map fst) in T1. }
          cbn [snd] in J3. destruct (media_read _ _ _ _ _ _ K (h_media _ _ _ H) N1 target (pic_image p)) as [M1 _].
          { unfold follow in Hq. now rewrite (MediaProofs.lookup_nodup _ _ _ R1 T1) in Hq. }
          rewrite M1 in J3. rewrite J3, I2 in T3. now injection T3.
      - apply IH; [intros x Hx; apply Hi; now right|]. cbn [map] in W. now apply cons_same in W as [_ W]. }
    apply G; [apply incl_refl|exact R2|exact Hsh]. }
  split; [eapply Forall2_impl; [|exact C]; intros p q X; exact (proj1 X)|]. intros Hp. eapply Forall2_impl; [|exact C]. intros p q X. now apply X.
Qed.

(** ** The pictures of headers and footers *)
Lemma no_sections_here k o c : reopenable k o c -> map sec_parts (d_body (k_doc k)) = map (fun _ => None) (d_body (k_doc k)).
Proof.
  intros Re. destruct (re_body _ _ _ Re) as [K _]. apply map_ext_in. intros n Hn. rewrite forallb_forall in K. specialize (K n Hn). now destruct n.
Qed.
Lemma sections_none (f : list node -> list node) d d' : map (option_map f) (map sec_parts (d_body d)) = map (option_map f) (map sec_parts (d_body d')) ->
  map sec_parts (d_body d) = map (fun _ => None) (d_body d) -> forall h, doc_parts h d' = TreeSpec.parts_of h (d_parts d') /\ doc_parts h d = TreeSpec.parts_of h (d_parts d).
Proof.
  intros H1 H2 h. rewrite !doc_parts_secs, H2.
  assert (F : forall {A} (l : list A), flat_map (fun o => match o with Some ps => TreeSpec.parts_of h ps | None => [] end) (map (fun _ => None) l) = []) by (intros A l; induction l; auto).
  rewrite F, app_nil_r. split; [|reflexivity]. rewrite H2 in H1.
  enough (E : map sec_parts (d_body d') = map (fun _ => None) (d_body d')) by (rewrite E, F; apply app_nil_r).
  revert H1. generalize (d_body d), (d_body d'). induction l as [|a l IH]; intros [|b l'] H; try discriminate H; [reflexivity|]. cbn [map option_map] in *. apply cons_same in H as [H3 H4].
  rewrite (IH _ H4). now destruct (sec_parts b).
Qed.
Lemma bare_filter h l l' : map bare l = map bare l' -> map bare (TreeSpec.parts_of h l) = map bare (TreeSpec.parts_of h l').
Proof.
  unfold TreeSpec.parts_of. set (w := fun n : node => _). assert (W : forall n, w (bare n) = w n) by (intros []; reflexivity).
  revert l'. induction l as [|a l IH]; intros [|b l'] H; try discriminate H; [reflexivity|]. cbn [map filter] in *. apply cons_same in H as [H1 H2].
  rewrite <- (W a), <- (W b), H1. destruct (w (bare b)); cbn [map]; rewrite ?H1, (IH _ H2); reflexivity.
Qed.
Lemma resolve_nth rels media old new i n : parts_resolve rels media old new -> nth_error new i = Some n ->
  exists m, nth_error old i = Some m /\ part_resolves (nth i rels []) media (pics_in [m]) (pics_in [n]).
Proof.
  intros (L1 & F & L2) Hn. revert rels old F L1 L2 i Hn. induction new as [|b new IH]; intros rels old F L1 L2 i Hn; [now destruct i|].
  destruct old as [|a old]; [discriminate L1|]. destruct rels as [|r rels]; [discriminate L2|]. cbn [combine] in F. inversion F as [|? ? ? ? F1 F2]; subst. cbn [length] in *.
  destruct i as [|i]; cbn [nth_error nth] in *; [injection Hn as <-; exists a; now split|]. apply (IH rels old F2); auto.
Qed.
Lemma nth_same {A B} (f : A -> B) l l' i a : map f l = map f l' -> nth_error l i = Some a -> exists b, nth_error l' i = Some b /\ f a = f b.
Proof.
  intros H Ha. pose proof (map_nth_error f _ _ Ha) as X. rewrite H in X. destruct (nth_error l' i) as [b|] eqn:Hb.
  - exists b. split; [reflexivity|]. rewrite (map_nth_error f _ _ Hb) in X. congruence.
  - apply nth_error_None in Hb. rewrite (proj2 (nth_error_None _ _)) in X by (now rewrite map_length). discriminate.
Qed.
Lemma come_along k o c s es s' png preview rels ts images : pack_docx k o c s = Some (es, s') -> NoDup (map fst (c_media c)) -> Forall plainly (map fst (c_media c)) ->
  NoDup (map fst rels) -> Forall plainly (map fst rels) -> incl (set_of (map image_target rels)) ts -> images = add_images png preview (as_archive es) ts [] ->
  forall a b, Forall2 (fun p p' => follow rels (c_media c) (pic_id p') = Some (pic_image p)) a b -> map wipe_pic b = map wipe_pic a -> Forall (image_lasts png preview) a ->
  Forall2 (comes_as images) a (map reread_pic b).
Proof.
  intros K Nm Pm Nr Pr It -> a b F. induction F as [|p q a b Hq F IH]; intros W Hs; cbn [map] in *; constructor; apply cons_same in W as [W W']; inversion Hs as [|? ? Hs1 Hs2]; subst; [|now apply IH].
  unfold follow in Hq. destruct (lookup (pic_id q) rels) as [target|] eqn:L; [|discriminate].
  assert (Li : In (pic_id q, target) rels).
  { clear -L. induction rels as [|[a b] r IH]; [discriminate|]. cbn [lookup] in L. destruct (String.eqb_spec a (pic_id q)) as [->|]; [injection L as ->; now left|right; auto]. }
  assert (Sq : seen (pic_id q) = pic_id q). { rewrite Forall_forall in Pr. apply plain_is_seen, Pr. now apply (in_map fst) in Li. }
  destruct (media_read _ _ _ _ _ _ K Nm Pm _ _ Hq) as [M1 M2]. split.
  - change (wipe_pic (reread_pic (wipe_pic q)) = wipe_pic (reread_pic (wipe_pic p))). now rewrite W.
  - change (pic_id (reread_pic q)) with (seen (pic_id q)). rewrite Sq. apply (add_images_in png preview (as_archive es) _ _ (join word target) None); auto.
    apply It, (Permutation_in (l := map image_target rels)).
    + symmetry. apply set_of_perm. rewrite map_map. cbn [image_target fst].
      rewrite (map_ext_in _ fst); [exact Nr|]. intros x Hx. apply plain_is_seen. rewrite Forall_forall in Pr. apply Pr, in_map, Hx.
    + apply in_map_iff. exists (pic_id q, target). split; [|exact Li]. unfold image_target. cbn [fst snd]. now rewrite Sq, M1.
Qed.
Lemma part_images l o k c es png preview m op : saved l o k c es -> reopenable k o c -> opened_from k es png preview m op ->
  names_plain l -> Forall (fun n => links_hold (part_content n)) (parts_of (k_doc k)) -> in_order l ->
  forall x given, intended l 0 x = Some given -> Forall (image_lasts png preview) (pics_in (snd given)) ->
  exists rid nb ch, part_at (k_doc (op_pkg op)) 0 x = Some (NPart x rid nb ch) /\ Forall2 (comes_as (op_images op)) (pics_in (snd given)) (pics_in ch).
Proof.
  intros S Re O Hn Hl Ord x given Hg Hs. pose proof (saved_holds _ _ _ _ _ S) as H. destruct (names_found _ _ _ H Hn) as (N1 & N2 & N3 & N4).
  pose proof (part_back _ _ _ _ _ _ _ _ _ S Re O x) as B.
  destruct (opened_back _ _ _ _ _ _ _ _ _ S Re O) as (heads & foots & Hh & Hf & C). unfold comes_back in C. cbv zeta in C.
  destruct C as (_ & _ & _ & _ & _ & _ & _ & _ & _ & _ & _ & _ & B2 & _).
  destruct (saved_refs _ _ _ _ _ S) as [R1 R2].
  destruct S as (T & (crc & styles & ext & n0 & P) & s & s' & K).
  destruct (proj1 (parts_shown_proof _ _ _ _ _ _ _ _ T P) Ord 0 x) as (p & rid & name & n & H1 & H2 & H3 & H4 & H5); [congruence|].
  cbn [property_at] in H1. injection H1 as <-. rewrite H2 in B. cbn [pr_id] in B. destruct B as [B _]. specialize (B _ _ H3 H5). cbn zeta in B.
  set (ch := flat_map (reread InPart) (part_content n)) in *. exists rid, (part_flag ch), ch. split; [exact B|].
  pose proof H3 as H3'. apply PackOrderProofs.leads_side in H3 as (i & Hi & Hrid & ->). apply PackOrderProofs.side_file in H5. set (h := is_head x) in *.
  assert (Sp : forall d, side_parts h d = doc_parts h d) by (intros d; unfold side_parts; destruct (sides_are d) as [-> ->]; now destruct h).
  (* the part that was given *)
  assert (Hm : exists r nb, nth_error (doc_parts h (k_doc (calls l))) i = Some (NPart x r nb (snd given)) /\ bare n = bare (NPart x r nb (snd given))).
  { destruct (sections_none (map bare) _ _ (h_secs _ _ _ H) (no_sections_here _ _ _ Re) h) as [D1 D2]. rewrite D1. rewrite Sp, D2 in H5.
    destruct (nth_same bare _ _ _ _ (bare_filter h _ _ (h_parts _ _ _ H)) H5) as (q & Hq & Eq).
    assert (Hx : has_slot x n = true) by (unfold part_at in H4; apply find_some in H4; tauto).
    assert (Hy : has_slot x q = true).
    { assert (W : forall a, has_slot x (bare a) = has_slot x a) by (intros []; reflexivity). now rewrite <- W, <- Eq, W. }
    pose proof (nth_error_In _ _ Hq) as Iq. unfold TreeSpec.parts_of in Iq. apply filter_In in Iq as [Iq _].
    pose proof (PackOrderProofs.ranked_find _ _ x (PackOrderProofs.all_ranked l (typed_keeps l T) 0) Iq Hy) as Fq.
    pose proof (PackOrderProofs.held l (typed_keeps l T) 0 x) as Hd. unfold part_at in Hd. rewrite Fq, Hg in Hd. cbn [option_map] in Hd.
    destruct q; try discriminate Hy. injection Hd as Hd. cbn [has_slot] in Hy. apply PackOrderProofs.slot_eqb_spec in Hy as ->. exists rid0, numbering. rewrite Hq, <- Hd. now split. }
  destruct Hm as (r0 & nb0 & Hm & Hbare).
  assert (Hx : has_slot x n = true) by (unfold part_at in H4; apply find_some in H4; tauto).
  assert (Hc : pics_in ch = map reread_pic (pics_in (part_content n))).
  { assert (Hin : In n (parts_of (k_doc k))).
    { apply nth_error_In in H5. unfold parts_of. apply in_app_iff. unfold side_parts in H5. destruct h; auto. }
    pose proof (re_parts _ _ _ Re) as Rp. rewrite Forall_forall in Rp, Hl. destruct (Rp _ Hin) as [K1 _]. specialize (Hl _ Hin).
    unfold ch. apply pics_each, Forall_forall. intros q Hq. rewrite forallb_forall in K1. apply reread_pics; [now apply K1|]. split; [now apply (links_hold_in (part_content n))|discriminate]. }
  rewrite Hc. destruct n; try discriminate Hx. cbn [part_content] in *.
  destruct (h_sides _ _ _ H h) as (mid & M1 & M2). rewrite Sp in H5. destruct (resolve_nth _ _ _ _ _ _ M2 H5) as (q & Q1 & Q2 & Q3).
  destruct (nth_same _ _ _ _ _ (eq_sym M1) Hm) as (q' & Q1' & Q4). rewrite Q1 in Q1'. injection Q1' as <-. rewrite <- Q4 in Q3.
  rewrite (pics_node (NPart x r0 nb0 (snd given)) I), (pics_node (NPart s0 rid0 numbering ch0) I) in Q3. cbn [children] in Q3.
  assert (Hw : map wipe_pic (pics_in ch0) = map wipe_pic (pics_in (snd given))).
  { apply (f_equal (fun a => pics_in [a])) in Hbare. unfold bare in Hbare. rewrite !pics_wiped in Hbare. change [wipe_pics ?a] with (map wipe_pics [a]) in Hbare. 
    rewrite (pics_wipe [NPart s0 rid0 numbering ch0]), (pics_wipe [NPart x r0 nb0 (snd given)]), !pics_node in Hbare by exact I. exact Hbare. }
  assert (Pl : Forall plainly (map fst (nth i (side_rels h c) []))).
  { destruct (nth_in_or_default i (side_rels h c) []) as [X| ->]; [|constructor]. unfold side_rels in X at 2. destruct h; [rewrite Forall_forall in N3; specialize (N3 _ X)|rewrite Forall_forall in N4; specialize (N4 _ X)];
      (eapply Forall_impl; [|eassumption]; cbn beta; tauto). }
  refine (come_along _ _ _ _ _ _ png preview (nth i (side_rels h c) []) _ _ K (h_media _ _ _ H) N1 Q2 Pl _ B2 _ _ Q3 Hw Hs).
  intros t Ht. apply in_app_iff. left. apply in_flat_map. exists x. split; [destruct x; cbn; tauto|]. unfold pics. rewrite (refs_same _ R1 R2), H2. cbn [pr_id].
  assert (Re' : right_entry k c h (N.of_nat i) (table heads foots x)).
  { unfold table. fold h. destruct Hh as [X _], Hf as [Y _]. destruct h; [apply X|apply Y]; exact Hi. }
  unfold right_entry in Re'. rewrite Nat2N.id, Sp, H5 in Re'. destruct Re' as (rr & E1 & E2). rewrite Hrid, E1. cbn [snd]. rewrite E2. exact Ht.
Qed.


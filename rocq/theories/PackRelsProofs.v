(** Ids of the relationships of the main part; content types. *)
From Coq Require Import NArith List Bool Lia.
From Verif Require Import Str StrFacts ListFacts Props Ast Pass PassFacts MediaModel MediaProofs TreeModel TreeSpec TreeProofs PackModel PackSpec PackProofs.
Import ListNotations.

(** ** Relationship ids *)
Definition plain_rid (n : N) : string := "rId" +++ show_N n.
(** The ids the writer gives by itself. *)
Definition reserved (id : string) : Prop := exists n, id = plain_rid n \/ id = header_rid n \/ id = footer_rid n.

Lemma plain_rid_inj a b : plain_rid a = plain_rid b -> a = b.
Proof. unfold plain_rid. intros H. apply append_inj_l in H. now apply show_N_inj. Qed.
Lemma header_rid_inj a b : header_rid a = header_rid b -> a = b.
Proof. unfold header_rid. intros H. apply append_inj_l in H. now apply show_N_inj. Qed.
Lemma footer_rid_inj a b : footer_rid a = footer_rid b -> a = b.
Proof. unfold footer_rid. intros H. apply append_inj_l in H. now apply show_N_inj. Qed.
Lemma plain_not c r n : is_digit c = false -> plain_rid n <> "rId" +++ String c r.
Proof.
  intros D E. unfold plain_rid in E. apply append_inj_l in E. pose proof (show_N_digits n) as A.
  rewrite E in A. cbn in A. rewrite D in A. discriminate.
Qed.
Lemma plain_not_header n m : plain_rid n <> header_rid m. Proof. apply plain_not. reflexivity. Qed.
Lemma plain_not_footer n m : plain_rid n <> footer_rid m. Proof. apply plain_not. reflexivity. Qed.
Lemma header_not_footer n m : header_rid n <> footer_rid m. Proof. discriminate. Qed.

Definition fixed_nums (r : doc_rels) : list N :=
  ([1; 2; 3; 5] ++ (if r_comments r then [6] else []) ++ (if r_numberings r then [7] else []) ++ (if r_footnotes r then [8] else []))%N.
Definition custom_nums (r : doc_rels) : list N := map (fun i => i + 8)%N (upto (r_custom r)).
Definition given_ids (r : doc_rels) : list string := map fst (r_images r) ++ map (fun l => fst (fst l)) (r_links r).
Lemma written_ids r : map rel_id (written_rels r) =
  map plain_rid (fixed_nums r) ++ map (fun i => header_rid (i + 1)) (upto (r_headers r)) ++
  map (fun i => footer_rid (i + 1)) (upto (r_footers r)) ++ map plain_rid (custom_nums r) ++ given_ids r.
Proof.
  unfold written_rels, fixed_nums, custom_nums, given_ids. rewrite !map_app, !map_map. cbn [rel_id mk_rel].
  destruct (r_comments r), (r_numberings r), (r_footnotes r); reflexivity.
Qed.
Lemma upto_nodup n : NoDup (upto n).
Proof. unfold upto. apply NoDup_map_in; [intros; lia|apply seq_NoDup]. Qed.
Lemma upto_in n i : In i (upto n) <-> (i < n)%N.
Proof.
  unfold upto. rewrite in_map_iff. split.
  - intros (x & <- & H). apply in_seq in H. lia.
  - intros H. exists (N.to_nat i). split; [lia|]. apply in_seq. lia.
Qed.

Lemma ids_unique r : (forall id, In id (given_ids r) -> ~ reserved id) -> NoDup (given_ids r) ->
  (NoDup (map rel_id (written_rels r)) <-> (r_footnotes r = true -> r_custom r = 0%N)).
Proof.
  intros Hr Hg. rewrite written_ids. split.
  - intros H F. destruct (N.eq_dec (r_custom r) 0) as [E|E]; [exact E|exfalso].
    apply NoDup_app_elim in H. destruct H as (_ & _ & D). apply (D (plain_rid 8)).
    + apply in_map. unfold fixed_nums. rewrite F. rewrite !in_app_iff. cbn. auto.
    + rewrite !in_app_iff. right. right. left. apply in_map. unfold custom_nums. apply in_map_iff. exists 0%N. split; [reflexivity|]. apply upto_in. lia.
  - intros H.
    assert (F : forall n, In n (fixed_nums r) -> (n < 8)%N \/ n = 8%N /\ r_footnotes r = true).
    { intros n Hn. unfold fixed_nums in Hn. rewrite !in_app_iff in Hn.
      destruct (r_comments r), (r_numberings r), (r_footnotes r); cbn in Hn;
        repeat match type of Hn with _ \/ _ => destruct Hn as [Hn|Hn] end; subst; try contradiction; auto; left; reflexivity. }
    apply NoDup_app_intro; [| |].
    { apply NoDup_map_in; [intros a b _ _; apply plain_rid_inj|]. unfold fixed_nums.
      destruct (r_comments r), (r_numberings r), (r_footnotes r); cbn; repeat (constructor; [cbn; intuition discriminate|]); constructor. }
    { apply NoDup_app_intro; [apply NoDup_map_in; [intros a b _ _ E; apply header_rid_inj in E; lia|apply upto_nodup]| |].
      - apply NoDup_app_intro; [apply NoDup_map_in; [intros a b _ _ E; apply footer_rid_inj in E; lia|apply upto_nodup]| |].
        + apply NoDup_app_intro; [|exact Hg|].
          * apply NoDup_map_in; [intros a b _ _; apply plain_rid_inj|]. unfold custom_nums.
            apply NoDup_map_in; [intros; lia|apply upto_nodup].
          * intros x Hx Hy. apply in_map_iff in Hx. destruct Hx as (n & <- & _). apply (Hr _ Hy). exists n. auto.
        + intros x Hx Hy. apply in_map_iff in Hx. destruct Hx as (n & <- & _). apply in_app_iff in Hy. destruct Hy as [Hy|Hy].
          * apply in_map_iff in Hy. destruct Hy as (m & E & _). exact (plain_not_footer _ _ E).
          * apply (Hr _ Hy). eexists. eauto.
      - intros x Hx Hy. apply in_map_iff in Hx. destruct Hx as (n & <- & _). rewrite !in_app_iff in Hy. destruct Hy as [Hy|[Hy|Hy]].
        + apply in_map_iff in Hy. destruct Hy as (m & E & _). discriminate E.
        + apply in_map_iff in Hy. destruct Hy as (m & E & _). exact (plain_not_header _ _ E).
        + apply (Hr _ Hy). eexists. eauto. }
    intros x Hx Hy. apply in_map_iff in Hx. destruct Hx as (n & <- & Hn). rewrite !in_app_iff in Hy. destruct Hy as [Hy|[Hy|[Hy|Hy]]].
    + apply in_map_iff in Hy. destruct Hy as (m & E & _). exact (plain_not_header _ _ (eq_sym E)).
    + apply in_map_iff in Hy. destruct Hy as (m & E & _). exact (plain_not_footer _ _ (eq_sym E)).
    + apply in_map_iff in Hy. destruct Hy as (m & E & Hm). apply plain_rid_inj in E. subst m.
      unfold custom_nums in Hm. apply in_map_iff in Hm. destruct Hm as (i & <- & Hi). apply upto_in in Hi.
      destruct (F _ Hn) as [L|[L Hf]]; [lia|]. rewrite (H Hf) in Hi. lia.
    + apply (Hr _ Hy). eexists. eauto.
Qed.
Lemma ids_unique_only_if r : NoDup (map rel_id (written_rels r)) -> NoDup (given_ids r).
Proof. rewrite written_ids. intros H. do 4 (apply NoDup_app_elim in H; destruct H as (_ & H & _)). exact H. Qed.

(** Generated ids are not reserved. *)
Lemma image_not_reserved id : starts_with "rIdImage" id = true -> ~ reserved id.
Proof.
  intros H (n & E). apply starts_with_spec in H. destruct H as (s & ->).
  destruct E as [E|[E|E]]; try discriminate E. exact (plain_not "I"%char ("mage" +++ s) n eq_refl (eq_sym E)).
Qed.
Lemma link_not_reserved id : starts_with "rIdHyperlink" id = true -> ~ reserved id.
Proof.
  intros H (n & E). apply starts_with_spec in H. destruct H as (s & ->).
  destruct E as [E|[E|E]]; try discriminate E. exact (plain_not "H"%char ("yperlink" +++ s) n eq_refl (eq_sym E)).
Qed.

(** ** Ids of picture relationships begin as the ids of the pictures. *)
Lemma starts_with_app_more p a b : starts_with p a = true -> starts_with p (a +++ b) = true.
Proof. intros H. apply starts_with_spec in H. destruct H as (r & ->). rewrite append_assoc. apply starts_with_spec. eauto. Qed.
Lemma search_suffix_prefix fuel used id : forall n c m, search_suffix fuel used id n = Some (c, m) -> exists k, c = suffixed id k.
Proof.
  induction fuel as [|fuel IH]; intros n c m H; [discriminate|]. cbn in H.
  destruct (used (suffixed id n)); [eapply IH, H|]. injection H as <- _. eauto.
Qed.
Lemma unique_id_prefix p used n s id c s' : unique_id used n s id = Some (c, s') -> starts_with p id = true -> starts_with p c = true.
Proof.
  unfold unique_id. destruct (used id); [|intros H; injection H as <- _; auto].
  destruct (search_suffix _ _ _ _) as [[x m]|] eqn:E; [|discriminate]. intros H. injection H as <- _. intros Hp.
  apply search_suffix_prefix in E. destruct E as (k & ->). unfold suffixed. now apply starts_with_app_more.
Qed.
Lemma on_item_prefix crc p l : forall s l' s', pass (on_item crc None) l s = Some (l', s') ->
  Forall (fun x => starts_with p (pic_id x) = true) (item_pics l) ->
  Forall (fun id => starts_with p id = true) (map fst (rels (ps_collector s))) ->
  Forall (fun id => starts_with p id = true) (map fst (rels (ps_collector s'))).
Proof.
  induction l as [|[x|id c] l IH]; intros s l' s' E Hl Hs; cbn [pass on_item] in E.
  - injection E as _ <-. exact Hs.
  - unfold on_picture, visit_picture in E. cbn [item_pics flat_map app] in Hl. inversion Hl as [|? ? Hx Hl']; subst.
    destruct (register crc (ps_registry s) (preferred_rel_id None (pic_id x)) (pic_image x)) as [[mi r']|]; [|discriminate].
    destruct (get_nat mi (rel_of_media (ps_collector s))).
    + cbn [then_] in E. destruct (pass (on_item crc None) l _) as [[l2 s2]|] eqn:E2; [|discriminate]. injection E as _ <-.
      eapply IH; [exact E2|exact Hl'|exact Hs].
    + destruct (unique_id _ _ _ _) as [[rid suf]|] eqn:U; [|discriminate]. cbn [then_] in E.
      destruct (pass (on_item crc None) l _) as [[l2 s2]|] eqn:E2; [|discriminate]. injection E as _ <-.
      eapply IH; [exact E2|exact Hl'|]. cbn [ps_collector rels]. rewrite map_app. apply Forall_app. split; [exact Hs|].
      constructor; [|constructor]. cbn [fst]. eapply unique_id_prefix; [exact U|exact Hx].
  - destruct (pass (on_item crc None) l _) as [[l2 s2]|] eqn:E2; [|discriminate]. injection E as _ <-.
    eapply IH; [exact E2|exact Hl|exact Hs].
Qed.
Lemma collected_ids_prefix crc p d d' c : doc_well_formed d -> collect_package crc d = Some (d', c) ->
  Forall (fun x => starts_with p (pic_id x) = true) (pics_in (d_body d)) ->
  Forall (fun id => starts_with p id = true) (map fst (c_rels c)).
Proof.
  intros (W1 & W2 & W3 & W4 & W5) E Hp. unfold collect_package in E.
  assert (Hb : Forall own_ok (d_body d)).
  { unfold doc_roots in W5. apply Forall_app in W5. destruct W5 as [W5 _]. eapply Forall_impl; [|exact W5]. apply well_formed_own. }
  pose proof (visit_body_tracks crc None (d_body d) (start_part empty_registry)) as T.
  rewrite (visited_body _ W1 Hb) in T.
  destruct (visit_body crc None (d_body d) (start_part empty_registry)) as [[body s1]|]; [|discriminate].
  destruct T as [P _].
  destruct (on_parts is_header _ _ _) as [[d2 [r2 h]]|]; [|discriminate].
  destruct (on_parts is_footer _ _ _) as [[d3 [r3 f]]|]; [|discriminate]. injection E as _ <-. cbn [c_rels].
  eapply on_item_prefix; [exact P| |constructor]. now rewrite own_items_pics.
Qed.

(** ** Content types *)
Lemma compare_same s : String.compare s s = Eq.
Proof.
  induction s as [|a s IH]; [reflexivity|]. cbn [String.compare]. unfold Ascii.compare. rewrite N.compare_refl. exact IH.
Qed.
Lemma assoc_insert k v m k' : assoc k' (bt_insert k v m) = if k =s k' then Some v else assoc k' m.
Proof.
  induction m as [|[x y] m IH]; cbn [bt_insert assoc]; [reflexivity|].
  destruct (String.compare k x) eqn:C; cbn [assoc].
  - apply String.compare_eq_iff in C. subst x. destruct (k =s k'); reflexivity.
  - reflexivity.
  - rewrite IH. destruct (String.eqb_spec x k') as [->|N]; [|reflexivity].
    destruct (String.eqb_spec k k') as [->|N]; [|reflexivity]. rewrite compare_same in C. discriminate.
Qed.

Definition key_prefixes : list (string * nat) :=
  [("/word/header", 1); ("/word/footer", 2); ("/word/webextensions/webextension", 3); ("/word/webextensions/taskpanes.xml", 4);
   ("/customXml/itemProps", 5); ("/word/footnotes.xml", 6)].
Definition tag (key : string) : nat := group_in key_prefixes key.
Lemma assoc_other k v m k' : tag k <> tag k' -> assoc k' (bt_insert k v m) = assoc k' m.
Proof. intros H. rewrite assoc_insert. destruct (String.eqb_spec k k') as [->|_]; [contradiction|reflexivity]. Qed.

Definition header_key (n : N) := "/word/header" +++ show_N n +++ ".xml".
Definition footer_key (n : N) := "/word/footer" +++ show_N n +++ ".xml".
Definition web_key (n : N) := "/word/webextensions/webextension" +++ show_N n +++ ".xml".
Definition props_key (n : N) := "/customXml/itemProps" +++ show_N n +++ ".xml".
Lemma key_inj a b n m : a +++ show_N n +++ b = a +++ show_N m +++ b -> n = m.
Proof. intros H. apply append_inj_l in H. apply append_inj_r in H. now apply show_N_inj. Qed.

Definition t_ext := "application/vnd.ms-office.webextension+xml".
Definition t_props := "application/vnd.openxmlformats-officedocument.customXmlProperties+xml".
Record tinv (t : types) (web : nat) (panes : bool) (custom : list nat) : Prop := {
  j_default : forall key, tag key = 0 -> assoc key (t_map t) = assoc key default_types;
  j_header : forall n, (0 < n <= t_header t)%N -> assoc (header_key n) (t_map t) = Some (ct_wml "header");
  j_footer : forall n, (0 < n <= t_footer t)%N -> assoc (footer_key n) (t_map t) = Some (ct_wml "footer");
  j_count : t_web t = (N.of_nat web + 1)%N;
  j_web : forall i, i < web -> assoc (web_key (N.of_nat i + 1)) (t_map t) = Some t_ext;
  j_panes : panes = true -> assoc "/word/webextensions/taskpanes.xml" (t_map t) = Some "application/vnd.ms-office.webextensiontaskpanes+xml";
  j_props : forall i, assoc (props_key (N.of_nat i + 1)) (t_map t) = if existsb (Nat.eqb i) custom then Some t_props else None;
  j_notes : assoc "/word/footnotes.xml" (t_map t) = None }.

Lemma tag_default : Forall (fun kv => tag (fst kv) = 0) default_types.
Proof. repeat constructor. Qed.
Lemma set_default_assoc key : assoc key (t_map (set_default types_default)) = assoc key default_types.
Proof.
  unfold set_default.
  assert (A : forall l t, NoDup (map fst l) -> assoc key (t_map (fold_left (fun t kv => t_put t (fst kv) (snd kv)) l t)) =
            match assoc key l with Some v => Some v | None => assoc key (t_map t) end).
  { induction l as [|[k v] l IH]; intros t N; [reflexivity|]. cbn [fold_left fst snd]. cbn [map] in N. inversion N; subst.
    rewrite IH by assumption. cbn [assoc t_put t_map]. rewrite assoc_insert.
    destruct (String.eqb_spec k key) as [->|_]; [|reflexivity].
    assert (X : assoc key l = None); [|now rewrite X].
    assert (G : forall m, ~ In key (map fst m) -> assoc key m = None).
    { induction m as [|[a b] m IHm]; [reflexivity|]. cbn. intros Hm. destruct (String.eqb_spec a key) as [->|_]; [tauto|]. apply IHm. tauto. }
    now apply G. }
  rewrite A; [now destruct (assoc key default_types)|]. cbn. repeat (constructor; [cbn; intuition discriminate|]). constructor.
Qed.
Lemma default_other key : tag key <> 0 -> assoc key default_types = None.
Proof.
  intros H. assert (G : forall l, Forall (fun kv : string * string => tag (fst kv) = 0) l -> assoc key l = None).
  { induction 1 as [|[k v] l Hk _ IH]; [reflexivity|]. cbn in *. destruct (String.eqb_spec k key) as [->|_]; [contradiction|exact IH]. }
  apply G, tag_default.
Qed.
Lemma tinv_start : tinv (set_default types_default) 0 false [].
Proof.
  constructor; intros; rewrite ?set_default_assoc; try reflexivity; try discriminate.
  - change (t_header (set_default types_default)) with 0%N in H. lia.
  - change (t_footer (set_default types_default)) with 0%N in H. lia.
  - lia.
Qed.

Ltac other := rewrite assoc_other by discriminate.
Lemma tinv_header t w p c : tinv t w p c -> tinv (add_header t) w p c.
Proof.
  intros J. constructor; intros; cbn [add_header t_map t_header t_footer t_web] in *.
  - rewrite assoc_other by (rewrite H; discriminate). now apply J.
  - rewrite assoc_insert. fold (header_key (t_header t + 1)). destruct (String.eqb_spec (header_key (t_header t + 1)) (header_key n)) as [_|N]; [reflexivity|].
    apply J. destruct (N.eq_dec n (t_header t + 1)) as [->|]; [congruence|lia].
  - other. now apply J.
  - apply J.
  - other. now apply J.
  - other. now apply J.
  - other. apply J.
  - other. exact (j_notes _ _ _ _ J).
Qed.
Lemma tinv_footer t w p c : tinv t w p c -> tinv (add_footer t) w p c.
Proof.
  intros J. constructor; intros; cbn [add_footer t_map t_header t_footer t_web] in *.
  - rewrite assoc_other by (rewrite H; discriminate). now apply J.
  - other. now apply J.
  - rewrite assoc_insert. fold (footer_key (t_footer t + 1)). destruct (String.eqb_spec (footer_key (t_footer t + 1)) (footer_key n)) as [_|N]; [reflexivity|].
    apply J. destruct (N.eq_dec n (t_footer t + 1)) as [->|]; [congruence|lia].
  - apply J.
  - other. now apply J.
  - other. now apply J.
  - other. apply J.
  - other. exact (j_notes _ _ _ _ J).
Qed.
Lemma tinv_typed x t w p c : tinv t w p c -> tinv (typed x t) w p c.
Proof. unfold typed. destruct (is_header_slot x); [apply tinv_header|apply tinv_footer]. Qed.
Lemma tinv_panes t w p c : tinv t w p c -> tinv (add_taskpanes t) w true c.
Proof.
  intros J. constructor; intros; cbn [add_taskpanes t_put t_map t_header t_footer t_web] in *.
  - rewrite assoc_other by (rewrite H; discriminate). now apply J.
  - other. now apply J.
  - other. now apply J.
  - apply J.
  - other. now apply J.
  - rewrite assoc_insert. reflexivity.
  - other. apply J.
  - other. exact (j_notes _ _ _ _ J).
Qed.
Lemma tinv_web t w p c : tinv t w p c -> tinv (add_web_extensions t) (S w) p c.
Proof.
  intros J. pose proof (j_count _ _ _ _ J) as Cn.
  constructor; intros; cbn [add_web_extensions t_put t_map t_header t_footer t_web] in *.
  - rewrite assoc_other by (rewrite H; discriminate). now apply J.
  - other. now apply J.
  - other. now apply J.
  - lia.
  - rewrite assoc_insert. fold (web_key (t_web t)). destruct (String.eqb_spec (web_key (t_web t)) (web_key (N.of_nat i + 1))) as [_|N]; [reflexivity|].
    apply J. destruct (Nat.eq_dec i w) as [->|]; [congruence|lia].
  - other. now apply J.
  - other. apply J.
  - other. exact (j_notes _ _ _ _ J).
Qed.
Lemma tinv_custom t w p c : tinv t w p c -> tinv (add_custom_xml t) w p (c ++ [w]).
Proof.
  intros J. pose proof (j_count _ _ _ _ J) as Cn.
  constructor; intros; cbn [add_custom_xml t_put t_map t_header t_footer t_web] in *.
  - rewrite assoc_other by (rewrite H; discriminate). now apply J.
  - other. now apply J.
  - other. now apply J.
  - exact Cn.
  - other. now apply J.
  - other. now apply J.
  - rewrite assoc_insert. fold (props_key (t_web t)). rewrite existsb_app. cbn [existsb]. rewrite orb_false_r.
    destruct (String.eqb_spec (props_key (t_web t)) (props_key (N.of_nat i + 1))) as [E|N].
    + unfold props_key in E. apply key_inj in E. assert (i = w) as -> by lia. rewrite Nat.eqb_refl, orb_true_r. reflexivity.
    + rewrite (j_props _ _ _ _ J). destruct (Nat.eqb_spec i w) as [->|_]; [congruence|]. now rewrite orb_false_r.
  - other. exact (j_notes _ _ _ _ J).
Qed.

(** Web extensions before each custom item. *)
Fixpoint customs (w : nat) (l : list api) : list nat :=
  match l with
  | [] => []
  | ACustom _ _ :: r => w :: customs w r
  | AWeb _ :: r => customs (S w) r
  | _ :: r => customs w r
  end.
Lemma customs_app l m w : customs w (l ++ m) = customs w l ++ customs (w + webs l) m.
Proof.
  revert w; induction l as [|a l IH]; intros w; [cbn; now rewrite Nat.add_0_r|].
  destruct a; cbn [customs app]; rewrite IH; unfold webs; cbn [filter length app]; rewrite ?Nat.add_succ_r; reflexivity.
Qed.
Lemma webs_app l m : webs (l ++ m) = webs l + webs m.
Proof. unfold webs. now rewrite filter_app, app_length. Qed.
Lemma customs_in l i : In i (customs 0 l) <-> exists l1 id xml l2, l = l1 ++ ACustom id xml :: l2 /\ webs l1 = i.
Proof.
  assert (A : forall l w, In i (customs w l) <-> exists l1 id xml l2, l = l1 ++ ACustom id xml :: l2 /\ w + webs l1 = i).
  { clear. induction l as [|a l IH]; intros w; [split; [intros []|intros (l1 & ? & ? & ? & E & _); destruct l1; discriminate]|].
    destruct a; cbn [customs]; try (rewrite IH; split;
      [intros (l1 & id0 & xml0 & l2 & -> & E); eexists (_ :: l1), id0, xml0, l2; split; [reflexivity|unfold webs in *; cbn; lia]
      |intros (l1 & id0 & xml0 & l2 & E & W); destruct l1 as [|b l1]; [discriminate E|]; injection E as <- ->; exists l1, id0, xml0, l2; split; [reflexivity|unfold webs in *; cbn in W; lia]]).
    split.
    - intros [<-|H]; [exists [], id, xml, l; split; [reflexivity|cbn; lia]|]. apply IH in H.
      destruct H as (l1 & id0 & xml0 & l2 & -> & E). exists (ACustom id xml :: l1), id0, xml0, l2. split; [reflexivity|exact E].
    - intros (l1 & id0 & xml0 & l2 & E & W). destruct l1 as [|b l1].
      + injection E as _ _ _. left. cbn in W. lia.
      + injection E as <- ->. right. apply IH. exists l1, id0, xml0, l2. split; [reflexivity|exact W]. }
  apply A.
Qed.

(** The record after some calls. *)
Definition counts_ok (r : doc_rels) (t : types) (h f : nat) : Prop :=
  t_header t = r_headers r /\ t_footer t = r_footers r /\ (N.of_nat h <= r_headers r)%N /\ (N.of_nat f <= r_footers r)%N.
Definition heads (l : list node) : nat := length (filter is_header l).
Definition foots (l : list node) : nat := length (filter is_footer l).
Lemma heads_put n l : heads (put_part n l) <= heads [n] + heads l.
Proof.
  unfold heads. induction l as [|x l IH]; [cbn; lia|]. cbn [put_part]. destruct (N.compare (part_rank n) (part_rank x)); cbn [filter] in *;
    destruct (is_header n), (is_header x); cbn [length] in *; lia.
Qed.
Lemma foots_put n l : foots (put_part n l) <= foots [n] + foots l.
Proof.
  unfold foots. induction l as [|x l IH]; [cbn; lia|]. cbn [put_part]. destruct (N.compare (part_rank n) (part_rank x)); cbn [filter] in *;
    destruct (is_footer n), (is_footer x); cbn [length] in *; lia.
Qed.
Lemma attach_counts x c r t p parts h f r' t' p' parts' :
  attach x c (r, t, (p, parts)) = (r', t', (p', parts')) ->
  counts_ok r t (h + heads parts) (f + foots parts) -> counts_ok r' t' (h + heads parts') (f + foots parts').
Proof.
  intros E (A & B & C & D). unfold attach in E. injection E as <- <- <- <-.
  pose proof (heads_put (NPart x (next_rid x (number_if (fst c) r)) (fst c) (snd c)) parts) as H1.
  pose proof (foots_put (NPart x (next_rid x (number_if (fst c) r)) (fst c) (snd c)) parts) as H2.
  unfold heads at 2 in H1. unfold foots at 2 in H2. unfold counts_ok, typed, count_part. cbn [filter is_header is_footer] in *.
  destruct (is_header_slot x); cbn [negb length r_headers r_footers number_if t_header t_footer add_header add_footer] in *; repeat split; lia.
Qed.
Lemma attach_types x c r t p parts r' t' p' parts' w pn cu : attach x c (r, t, (p, parts)) = (r', t', (p', parts')) -> tinv t w pn cu -> tinv t' w pn cu.
Proof. intros E J. unfold attach in E. injection E as _ <- _ _. now apply tinv_typed. Qed.

Definition st_types (s : doc_rels * types * (sectpr * list node)) : types := snd (fst s).
Definition st_ok (h f : nat) (s : doc_rels * types * (sectpr * list node)) : Prop :=
  counts_ok (fst (fst s)) (st_types s) (h + heads (snd (snd s))) (f + foots (snd (snd s))).
Lemma attach_if_counts x c s h f : st_ok h f s -> st_ok h f (attach_if x c s).
Proof.
  destruct c as [c|]; [|auto]. destruct s as [[r t] [p parts]]. cbn [attach_if].
  destruct (attach x c (r, t, (p, parts))) as [[r' t'] [p' parts']] eqn:E. unfold st_ok. cbn [fst snd]. eapply attach_counts; eassumption.
Qed.
Lemma attach_if_types x c s w pn cu : tinv (st_types s) w pn cu -> tinv (st_types (attach_if x c s)) w pn cu.
Proof.
  destruct c as [c|]; [|auto]. destruct s as [[r t] [p parts]]. cbn [attach_if].
  destruct (attach x c (r, t, (p, parts))) as [[r' t'] [p' parts']] eqn:E. unfold st_types. cbn [fst snd]. eapply attach_types; eassumption.
Qed.

Definition nheads (d : docx) : nat := length (headers d).
Definition nfoots (d : docx) : nat := length (footers d).
Record pinv (l : list api) (k : pkg) : Prop := {
  p_web : length (k_web k) = webs l;
  p_types : tinv (k_types k) (webs l) (k_taskpanes k) (customs 0 l);
  p_counts : keeps_document l -> counts_ok (k_doc_rels k) (k_types k) (nheads (k_doc k)) (nfoots (k_doc k)) }.
Lemma keeps_snoc l a : keeps_document (l ++ [a]) -> keeps_document l /\ match a with ADocument _ | ABlock (NSection _ _ _ _) => False | _ => True end.
Proof. unfold keeps_document. intros H. apply Forall_app in H. destruct H as [A B]. inversion B; subst. auto. Qed.
Lemma calls_snoc l a : calls (l ++ [a]) = call (calls l) a.
Proof. unfold calls. now rewrite fold_left_app. Qed.

Lemma parts_where_split which d : length (parts_where which d) =
  length (filter which (d_parts d)) + length (flat_map (fun n => match n with NSection _ ps _ _ => filter which ps | _ => [] end) (d_body d)).
Proof. unfold parts_where. apply app_length. Qed.
Lemma parts_where_push which d n : length (parts_where which (push_body d n)) =
  length (parts_where which d) + match n with NSection _ ps _ _ => length (filter which ps) | _ => 0 end.
Proof.
  rewrite !parts_where_split. cbn [push_body d_parts d_body]. rewrite flat_map_app, app_length. cbn [flat_map]. rewrite app_nil_r.
  destruct n; cbn; lia.
Qed.

Lemma set_part_parts x c k : let '(r, t, (p, parts)) := attach x c (k_doc_rels k, k_types k, (d_sect (k_doc k), d_parts (k_doc k))) in
  k_doc_rels (set_part x c k) = r /\ k_types (set_part x c k) = t /\ d_sect (k_doc (set_part x c k)) = p /\ d_parts (k_doc (set_part x c k)) = parts /\
  d_body (k_doc (set_part x c k)) = d_body (k_doc k) /\ k_web (set_part x c k) = k_web k /\ k_taskpanes (set_part x c k) = k_taskpanes k.
Proof. unfold set_part. destruct (attach x c _) as [[r t] [p parts]]. cbn. repeat split. Qed.

(** The state after the pending parts of a section have been attached. *)
Definition attach_all (s : section_arg) (st : doc_rels * types * (sectpr * list node)) : doc_rels * types * (sectpr * list node) :=
  fold_left (fun st x => attach_if x (sa_pending s x) st) all_slots st.
Lemma add_section_eq s k : add_section s k =
  let '(r, t, (p, parts)) := attach_all s (number_if (sa_numbering s) (k_doc_rels k), k_types k, (sa_prop s, [])) in
  set_types (set_doc k r (push_body (k_doc k) (NSection p parts (sa_numbering s) (sa_children s)))) t.
Proof. reflexivity. Qed.
Lemma attach_all_counts s st h f : st_ok h f st -> st_ok h f (attach_all s st).
Proof. unfold attach_all. revert st. induction all_slots as [|x xs IH]; intros st H; [exact H|]. cbn [fold_left]. apply IH. now apply attach_if_counts. Qed.
Lemma attach_all_types s st w pn cu : tinv (st_types st) w pn cu -> tinv (st_types (attach_all s st)) w pn cu.
Proof. unfold attach_all. revert st. induction all_slots as [|x xs IH]; intros st H; [exact H|]. cbn [fold_left]. apply IH. now apply attach_if_types. Qed.

Lemma calls_pinv l : pinv l (calls l).
Proof.
  induction l as [|a l IH] using rev_ind.
  - constructor; [reflexivity|exact tinv_start|]. intros _. repeat split; cbn; lia.
  - rewrite calls_snoc. destruct IH as [W T C]. set (k := calls l) in *.
    assert (Wa : webs (l ++ [a]) = webs l + match a with AWeb _ => 1 | _ => 0 end) by (rewrite webs_app; destruct a; reflexivity).
    assert (Ca : customs 0 (l ++ [a]) = customs 0 l ++ match a with ACustom _ _ => [webs l] | _ => [] end) by (rewrite customs_app; destruct a; reflexivity).
    destruct a; cbn [call]; rewrite ?Nat.add_0_r in Wa; rewrite ?app_nil_r in Ca.
    + constructor; rewrite ?Wa, ?Ca; cbn [add_block set_doc k_web k_types k_taskpanes k_doc_rels k_doc]; [exact W|exact T|].
      intros K. apply keeps_snoc in K. destruct K as [K B]. specialize (C K). unfold nheads, nfoots, headers, footers in *.
      rewrite !parts_where_push.
      destruct n; try contradiction; rewrite !Nat.add_0_r; unfold number_if; destruct (flag _); exact C.
    + rewrite add_section_eq.
      pose proof (attach_all_types s (number_if (sa_numbering s) (k_doc_rels k), k_types k, (sa_prop s, [])) _ _ _ T) as X.
      pose proof (fun h f => attach_all_counts s (number_if (sa_numbering s) (k_doc_rels k), k_types k, (sa_prop s, [])) h f) as Y.
      destruct (attach_all s _) as [[r t] [p parts]] eqn:E.
      constructor; rewrite ?Wa, ?Ca; cbn [set_types set_doc k_web k_types k_taskpanes k_doc_rels k_doc]; [exact W|exact X|].
      intros K. apply keeps_snoc in K. destruct K as [K _]. specialize (C K). unfold nheads, nfoots, headers, footers in *.
      rewrite !parts_where_push. apply Y. unfold st_ok. cbn [fst snd st_types heads foots filter length]. rewrite !Nat.add_0_r.
      unfold number_if; destruct (sa_numbering s); exact C.
    + pose proof (set_part_parts x c k) as S.
      destruct (attach x c _) as [[r t] [p parts]] eqn:E. destruct S as (S1 & S2 & S3 & S4 & S5 & S6 & S7).
      constructor; rewrite ?Wa, ?Ca, ?S1, ?S2, ?S6, ?S7; [exact W|eapply attach_types; eassumption|].
      intros K. apply keeps_snoc in K. destruct K as [K _]. specialize (C K). unfold nheads, nfoots, headers, footers in *.
      rewrite !parts_where_split in *. rewrite S4, S5. fold (heads parts) (foots parts).
      rewrite (Nat.add_comm (heads parts)), (Nat.add_comm (foots parts)). eapply attach_counts; [exact E|].
      unfold heads, foots. rewrite (Nat.add_comm _ (length (filter is_header _))), (Nat.add_comm _ (length (filter is_footer _))). exact C.
    + constructor; rewrite ?Wa, ?Ca; cbn [with_taskpanes k_web k_types k_taskpanes k_doc_rels k_doc]; [exact W|eapply tinv_panes; exact T|].
      intros K. apply keeps_snoc in K. destruct K as [K _]. exact (C K).
    + constructor; rewrite ?Wa, ?Ca; cbn [add_web k_web k_types k_taskpanes k_doc_rels k_doc]; [rewrite app_length, W; reflexivity| |].
      * rewrite Nat.add_1_r. apply tinv_web. exact T.
      * intros K. apply keeps_snoc in K. destruct K as [K _]. exact (C K).
    + constructor; rewrite ?Wa, ?Ca; cbn [add_custom k_web k_types k_taskpanes k_doc_rels k_doc]; [exact W|apply tinv_custom; exact T|].
      intros K. apply keeps_snoc in K. destruct K as [K _]. exact (C K).
    + constructor; rewrite ?Wa, ?Ca; cbn [replace_document set_doc k_web k_types k_taskpanes k_doc_rels k_doc]; [exact W|exact T|].
      intros K. apply keeps_snoc in K. destruct K as [_ []].
Qed.

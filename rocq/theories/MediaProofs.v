From Verif Require Import Str StrFacts ListFacts MediaModel MediaSpec.

Lemma get_in {A} k (m : list (string * A)) v : get k m = Some v -> In (k, v) m.
Proof.
  induction m as [|[x w] m IH]; cbn; [discriminate|].
  destruct (String.eqb_spec x k) as [->|]; [intros [= ->]; now left|]. intro H. right. auto.
Qed.
Lemma known_spec {A} (m : list (string * A)) k : known m k = true <-> In k (map fst m).
Proof.
  unfold known. induction m as [|[x w] m IH]; cbn; [split; [discriminate|tauto]|].
  destruct (String.eqb_spec x k) as [->|n]; [tauto|]. rewrite IH. split; [tauto|]. intros [?|?]; [contradiction|assumption].
Qed.
Lemma known_false {A} (m : list (string * A)) k : known m k = false <-> ~ In k (map fst m).
Proof. rewrite <- known_spec. destruct (known m k); split; congruence. Qed.

(** ** The search for a free identifier *)
Lemma suffixed_inj id a b : suffixed id a = suffixed id b -> a = b.
Proof. unfold suffixed. intro H. apply append_inj_l in H. apply (append_inj_l "_") in H. now apply show_N_inj. Qed.

Lemma search_suffix_none fuel used id : forall n, search_suffix fuel used id n = None ->
  forall k, k < fuel -> used (suffixed id (n + N.of_nat k)) = true.
Proof.
  induction fuel as [|fuel IH]; intros n H k Hk; [lia|]. cbn [search_suffix] in H.
  destruct (used (suffixed id n)) eqn:E; [|discriminate].
  destruct k as [|k]; [now rewrite N.add_0_r|].
  specialize (IH _ H k ltac:(lia)). now replace (n + N.of_nat (S k))%N with (n + 1 + N.of_nat k)%N by lia.
Qed.
Lemma search_suffix_some fuel used id : forall n c m, search_suffix fuel used id n = Some (c, m) -> used c = false.
Proof.
  induction fuel as [|fuel IH]; intros n c m H; [discriminate|]. cbn [search_suffix] in H.
  destruct (used (suffixed id n)) eqn:E; [eauto|]. injection H as <- <-. assumption.
Qed.

Lemma search_suffix_total {A} (m : list (string * A)) id n : search_suffix (S (length m)) (known m) id n <> None.
Proof.
  intro H. pose proof (search_suffix_none _ _ _ _ H) as Hu. clear H.
  pose (l := map (fun k => suffixed id (n + N.of_nat k)) (seq 0 (S (length m)))).
  assert (Hn : NoDup l).
  { unfold l. apply NoDup_map_in; [|apply seq_NoDup]. intros x y _ _ E. apply suffixed_inj in E. lia. }
  assert (Hi : incl l (map fst m)).
  { intros x Hx. unfold l in Hx. apply in_map_iff in Hx as (k & <- & Hk). apply in_seq in Hk.
    apply known_spec. apply Hu. lia. }
  apply NoDup_incl_length in Hi; [|assumption]. unfold l in Hi. rewrite !map_length, seq_length in Hi. lia.
Qed.

Lemma unique_id_total {A} (m : list (string * A)) s id :
  exists c s', unique_id (known m) (length m) s id = Some (c, s') /\ ~ In c (map fst m).
Proof.
  unfold unique_id. destruct (known m id) eqn:E.
  - set (n := match get id s with Some n => n | None => 2%N end).
    destruct (search_suffix (S (length m)) (known m) id n) as [[c n']|] eqn:Es.
    + exists c, (put id n' s). split; [reflexivity|]. apply known_false. eapply search_suffix_some; eauto.
    + exfalso. eapply search_suffix_total; eauto.
  - exists id, s. split; [reflexivity|]. now apply known_false.
Qed.

(** ** The registry *)
Section Crc.
Variable crc : string -> N.
Definition fp_of (b : string) : fingerprint := (N.of_nat (String.length b), crc b).

Lemma fp_eqb_spec a b : reflect (a = b) (fp_eqb a b).
Proof.
  destruct a as [a1 a2], b as [b1 b2]. unfold fp_eqb. cbn.
  destruct (N.eqb_spec a1 b1), (N.eqb_spec a2 b2); cbn; constructor; congruence.
Qed.

Record inv (r : registry) : Prop := Inv {
  inv_ids : NoDup (map fst (media r));
  inv_bytes : NoDup (map snd (media r));
  inv_known : forall k, In k (map fst (media_by_id r)) <-> In k (map fst (media r));
  inv_by_id : forall k i, get k (media_by_id r) = Some i -> i < length (media r);
  inv_fp : forall i m b, nth_error (media r) i = Some (m, b) ->
     exists l, get_fp (fp_of b) (by_fingerprint r) = Some l /\ In i l;
  inv_fp_range : forall fp l i, get_fp fp (by_fingerprint r) = Some l -> In i l -> i < length (media r) }.

Lemma inv_empty : inv empty_registry.
Proof.
  constructor; cbn; try constructor; try tauto; try discriminate.
  intros [|i] m b H; discriminate.
Qed.

Lemma bytes_at_range r i b : i < length (media r) -> bytes_at r i = b -> exists m, nth_error (media r) i = Some (m, b).
Proof.
  intros Hi Hb. unfold bytes_at in Hb. destruct (nth_error (media r) i) as [[m c]|] eqn:E; [subst; eauto|].
  apply nth_error_None in E. lia.
Qed.

Lemma register_ok r id bytes : inv r ->
  exists i r' m t, register crc r id bytes = Some (i, r') /\ inv r'
    /\ nth_error (media r') i = Some (m, bytes) /\ media r' = media r ++ t.
Proof.
  intro I. unfold register.
  set (by_id := match get id (media_by_id r) with Some i => if bytes_at r i =s bytes then Some i else None | None => None end).
  destruct by_id as [i|] eqn:Eb.
  { unfold by_id in Eb. destruct (get id (media_by_id r)) as [j|] eqn:Eg; [|discriminate].
    destruct (String.eqb_spec (bytes_at r j) bytes) as [Hb|]; [|discriminate]. injection Eb as ->.
    destruct (bytes_at_range r i bytes) as [m Hm]; [eapply inv_by_id; eauto|assumption|].
    exists i, r, m, []. rewrite app_nil_r. auto. }
  cbn zeta. fold (fp_of bytes).
  set (same := match get_fp (fp_of bytes) (by_fingerprint r) with
               | Some candidates => find (fun i => bytes_at r i =s bytes) candidates | None => None end).
  destruct same as [i|] eqn:Es.
  { unfold same in Es. destruct (get_fp (fp_of bytes) (by_fingerprint r)) as [l|] eqn:Eg; [|discriminate].
    apply find_some in Es as [Hi Hb]. apply String.eqb_eq in Hb.
    destruct (bytes_at_range r i bytes) as [m Hm]; [eapply inv_fp_range; eauto|assumption|].
    exists i, r, m, []. rewrite app_nil_r. auto. }
  destruct (unique_id_total (media_by_id r) (next_suffix r) id) as (mid & s' & -> & Hfresh).
  assert (Hm : ~ In mid (map fst (media r))) by (rewrite <- (inv_known r I); assumption).
  assert (Hb : ~ In bytes (map snd (media r))).
  { intro Hin. apply in_map_iff in Hin as ([m b] & Hb & Hin). cbn in Hb. subst b.
    apply In_nth_error in Hin as [i Hi]. destruct (inv_fp r I i m bytes Hi) as (l & Hl & Hil).
    unfold same in Es. rewrite Hl in Es.
    pose proof (find_none _ _ Es i Hil) as Hf. cbn in Hf. unfold bytes_at in Hf. rewrite Hi, String.eqb_refl in Hf. discriminate. }
  eexists _, _, mid, [(mid, bytes)]. split; [reflexivity|]. cbn [media]. split; [|split; [|reflexivity]].
  2:{ rewrite nth_error_app2 by lia. now rewrite Nat.sub_diag. }
  constructor; cbn [media media_by_id by_fingerprint].
  - rewrite map_app. apply NoDup_snoc; [apply I|assumption].
  - rewrite map_app. apply NoDup_snoc; [apply I|assumption].
  - intro k. unfold put. cbn [map fst]. rewrite map_app, in_app_iff. cbn. rewrite (inv_known r I). tauto.
  - intros k i. unfold put. cbn [get]. rewrite app_length. cbn.
    destruct (mid =s k); [intros [= <-]; lia|]. intro H. apply (inv_by_id r I) in H. lia.
  - intros i m b Hi. destruct (Nat.lt_ge_cases i (length (media r))) as [Hl|Hl].
    + rewrite nth_error_app1 in Hi by assumption. destruct (inv_fp r I i m b Hi) as (l & Hg & Hin).
      cbn [get_fp]. destruct (fp_eqb_spec (fp_of bytes) (fp_of b)) as [E|E].
      * rewrite E, Hg. eexists; split; [reflexivity|]. apply in_app_iff. now left.
      * eauto.
    + rewrite nth_error_app2 in Hi by assumption.
      destruct (i - length (media r)) as [|k] eqn:Ek; [|destruct k; discriminate].
      cbn in Hi. injection Hi as <- <-. assert (i = length (media r)) by lia. subst i.
      cbn [get_fp]. destruct (fp_eqb_spec (fp_of bytes) (fp_of bytes)) as [_|]; [|contradiction].
      eexists; split; [reflexivity|]. apply in_app_iff. right. now left.
  - intros fp l i. cbn [get_fp]. rewrite app_length. cbn [length].
    destruct (fp_eqb_spec (fp_of bytes) fp) as [<-|].
    + intros [= <-] Hi. apply in_app_iff in Hi as [Hi|[<-|[]]]; [|lia].
      destruct (get_fp (fp_of bytes) (by_fingerprint r)) as [l0|] eqn:E; [|destruct Hi].
      apply (inv_fp_range r I _ _ _ E) in Hi. lia.
    + intros H Hi. apply (inv_fp_range r I _ _ _ H) in Hi. lia.
Qed.

(** ** One part *)
(** Relationship id [rid] of the relationships [l] leads to [bytes] in the media list [m]. *)
Definition leads (l m : list (string * string)) (rid bytes : string) : Prop :=
  exists mid, In (rid, media_target mid) l /\ In (mid, bytes) m.

Record cinv (r : registry) (c : collector) : Prop := CInv {
  cinv_ids : NoDup (map fst (rels c));
  cinv_targets : NoDup (map snd (rels c));
  cinv_known : forall k, In k (map fst (rel_ids c)) <-> In k (map fst (rels c));
  cinv_media : forall mi ri, get_nat mi (rel_of_media c) = Some ri ->
    exists rid mid b, nth_error (rels c) ri = Some (rid, media_target mid) /\ nth_error (media r) mi = Some (mid, b);
  cinv_all : forall t, In t (map snd (rels c)) ->
    exists mi mid b, t = media_target mid /\ nth_error (media r) mi = Some (mid, b) /\ get_nat mi (rel_of_media c) <> None }.

Lemma cinv_empty r : cinv r empty_collector.
Proof. constructor; cbn; try constructor; try tauto; discriminate. Qed.

Lemma media_target_inj a b : media_target a = media_target b -> a = b.
Proof. unfold media_target. intro H. apply (append_inj_l "media/") in H. now apply append_inj_r in H. Qed.

Lemma nth_error_ext {A} (l t : list A) i x : nth_error l i = Some x -> nth_error (l ++ t) i = Some x.
Proof. intro H. rewrite nth_error_app1; [assumption|]. apply nth_error_Some. congruence. Qed.

Lemma cinv_ext r r' c t : media r' = media r ++ t -> cinv r c -> cinv r' c.
Proof.
  intros E C. constructor; try apply C.
  - intros mi ri H. destruct (cinv_media r c C mi ri H) as (rid & mid & b & H1 & H2).
    exists rid, mid, b. split; [assumption|]. rewrite E. now apply nth_error_ext.
  - intros x Hx. destruct (cinv_all r c C x Hx) as (mi & mid & b & -> & H1 & H2).
    exists mi, mid, b. repeat split; [|assumption]. rewrite E. now apply nth_error_ext.
Qed.

Lemma NoDup_nth_fst (l : list (string * string)) i j m b b' : NoDup (map fst l) ->
  nth_error l i = Some (m, b) -> nth_error l j = Some (m, b') -> i = j.
Proof.
  intros H Hi Hj. rewrite NoDup_nth_error in H. apply H.
  - rewrite map_length. apply nth_error_Some. congruence.
  - rewrite !nth_error_map, Hi, Hj. reflexivity.
Qed.

Lemma visit_ok prefix r c id bytes : inv r -> cinv r c ->
  exists nid r' c' t t', visit_picture crc prefix r c id bytes = Some (nid, r', c') /\ inv r' /\ cinv r' c'
    /\ media r' = media r ++ t /\ rels c' = rels c ++ t' /\ leads (rels c') (media r') nid bytes.
Proof.
  intros I C. unfold visit_picture.
  destruct (register_ok r (preferred_rel_id prefix id) bytes I) as (mi & r' & mid & t & -> & I' & Hm & Ht).
  apply (cinv_ext _ _ _ _ Ht) in C.
  destruct (get_nat mi (rel_of_media c)) as [ri|] eqn:Eg.
  - destruct (cinv_media r' c C mi ri Eg) as (rid & mid' & b & H1 & H2). rewrite H1.
    rewrite Hm in H2. injection H2 as <- <-.
    exists rid, r', c, t, []. repeat split; auto; try apply C; try apply I'; [now rewrite app_nil_r|].
    exists mid. split; [now apply nth_error_In in H1|now apply nth_error_In in Hm].
  - destruct (unique_id_total (rel_ids c) (next_rel_suffix c) (preferred_rel_id prefix id)) as (rid & s' & -> & Hf).
    assert (Ei : id_at r' mi = mid) by (unfold id_at; now rewrite Hm). rewrite Ei.
    eexists rid, r', _, t, [(rid, media_target mid)]. split; [reflexivity|]. split; [assumption|]. cbn [rels].
    split; [|split; [assumption|split; [reflexivity|]]].
    2:{ exists mid. split; [apply in_app_iff; right; now left|now apply nth_error_In in Hm]. }
    constructor; cbn [rels rel_ids rel_of_media].
    + rewrite map_app. apply NoDup_snoc; [apply C|]. rewrite <- (cinv_known r' c C). assumption.
    + rewrite map_app. apply NoDup_snoc; [apply C|]. cbn. intro Hin.
      destruct (cinv_all r' c C _ Hin) as (mj & mid' & b & E & Hj & Hg). apply media_target_inj in E as <-.
      assert (mj = mi) by (eapply NoDup_nth_fst; [apply I'|exact Hj|exact Hm]). subst mj. congruence.
    + intro k. cbn. rewrite map_app, in_app_iff. cbn. rewrite (cinv_known r' c C). tauto.
    + intros mj rj. cbn [get_nat]. destruct (Nat.eqb_spec mi mj) as [<-|].
      * intros [= <-]. exists rid, mid, bytes. split; [|assumption].
        rewrite nth_error_app2 by lia. now rewrite Nat.sub_diag.
      * intro H. destruct (cinv_media r' c C mj rj H) as (rid' & mid' & b & H1 & H2).
        exists rid', mid', b. split; [now apply nth_error_ext|assumption].
    + intro x. rewrite map_app, in_app_iff. cbn [get_nat]. intros [Hx|[<-|[]]].
      * destruct (cinv_all r' c C x Hx) as (mj & mid' & b & -> & Hj & Hg).
        exists mj, mid', b. repeat split; [assumption|]. destruct (Nat.eqb mi mj); [discriminate|assumption].
      * exists mi, mid, bytes. repeat split; [assumption|]. now rewrite Nat.eqb_refl.
Qed.

Lemma leads_ext l t m u rid b : leads l m rid b -> leads (l ++ t) (m ++ u) rid b.
Proof. intros (mid & H1 & H2). exists mid. split; apply in_app_iff; now left. Qed.

Lemma visit_all_ok prefix pics : forall r c, inv r -> cinv r c ->
  exists ids r' c' t t', visit_pictures crc prefix r c pics = Some (ids, r', c') /\ inv r' /\ cinv r' c'
    /\ media r' = media r ++ t /\ rels c' = rels c ++ t'
    /\ Forall2 (fun pic nid => leads (rels c') (media r') nid (snd pic)) pics ids.
Proof.
  induction pics as [|[id bytes] pics IH]; intros r c I C; cbn [visit_pictures].
  - exists [], r, c, [], []. rewrite !app_nil_r. repeat split; auto; try apply I; apply C.
  - destruct (visit_ok prefix r c id bytes I C) as (nid & r1 & c1 & t1 & u1 & -> & I1 & C1 & M1 & R1 & L1).
    destruct (IH r1 c1 I1 C1) as (ids & r2 & c2 & t2 & u2 & -> & I2 & C2 & M2 & R2 & L2).
    exists (nid :: ids), r2, c2, (t1 ++ t2), (u1 ++ u2).
    repeat split; auto; try apply I2; try apply C2.
    + now rewrite M2, M1, app_assoc.
    + now rewrite R2, R1, app_assoc.
    + constructor; [|assumption]. cbn [snd]. rewrite R2, M2. now apply leads_ext.
Qed.

Definition part_ok (m : list (string * string)) (pics : list (string * string)) (o : list string * list (string * string)) : Prop :=
  NoDup (map fst (snd o)) /\ NoDup (map snd (snd o))
  /\ Forall2 (fun pic nid => leads (snd o) m nid (snd pic)) pics (fst o).

Lemma part_ok_ext m t pics o : part_ok m pics o -> part_ok (m ++ t) pics o.
Proof.
  intros (H1 & H2 & H3). repeat split; auto. eapply Forall2_impl; [|exact H3].
  intros pic nid H. rewrite <- (app_nil_r (snd o)). now apply leads_ext.
Qed.

Lemma collect_ok parts : forall r, inv r ->
  exists out r' t, collect_parts crc r parts = Some (out, r') /\ inv r' /\ media r' = media r ++ t
    /\ Forall2 (part_ok (media r')) (map snd parts) out.
Proof.
  induction parts as [|[prefix pics] parts IH]; intros r I; cbn [collect_parts].
  - exists [], r, []. rewrite app_nil_r. repeat split; auto; try apply I. constructor.
  - destruct (visit_all_ok prefix pics r empty_collector I (cinv_empty r)) as (ids & r1 & c1 & t1 & u1 & -> & I1 & C1 & M1 & R1 & L1).
    destruct (IH r1 I1) as (out & r2 & t2 & -> & I2 & M2 & F).
    exists ((ids, rels c1) :: out), r2, (t1 ++ t2). split; [reflexivity|]. split; [assumption|].
    split; [now rewrite M2, M1, app_assoc|]. cbn [map snd]. constructor; [|assumption].
    rewrite M2. apply part_ok_ext. repeat split; [apply C1|apply C1|assumption].
Qed.
End Crc.

(** ** From invariants to lookups *)
Lemma lookup_nodup {A} (l : list (string * A)) k v : NoDup (map fst l) -> In (k, v) l -> lookup k l = Some v.
Proof.
  induction l as [|[x w] l IH]; cbn; [tauto|]. intros Hn. inversion Hn; subst. intros [H|H].
  - injection H as -> ->. now rewrite String.eqb_refl.
  - destruct (String.eqb_spec x k) as [->|]; [|auto]. exfalso. apply H1. now apply (in_map fst) in H.
Qed.

Lemma follow_leads l m rid b : NoDup (map fst l) -> NoDup (map fst m) -> leads l m rid b -> follow l m rid = Some b.
Proof.
  intros Hl Hm (mid & H1 & H2). unfold follow. rewrite (lookup_nodup l rid _ Hl H1).
  apply lookup_nodup.
  - unfold media_files. rewrite map_map.
    change (NoDup (map (fun x => media_target (fst x)) m)). rewrite <- (map_map fst media_target).
    apply NoDup_map_in; [|assumption]. intros x y _ _. apply media_target_inj.
  - unfold media_files. apply in_map_iff. exists (mid, b). auto.
Qed.

Lemma map_snd_pair {A B} (a : A) (l : list B) : map snd (map (fun x => (a, x)) l) = l.
Proof. rewrite map_map. cbn. apply map_id. Qed.

Lemma package_media_ok crc body headers footers :
  exists out m, package_media crc body headers footers = Some (out, m)
    /\ NoDup (map fst m) /\ NoDup (map snd m)
    /\ Forall2 (fun pics o => NoDup (map fst (snd o)) /\ NoDup (map snd (snd o))
         /\ Forall2 (fun pic nid => follow (snd o) m nid = Some (snd pic)) pics (fst o))
       (body :: headers ++ footers) out.
Proof.
  unfold package_media.
  destruct (collect_ok crc ((None, body) :: map (fun l => (Some "header", l)) headers ++ map (fun l => (Some "footer", l)) footers)
              empty_registry (inv_empty crc)) as (out & r' & t & -> & I & _ & F).
  exists out, (media r'). split; [reflexivity|]. split; [apply I|]. split; [apply I|].
  cbn [map snd] in F. rewrite map_app, !map_snd_pair in F.
  eapply Forall2_impl; [|exact F]. intros pics o (H1 & H2 & H3). repeat split; auto.
  eapply Forall2_impl; [|exact H3]. intros pic nid L. apply follow_leads; auto. apply I.
Qed.

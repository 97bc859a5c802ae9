(** What comes back from an archive, for documents made by calls. *)
From Coq Require Import NArith ZArith List Bool Lia Permutation.
From Verif Require Import Str StrFacts ListFacts TypesModel Props Ast TreeModel TreeProofs DepsModel XmlParser XmlSpec ReadBase ReadProps ReadModel StyleModel StyleRead StyleSpec
  ZipNameModel PathModel PackModel PackSpec PackProofs PrepareModel PrepareProofs PackFinalProofs RenderModel OpenModel WellSpec RestSpec RoundSpec RoundNums
  OpenSpec OpenText OpenPath OpenParts OpenRels OpenFiles OpenSides OpenCalls OpenAssign OpenProofs.
From Verif Require BuildModel PackOrderProofs PackRelsProofs TocModel ParaIdModel ParaIdProofs DepsSpec DepsProofs TreeSpec MediaSpec ParaIdSpec TocProofs TocSpec.
Import ListNotations.
Import PackOrderProofs (side_name, side_parts, side_rid, side_count, side_rid_inj).
Import DepsSpec (seen_comments, seen_links, paras_of_comment, comment_ids, single).
Import DepsProofs (ext_spec, forget_parent).
Open Scope list_scope.

(** ** A package made by calls can be opened *)
Lemma where_part which d : (forall n, which n = true -> is_part n = true) -> Forall (fun n => is_part n = true) (parts_where which d).
Proof.
  intros H. unfold parts_where. apply Forall_app. split.
  - apply Forall_forall. intros n Hn. apply filter_In in Hn. now apply H.
  - apply Forall_flat_map, Forall_forall. intros n _. destruct n; try constructor. apply Forall_forall. intros m Hm. apply filter_In in Hm. now apply H.
Qed.
Lemma parts_are_parts d : Forall (fun n => is_part n = true) (parts_of d).
Proof. unfold parts_of, headers, footers. apply Forall_app. split; apply where_part; intros []; try discriminate; reflexivity. Qed.
Lemma saved_opens l o k c es png preview m : saved l o k c es -> reopenable k o c -> (m + ids_taken k < 4294967296)%N ->
  exists heads foots, heads_ok k c heads /\ foots_ok k c foots /\
    exists op st, read_docx png preview (as_archive es) m = Val op st /\ comes_back k o es png preview heads foots op.
Proof.
  intros (T & (crc & styles & ext & n & P) & s & s' & K) Re Room.
  destruct (prepare_shape _ _ _ _ _ _ _ _ (typed_document l T) P) as (d1 & d & comments & links & Hk & L & N & _).
  assert (Hs : d_sect (k_doc k) = d_sect (k_doc (calls l))).
  { rewrite Hk. cbn [prepared set_types set_doc k_doc]. unfold layout in L. now injection L. }
  apply (opens k o c s es s' K N); auto.
  - rewrite Hk. apply prepared_plain, calls_plain.
  - rewrite Hk. exact (calls_rels_shape l).
  - rewrite Hs. apply calls_refs, typed_keeps, T.
  - rewrite Hs. apply calls_refs_plain, typed_keeps, T.
  - apply parts_are_parts.
Qed.
Lemma opened_back l o k c es png preview m op : saved l o k c es -> reopenable k o c -> opened_from k es png preview m op ->
  exists heads foots, heads_ok k c heads /\ foots_ok k c foots /\ comes_back k o es png preview heads foots op.
Proof.
  intros S Re (Room & st & H). destruct (saved_opens _ _ _ _ _ png preview m S Re Room) as (heads & foots & H1 & H2 & op' & st' & H3 & H4).
  rewrite H in H3. injection H3 as <- <-. eauto.
Qed.
Lemma saved_sect l o k c es : saved l o k c es -> d_sect (k_doc k) = d_sect (k_doc (calls l)).
Proof.
  intros (T & (crc & styles & ext & n & P) & _). destruct (prepare_shape _ _ _ _ _ _ _ _ (typed_document l T) P) as (d1 & d & comments & links & -> & L & _).
  cbn [prepared set_types set_doc k_doc]. unfold layout in L. now injection L.
Qed.
Lemma saved_refs l o k c es : saved l o k c es -> refs_typed (d_sect (k_doc k)) /\ refs_plain (d_sect (k_doc k)).
Proof. intros S. rewrite (saved_sect _ _ _ _ _ S). destruct S as (T & _). split; [apply calls_refs | apply calls_refs_plain]; now apply typed_keeps. Qed.

(** ** Headers and footers *)
Lemma head_rid x : (if is_head x then header_rid else footer_rid) = side_rid (is_head x).
Proof. destruct x; reflexivity. Qed.
Lemma part_back l o k c es png preview m op : saved l o k c es -> reopenable k o c -> opened_from k es png preview m op ->
  forall x, match ref_of (d_sect (k_doc k)) x with
            | None => part_at (k_doc (op_pkg op)) 0 x = None
            | Some r =>
                (forall name n, leads_to (k_doc_rels k) x (pr_id r) name -> file_of (stream_steps k c) name n ->
                   part_at (k_doc (op_pkg op)) 0 x =
                   let ch := flat_map (reread InPart) (part_content n) in Some (NPart x (pr_id r) (part_flag ch) ch)) /\
                ((forall name n, leads_to (k_doc_rels k) x (pr_id r) name -> ~ file_of (stream_steps k c) name n) -> part_at (k_doc (op_pkg op)) 0 x = None)
            end.
Proof.
  intros S Re O x. destruct (opened_back _ _ _ _ _ _ _ _ _ S Re O) as (heads & foots & Hh & Hf & _ & _ & Hw & _).
  destruct (saved_refs _ _ _ _ _ S) as [R1 R2]. specialize (Hw x). unfold want in Hw. rewrite (refs_same _ R1 R2) in Hw.
  destruct (ref_of (d_sect (k_doc k)) x) as [r|] eqn:Hr; [|exact Hw].
  assert (Tab : (forall i, (i < side_count (is_head x) (k_doc_rels k))%N -> right_entry k c (is_head x) i (table heads foots x)) /\
                (forall rid, (forall i, (i < side_count (is_head x) (k_doc_rels k))%N -> rid <> side_rid (is_head x) (i + 1)) -> part_by_id rid (table heads foots x) = None)).
  { unfold table. destruct Hh, Hf. destruct (is_head x); split; assumption. }
  destruct Tab as [T1 T2]. split.
  - intros name n Hl Hn. apply PackOrderProofs.leads_side in Hl as (j & Hj & Hi & ->). apply PackOrderProofs.side_file in Hn.
    specialize (T1 _ Hj). unfold right_entry in T1. rewrite Nat2N.id, Hn in T1. destruct T1 as (rels & T1 & _). rewrite Hw, Hi, T1. reflexivity.
  - intros Hno. rewrite Hw. destruct (R2 _ _ Hr) as (i & Hi).
    assert (Hi' : pr_id r = side_rid (is_head x) i) by (rewrite Hi; now destruct (is_head x)).
    destruct (N.eq_dec i 0) as [->|Hi0].
    + rewrite T2; [reflexivity|]. intros q _ X. rewrite Hi' in X. apply side_rid_inj in X. lia.
    + destruct (N.lt_ge_cases (i - 1) (side_count (is_head x) (k_doc_rels k))) as [Hlt|Hge].
      * specialize (T1 _ Hlt). unfold right_entry in T1. destruct (nth_error (side_parts (is_head x) (k_doc k)) (N.to_nat (i - 1))) as [n|] eqn:Hn.
        -- exfalso. apply (Hno (side_name (is_head x) (N.to_nat (i - 1))) n).
           ++ apply PackOrderProofs.leads_side. exists (N.to_nat (i - 1)). rewrite N2Nat.id. repeat split; [exact Hlt|]. rewrite Hi'. f_equal. lia.
           ++ now apply PackOrderProofs.side_file.
        -- rewrite Hi'. replace i with (i - 1 + 1)%N by lia. now rewrite T1.
      * rewrite T2; [reflexivity|]. intros q Hq X. rewrite Hi' in X. apply side_rid_inj in X. lia.
Qed.
(** A reference was given. *)
Lemma ref_given l x : keeps_document l -> ref_of (d_sect (k_doc (calls l))) x <> None -> exists c, In (0, x, c) (attachments 0 l).
Proof.
  induction l as [|a l IH] using rev_ind; intros K H; [now destruct x|].
  apply PackRelsProofs.keeps_snoc in K as [K Ka]. rewrite PackRelsProofs.calls_snoc in H. rewrite PackOrderProofs.attachments_app. setoid_rewrite in_app_iff.
  assert (G : d_sect (k_doc (call (calls l) a)) = d_sect (k_doc (calls l)) -> exists c, In (0, x, c) (attachments 0 l) \/ In (0, x, c) (attachments (0 + PackOrderProofs.sections_in l) [a])).
  { intros X. rewrite X in H. destruct (IH K H) as (c & Hc). eauto. }
  destruct a as [n|s|y c| |e|i q|d]; cbn [call] in *; try (apply G; reflexivity); try contradiction.
  - apply G. unfold add_section. match goal with |- context [attach_if FEven ?a ?b] => destruct (attach_if FEven a b) as [[r t] [p ps]] end. reflexivity.
  - unfold set_part in H. cbn [attach fst snd set_types set_doc k_doc d_sect] in H. rewrite PackOrderProofs.ref_of_set in H. destruct (slot_eqb y x) eqn:Hy.
    + apply PackOrderProofs.slot_eqb_spec in Hy as ->. exists c. right. now left.
    + destruct (IH K H) as (c' & Hc). eauto.
Qed.
Lemma intended_given l x c : In (0, x, c) (attachments 0 l) -> intended l 0 x <> None.
Proof.
  intros H. unfold intended. destruct (filter _ _) as [|a r] eqn:Hf; [|discriminate]. exfalso.
  assert (X : In (0, x, c) []); [|exact X]. rewrite <- Hf. apply filter_In. split; [now apply -> in_rev|]. cbn [fst snd]. rewrite Nat.eqb_refl. now apply PackOrderProofs.slot_eqb_spec.
Qed.
Lemma header_back l o k c es png preview m op : saved l o k c es -> reopenable k o c -> opened_from k es png preview m op -> in_order l ->
  forall x, match intended l 0 x with
            | None => part_at (k_doc (op_pkg op)) 0 x = None
            | Some given => exists rid packed, map bare packed = map bare (snd given) /\
                part_at (k_doc (op_pkg op)) 0 x = Some (NPart x rid (part_flag (flat_map (reread InPart) packed)) (flat_map (reread InPart) packed))
            end.
Proof.
  intros S Re O Ord x. pose proof (part_back _ _ _ _ _ _ _ _ _ S Re O x) as B. pose proof (saved_sect _ _ _ _ _ S) as Hs. destruct S as (T & (crc & styles & ext & n & P) & Sp).
  destruct (intended l 0 x) as [given|] eqn:Hi.
  - pose proof (proj1 (parts_shown_proof _ _ _ _ _ _ _ _ T P) Ord 0 x) as Sh. destruct Sh as (p & rid & name & nd & H1 & H2 & H3 & H4 & H5); [congruence|].
    cbn [property_at] in H1. injection H1 as <-. rewrite H2 in B. cbn [pr_id] in B. destruct B as [B _]. specialize (B _ _ H3 H5).
    destruct (shown_content_proof _ _ _ _ _ _ _ _ _ _ _ T P H4) as (rid' & nb & ch & ch' & -> & X & Hb). rewrite Hi in X. injection X as ->.
    exists rid, ch. split; [exact Hb|]. exact B.
  - destruct (ref_of (d_sect (k_doc k)) x) as [r|] eqn:Hr; [|exact B]. exfalso. rewrite Hs in Hr.
    destruct (ref_given l x (typed_keeps l T)) as (c0 & Hc); [congruence|]. now apply intended_given in Hc.
Qed.

(** ** Comments *)
Lemma map_flat {A B C} (f : B -> C) (g : A -> list B) l : map f (flat_map g l) = flat_map (fun a => map f (g a)) l.
Proof. induction l as [|a l IH]; [reflexivity|]. cbn [flat_map]. now rewrite map_app, IH. Qed.
Lemma comment_at_wipe n : DepsSpec.comment_at (TreeSpec.wipe_pics n) = DepsSpec.comment_at n.
Proof. now destruct n. Qed.
Lemma comments_in_wipe n : DepsSpec.comments_in (TreeSpec.wipe_pics n) = DepsSpec.comments_in n.
Proof.
  assert (G : forall l, flat_map (fun n => match n with NLink _ _ ch => flat_map DepsSpec.comment_at ch | _ => DepsSpec.comment_at n end) (map TreeSpec.wipe_pics l) =
              flat_map (fun n => match n with NLink _ _ ch => flat_map DepsSpec.comment_at ch | _ => DepsSpec.comment_at n end) l).
  { intros l. rewrite flat_map_map. apply flat_map_ext. intros m. destruct m; try reflexivity. cbn [TreeSpec.wipe_pics].
    rewrite flat_map_map. apply flat_map_ext. exact comment_at_wipe. }
  unfold DepsSpec.comments_in. destruct n; cbn [TreeSpec.wipe_pics children]; try reflexivity; rewrite <- ?map_app; apply G.
Qed.
Lemma paras_below_wipe n : DepsSpec.paras_below (TreeSpec.wipe_pics n) = map TreeSpec.wipe_pics (DepsSpec.paras_below n).
Proof.
  induction n as [n IH] using node_tree_ind. rewrite Forall_forall in IH.
  assert (S1 : forall l, incl l (children n) -> flat_map DepsSpec.paras_below (map TreeSpec.wipe_pics l) = map TreeSpec.wipe_pics (flat_map DepsSpec.paras_below l)).
  { intros l Hl. rewrite flat_map_map, map_flat. apply flat_map_in_ext, Forall_forall. intros m Hm. apply IH, Hl, Hm. }
  assert (S2 : forall l, incl l (children n) -> flat_map (fun c => if DepsSpec.block c then DepsSpec.paras_below c else []) (map TreeSpec.wipe_pics l) =
                         map TreeSpec.wipe_pics (flat_map (fun c => if DepsSpec.block c then DepsSpec.paras_below c else []) l)).
  { intros l Hl. rewrite flat_map_map, map_flat. apply flat_map_in_ext, Forall_forall. intros m Hm.
    replace (DepsSpec.block (TreeSpec.wipe_pics m)) with (DepsSpec.block m) by now destruct m. destruct (DepsSpec.block m); [apply IH, Hl, Hm|reflexivity]. }
  destruct n; cbn [TreeSpec.wipe_pics DepsSpec.paras_below children map] in *; try reflexivity;
    try (apply S1; apply incl_refl); try (apply S2; apply incl_refl).
  rewrite map_app, !S2; [reflexivity|apply incl_appr, incl_refl|apply incl_appl, incl_refl].
Qed.
Lemma seen_comments_wipe b : seen_comments (map TreeSpec.wipe_pics b) = seen_comments b.
Proof.
  assert (G : DepsSpec.seen_paras (map TreeSpec.wipe_pics b) = map TreeSpec.wipe_pics (DepsSpec.seen_paras b)).
  { unfold DepsSpec.seen_paras. rewrite flat_map_map, map_flat. apply flat_map_ext. intros n. pose proof (paras_below_wipe n) as H. destruct n; try reflexivity; exact H. }
  unfold seen_comments. rewrite G, flat_map_map. apply flat_map_ext. exact comments_in_wipe.
Qed.
Lemma prepare_comments crc styles ext n k k' c ext' : doc_well_formed (k_doc k) -> prepare_package crc styles ext n k = Some (k', c, ext') ->
  exists body old, seen_comments (d_body (k_doc k')) = seen_comments body /\ dp_ext old = ext /\ dp_has_comments old = r_comments (k_doc_rels k) /\
    length (dp_comments old) = length (d_comments (k_doc k)) /\
    d_comments (k_doc k') = dp_comments (update_dependencies body old) /\ ext' = dp_ext (update_dependencies body old) /\
    r_comments (k_doc_rels k') = r_comments (k_doc_rels k) || dp_has_comments (update_dependencies body old).
Proof.
  intros W E. unfold prepare_package in E.
  destruct (TocModel.expand_auto_tocs styles (d_body (k_doc k)) n) as [[[body n1] has]|] eqn:X; [|discriminate].
  destruct (expand_layout _ _ _ _ _ _ X) as (L1 & W1 & K1). set (d0 := with_body (k_doc k) body) in *.
  assert (Wd0 : doc_well_formed d0).
  { destruct W as (A & B & C & D & F). unfold doc_well_formed, doc_roots, d0 in *. cbn [with_body d_body d_parts d_comments d_footnotes] in *. rewrite K1, !Forall_app in *.
    repeat split; tauto. }
  destruct (ParaIdModel.prepare_ids d0) as [d1|] eqn:P; [|discriminate]. destruct (refresh_layout _ _ Wd0 P) as [L2 W2].
  set (old := {| dp_comments := d_comments d1; dp_ext := ext; dp_has_comments := r_comments (k_doc_rels k); dp_links := [] |}) in *.
  set (dp := update_dependencies (d_body d1) old) in *. set (d2 := with_comments d1 (dp_comments dp)) in *.
  assert (Wd2 : doc_well_formed d2).
  { destruct W2 as (A & B & C & D & F). unfold doc_roots in F. rewrite !Forall_app in F. destruct F as (F1 & F2 & F3 & F4).
    destruct (found_comments (d_body d1) old F1 C F3) as [G1 G2].
    unfold doc_well_formed, doc_roots, d2. cbn [with_comments d_body d_parts d_comments d_footnotes]. rewrite !Forall_app. fold dp in G1, G2. tauto. }
  destruct (collect_package crc d2) as [[d3 c3]|] eqn:Q; [|discriminate]. injection E as <- <- <-.
  destruct (collect_package_ok crc d2 Wd2) as (d4 & c4 & Q4 & _ & _ & _ & _ & _ & Hb & _ & _ & Hc & _). rewrite Q in Q4. injection Q4 as <- <-.
  exists (d_body d1), old. cbn [prepared set_types set_doc k_doc k_doc_rels r_comments]. split; [|repeat split].
  - rewrite <- (seen_comments_wipe (d_body d3)), Hb. apply seen_comments_wipe.
  - destruct (ParaIdProofs.prepare_spec d0 d1 Wd0 P) as [_ Wp]. apply (f_equal d_comments) in Wp. cbn in Wp. apply (f_equal (@length _)) in Wp. rewrite !map_length in Wp. exact Wp.
  - exact Hc.
Qed.

(** ** Comments *)
Lemma single_reread c : single c -> single (reread_thread c) /\ paras_of_comment (reread_thread c) = map seen (paras_of_comment c).
Proof.
  intros (id & p & nb & ch & Hc). unfold reread_thread, reread_comment, set_parent, single, paras_of_comment. cbn [fst snd]. rewrite Hc. cbn [flat_map reread app map]. split; eauto.
Qed.
Lemma reread_singles l : Forall single l -> Forall single (map reread_thread l) /\ flat_map paras_of_comment (map reread_thread l) = map seen (flat_map paras_of_comment l).
Proof.
  intros H. split.
  - apply Forall_map. revert H. apply Forall_impl. intros c Hc. now apply single_reread.
  - rewrite flat_map_map, map_flat. apply flat_map_in_ext. revert H. apply Forall_impl. intros c Hc. now apply single_reread.
Qed.
Lemma reread_ids l : comment_ids (map reread_thread l) = comment_ids l.
Proof. unfold comment_ids. rewrite map_map. apply map_ext. reflexivity. Qed.
Lemma last_para_reread l q : Forall single l -> DepsSpec.last_para (map reread_thread l) q = option_map seen (DepsSpec.last_para l q).
Proof.
  intros H. unfold DepsSpec.last_para.
  enough (flat_map (fun c : comment => if N.eqb (cd_id (fst c)) q then paras_of_comment c else []) (map reread_thread l) =
          map seen (flat_map (fun c : comment => if N.eqb (cd_id (fst c)) q then paras_of_comment c else []) l)) as ->.
  { rewrite <- map_rev. now destruct (rev _). }
  rewrite flat_map_map, map_flat. apply flat_map_in_ext. revert H. apply Forall_impl. intros c Hc. cbn [reread_thread set_parent fst cd_id reread_comment].
  destruct (N.eqb _ q); [|reflexivity]. now apply single_reread.
Qed.
Lemma ext_reread l : Forall single l -> flat_map (ext_spec (map reread_thread l)) (map reread_thread l) = map reread_ext (flat_map (ext_spec l) l).
Proof.
  intros H. rewrite flat_map_map, map_flat. apply flat_map_in_ext. apply Forall_forall. intros c Hc. unfold ext_spec.
  destruct (single_reread c) as [_ ->]; [rewrite Forall_forall in H; auto|]. rewrite flat_map_map, map_flat. apply flat_map_ext. intros id.
  cbn [reread_thread set_parent fst cd_parent]. destruct (cd_parent (fst c)) as [q|]; [|reflexivity].
  rewrite last_para_reread by exact H. now destruct (DepsSpec.last_para l q).
Qed.
Lemma put_ext_fresh x l : ~ In (ce_para x) (map ce_para l) -> put_ext x l = l ++ [x].
Proof.
  induction l as [|y l IH]; cbn [map In put_ext]; [reflexivity|]. intros H. destruct (String.eqb_spec (ce_para y) (ce_para x)) as [E|_]; [now destruct H; left|].
  cbn [app]. rewrite IH; tauto.
Qed.
Lemma exts_distinct es : NoDup (map (fun x => seen (ce_para x)) es) -> reread_exts es = map reread_ext es.
Proof.
  unfold reread_exts. intros H.
  enough (G : forall es acc, NoDup (map ce_para acc ++ map (fun x => seen (ce_para x)) es) -> fold_left (fun l x => put_ext (reread_ext x) l) es acc = acc ++ map reread_ext es)
    by exact (G es [] H).
  clear. induction es as [|x es IH]; cbn [map fold_left]; intros acc H; [now rewrite app_nil_r|].
  rewrite put_ext_fresh, IH, <- app_assoc; [reflexivity| |].
  - rewrite map_app, <- app_assoc. exact H.
  - intros Hi. apply NoDup_remove_2 in H. apply H. rewrite in_app_iff. left. exact Hi.
Qed.
Lemma ext_keys l : Forall single l -> incl (map ce_para (flat_map (ext_spec l) l)) (flat_map paras_of_comment l) /\
  (NoDup (map seen (flat_map paras_of_comment l)) -> NoDup (map (fun x => seen (ce_para x)) (flat_map (ext_spec l) l))).
Proof.
  intros Hs. enough (G : forall r, Forall single r -> incl (map ce_para (flat_map (ext_spec l) r)) (flat_map paras_of_comment r) /\
  (NoDup (map seen (flat_map paras_of_comment r)) -> NoDup (map (fun x => seen (ce_para x)) (flat_map (ext_spec l) r)))) by (apply G, Hs).
  clear Hs. induction 1 as [|c r Hc Hr [IH1 IH2]]; cbn [flat_map map]; [split; [apply incl_refl|auto]|].
  assert (HE : ext_spec l c = [] \/ exists p, ext_spec l c = [{| ce_para := DepsSpec.para_id c; ce_done := false; ce_parent := p |}]).
  { unfold ext_spec. rewrite (DepsProofs.single_paras c Hc). cbn [flat_map]. rewrite app_nil_r. destruct (cd_parent (fst c)) as [q|]; [destruct (DepsSpec.last_para l q)|]; eauto. }
  rewrite (DepsProofs.single_paras c Hc). cbn [app map]. destruct HE as [->|[p ->]]; cbn [app map ce_para].
  - split; [apply incl_tl, IH1|]. intros N. inversion N; subst. auto.
  - split; [apply incl_cons; [now left|apply incl_tl, IH1]|]. intros N. inversion N as [|? ? N1 N2]; subst. constructor; [|auto].
    intros Hi. apply N1. rewrite <- (map_map ce_para seen) in Hi. apply in_map_iff in Hi as (y & <- & Hy). apply in_map, IH1, Hy.
Qed.
(** A document made by calls has no comments besides those in its body. *)
Lemma calls_comments l : typed_calls l -> d_comments (k_doc (calls l)) = [] /\ r_comments (k_doc_rels (calls l)) = false.
Proof.
  induction l as [|a l IH] using rev_ind; intros T; [now split|]. unfold typed_calls in T. apply Forall_app in T as [T Ta]. inversion Ta as [|? ? Ha _]; subst.
  rewrite PackRelsProofs.calls_snoc. specialize (IH T). revert IH. generalize (calls l). intros k [H1 H2].
  destruct a; cbn [call typed_call] in *; try contradiction; try (now split).
  rewrite PackRelsProofs.add_section_eq. pose proof (attach_all_rels s (number_if (sa_numbering s) (k_doc_rels k), k_types k, (sa_prop s, []))) as R.
  destruct (PackRelsProofs.attach_all s _) as [[r t] [p parts]]. cbn [fst] in R. destruct R as (_ & _ & _ & R). cbn [set_types set_doc k_doc_rels k_doc push_body d_comments]. rewrite R. now split.
Qed.
Lemma saved_comments l o k c es : saved l o k c es -> Forall single (seen_comments (d_body (k_doc k))) ->
  match seen_comments (d_body (k_doc k)) with
  | [] => r_comments (k_doc_rels k) = false
  | cs => d_comments (k_doc k) = cs /\ o_ext o = flat_map (ext_spec cs) cs /\ r_comments (k_doc_rels k) = true
  end.
Proof.
  intros (T & (crc & styles & ext & n & P) & _) Hs. destruct (calls_comments l T) as [C1 C2].
  destruct (prepare_comments _ _ _ _ _ _ _ _ (typed_document l T) P) as (body & old & Hb & He & Hh & Hl & D1 & D2 & D3). rewrite Hb in *. rewrite C2 in *. cbn [orb] in D3.
  destruct (seen_comments body) as [|c0 cs] eqn:Hc.
  - destruct (DepsProofs.collected_exactly body old) as (_ & _ & X & _). rewrite Hc in X. cbn [flat_map] in X. rewrite D3, X. exact Hh.
  - rewrite <- Hc in *. destruct (DepsProofs.comments_collected body old Hs) as (X1 & X2 & X3); [congruence|]. rewrite D1, D2, D3, X1, X2, X3. auto.
Qed.
Lemma comments_back l o k c es png preview m op : saved l o k c es -> reopenable k o c -> opened_from k es png preview m op ->
  let cs := seen_comments (d_body (k_doc k)) in
  Forall single cs -> NoDup (comment_ids cs) -> NoDup (map seen (flat_map paras_of_comment cs)) ->
  Forall (fun c => match cd_parent (fst c) with None => True | Some q => In q (comment_ids cs) end) cs ->
  d_comments (k_doc (op_pkg op)) = map reread_thread cs /\
  d_body (k_doc (op_pkg op)) = store_comments (map reread_thread cs) (flat_map (reread InDocument) (d_body (k_doc k))).
Proof.
  intros S Re O cs Hs Hi Hp Hq. destruct (opened_back _ _ _ _ _ _ _ _ _ S Re O) as (heads & foots & _ & _ & B).
  assert (G : read_comments_as k o = map reread_thread cs).
  { pose proof (saved_comments _ _ _ _ _ S Hs) as H. fold cs in H. unfold read_comments_as.
    destruct cs as [|c0 r] eqn:Hc; [now rewrite H|]. destruct H as (-> & -> & ->). rewrite <- Hc in *.
    assert (F : map reread_comment cs = map forget_parent (map reread_thread cs)).
    { rewrite map_map. apply map_ext. intros x. reflexivity. }
    rewrite F. rewrite (exts_distinct _ (proj2 (ext_keys cs Hs) Hp)), <- (ext_reread cs Hs).
    destruct (reread_singles cs Hs) as [F1 F2]. unfold threaded. destruct (map forget_parent _) eqn:X; [rewrite Hc in X; discriminate|]. rewrite <- X.
    apply DepsProofs.threads_survive; [exact F1|now rewrite reread_ids|now rewrite F2|]. rewrite reread_ids. apply Forall_map. exact Hq. }
  unfold comes_back in B. cbv zeta in B. rewrite G in B. tauto.
Qed.

(** ** Custom properties *)
Lemma text_read_seen s : text_read s = if all_char is_ws (text_seen s) then None else Some (text_seen s).
Proof.
  unfold text_read, text_events. destruct s as [|c s]; [reflexivity|]. destruct (all_char is_ws (text_seen (String c s))); reflexivity.
Qed.
Lemma put_custom_fresh a v m : ~ In a (map fst m) -> put_custom a v m = m ++ [(a, v)].
Proof.
  unfold put_custom. induction m as [|[b w] m IH]; cbn [map In put_link fst]; [reflexivity|]. intros H. destruct (String.eqb_spec a b) as [->|_]; [now destruct H; left|].
  cbn [app]. rewrite IH; tauto.
Qed.
Lemma custom_distinct es : NoDup (map (fun e : string * string => seen (fst e)) es) -> fold_left custom_read es [] = flat_map reread_custom es.
Proof.
  intros H. enough (G : forall es m, NoDup (map fst m ++ map (fun e : string * string => seen (fst e)) es) -> fold_left custom_read es m = m ++ flat_map reread_custom es)
    by exact (G es [] H).
  clear. induction es as [|e es IH]; intros m H; cbn [fold_left flat_map]; [now rewrite app_nil_r|]. cbn [map] in H.
  unfold custom_read at 2, reread_custom at 1. rewrite text_read_seen. destruct (all_char is_ws (text_seen (snd e))).
  - rewrite IH; [reflexivity|]. eapply NoDup_remove_1, H.
  - rewrite put_custom_fresh.
    + rewrite IH, <- app_assoc; [reflexivity|]. rewrite map_app, <- app_assoc. exact H.
    + intros Hi. apply NoDup_remove_2 in H. apply H. apply in_app_iff. now left.
Qed.
Lemma rest_back l o k c es png preview m op : saved l o k c es -> reopenable k o c -> opened_from k es png preview m op ->
  d_sect (k_doc (op_pkg op)) = reread_sectpr (d_sect (k_doc k)) /\
  o_styles (op_rest op) = reread_styles (o_styles o) /\
  o_numberings (op_rest op) = (if r_numberings (k_doc_rels k) then reread_numberings (o_numberings o) else no_numberings) /\
  o_settings (op_rest op) = reread_settings (with_even (k_even k) (o_settings o)) /\
  (NoDup (map (fun e : string * string => seen (fst e)) (o_custom o)) -> o_custom (op_rest op) = flat_map reread_custom (o_custom o)).
Proof.
  intros S Re O. destruct (opened_back _ _ _ _ _ _ _ _ _ S Re O) as (heads & foots & _ & _ & B). unfold comes_back in B. cbv zeta in B.
  destruct B as (_ & B1 & _ & _ & _ & B2 & B3 & B4 & B5 & _). repeat split; auto. intros H. now rewrite B2, custom_distinct.
Qed.

(** ** Hyperlinks *)
Lemma link_at_wipe n : DepsSpec.link_at (ParaIdSpec.wipe n) = DepsSpec.link_at n.
Proof. now destruct n. Qed.
Lemma links_in_wipe n : DepsSpec.links_in (ParaIdSpec.wipe n) = DepsSpec.links_in n.
Proof.
  unfold DepsSpec.links_in. destruct n; cbn [ParaIdSpec.wipe children]; try reflexivity; rewrite <- ?map_app, flat_map_map; apply flat_map_ext; exact link_at_wipe.
Qed.
Lemma paras_below_wiped n : DepsSpec.paras_below (ParaIdSpec.wipe n) = map ParaIdSpec.wipe (DepsSpec.paras_below n).
Proof.
  induction n as [n IH] using node_tree_ind. rewrite Forall_forall in IH.
  assert (S1 : forall l, incl l (children n) -> flat_map DepsSpec.paras_below (map ParaIdSpec.wipe l) = map ParaIdSpec.wipe (flat_map DepsSpec.paras_below l)).
  { intros l Hl. rewrite flat_map_map, map_flat. apply flat_map_in_ext, Forall_forall. intros m Hm. apply IH, Hl, Hm. }
  assert (S2 : forall l, incl l (children n) -> flat_map (fun c => if DepsSpec.block c then DepsSpec.paras_below c else []) (map ParaIdSpec.wipe l) =
                         map ParaIdSpec.wipe (flat_map (fun c => if DepsSpec.block c then DepsSpec.paras_below c else []) l)).
  { intros l Hl. rewrite flat_map_map, map_flat. apply flat_map_in_ext, Forall_forall. intros m Hm.
    replace (DepsSpec.block (ParaIdSpec.wipe m)) with (DepsSpec.block m) by now destruct m. destruct (DepsSpec.block m); [apply IH, Hl, Hm|reflexivity]. }
  destruct n; cbn [ParaIdSpec.wipe DepsSpec.paras_below children map] in *; try reflexivity;
    try (apply S1; apply incl_refl); try (apply S2; apply incl_refl).
  rewrite map_app, !S2; [reflexivity|apply incl_appr, incl_refl|apply incl_appl, incl_refl].
Qed.
Lemma seen_links_wipe b : seen_links (map ParaIdSpec.wipe b) = seen_links b.
Proof.
  assert (G : DepsSpec.seen_paras (map ParaIdSpec.wipe b) = map ParaIdSpec.wipe (DepsSpec.seen_paras b)).
  { unfold DepsSpec.seen_paras. rewrite flat_map_map, map_flat. apply flat_map_ext. intros n. pose proof (paras_below_wiped n) as H. destruct n; try reflexivity; exact H. }
  unfold seen_links. rewrite G, flat_map_map. apply flat_map_ext. exact links_in_wipe.
Qed.
Lemma links_none l : Forall (fun n => DepsSpec.link_at n = []) l -> flat_map DepsSpec.link_at l = [].
Proof. induction 1 as [|n l H _ IH]; [reflexivity|]. cbn [flat_map]. now rewrite H, IH. Qed.
Lemma seen_links_expand styles body n body' n' has : TocModel.expand_auto_tocs styles body n = Some (body', n', has) -> seen_links body' = seen_links body.
Proof.
  intros X. apply TocProofs.toc_expansion_proof in X. destruct X as (marks & F & _). revert F. generalize body at 1. intros B F.
  unfold seen_links, DepsSpec.seen_paras. rewrite !flat_map_flat_map.
  induction F as [|a m a' l ms l' C _ IH]; [reflexivity|]. cbn [flat_map]. rewrite IH. f_equal.
  apply changed_children in C. destruct C as [->|[(id & p & nb & ch & -> & ->)|(d & b & a0 & items & -> & ->)]]; [reflexivity| |reflexivity].
  cbn [DepsSpec.paras_below flat_map]. rewrite !app_nil_r. unfold DepsSpec.links_in. cbn [children]. unfold TocSpec.between. rewrite !flat_map_app.
  rewrite (links_none (map _ m)), (links_none (map _ (rev m))) by (apply Forall_map, Forall_forall; reflexivity). now rewrite app_nil_r.
Qed.
Lemma flat_map_single {A B} (f : A -> B) l : flat_map (fun x => [f x]) l = map f l.
Proof. induction l as [|a l IH]; [reflexivity|]. cbn [flat_map app map]. now rewrite IH. Qed.
Lemma links_back l o k c es png preview m op : saved l o k c es -> reopenable k o c -> opened_from k es png preview m op ->
  let links := seen_links (d_body (k_doc (calls l))) in NoDup (map (fun x => seen (fst x)) links) ->
  Permutation (op_links op) (map (fun x => (seen (fst x), seen (snd x), "External"%string)) links).
Proof.
  intros S Re O links Hn. destruct (opened_back _ _ _ _ _ _ _ _ _ S Re O) as (heads & foots & _ & _ & B). unfold comes_back in B. cbv zeta in B.
  destruct B as (_ & _ & _ & _ & _ & _ & _ & _ & _ & _ & _ & _ & _ & B).
  destruct S as (T & (crc & styles & ext & n & P) & _).
  destruct (prepare_shape _ _ _ _ _ _ _ _ (typed_document l T) P) as (d1 & d & comments & lk & Hk & _ & _ & _ & _ & _ & (body & n1 & has & X & Hw & _) & Hl).
  assert (Hs : seen_links (d_body d1) = links).
  { rewrite <- seen_links_wipe, Hw, seen_links_wipe. exact (seen_links_expand _ _ _ _ _ _ X). }
  destruct (DepsProofs.collected_exactly (d_body d1) {| dp_comments := []; dp_ext := []; dp_has_comments := false; dp_links := [] |}) as (_ & _ & _ & q & Q1 & Q2 & Q3 & Q4).
  rewrite <- Hl in Q1. cbn [dp_links app] in Q1. rewrite Hs in Q3, Q4.
  assert (Hr : r_links (k_doc_rels k) = external q).
  { rewrite Hk. cbn [prepared set_types set_doc k_doc_rels r_links]. rewrite (proj1 (proj2 (calls_rels l (typed_keeps l T)))). exact Q1. }
  assert (Hf : NoDup (map fst links)).
  { rewrite <- (map_map fst seen) in Hn. now apply NoDup_map_inv in Hn. }
  assert (Hp : Permutation q links).
  { apply NoDup_Permutation; [now apply NoDup_map_inv in Q2|now apply NoDup_map_inv in Hf|]. intros x. split; [apply Q3|]. intros Hx.
    pose proof (in_map fst _ _ Hx) as Hk1. apply Q4 in Hk1. apply in_map_iff in Hk1 as (y & Hy & Iy). pose proof (Q3 _ Iy) as Jy.
    enough (x = y) as -> by exact Iy. clear -Hf Hx Hy Jy. induction links as [|z r IH]; [destruct Hx|]. cbn [map] in Hf. inversion Hf as [|? ? N1 N2]; subst.
    destruct Hx as [->|Hx], Jy as [->|Jy]; [reflexivity| | |now apply IH].
    - exfalso. apply N1. rewrite <- Hy. now apply in_map.
    - exfalso. apply N1. rewrite Hy. now apply in_map. }
  rewrite B, Hr. rewrite set_of_perm.
  - unfold external. rewrite map_map, flat_map_map. cbn [link_target fst snd]. change (seen "External") with "External"%string.
    rewrite flat_map_single. now apply Permutation_map.
  - unfold external. rewrite !map_map. cbn [link_target fst snd]. eapply Permutation_NoDup; [|exact Hn]. apply Permutation_map. now symmetry.
Qed.

(** The names of media files and picture relationships: made from the ids of pictures. *)
From Coq Require Import NArith List Bool Lia.
From Verif Require Import Str StrFacts ListFacts Props Ast Pass PassFacts MediaModel MediaSpec MediaProofs TreeModel TreeSpec TreeProofs PackRelsProofs.
Import ListNotations.
Open Scope list_scope.

Section Names.
  Variable crc : string -> N.
  Definition closed (P : string -> Prop) : Prop := forall id n, P id -> P (suffixed id n).
  Lemma unique_id_name P used n s id c s' : closed P -> unique_id used n s id = Some (c, s') -> P id -> P c.
  Proof.
    intros P_suffix. unfold unique_id. destruct (used id); [|intros H; injection H as <- _; auto].
    destruct (search_suffix _ _ _ _) as [[x m]|] eqn:Hs; [|discriminate]. intros H. injection H as <- _. intros Hp.
    apply search_suffix_prefix in Hs as (j & ->). now apply P_suffix.
  Qed.
  Variable P : string -> Prop.
  Hypothesis P_suffix : closed P.
  Lemma register_names r id bytes i r' : register crc r id bytes = Some (i, r') -> P id -> Forall P (map fst (media r)) -> Forall P (map fst (media r')).
  Proof.
    unfold register. intros H Hid Hr.
    repeat match type of H with match ?x with _ => _ end = Some _ => destruct x eqn:? end; try discriminate; injection H as _ <-; auto.
    cbn [media]. rewrite map_app. apply Forall_app. split; [exact Hr|]. constructor; [|constructor]. cbn [fst]. eapply unique_id_name; eauto.
  Qed.
  Definition state_ok (Q : string -> Prop) (s : part_state) : Prop := Forall P (map fst (media (ps_registry s))) /\ Forall Q (map fst (rels (ps_collector s))).
  Definition named (Q : string -> Prop) (id : string) : Prop := P id /\ Q id.
  Lemma on_item_names Q prefix l : closed Q -> forall s l' s', pass (on_item crc prefix) l s = Some (l', s') ->
    Forall (fun x => named Q (preferred_rel_id prefix (pic_id x))) (item_pics l) -> state_ok Q s -> state_ok Q s'.
  Proof.
    intros Q_suffix.
    induction l as [|[x|id c] l IH]; intros s l' s' H Hl Hs; cbn [pass on_item] in H.
    - injection H as _ <-. exact Hs.
    - unfold on_picture, visit_picture in H. cbn [item_pics flat_map app] in Hl. inversion Hl as [|? ? Hx Hl']; subst. destruct Hs as [Hm Hr]. destruct Hx as [Hx Hq].
      destruct (register crc (ps_registry s) (preferred_rel_id prefix (pic_id x)) (pic_image x)) as [[mi r']|] eqn:Hg; [|discriminate].
      pose proof (register_names _ _ _ _ _ Hg Hx Hm) as Hm'.
      destruct (get_nat mi (rel_of_media (ps_collector s))).
      + cbn [then_] in H. destruct (pass (on_item crc prefix) l _) as [[l2 s2]|] eqn:H2; [|discriminate]. injection H as _ <-.
        eapply IH; [exact H2|exact Hl'|]. split; [exact Hm'|exact Hr].
      + destruct (unique_id _ _ _ _) as [[rid suf]|] eqn:U; [|discriminate]. cbn [then_] in H.
        destruct (pass (on_item crc prefix) l _) as [[l2 s2]|] eqn:H2; [|discriminate]. injection H as _ <-.
        eapply IH; [exact H2|exact Hl'|]. split; [exact Hm'|]. cbn [ps_collector rels]. rewrite map_app. apply Forall_app. split; [exact Hr|].
        constructor; [|constructor]. cbn [fst]. eapply unique_id_name; [exact Q_suffix|exact U|exact Hq].
    - destruct (pass (on_item crc prefix) l _) as [[l2 s2]|] eqn:H2; [|discriminate]. injection H as _ <-.
      eapply IH; [exact H2|exact Hl|exact Hs].
  Qed.
  Definition parts_ok (Q : string -> Prop) (s : registry * rels_list) : Prop := Forall P (map fst (media (fst s))) /\ Forall (fun l => Forall Q (map fst l)) (snd s).
  Lemma collect_part_names Q prefix n s n' s' : closed Q -> collect_part crc prefix n s = Some (n', s') -> own_ok n ->
    Forall (fun x => named Q (prefix +++ pic_id x)) (pics_in [n]) -> parts_ok Q s -> parts_ok Q s'.
  Proof.
    intros Q_suffix. unfold collect_part. pose proof (visit_tracks crc (Some prefix) n (start_part (fst s))) as T.
    destruct (visit crc (Some prefix) n (start_part (fst s))) as [(n1 & st)|]; [|discriminate]. intros H Hok Hp [Hm Hr]. injection H as _ <-.
    destruct T as [T _]. rewrite (visited_own n Hok) in T.
    assert (Hs : state_ok Q st). { eapply on_item_names; [exact Q_suffix|exact T| |split; [exact Hm|constructor]]. now rewrite own_items_pics. }
    split; [exact (proj1 Hs)|]. cbn [snd]. apply Forall_app. split; [exact Hr|]. constructor; [exact (proj2 Hs)|constructor].
  Qed.
  Lemma collect_parts_names Q prefix l : closed Q -> forall s l' s', pass (collect_part crc prefix) l s = Some (l', s') -> Forall own_ok l ->
    Forall (fun n => Forall (fun x => named Q (prefix +++ pic_id x)) (pics_in [n])) l -> parts_ok Q s -> parts_ok Q s'.
  Proof.
    intros Q_suffix. induction l as [|n l IH]; intros s l' s' H Hok Hp Hs; cbn [pass] in H; [injection H as _ <-; exact Hs|].
    inversion Hok as [|? ? A1 A2]; inversion Hp as [|? ? B1 B2]; subst. destruct (collect_part crc prefix n s) as [[n1 s1]|] eqn:H1; [|discriminate].
    destruct (pass (collect_part crc prefix) l s1) as [[l2 s2]|] eqn:H2; [|discriminate]. injection H as _ <-.
    eapply IH; [exact H2| | |]; auto. eapply collect_part_names; [exact Q_suffix|exact H1| | |]; auto.
  Qed.
  Lemma collected_names (Q0 Q1 Q2 : string -> Prop) d d' c : closed Q0 -> closed Q1 -> closed Q2 -> doc_well_formed d -> collect_package crc d = Some (d', c) ->
    Forall (fun x => named Q0 (pic_id x)) (pics_in (d_body d)) ->
    Forall (fun n => Forall (fun x => named Q1 ("header" +++ pic_id x)) (pics_in [n])) (doc_parts true d) ->
    Forall (fun n => Forall (fun x => named Q2 ("footer" +++ pic_id x)) (pics_in [n])) (doc_parts false d) ->
    Forall P (map fst (c_media c)) /\ Forall Q0 (map fst (c_rels c)) /\
    Forall (fun l => Forall Q1 (map fst l)) (c_header_rels c) /\ Forall (fun l => Forall Q2 (map fst l)) (c_footer_rels c).
  Proof.
    intros C0 C1 C2 (W1 & W2 & W3 & W4 & W5) H Hp Hh Hf. unfold collect_package in H.
    assert (Hb : Forall own_ok (d_body d)).
    { unfold doc_roots in W5. apply Forall_app in W5. destruct W5 as [W5 _]. eapply Forall_impl; [|exact W5]. apply well_formed_own. }
    pose proof (visit_body_tracks crc None (d_body d) (start_part empty_registry)) as T. rewrite (visited_body _ W1 Hb) in T.
    destruct (visit_body crc None (d_body d) (start_part empty_registry)) as [[body s1]|]; [|discriminate]. destruct T as [T Wb].
    assert (S1 : state_ok Q0 s1). { eapply on_item_names; [exact C0|exact T| |split; constructor]. now rewrite own_items_pics. }
    set (d1 := {| d_body := body; d_sect := d_sect d; d_parts := d_parts d; d_comments := d_comments d; d_footnotes := d_footnotes d |}) in *.
    assert (Ep : forall b, doc_parts b d1 = doc_parts b d).
    { intros b. unfold doc_parts. cbn [d1 d_parts d_body]. f_equal. now apply wipe_own_sections. }
    pose proof (doc_parts_ok true d W2 W1 W5) as Oh. pose proof (doc_parts_ok false d W2 W1 W5) as Of.
    pose proof (on_parts_tracks true (collect_part crc "header") (collect_part_wipe crc "header") d1 (ps_registry s1, [])) as T1.
    rewrite Ep in T1. change (which_of true) with is_header in T1.
    destruct (on_parts is_header (collect_part crc "header") d1 (ps_registry s1, [])) as [(d2 & (r2 & hrels))|]; [|discriminate H].
    destruct T1 as [T1 K2]. injection K2 as _ _ K2c _ _ _. cbn [negb] in K2c. rewrite Ep in K2c.
    assert (S2 : parts_ok Q1 (r2, hrels)). { eapply collect_parts_names; [exact C1|exact T1|exact Oh|exact Hh|]. split; [exact (proj1 S1)|constructor]. }
    pose proof (on_parts_tracks false (collect_part crc "footer") (collect_part_wipe crc "footer") d2 (r2, [])) as T2.
    rewrite K2c in T2. change (which_of false) with is_footer in T2.
    destruct (on_parts is_footer (collect_part crc "footer") d2 (r2, [])) as [(d3 & (r3 & frels))|]; [|discriminate H].
    destruct T2 as [T2 _]. assert (S3 : parts_ok Q2 (r3, frels)). { eapply collect_parts_names; [exact C2|exact T2|exact Of|exact Hf|]. split; [exact (proj1 S2)|constructor]. }
    injection H as _ <-. cbn [c_media c_rels c_header_rels c_footer_rels]. split; [exact (proj1 S3)|]. split; [exact (proj2 S1)|].
    split; [exact (proj2 S2)|exact (proj2 S3)].
  Qed.
End Names.

(** The bytes of media files: those of pictures. *)
From Coq Require Import NArith List Bool Lia.
From Verif Require Import Str StrFacts ListFacts Props Ast Pass PassFacts MediaModel MediaSpec MediaProofs TreeModel TreeSpec TreeProofs PackRelsProofs.
Import ListNotations.
Open Scope list_scope.

Section Bytes.
  Variable crc : string -> N.
  Variable P : string -> Prop.
  Lemma register_bytes r id bytes i r' : register crc r id bytes = Some (i, r') -> P bytes -> Forall P (map snd (media r)) -> Forall P (map snd (media r')).
  Proof.
    unfold register. intros H Hb Hr.
    repeat match type of H with match ?x with _ => _ end = Some _ => destruct x eqn:? end; try discriminate; injection H as _ <-; auto.
    cbn [media]. rewrite map_app. apply Forall_app. split; [exact Hr|]. constructor; [exact Hb|constructor].
  Qed.
  Definition bytes_ok (r : registry) : Prop := Forall P (map snd (media r)).
  Lemma on_item_bytes prefix l : forall s l' s', pass (on_item crc prefix) l s = Some (l', s') ->
    Forall (fun x => P (pic_image x)) (item_pics l) -> bytes_ok (ps_registry s) -> bytes_ok (ps_registry s').
  Proof.
    induction l as [|[x|id c] l IH]; intros s l' s' H Hl Hs; cbn [pass on_item] in H.
    - injection H as _ <-. exact Hs.
    - unfold on_picture, visit_picture in H. cbn [item_pics flat_map app] in Hl. inversion Hl as [|? ? Hx Hl']; subst.
      destruct (register crc (ps_registry s) (preferred_rel_id prefix (pic_id x)) (pic_image x)) as [[mi r']|] eqn:Hg; [|discriminate].
      pose proof (register_bytes _ _ _ _ _ Hg Hx Hs) as Hm'.
      destruct (get_nat mi (rel_of_media (ps_collector s))).
      + cbn [then_] in H. destruct (pass (on_item crc prefix) l _) as [[l2 s2]|] eqn:H2; [|discriminate]. injection H as _ <-.
        eapply IH; [exact H2|exact Hl'|exact Hm'].
      + destruct (unique_id _ _ _ _) as [[rid suf]|] eqn:U; [|discriminate]. cbn [then_] in H.
        destruct (pass (on_item crc prefix) l _) as [[l2 s2]|] eqn:H2; [|discriminate]. injection H as _ <-.
        eapply IH; [exact H2|exact Hl'|exact Hm'].
    - destruct (pass (on_item crc prefix) l _) as [[l2 s2]|] eqn:H2; [|discriminate]. injection H as _ <-.
      eapply IH; [exact H2|exact Hl|exact Hs].
  Qed.
  Lemma collect_part_bytes prefix n s n' s' : collect_part crc prefix n s = Some (n', s') -> own_ok n ->
    Forall (fun x => P (pic_image x)) (pics_in [n]) -> bytes_ok (fst s) -> bytes_ok (fst s').
  Proof.
    unfold collect_part. pose proof (visit_tracks crc (Some prefix) n (start_part (fst s))) as T.
    destruct (visit crc (Some prefix) n (start_part (fst s))) as [(n1 & st)|]; [|discriminate]. intros H Hok Hp Hm. injection H as _ <-.
    destruct T as [T _]. rewrite (visited_own n Hok) in T. cbn [fst].
    eapply on_item_bytes; [exact T| |exact Hm]. now rewrite own_items_pics.
  Qed.
  Lemma collect_parts_bytes prefix l : forall s l' s', pass (collect_part crc prefix) l s = Some (l', s') -> Forall own_ok l ->
    Forall (fun n => Forall (fun x => P (pic_image x)) (pics_in [n])) l -> bytes_ok (fst s) -> bytes_ok (fst s').
  Proof.
    induction l as [|n l IH]; intros s l' s' H Hok Hp Hs; cbn [pass] in H; [injection H as _ <-; exact Hs|].
    inversion Hok as [|? ? A1 A2]; inversion Hp as [|? ? B1 B2]; subst. destruct (collect_part crc prefix n s) as [[n1 s1]|] eqn:H1; [|discriminate].
    destruct (pass (collect_part crc prefix) l s1) as [[l2 s2]|] eqn:H2; [|discriminate]. injection H as _ <-.
    eapply IH; [exact H2| | |]; auto. eapply collect_part_bytes; [exact H1| | |]; auto.
  Qed.
  Lemma collected_bytes d d' c : doc_well_formed d -> collect_package crc d = Some (d', c) ->
    Forall (fun x => P (pic_image x)) (pics_in (d_body d)) ->
    (forall b, Forall (fun n => Forall (fun x => P (pic_image x)) (pics_in [n])) (doc_parts b d)) ->
    Forall P (map snd (c_media c)).
  Proof.
    intros (W1 & W2 & W3 & W4 & W5) H Hp Hs. unfold collect_package in H.
    assert (Hb : Forall own_ok (d_body d)).
    { unfold doc_roots in W5. apply Forall_app in W5. destruct W5 as [W5 _]. eapply Forall_impl; [|exact W5]. apply well_formed_own. }
    pose proof (visit_body_tracks crc None (d_body d) (start_part empty_registry)) as T. rewrite (visited_body _ W1 Hb) in T.
    destruct (visit_body crc None (d_body d) (start_part empty_registry)) as [[body s1]|]; [|discriminate]. destruct T as [T Wb].
    assert (S1 : bytes_ok (ps_registry s1)). { eapply on_item_bytes; [exact T| |constructor]. now rewrite own_items_pics. }
    set (d1 := {| d_body := body; d_sect := d_sect d; d_parts := d_parts d; d_comments := d_comments d; d_footnotes := d_footnotes d |}) in *.
    assert (Ep : forall b, doc_parts b d1 = doc_parts b d).
    { intros b. unfold doc_parts. cbn [d1 d_parts d_body]. f_equal. now apply wipe_own_sections. }
    pose proof (doc_parts_ok true d W2 W1 W5) as Oh. pose proof (doc_parts_ok false d W2 W1 W5) as Of.
    pose proof (on_parts_tracks true (collect_part crc "header") (collect_part_wipe crc "header") d1 (ps_registry s1, [])) as T1.
    rewrite Ep in T1. change (which_of true) with is_header in T1.
    destruct (on_parts is_header (collect_part crc "header") d1 (ps_registry s1, [])) as [(d2 & (r2 & hrels))|]; [|discriminate H].
    destruct T1 as [T1 K2]. injection K2 as _ _ K2c _ _ _. cbn [negb] in K2c. rewrite Ep in K2c.
    assert (S2 : bytes_ok r2) by exact (collect_parts_bytes _ _ _ _ _ T1 Oh (Hs true) S1).
    pose proof (on_parts_tracks false (collect_part crc "footer") (collect_part_wipe crc "footer") d2 (r2, [])) as T2.
    rewrite K2c in T2. change (which_of false) with is_footer in T2.
    destruct (on_parts is_footer (collect_part crc "footer") d2 (r2, [])) as [(d3 & (r3 & frels))|]; [|discriminate H].
    destruct T2 as [T2 _]. assert (S3 : bytes_ok r3) by exact (collect_parts_bytes _ _ _ _ _ T2 Of (Hs false) S2).
    injection H as _ <-. exact S3.
  Qed.
End Bytes.
(** Every media file holds the bytes of a picture of the document. *)
Lemma bytes_from_pictures crc d d' c : doc_well_formed d -> collect_package crc d = Some (d', c) ->
  forall bytes, In bytes (map snd (c_media c)) -> exists x, In x (pics_in (d_body d) ++ flat_map (fun n => pics_in [n]) (doc_parts true d ++ doc_parts false d)) /\ pic_image x = bytes.
Proof.
  intros W H. apply Forall_forall. set (L := pics_in (d_body d) ++ _).
  assert (I : forall l, incl l L -> Forall (fun x => exists y, In y L /\ pic_image y = pic_image x) l) by (intros l Hl; apply Forall_forall; intros x Hx; exists x; split; [apply Hl, Hx|reflexivity]).
  apply (collected_bytes crc (fun b => exists x, In x L /\ pic_image x = b) d d' c W H).
  - apply I. apply incl_appl, incl_refl.
  - intros b. apply Forall_forall. intros n Hn. apply I. apply incl_appr. intros x Hx. apply in_flat_map. exists n. split; [|exact Hx]. apply in_app_iff. destruct b; auto.
Qed.

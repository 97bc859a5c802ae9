From Verif Require Import Str UnitsModel.

Lemma from_px_bound v : (exists r, from_px v = Some r) <-> (v <= 450915)%N.
Proof.
  unfold from_px, max_u32. cbn zeta.
  destruct (N.leb_spec (v * 9525) 4294967295); split; try (intros [r Hr]; discriminate Hr); try lia.
  intros _. eauto.
Qed.

Lemma from_px_value v r : from_px v = Some r -> r = (v * 9525)%N /\ to_px r = v.
Proof.
  unfold from_px, to_px. cbn zeta. destruct (N.leb _ _); [|discriminate].
  intro H. injection H as <-. split; [reflexivity|]. apply N.div_mul. discriminate.
Qed.

Lemma wrapping_to_px v : (v < 4294967296)%N -> (to_px (from_px_wrapping v) = v <-> (v <= 450915)%N).
Proof.
  intro Hv. unfold to_px, from_px_wrapping, max_u32.
  change (4294967295 + 1)%N with 4294967296%N.
  destruct (N.le_gt_cases v 450915) as [H|H].
  - split; [tauto|intros _]. rewrite N.mod_small by lia. apply N.div_mul. discriminate.
  - split; [|lia]. intro E. exfalso.
    pose proof (N.mod_upper_bound (v * 9525) 4294967296 ltac:(discriminate)) as Hm.
    assert ((v * 9525) mod 4294967296 / 9525 <= 4294967295 / 9525)%N as Hd
      by (apply N.div_le_mono; [discriminate|lia]).
    change (4294967295 / 9525)%N with 450915%N in Hd. lia.
Qed.

Lemma to_px_from v : (v <= max_u32)%N -> exists r, from_px (to_px v) = Some r /\ (r <= v < r + 9525)%N.
Proof.
  intro Hv. unfold to_px, from_px, max_u32 in *. cbn zeta.
  pose proof (N.div_mod v 9525 ltac:(discriminate)).
  pose proof (N.mod_upper_bound v 9525 ltac:(discriminate)).
  set (q := (v / 9525)%N) in *. set (m := (v mod 9525)%N) in *. clearbody q m.
  destruct (N.leb_spec (q * 9525) 4294967295); [|lia].
  eexists; split; [reflexivity|lia].
Qed.

Lemma rot_total deg : (deg <= 65535)%N -> pic_rot deg = Some (deg * 60000)%N.
Proof.
  intro H. unfold pic_rot, checked_mul32, max_u32. cbn zeta.
  destruct (N.leb_spec (deg * 60) 4294967295); [|lia].
  destruct (N.leb_spec (deg * 60 * 1000) 4294967295); [|lia].
  f_equal. lia.
Qed.

Lemma outline_clamped v : set_outline_lvl v = Some (if (v <=? 9)%N then v else 9%N).
Proof.
  unfold set_outline_lvl, outline_lvl_new.
  destruct (N.leb_spec 10 v); destruct (N.leb_spec v 9); try lia; try reflexivity.
  destruct (N.ltb_spec v 10); [reflexivity|lia].
Qed.

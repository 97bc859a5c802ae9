(** Properties C40, C41. *)
From Verif Require Import Str UnitsModel UnitsProofs.

(** C40: the conversion of pixels succeeds exactly up to 450915 pixels ... *)
Theorem px_overflow_bound : forall v, (exists r, from_px v = Some r) <-> (v <= 450915)%N.
Proof. exact from_px_bound. Qed.
Print Assumptions px_overflow_bound.

(** ... and then yields 9525 units per pixel, which convert back. *)
Theorem px_round_trip : forall v r, from_px v = Some r -> r = (v * 9525)%N /\ to_px r = v.
Proof. exact from_px_value. Qed.
Print Assumptions px_round_trip.

(** In a build that wraps on overflow the round trip holds exactly within the same bound. *)
Theorem px_round_trip_wrapping : forall v, (v < 4294967296)%N ->
  (to_px (from_px_wrapping v) = v <-> (v <= 450915)%N).
Proof. exact wrapping_to_px. Qed.
Print Assumptions px_round_trip_wrapping.

(** The other direction never fails and loses less than one pixel. *)
Theorem px_truncation : forall v, (v <= max_u32)%N ->
  exists r, from_px (to_px v) = Some r /\ (r <= v < r + 9525)%N.
Proof. exact to_px_from. Qed.
Print Assumptions px_truncation.

(** The rotation of a picture, any 16-bit number of degrees, is written without
    overflow in sixty-thousandths of a degree. *)
Theorem rotation_never_overflows : forall deg, (deg <= 65535)%N -> pic_rot deg = Some (deg * 60000)%N.
Proof. exact rot_total. Qed.
Print Assumptions rotation_never_overflows.

Example px_case : pic_size 640 480 = Some (6096000, 4572000)%N /\ to_px 6096000 = 640%N
  /\ from_px 450915 <> None /\ from_px 450916 = None /\ pic_size 450916 1 = None /\ pic_rot 90 = Some 5400000%N.
Proof. repeat split; discriminate. Qed.

(** C41: the setter never panics and stores the level, or nine if it is larger. *)
Theorem outline_level_clamped : forall v, set_outline_lvl v = Some (if (v <=? 9)%N then v else 9%N).
Proof. exact outline_clamped. Qed.
Print Assumptions outline_level_clamped.

Example outline_case : set_outline_lvl 3 = Some 3%N /\ set_outline_lvl 10 = Some 9%N /\ set_outline_lvl max_u64 = Some 9%N.
Proof. repeat split. Qed.

(** Unit conversion, picture size and rotation, outline level. *)
From Verif Require Import Str.

(** types/emu.rs 5-7: [to_px], [u32] division. *)
Definition to_px (v : N) : N := (v / 9525)%N.

(** types/emu.rs 9-11: [from_px].  [v * 9525] on [u32]: a build with overflow
    checks panics ([None]) ... *)
Definition from_px (v : N) : option N :=
  let r := (v * 9525)%N in if (r <=? max_u32)%N then Some r else None.

(** ... a release build wraps modulo 2^32. *)
Definition from_px_wrapping (v : N) : N := ((v * 9525) mod (max_u32 + 1))%N.

(** documents/elements/pic.rs 79-84: [Pic::new_with_dimensions], the [size] field. *)
Definition pic_size (w h : N) : option (N * N) :=
  match from_px w, from_px h with
  | Some a, Some b => Some (a, b)
  | _, _ => None
  end.

(** documents/elements/pic.rs 237: the [rot] attribute, [(self.rot as u32) * 60 * 1000]
    with [rot : u16]; [None] is an overflow. *)
Definition checked_mul32 (a b : N) : option N :=
  let r := (a * b)%N in if (r <=? max_u32)%N then Some r else None.
Definition pic_rot (deg : N) : option N :=
  match checked_mul32 deg 60 with Some r => checked_mul32 r 1000 | None => None end.

(** documents/elements/outline_lvl.rs 13-16: [OutlineLvl::new]; [None] is the
    failing assertion. *)
Definition outline_lvl_new (v : N) : option N := if (v <? 10)%N then Some v else None.

(** documents/elements/paragraph_property.rs 129-137: [ParagraphProperty::outline_lvl]. *)
Definition set_outline_lvl (v : N) : option N :=
  if (10 <=? v)%N then outline_lvl_new 9 else outline_lvl_new v.

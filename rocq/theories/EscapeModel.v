(** Model of docx-core/src/escape/mod.rs. *)
From Verif Require Import Str.

(** One arm of the [match ch] of [escape], escape/mod.rs:4-14. *)
Definition escape_char (c : ascii) : string :=
  if c =c ch_amp then "&amp;"
  else if c =c ch_lt then "&lt;"
  else if c =c ch_gt then "&gt;"
  else if c =c ch_quot then "&quot;"
  else if c =c ch_apos then "&apos;"
  else if c =c ch_nl then "&#xA;"
  else if c =c ch_cr then ""
  else str1 c.

(** [escape], escape/mod.rs:1-17.  The Rust loop runs over [char]s, this one
    over bytes; all special characters are single bytes. *)
Fixpoint escape (s : string) : string :=
  match s with
  | EmptyString => EmptyString
  | String c r => escape_char c +++ escape r
  end.

(** The [matches!] of [escape_owned], escape/mod.rs:27. *)
Definition needs_escape (c : ascii) : bool :=
  (c =c ch_amp) || (c =c ch_lt) || (c =c ch_gt) || (c =c ch_quot)
  || (c =c ch_apos) || (c =c ch_nl) || (c =c ch_cr).

Fixpoint any_char (f : ascii -> bool) (s : string) : bool :=
  match s with
  | EmptyString => false
  | String c r => f c || any_char f r
  end.

(** [escape_owned], escape/mod.rs:23-33. *)
Definition escape_owned (s : string) : string :=
  if any_char needs_escape s then escape s else s.

(** The if-chain of [replace_escaped] at a position holding ['&'],
    escape/mod.rs:42-58: the replacement and the number of bytes consumed. *)
Definition entity_at (s : string) : string * nat :=
  if starts_with "&lt;" s then ("<", 4)
  else if starts_with "&gt;" s then (">", 4)
  else if starts_with "&amp;" s then ("&", 5)
  else if starts_with "&quot;" s then (str1 ch_quot, 6)
  else if starts_with "&#39;" s then ("'", 5)
  else if starts_with "&apos;" s then ("'", 6)
  else if starts_with "&nbsp;" s then (" ", 6)
  else ("&", 1).

(** The [while let] loop of [replace_escaped], escape/mod.rs:39-62.  [skip] is
    the number of bytes of the current entity still to be passed over (the
    slice [rest = &rest[consumed..]] of line 60); the search [find('&')] of
    line 39 copies the bytes before the ampersand one at a time. *)
Fixpoint replace_escaped_from (skip : nat) (s : string) : string :=
  match s with
  | EmptyString => EmptyString
  | String c r =>
      match skip with
      | S k => replace_escaped_from k r
      | O =>
          if c =c ch_amp then
            let (rep, consumed) := entity_at s in
            rep +++ replace_escaped_from (consumed - 1) r
          else String c (replace_escaped_from 0 r)
      end
  end.

(** [replace_escaped], escape/mod.rs:35-64. *)
Definition replace_escaped (s : string) : string := replace_escaped_from 0 s.

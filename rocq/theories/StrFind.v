(** Searching, slicing and replacing in byte strings: Rust's [str::find],
    [&s[i..]], [str::replace] and [str::trim]. *)
From Verif Require Import Str.

(** [s.find(p)]: byte index of the first occurrence. *)
Fixpoint find (p s : string) : option nat :=
  if starts_with p s then Some 0
  else match s with
       | EmptyString => None
       | String _ r => option_map S (find p r)
       end.

(** Does [p] occur in [s]? *)
Definition contains (p s : string) : bool := match find p s with Some _ => true | None => false end.

(** The first [n] bytes. *)
Fixpoint take_bytes (n : nat) (s : string) : string :=
  match n, s with
  | S k, String c r => String c (take_bytes k r)
  | _, _ => EmptyString
  end.
(** The bytes from index [n] on; [None] when [n] exceeds the length. *)
Fixpoint drop_bytes (n : nat) (s : string) : option string :=
  match n, s with
  | O, _ => Some s
  | S k, String _ r => drop_bytes k r
  | S _, EmptyString => None
  end.

(** A continuation byte of a multi-byte UTF-8 sequence, [10xxxxxx]. *)
Definition is_continuation (c : ascii) : bool :=
  match c with Ascii _ _ _ _ _ _ b6 b7 => b7 && negb b6 end.

(** [&s[n..]]: [None] is the panic for an index out of range or inside a
    multi-byte character. *)
Definition slice_from (n : nat) (s : string) : option string :=
  match drop_bytes n s with
  | Some (String c r) => if is_continuation c then None else Some (String c r)
  | o => o
  end.

(** [s.replace(p, t)] for a non-empty pattern: non-overlapping occurrences from
    left to right.  [skip] counts the bytes of the occurrence still to be passed. *)
Fixpoint replace_from (p t : string) (skip : nat) (s : string) : string :=
  match s with
  | EmptyString => EmptyString
  | String c r =>
      match skip with
      | S k => replace_from p t k r
      | O => if starts_with p s then t +++ replace_from p t (String.length p - 1) r
             else String c (replace_from p t 0 r)
      end
  end.
Definition replace (p t s : string) : string := replace_from p t 0 s.

(** [s.trim()], restricted to ASCII white space. *)
Definition is_ws (c : ascii) : bool :=
  (c =c ch_sp) || (c =c ch_tab) || (c =c ch_nl) || (c =c ch_cr) || (c =c "011") || (c =c "012").
Fixpoint trim_start (s : string) : string :=
  match s with
  | EmptyString => EmptyString
  | String c r => if is_ws c then trim_start r else s
  end.
Fixpoint trim_end (s : string) : string :=
  match s with
  | EmptyString => EmptyString
  | String c r =>
      match trim_end r with
      | EmptyString => if is_ws c then EmptyString else String c EmptyString
      | r' => String c r'
      end
  end.
Definition trim (s : string) : string := trim_end (trim_start s).

(** No proper non-empty suffix of [p] is also a prefix of it. *)
Fixpoint no_border_from (p s : string) : bool :=
  match s with
  | EmptyString => true
  | String _ r => negb (starts_with r p && negb (r =s "")) && no_border_from p r
  end.
Definition borderless (p : string) : bool := no_border_from p p.

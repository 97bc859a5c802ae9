(** Byte strings and number formatting shared by all the models.

    A Rust [String] / [&str] is modelled as a Coq [string] of its UTF-8 bytes.
    Every character that the modelled code tests for is ASCII, and no byte of a
    multi-byte UTF-8 sequence is ASCII, so testing bytes agrees with testing
    [char]s.  Coq's [length] is therefore Rust's [len()] (bytes). *)
From Coq Require Export String Ascii List Bool Arith NArith ZArith Lia.
From Coq Require Import Decimal DecimalString DecimalN Hexadecimal HexadecimalString HexadecimalN.
Export ListNotations.
Open Scope string_scope.
Open Scope list_scope.

Infix "+++" := String.append (right associativity, at level 60).

(** ASCII characters used below. *)
Definition ch_lt : ascii := "<"%char.
Definition ch_gt : ascii := ">"%char.
Definition ch_amp : ascii := "&"%char.
Definition ch_quot : ascii := """"%char.
Definition ch_apos : ascii := "'"%char.
Definition ch_nl : ascii := "010"%char.
Definition ch_cr : ascii := "013"%char.
Definition ch_tab : ascii := "009"%char.
Definition ch_sp : ascii := " "%char.

Definition str1 (c : ascii) : string := String c EmptyString.
Definition s_nl : string := str1 ch_nl.
Definition s_cr : string := str1 ch_cr.
Definition s_tab : string := str1 ch_tab.

Notation "a =c b" := (Ascii.eqb a b) (at level 70).
Notation "a =s b" := (String.eqb a b) (at level 70).

(** [str::starts_with] followed by slicing off the prefix. *)
Fixpoint strip_prefix (p s : string) : option string :=
  match p with
  | EmptyString => Some s
  | String a p' =>
      match s with
      | EmptyString => None
      | String b s' => if a =c b then strip_prefix p' s' else None
      end
  end.

Definition starts_with (p s : string) : bool :=
  match strip_prefix p s with Some _ => true | None => false end.

(** Does the byte occur in the string? *)
Fixpoint has_char (c : ascii) (s : string) : bool :=
  match s with
  | EmptyString => false
  | String a s' => (a =c c) || has_char c s'
  end.

(** Are all bytes accepted by [f]? *)
Fixpoint all_char (f : ascii -> bool) (s : string) : bool :=
  match s with
  | EmptyString => true
  | String a s' => f a && all_char f s'
  end.

(** Split before the first byte satisfying [f]: the longest prefix without
    such a byte, and the rest (which is empty or begins with such a byte). *)
Fixpoint span_until (f : ascii -> bool) (s : string) : string * string :=
  match s with
  | EmptyString => (EmptyString, EmptyString)
  | String a s' =>
      if f a then (EmptyString, s)
      else let (u, v) := span_until f s' in (String a u, v)
  end.

(** Keep the bytes satisfying [f]. *)
Fixpoint filter_str (f : ascii -> bool) (s : string) : string :=
  match s with
  | EmptyString => EmptyString
  | String a s' => if f a then String a (filter_str f s') else filter_str f s'
  end.
(** [replace('\n', "")]: run.rs:168, 174, 181, 189 *)
Definition one_line (s : string) : string := filter_str (fun c => negb (c =c ch_nl)) s.

Fixpoint concat_str (l : list string) : string :=
  match l with
  | [] => EmptyString
  | x :: r => x +++ concat_str r
  end.

(** ** Decimal and hexadecimal formatting, Rust's [format!("{}")] on unsigned
    and signed integers, [format!("{:08x}")] and [format!("{:08}")]. *)
Definition show_N (n : N) : string := DecimalString.NilEmpty.string_of_uint (N.to_uint n).
Definition show_nat (n : nat) : string := show_N (N.of_nat n).
Definition show_Z (z : Z) : string :=
  match z with
  | Z0 => "0"
  | Zpos p => show_N (Npos p)
  | Zneg p => "-" +++ show_N (Npos p)
  end.
Definition show_hex (n : N) : string := HexadecimalString.NilEmpty.string_of_uint (N.to_hex_uint n).

(** Left padding with zeros to a minimal width. *)
Fixpoint zeros (n : nat) : string :=
  match n with O => EmptyString | S k => String "0" (zeros k) end.
Definition pad0 (w : nat) (s : string) : string := zeros (w - String.length s) +++ s.

(** Rust's [str::parse::<uN>()]: an optional [+], then at least one decimal
    digit, nothing else, and the value within the range. *)
Definition parse_digits (s : string) : option N :=
  match s with
  | EmptyString => None
  | _ => option_map N.of_uint (DecimalString.NilEmpty.uint_of_string s)
  end.

Definition in_range (max : N) (o : option N) : option N :=
  match o with
  | Some n => if N.leb n max then Some n else None
  | None => None
  end.

Definition parse_unsigned (max : N) (s : string) : option N :=
  match s with
  | String "+" r => in_range max (parse_digits r)
  | _ => in_range max (parse_digits s)
  end.

Definition max_u32 : N := 4294967295.
Definition max_u64 : N := 18446744073709551615.
Definition parse_u32 := parse_unsigned max_u32.
Definition parse_usize := parse_unsigned max_u64.

(** Rust's [str::parse::<i32>()] / [isize]. *)
Definition parse_signed (maxpos : Z) (s : string) : option Z :=
  match s with
  | String "-" r =>
      match parse_digits r with
      | Some n => if Z.leb (- maxpos - 1) (- Z.of_N n) then Some (- Z.of_N n)%Z else None
      | None => None
      end
  | String "+" r =>
      match parse_digits r with
      | Some n => if Z.leb (Z.of_N n) maxpos then Some (Z.of_N n) else None
      | None => None
      end
  | _ =>
      match parse_digits s with
      | Some n => if Z.leb (Z.of_N n) maxpos then Some (Z.of_N n) else None
      | None => None
      end
  end.
Definition max_i32 : Z := 2147483647%Z.
Definition max_i64 : Z := 9223372036854775807%Z.
Definition parse_i32 := parse_signed max_i32.

(** Numbers the reader parses as floating point and converts to integers at
    once: [f64::from_str(s)? as T] and [f32::from_str(s) as T] (reader/attributes/
    border.rs:26, indent.rs:34, line_spacing.rs:13, val.rs:19, width.rs:18,
    tab.rs:41, doc_grid.rs:20, ...).

    [f64::from_str] is Rust's standard library: the grammar is the one its
    documentation gives and the value is the nearest float, ties to even.  Only
    the integer part is ever used, so a finite number is kept as the integer part
    of the rounded value; magnitudes beyond the float range, which Rust turns
    into an infinity, are kept as they are (every conversion saturates). *)
From Verif Require Import Str.

Inductive fl : Type :=
| FNum (z : Z)             (** the integer part, rounded towards zero, of a finite float *)
| FInf (negative : bool)
| FNaN.

(** Nearest integer to [a / b], ties to even; [0 <= a], [0 < b]. *)
Definition round_half_even (a b : Z) : Z :=
  let q := (a / b)%Z in
  match (2 * (a mod b) ?= b)%Z with
  | Lt => q
  | Gt => (q + 1)%Z
  | Eq => if Z.even q then q else (q + 1)%Z
  end.

(** Integer part of the float with [p] significant bits nearest to [num / den];
    [0 <= num], [0 < den].  Below one the spacing [2^-p] is used for all values:
    only values of at least one half can round up to one, and these have it. *)
Definition round_trunc (p num den : Z) : Z :=
  let e := if (num <? den)%Z then (-1)%Z else Z.log2 (num / den) in
  let s := (p - 1 - e)%Z in
  if (0 <=? s)%Z
  then (round_half_even (num * 2 ^ s) den / 2 ^ s)%Z
  else (round_half_even num (den * 2 ^ (- s)) * 2 ^ (- s))%Z.

Definition dec_digit (c : ascii) : bool := match N_of_ascii c with n => N.leb 48 n && N.leb n 57 end.
Definition digits (s : string) : string * string := span_until (fun c => negb (dec_digit c)) s.
Definition digits_value (s : string) : Z :=
  match DecimalString.NilEmpty.uint_of_string s with Some d => Z.of_N (N.of_uint d) | None => 0%Z end.

Definition lower (c : ascii) : ascii :=
  let n := N_of_ascii c in if N.leb 65 n && N.leb n 90 then ascii_of_N (n + 32) else c.
(** Rust's [str::eq_ignore_ascii_case] against a lower case literal. *)
Fixpoint lower_str (s : string) : string :=
  match s with EmptyString => EmptyString | String c r => String (lower c) (lower_str r) end.

(** The exponent at the end of a number: nothing, or [e], a sign, digits. *)
Definition parse_exponent (s : string) : option Z :=
  match s with
  | EmptyString => Some 0%Z
  | String c r =>
      if lower c =c "e"%char then
        let (neg, r) := match r with
                        | String "-" r' => (true, r')
                        | String "+" r' => (false, r')
                        | _ => (false, r)
                        end in
        match digits r with
        | (EmptyString, _) => None
        | (d, EmptyString) => Some (if neg then - digits_value d else digits_value d)%Z
        | _ => None
        end
      else None
  end.

(** A number without its sign, rounded to [p] bits. *)
Definition parse_magnitude (p : Z) (s : string) : option fl :=
  let l := lower_str s in
  if (l =s "inf") || (l =s "infinity") then Some (FInf false)
  else if l =s "nan" then Some FNaN
  else
    let (i, r) := digits s in
    let (f, r) := match r with String "." r' => digits r' | _ => (EmptyString, r) end in
    match i +++ f with
    | EmptyString => None
    | d =>
        match parse_exponent r with
        | None => None
        | Some e =>
            let e := (e - Z.of_nat (String.length f))%Z in
            Some (FNum (if (0 <=? e)%Z then round_trunc p (digits_value d * 10 ^ e) 1
                        else round_trunc p (digits_value d) (10 ^ (- e))))
        end
    end.

Definition negate (x : fl) : fl :=
  match x with FNum z => FNum (- z)%Z | FInf n => FInf (negb n) | FNaN => FNaN end.

(** [f64::from_str] (p = 53) and [f32::from_str] (p = 24). *)
Definition parse_float (p : Z) (s : string) : option fl :=
  match s with
  | String "-" r => option_map negate (parse_magnitude p r)
  | String "+" r => parse_magnitude p r
  | _ => parse_magnitude p s
  end.
Definition parse_f64 : string -> option fl := parse_float 53.
Definition parse_f32 : string -> option fl := parse_float 24.

(** The [as] conversion of a float to an integer type: towards zero, saturating,
    NaN to zero. *)
Definition cast (lo hi : Z) (x : fl) : Z :=
  match x with
  | FNum z => Z.min hi (Z.max lo z)
  | FInf false => hi
  | FInf true => lo
  | FNaN => 0%Z
  end.
Definition as_i32f (x : fl) : Z := cast (- max_i32 - 1) max_i32 x.
Definition as_isizef (x : fl) : Z := cast (- max_i64 - 1) max_i64 x.
Definition as_u32f (x : fl) : N := Z.to_N (cast 0 (Z.of_N max_u32) x).
Definition as_usizef (x : fl) : N := Z.to_N (cast 0 (Z.of_N max_u64) x).

Example float_samples :
  map parse_f64 ["12"; "-3.99"; ".5"; "5."; "1e3"; "1.5E-1"; "+7"; "-inf"; "NaN"; "Infinity"; ""; "."; "1e"; "0x1"; "1 "]
  = [Some (FNum 12); Some (FNum (-3)); Some (FNum 0); Some (FNum 5); Some (FNum 1000); Some (FNum 0);
     Some (FNum 7); Some (FInf true); Some FNaN; Some (FInf false); None; None; None; None; None]
  /\ parse_f64 "9007199254740993" = Some (FNum 9007199254740992)     (* 2^53 + 1 is not a float *)
  /\ parse_f64 "0.99999999999999999" = Some (FNum 1)
  /\ parse_f32 "16777217" = Some (FNum 16777216)
  /\ as_u32f (FNum (-5)) = 0%N /\ as_i32f (FNum 9999999999) = 2147483647%Z.
Proof. repeat split; vm_compute; reflexivity. Qed.

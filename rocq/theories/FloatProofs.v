(** Integers of at most [p] bits survive printing and parsing as a float. *)
From Coq Require Import Lia.
From Verif Require Import Str StrFacts FloatModel.
Local Open Scope Z_scope.

Lemma round_half_even_exact a b : 0 < b -> round_half_even (a * b) b = a.
Proof.
  intros H. unfold round_half_even. rewrite Z.div_mul, Z.mod_mul by lia.
  destruct (Z.compare_spec (2 * 0) b); [lia|reflexivity|lia].
Qed.

Lemma round_half_even_one a : round_half_even a 1 = a.
Proof. rewrite <- (Z.mul_1_r a) at 1. apply round_half_even_exact; lia. Qed.

Lemma round_trunc_exact p n : 1 < p -> 0 <= n <= 2 ^ p -> round_trunc p n 1 = n.
Proof.
  intros Hp [Hn Hn2]. unfold round_trunc. rewrite Z.div_1_r.
  destruct (Z.ltb_spec n 1) as [L|L].
  - replace n with 0 by lia. replace (p - 1 - -1) with p by lia.
    destruct (Z.leb_spec 0 p); [|lia]. rewrite round_half_even_one. now rewrite Z.div_0_l by (apply Z.pow_nonzero; lia).
  - assert (E : Z.log2 n <= p) by (apply Z.log2_le_mono in Hn2; rewrite Z.log2_pow2 in Hn2; lia).
    destruct (Z.leb_spec 0 (p - 1 - Z.log2 n)) as [G|G].
    + rewrite round_half_even_one. apply Z.div_mul. apply Z.pow_nonzero; lia.
    + assert (E2 : Z.log2 n = p) by lia.
      assert (E3 : n = 2 ^ p).
      { pose proof (Z.log2_spec n ltac:(lia)) as [S _]. rewrite E2 in S. lia. }
      replace (- (p - 1 - Z.log2 n)) with 1 by lia. rewrite E3.
      replace p with (p - 1 + 1) by lia. rewrite Z.pow_add_r, Z.mul_1_l by lia.
      now rewrite round_half_even_exact by lia.
Qed.

Lemma show_digit n : exists c r, show_N n = String c r /\ dec_digit c = true.
Proof.
  destruct (show_N n) as [|c r] eqn:E; [destruct (show_N_nonempty n E)|].
  exists c, r; split; [reflexivity|]. pose proof (show_N_digits n) as H. rewrite E in H. cbn in H.
  now apply andb_true_iff in H as [H _].
Qed.

Lemma digit_not_word c r w : dec_digit c = true ->
  match w with String a _ => dec_digit a = false | EmptyString => True end -> lower_str (String c r) <> w.
Proof.
  intros H Hw E. cbn in E. subst w. destruct c as [[] [] [] [] [] [] [] []]; vm_compute in H, Hw; congruence.
Qed.

Lemma digits_show n : digits (show_N n) = (show_N n, ""%string).
Proof.
  unfold digits. rewrite <- (append_nil_r (show_N n)) at 1. apply span_until_exact; [|reflexivity].
  rewrite <- (show_N_digits n). induction (show_N n) as [|c s IH]; [reflexivity|].
  cbn [all_char]. rewrite IH, negb_involutive. reflexivity.
Qed.

Lemma digits_value_show n : digits_value (show_N n) = Z.of_N n.
Proof. unfold digits_value. rewrite uint_of_show. now rewrite DecimalN.Unsigned.of_to. Qed.

Lemma parse_magnitude_show p n : 1 < p -> (Z.of_N n <= 2 ^ p) -> parse_magnitude p (show_N n) = Some (FNum (Z.of_N n)).
Proof.
  intros Hp Hn. unfold parse_magnitude.
  destruct (show_digit n) as (c & r & E & Hc).
  assert (W : forall w, match w with String a _ => dec_digit a = false | EmptyString => True end ->
     (lower_str (show_N n) =s w)%string = false).
  { intros w Hw. apply String.eqb_neq. rewrite E. now apply digit_not_word. }
  rewrite (W "inf"%string), (W "infinity"%string), (W "nan"%string) by reflexivity. cbn [orb].
  rewrite digits_show. cbn match. rewrite append_nil_r.
  destruct (show_N n) as [|c' r'] eqn:E'; [discriminate|]. rewrite <- E'.
  change (parse_exponent "") with (Some 0). cbn [String.length].
  replace (0 - Z.of_nat 0) with 0 by lia. cbn match. rewrite digits_value_show. rewrite Z.pow_0_r, Z.mul_1_r.
  change (0 <=? 0) with true. cbn match. rewrite round_trunc_exact by lia. reflexivity.
Qed.

Lemma parse_float_show p z : 1 < p -> Z.abs z <= 2 ^ p -> parse_float p (show_Z z) = Some (FNum z).
Proof.
  intros Hp Hz. unfold parse_float.
  assert (X : forall n, Z.of_N n <= 2 ^ p -> match show_N n with
     | String "-" r => option_map negate (parse_magnitude p r)
     | String "+" r => parse_magnitude p r
     | _ => parse_magnitude p (show_N n) end = Some (FNum (Z.of_N n))).
  { intros n Hn. destruct (show_digit n) as (c & r & E & Hc).
    pose proof (parse_magnitude_show p n Hp Hn) as M. rewrite E in *.
    destruct c as [[] [] [] [] [] [] [] []]; try exact M; vm_compute in Hc; discriminate. }
  destruct z as [|q|q]; cbn [show_Z].
  - exact (X 0%N ltac:(lia)).
  - exact (X (Npos q) ltac:(lia)).
  - cbn. change (DecimalString.NilEmpty.string_of_uint (Pos.to_uint q)) with (show_N (Npos q)).
    rewrite parse_magnitude_show by lia. reflexivity.
Qed.

Lemma parse_f64_show_Z z : Z.abs z <= 2 ^ 53 -> parse_f64 (show_Z z) = Some (FNum z).
Proof. now apply parse_float_show. Qed.
Lemma show_Z_of_N n : show_Z (Z.of_N n) = show_N n.
Proof. destruct n; reflexivity. Qed.
Lemma parse_f64_show_N n : (n <= 2 ^ 53)%N -> parse_f64 (show_N n) = Some (FNum (Z.of_N n)).
Proof. intros H. rewrite <- show_Z_of_N. apply parse_f64_show_Z. lia. Qed.
Lemma parse_f32_show_N n : (n <= 2 ^ 24)%N -> parse_f32 (show_N n) = Some (FNum (Z.of_N n)).
Proof. intros H. rewrite <- show_Z_of_N. apply parse_float_show; lia. Qed.
Lemma parse_f32_show_Z z : Z.abs z <= 2 ^ 24 -> parse_f32 (show_Z z) = Some (FNum z).
Proof. now apply parse_float_show. Qed.

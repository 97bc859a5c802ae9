(** Lemmas about the helpers of [Str]. *)
From Coq Require Import Decimal DecimalString DecimalN DecimalPos DecimalFacts Hexadecimal HexadecimalString HexadecimalN HexadecimalFacts.
From Verif Require Import Str.

Lemma append_nil_r s : s +++ "" = s.
Proof. induction s as [|a s IH]; cbn; [reflexivity | now rewrite IH]. Qed.

Lemma append_assoc a b c : (a +++ b) +++ c = a +++ (b +++ c).
Proof. induction a as [|x a IH]; cbn; [reflexivity | now rewrite IH]. Qed.

Lemma append_cons c a b : String c a +++ b = String c (a +++ b).
Proof. reflexivity. Qed.

Lemma append_inj_l a b c : a +++ b = a +++ c -> b = c.
Proof. induction a as [|x a IH]; cbn; intros H; [exact H | injection H as H; auto]. Qed.

Lemma append_length a b : String.length (a +++ b) = String.length a + String.length b.
Proof. induction a as [|x a IH]; cbn; [reflexivity | now rewrite IH]. Qed.

Lemma append_inj_r a b c : a +++ c = b +++ c -> a = b.
Proof.
  revert b; induction a as [|x a IH]; intros [|y b] H; cbn in *; auto.
  - apply (f_equal String.length) in H; cbn in H; rewrite append_length in H; lia.
  - apply (f_equal String.length) in H; cbn in H; rewrite append_length in H; lia.
  - injection H as -> H; f_equal; auto.
Qed.

Lemma strip_prefix_app p s : strip_prefix p (p +++ s) = Some s.
Proof. induction p as [|a p IH]; cbn; [reflexivity|]. now rewrite Ascii.eqb_refl. Qed.

Lemma strip_prefix_sound p : forall s r, strip_prefix p s = Some r -> s = p +++ r.
Proof.
  induction p as [|a p IH]; intros s r H; cbn in *; [now injection H|].
  destruct s as [|b s]; [discriminate|].
  destruct (Ascii.eqb_spec a b) as [->|]; [|discriminate]. f_equal; auto.
Qed.

Lemma starts_with_spec p s : starts_with p s = true <-> exists r, s = p +++ r.
Proof.
  unfold starts_with; split.
  - destruct (strip_prefix p s) as [r|] eqn:E; [|discriminate]; intros _.
    exists r; now apply strip_prefix_sound.
  - intros [r ->]; now rewrite strip_prefix_app.
Qed.

Lemma has_char_app c a b : has_char c (a +++ b) = has_char c a || has_char c b.
Proof. induction a as [|x a IH]; cbn; [reflexivity|]. now rewrite IH, orb_assoc. Qed.

Lemma all_char_app f a b : all_char f (a +++ b) = all_char f a && all_char f b.
Proof. induction a as [|x a IH]; cbn; [reflexivity|]. now rewrite IH, andb_assoc. Qed.

Lemma all_char_impl (f g : ascii -> bool) s :
  (forall c, f c = true -> g c = true) -> all_char f s = true -> all_char g s = true.
Proof.
  intros H; induction s as [|a s IH]; cbn; [auto|].
  intros [Ha Hs]%andb_true_iff; apply andb_true_iff; auto.
Qed.

Lemma all_char_has f c s : all_char f s = true -> f c = false -> has_char c s = false.
Proof.
  intros H Hc; induction s as [|a s IH]; cbn in *; [reflexivity|].
  apply andb_true_iff in H as [Ha Hs].
  destruct (Ascii.eqb_spec a c) as [->|]; [congruence|]. cbn; auto.
Qed.

Lemma span_until_app f s : let (u, v) := span_until f s in s = u +++ v.
Proof.
  induction s as [|a s IH]; cbn; [reflexivity|].
  destruct (f a); [reflexivity|]. destruct (span_until f s) as [u v]; cbn; now f_equal.
Qed.

(** If [u] has no stopping byte and [v] is empty or begins with one, the span is
    exactly [u], [v]. *)
Definition stops (f : ascii -> bool) (v : string) : bool :=
  match v with EmptyString => true | String a _ => f a end.

Lemma span_until_exact f u v :
  all_char (fun c => negb (f c)) u = true -> stops f v = true -> span_until f (u +++ v) = (u, v).
Proof.
  intros Hu Hv; induction u as [|a u IH]; cbn in *.
  - destruct v as [|b v]; cbn in *; [reflexivity|]. now rewrite Hv.
  - apply andb_true_iff in Hu as [Ha Hu]. apply negb_true_iff in Ha. rewrite Ha, IH by assumption. reflexivity.
Qed.

Lemma span_until_fst f s : all_char (fun c => negb (f c)) (fst (span_until f s)) = true.
Proof.
  induction s as [|a s IH]; cbn; [reflexivity|].
  destruct (f a) eqn:E; [reflexivity|]. destruct (span_until f s) as [u v]; cbn in *. now rewrite E, IH.
Qed.

Lemma span_until_snd f s : stops f (snd (span_until f s)) = true.
Proof.
  induction s as [|a s IH]; cbn; [reflexivity|].
  destruct (f a) eqn:E; [exact E|]. destruct (span_until f s) as [u v]; exact IH.
Qed.

Lemma filter_str_all f s : all_char f s = true -> filter_str f s = s.
Proof.
  induction s as [|a s IH]; cbn; [reflexivity|].
  intros [Ha Hs]%andb_true_iff. rewrite Ha. f_equal; auto.
Qed.

Lemma concat_str_app a b : concat_str (a ++ b) = concat_str a +++ concat_str b.
Proof. induction a as [|x a IH]; cbn; [reflexivity|]. now rewrite IH, append_assoc. Qed.

(** ** Number formatting *)
Lemma show_N_nonempty n : show_N n <> "".
Proof.
  unfold show_N; intros H. destruct n as [|p]; cbn in H; [discriminate|].
  assert (E : N.of_uint (Pos.to_uint p) = Npos p) by (apply (DecimalN.Unsigned.of_to (Npos p))).
  destruct (Pos.to_uint p) eqn:U; cbn in H; discriminate.
Qed.

Lemma uint_of_show n : DecimalString.NilEmpty.uint_of_string (show_N n) = Some (N.to_uint n).
Proof. apply DecimalString.NilEmpty.usu. Qed.

Lemma parse_digits_show n : parse_digits (show_N n) = Some n.
Proof.
  unfold parse_digits. pose proof (show_N_nonempty n) as H. destruct (show_N n) eqn:E; [congruence|].
  rewrite <- E, uint_of_show; cbn [option_map]. now rewrite DecimalN.Unsigned.of_to.
Qed.

Lemma show_N_inj a b : show_N a = show_N b -> a = b.
Proof.
  intros H. assert (E : parse_digits (show_N a) = parse_digits (show_N b)) by now rewrite H.
  rewrite !parse_digits_show in E. now injection E.
Qed.

Lemma show_nat_inj a b : show_nat a = show_nat b -> a = b.
Proof. unfold show_nat; intros H; apply show_N_inj in H; lia. Qed.

(** Digits only. *)
Definition is_digit (c : ascii) : bool :=
  (N.leb 48 (N_of_ascii c) && N.leb (N_of_ascii c) 57)%bool.

Lemma string_of_uint_digits d : all_char is_digit (DecimalString.NilEmpty.string_of_uint d) = true.
Proof. induction d as [|d IH|d IH|d IH|d IH|d IH|d IH|d IH|d IH|d IH|d IH]; cbn; auto. Qed.

Lemma show_N_digits n : all_char is_digit (show_N n) = true.
Proof. apply string_of_uint_digits. Qed.

Lemma show_nat_digits n : all_char is_digit (show_nat n) = true.
Proof. apply string_of_uint_digits. Qed.

Lemma parse_unsigned_show max n : (n <= max)%N -> parse_unsigned max (show_N n) = Some n.
Proof.
  intros H. unfold parse_unsigned. pose proof (show_N_digits n) as D. pose proof (parse_digits_show n) as P.
  destruct (show_N n) as [|c s] eqn:E; [destruct (show_N_nonempty n E)|].
  cbn in D; apply andb_true_iff in D as [Dc _].
  assert (Hc : c <> "+"%char) by (intros ->; vm_compute in Dc; discriminate).
  assert (X : in_range max (parse_digits (String c s)) = Some n).
  { rewrite P; cbn. apply N.leb_le in H; now rewrite H. }
  destruct c as [[] [] [] [] [] [] [] []]; try exact X; congruence.
Qed.

Lemma parse_u32_show n : (n <= max_u32)%N -> parse_u32 (show_N n) = Some n.
Proof. apply parse_unsigned_show. Qed.

Lemma parse_usize_show n : (n <= max_u64)%N -> parse_usize (show_N n) = Some n.
Proof. apply parse_unsigned_show. Qed.

Lemma parse_signed_show max z : (0 <= max)%Z -> (- max - 1 <= z <= max)%Z -> parse_signed max (show_Z z) = Some z.
Proof.
  intros Hm H. destruct z as [|p|p].
  - cbn. destruct (Z.leb_spec 0 max); [reflexivity|lia].
  - unfold show_Z, parse_signed. pose proof (show_N_digits (Npos p)) as D. pose proof (parse_digits_show (Npos p)) as P.
    destruct (show_N (Npos p)) as [|c s] eqn:E; [destruct (show_N_nonempty _ E)|].
    cbn in D; apply andb_true_iff in D as [Dc _].
    assert (Hc : c <> "+"%char) by (intros ->; vm_compute in Dc; discriminate).
    assert (Hd : c <> "-"%char) by (intros ->; vm_compute in Dc; discriminate).
    assert (X : match parse_digits (String c s) with
                | Some n => if Z.leb (Z.of_N n) max then Some (Z.of_N n) else None | None => None end = Some (Zpos p)).
    { rewrite P. cbn [Z.of_N]. destruct (Z.leb_spec (Zpos p) max); [reflexivity|lia]. }
    destruct c as [[] [] [] [] [] [] [] []]; try exact X; congruence.
  - unfold show_Z, parse_signed. cbn [String.append]. rewrite parse_digits_show. cbn [Z.of_N].
    destruct (Z.leb_spec (- max - 1) (- Zpos p)); [reflexivity|lia].
Qed.

Lemma parse_i32_show z : (- max_i32 - 1 <= z <= max_i32)%Z -> parse_i32 (show_Z z) = Some z.
Proof. intros H; apply parse_signed_show; [vm_compute; discriminate | exact H]. Qed.

Lemma show_Z_inj a b : show_Z a = show_Z b -> a = b.
Proof.
  intros H.
  assert (E : forall z, parse_signed (Z.abs a + Z.abs b + 1) (show_Z z) = parse_signed (Z.abs a + Z.abs b + 1) (show_Z z)) by reflexivity.
  assert (Ea : parse_signed (Z.abs a + Z.abs b + 1) (show_Z a) = Some a) by (apply parse_signed_show; lia).
  assert (Eb : parse_signed (Z.abs a + Z.abs b + 1) (show_Z b) = Some b) by (apply parse_signed_show; lia).
  rewrite H in Ea. congruence.
Qed.

(** Hexadecimal *)
Lemma show_hex_inj a b : show_hex a = show_hex b -> a = b.
Proof.
  unfold show_hex; intros H.
  assert (E : HexadecimalString.NilEmpty.uint_of_string (HexadecimalString.NilEmpty.string_of_uint (N.to_hex_uint a))
            = HexadecimalString.NilEmpty.uint_of_string (HexadecimalString.NilEmpty.string_of_uint (N.to_hex_uint b))) by now rewrite H.
  rewrite !HexadecimalString.NilEmpty.usu in E. injection E as E.
  rewrite <- (HexadecimalN.Unsigned.of_to a), <- (HexadecimalN.Unsigned.of_to b). now rewrite E.
Qed.

Definition hex_value (s : string) : option N :=
  option_map N.of_hex_uint (HexadecimalString.NilEmpty.uint_of_string s).

Lemma hex_value_show n : hex_value (show_hex n) = Some n.
Proof.
  unfold hex_value, show_hex. rewrite HexadecimalString.NilEmpty.usu. cbn [option_map].
  now rewrite HexadecimalN.Unsigned.of_to.
Qed.

Lemma hex_value_zeros k s v : hex_value s = Some v -> hex_value (zeros k +++ s) = Some v.
Proof.
  unfold hex_value. intros H. induction k as [|k IH]; [exact H|].
  cbn [zeros String.append]. cbn [HexadecimalString.NilEmpty.uint_of_string].
  destruct (HexadecimalString.NilEmpty.uint_of_string (zeros k +++ s)) as [d|]; [|discriminate].
  cbn [HexadecimalString.uint_of_char option_map] in *. exact IH.
Qed.

(** [format!("{:08x}")] is injective, whatever the width. *)
Lemma pad0_hex_inj w a b : pad0 w (show_hex a) = pad0 w (show_hex b) -> a = b.
Proof.
  unfold pad0; intros H.
  pose proof (hex_value_zeros (w - String.length (show_hex a)) _ _ (hex_value_show a)) as A.
  pose proof (hex_value_zeros (w - String.length (show_hex b)) _ _ (hex_value_show b)) as B.
  rewrite H in A. congruence.
Qed.

Definition dec_value (s : string) : option N :=
  option_map N.of_uint (DecimalString.NilEmpty.uint_of_string s).

Lemma dec_value_show n : dec_value (show_N n) = Some n.
Proof. unfold dec_value. rewrite uint_of_show. cbn [option_map]. now rewrite DecimalN.Unsigned.of_to. Qed.

Lemma dec_value_zeros k s v : dec_value s = Some v -> dec_value (zeros k +++ s) = Some v.
Proof.
  unfold dec_value. intros H. induction k as [|k IH]; [exact H|].
  cbn [zeros String.append]. cbn [DecimalString.NilEmpty.uint_of_string].
  destruct (DecimalString.NilEmpty.uint_of_string (zeros k +++ s)) as [d|]; [|discriminate].
  cbn [DecimalString.uint_of_char option_map] in *. exact IH.
Qed.

(** [format!("{:08}")] is injective. *)
Lemma pad0_dec_inj w a b : pad0 w (show_N a) = pad0 w (show_N b) -> a = b.
Proof.
  unfold pad0; intros H.
  pose proof (dec_value_zeros (w - String.length (show_N a)) _ _ (dec_value_show a)) as A.
  pose proof (dec_value_zeros (w - String.length (show_N b)) _ _ (dec_value_show b)) as B.
  rewrite H in A. congruence.
Qed.

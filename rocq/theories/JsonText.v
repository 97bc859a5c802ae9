(** The text of a JSON value is read back as that value. *)
From Coq Require Import NArith ZArith List Bool Lia.
From Verif Require Import Str StrFacts JsonModel JsonSpec.
Import ListNotations.
Open Scope list_scope.

(** ** Strings *)
Lemma char_back c r : json_string (json_char c +++ r) = cons_char c (json_string r).
Proof. destruct c as [[|] [|] [|] [|] [|] [|] [|] [|]]; reflexivity. Qed.
Lemma string_back s : forall r, json_string (json_chars s +++ String ch_quot r) = Some (s, r).
Proof.
  induction s as [|c s IH]; intros r; [reflexivity|]. cbn [json_chars]. rewrite append_assoc, char_back, IH. reflexivity.
Qed.

(** ** Numbers *)
(** What may follow a value. *)
Definition stops (s : string) : bool :=
  match s with EmptyString => true | String c _ => negb (is_digit c) && negb (c =c "."%char) end.
Lemma digits_back s : forall r, all_char is_digit s = true -> stops r = true -> digits (s +++ r) = (s, r).
Proof.
  induction s as [|c s IH]; intros r D H.
  - cbn [append]. destruct r as [|a r]; [reflexivity|]. cbn [digits]. cbn [stops] in H. apply andb_prop in H. destruct H as [H _]. now rewrite (proj1 (negb_true_iff _) H).
  - cbn [all_char] in D. apply andb_prop in D. destruct D as [D1 D2]. cbn [append digits]. rewrite D1, (IH r D2 H). reflexivity.
Qed.
Lemma digits_dot s r : all_char is_digit s = true -> digits (s +++ String "."%char r) = (s, String "."%char r).
Proof.
  induction s as [|c s IH]; intros D; [reflexivity|].
  cbn [all_char] in D. apply andb_prop in D. destruct D as [D1 D2]. cbn [append digits]. rewrite D1, (IH D2). reflexivity.
Qed.
Lemma no_fraction r : stops r = true -> strip_prefix ".0" r = None.
Proof.
  destruct r as [|c r]; [reflexivity|]. cbn [stops]. intros H. apply andb_prop in H. destruct H as [_ H]. apply negb_true_iff in H.
  cbn [strip_prefix]. rewrite (Ascii.eqb_sym "."%char c), H. reflexivity.
Qed.
Definition numeric (c : ascii) : bool := is_digit c || (c =c "-"%char).
Lemma number_start c r : is_digit c = true -> json_number (String c r) =
  (let (d, t) := digits (String c r) in
      match parse_digits d with
      | Some n => match strip_prefix ".0" t with Some u => Some (JWhole n, u) | None => Some (JNum (Z.of_N n), t) end
      | None => None
      end).
Proof. destruct c as [[|] [|] [|] [|] [|] [|] [|] [|]]; cbn; intros H; first [discriminate H | reflexivity]. Qed.
Lemma show_N_cons n : exists c s, show_N n = String c s /\ is_digit c = true.
Proof.
  pose proof (show_N_digits n) as D. pose proof (show_N_nonempty n) as H. destruct (show_N n) as [|c s]; [now destruct H|].
  exists c, s. split; [reflexivity|]. cbn [all_char] in D. now apply andb_prop in D.
Qed.
Lemma natural_back n r : stops r = true -> json_number (show_N n +++ r) = Some (JNum (Z.of_N n), r).
Proof.
  intros H. destruct (show_N_cons n) as (c & s & Hs & Hc). pose proof (digits_back (show_N n) r (show_N_digits n) H) as Hd.
  rewrite Hs in Hd |- *. cbn [append] in Hd |- *. rewrite (number_start _ _ Hc), Hd, <- Hs, parse_digits_show, (no_fraction r H). reflexivity.
Qed.
Lemma whole_back n r : json_number ((show_N n +++ ".0") +++ r) = Some (JWhole n, r).
Proof.
  destruct (show_N_cons n) as (c & s & Hs & Hc). pose proof (digits_dot (show_N n) (String "0"%char r) (show_N_digits n)) as Hd.
  rewrite append_assoc. cbn [append]. rewrite Hs in Hd |- *. cbn [append] in Hd |- *.
  rewrite (number_start _ _ Hc), Hd, <- Hs, parse_digits_show. reflexivity.
Qed.
Lemma number_back z r : stops r = true -> json_number (show_Z z +++ r) = Some (JNum z, r).
Proof.
  intros H. destruct z as [|p|p].
  - exact (natural_back 0 r H).
  - exact (natural_back (Npos p) r H).
  - cbn [show_Z append]. cbn [json_number]. rewrite (digits_back _ r (show_N_digits (Npos p)) H), parse_digits_show. reflexivity.
Qed.
Lemma numeric_start c r : numeric c = true ->
  skip_space (String c r) = String c r /\ strip_prefix "null" (String c r) = None /\ strip_prefix "true" (String c r) = None /\
  strip_prefix "false" (String c r) = None /\ char_at (String c r) ch_quot = None /\ char_at (String c r) "["%char = None /\
  char_at (String c r) "{"%char = None.
Proof. destruct c as [[|] [|] [|] [|] [|] [|] [|] [|]]; cbn; intros H; first [discriminate H | repeat split]. Qed.
Lemma numeric_value fuel c r : numeric c = true -> json_value (S fuel) (String c r) = json_number (String c r).
Proof. intros H. destruct (numeric_start c r H) as (H1 & H2 & H3 & H4 & H5 & H6 & H7). cbn [json_value]. rewrite H1, H2, H3, H4, H5, H6, H7. reflexivity. Qed.

(** ** Space *)
Lemma skip_indentation d s : skip_space (indentation d +++ s) = skip_space s.
Proof. induction d as [|d IH]; [reflexivity|]. cbn [indentation append skip_space]. exact IH. Qed.
Lemma skip_new_line d s : skip_space (new_line d +++ s) = skip_space s.
Proof. unfold new_line. rewrite append_assoc. cbn [s_nl str1 append skip_space]. apply skip_indentation. Qed.
Lemma skip_twice s : skip_space (skip_space s) = skip_space s.
Proof. induction s as [|c s IH]; [reflexivity|]. cbn [skip_space]. destruct (_ || _) eqn:K; [exact IH|]. cbn [skip_space]. now rewrite K. Qed.
Lemma value_skips fuel s t : skip_space s = skip_space t -> json_value fuel s = json_value fuel t.
Proof. intros H. destruct fuel; [reflexivity|]. cbn [json_value]. now rewrite H. Qed.
Lemma items_skip fuel s t : skip_space s = skip_space t -> json_items fuel s = json_items fuel t.
Proof. intros H. destruct fuel; [reflexivity|]. cbn [json_items]. now rewrite (value_skips _ _ _ H). Qed.
Lemma members_skip fuel s t : skip_space s = skip_space t -> json_members fuel s = json_members fuel t.
Proof. intros H. destruct fuel; [reflexivity|]. cbn [json_members]. now rewrite H. Qed.

(** ** Values *)
Lemma json_tree_ind (P : json -> Prop) :
  P JNull -> (forall b, P (JBool b)) -> (forall z, P (JNum z)) -> (forall n, P (JWhole n)) -> (forall s, P (JStr s)) ->
  (forall l, Forall P l -> P (JArr l)) -> (forall l, Forall (fun p => P (snd p)) l -> P (JObj l)) -> forall v, P v.
Proof.
  intros H1 H2 H3 H4 H5 H6 H7. fix F 1. intros [|b|z|n|s|l|l]; [exact H1 | apply H2 | apply H3 | apply H4 | apply H5 | apply H6 | apply H7].
  - induction l as [|x l IH]; constructor; [apply F | exact IH].
  - induction l as [|[k x] l IH]; constructor; [apply F | exact IH].
Defined.
Fixpoint weight (v : json) : nat :=
  match v with
  | JArr l => S (fold_right (fun x k => S (weight x + k)) 0 l)
  | JObj l => S (fold_right (fun p k => match p with (_, x) => S (weight x + k) end) 0 l)
  | _ => 1
  end.
Definition weights (l : list json) : nat := fold_right (fun x k => S (weight x + k)) 0 l.
Definition weights2 (l : list (string * json)) : nat := fold_right (fun p k => match p with (_, x) => S (weight x + k) end) 0 l.
Definition reads_back (v : json) : Prop := forall fuel d r, weight v <= fuel -> stops r = true -> json_value fuel (pretty d v +++ r) = Some (v, r).
(** What a value begins with. *)
Lemma pretty_start v d : exists c s, pretty d v = String c s /\ (c =c "]"%char) = false /\ (c =c "}"%char) = false /\ skip_space (String c s) = String c s.
Proof.
  assert (N : forall n t, exists c s, show_N n +++ t = String c s /\ (c =c "]"%char) = false /\ (c =c "}"%char) = false /\ skip_space (String c s) = String c s).
  { intros n t. destruct (show_N_cons n) as (c & s & Hs & Hc). exists c, (s +++ t). rewrite Hs. split; [reflexivity|].
    revert Hc. destruct c as [[|] [|] [|] [|] [|] [|] [|] [|]]; cbn; intros H; first [discriminate H | repeat split]. }
  destruct v as [|[|]|z|n|s|[|x l]|[|x l]]; cbn [pretty];
    try (eexists _, _; split; [reflexivity|]; repeat split; fail).
  - destruct z as [|p|p]; cbn [show_Z].
    + eexists _, _. split; [reflexivity|]. repeat split.
    + specialize (N (Npos p) ""%string). now rewrite append_nil_r in N.
    + eexists _, _. split; [reflexivity|]. repeat split.
  - apply N.
Qed.
Lemma char_at_start (c a : ascii) s : (c =c a) = false -> char_at (String c s) a = None.
Proof. intros H. cbn [char_at]. now rewrite H. Qed.
Lemma closing_bracket d r : char_at (skip_space (new_line d +++ "]" +++ r)) "]"%char = Some r.
Proof. rewrite skip_new_line. reflexivity. Qed.
Lemma closing_brace d r : char_at (skip_space (new_line d +++ "}" +++ r)) "}"%char = Some r.
Proof. rewrite skip_new_line. reflexivity. Qed.
Lemma items_last fuel s v t r : json_value fuel s = Some (v, t) -> char_at (skip_space t) "]"%char = Some r -> json_items (S fuel) s = Some ([v], r).
Proof. intros H1 H2. cbn [json_items]. rewrite H1. cbv zeta. rewrite H2. reflexivity. Qed.
Lemma items_cons fuel s v t l r : json_value fuel s = Some (v, String ","%char t) -> json_items fuel t = Some (l, r) -> json_items (S fuel) s = Some (v :: l, r).
Proof. intros H1 H2. cbn [json_items]. rewrite H1. cbv zeta. change (skip_space (String "," t)) with (String "," t). cbn [char_at Ascii.eqb Bool.eqb andb]. rewrite H2. reflexivity. Qed.
Lemma members_last fuel s k t v u r : skip_space s = quoted k +++ ": " +++ t -> json_value fuel t = Some (v, u) -> char_at (skip_space u) "}"%char = Some r ->
  json_members (S fuel) s = Some ([(k, v)], r).
Proof.
  intros H0 H1 H2. cbn [json_members]. rewrite H0. unfold quoted. rewrite !append_assoc. change (char_at ("""" +++ ?a) ch_quot) with (Some a). cbv iota. change ("""" +++ ?a) with (String ch_quot a).
  rewrite string_back. change (char_at (skip_space (": " +++ t)) ":") with (Some (String " " t)). cbv iota.
  rewrite (value_skips fuel (String " " t) t eq_refl), H1. cbv zeta. rewrite H2. reflexivity.
Qed.
Lemma members_cons fuel s k t v u l r : skip_space s = quoted k +++ ": " +++ t -> json_value fuel t = Some (v, String ","%char u) -> json_members fuel u = Some (l, r) ->
  json_members (S fuel) s = Some ((k, v) :: l, r).
Proof.
  intros H0 H1 H2. cbn [json_members]. rewrite H0. unfold quoted. rewrite !append_assoc. change (char_at ("""" +++ ?a) ch_quot) with (Some a). cbv iota. change ("""" +++ ?a) with (String ch_quot a).
  rewrite string_back. change (char_at (skip_space (": " +++ t)) ":") with (Some (String " " t)). cbv iota.
  rewrite (value_skips fuel (String " " t) t eq_refl), H1. cbv zeta. change (skip_space (String "," u)) with (String "," u).
  cbn [char_at Ascii.eqb Bool.eqb andb]. rewrite H2. reflexivity.
Qed.
Lemma items_back d l : Forall reads_back l -> l <> [] -> forall fuel s r, weights l <= fuel ->
  skip_space s = skip_space (String.concat ("," +++ new_line (S d)) (map (pretty (S d)) l) +++ new_line d +++ "]" +++ r) ->
  json_items fuel s = Some (l, r).
Proof.
  intros H. induction H as [|v l Hv Hl IH]; intros N fuel s r W K; [now destruct N|]. cbn [weights fold_right] in W. fold (weights l) in W.
  rewrite (items_skip _ _ _ K). destruct fuel as [|fuel]; [lia|]. destruct l as [|w l].
  - eapply items_last; [apply (Hv fuel (S d) (new_line d +++ "]" +++ r)); [lia|reflexivity]|apply closing_bracket].
  - change (String.concat ?x (map ?f (v :: w :: l))) with (f v +++ x +++ String.concat x (map f (w :: l))). rewrite !append_assoc.
    eapply items_cons; [apply (Hv fuel (S d)); [lia|reflexivity]|]. apply IH; [discriminate | lia | apply skip_new_line].
Qed.
Definition entry (d : nat) (p : string * json) : string := match p with (k, x) => quoted k +++ ": " +++ pretty (S d) x end.
Lemma quoted_start k t : skip_space (quoted k +++ t) = quoted k +++ t.
Proof. reflexivity. Qed.
Lemma members_back d l : Forall (fun p => reads_back (snd p)) l -> l <> [] -> forall fuel s r, weights2 l <= fuel ->
  skip_space s = skip_space (String.concat ("," +++ new_line (S d)) (map (entry d) l) +++ new_line d +++ "}" +++ r) ->
  json_members fuel s = Some (l, r).
Proof.
  intros H. induction H as [|[k v] l Hv Hl IH]; intros N fuel s r W K; [now destruct N|]. cbn [weights2 fold_right] in W. fold (weights2 l) in W.
  cbn [snd] in Hv. rewrite (members_skip _ _ _ K). destruct fuel as [|fuel]; [lia|]. destruct l as [|w l].
  - cbn [map String.concat entry]. rewrite !append_assoc.
    eapply members_last; [apply quoted_start | apply (Hv fuel (S d) (new_line d +++ "}" +++ r)); [lia|reflexivity]|apply closing_brace].
  - change (String.concat ?x (map ?f ((k, v) :: w :: l))) with (f (k, v) +++ x +++ String.concat x (map f (w :: l))). cbn [entry]. rewrite !append_assoc.
    eapply members_cons; [apply quoted_start | apply (Hv fuel (S d)); [lia|reflexivity]|]. apply IH; [discriminate | lia | apply skip_new_line].
Qed.

Theorem value_back v : reads_back v.
Proof.
  induction v as [|b|z|n|s|l IH|l IH] using json_tree_ind; intros fuel d r W Hr; (destruct fuel as [|fuel]; [cbn [weight] in W; lia|]).
  - reflexivity.
  - destruct b; reflexivity.
  - cbn [pretty]. rewrite <- (number_back z r Hr). destruct z as [|p|p].
    + apply numeric_value. reflexivity.
    + change (show_Z (Zpos p)) with (show_N (Npos p)). destruct (show_N_cons (Npos p)) as (c & s & Hs & Hc). rewrite Hs. cbn [append]. apply numeric_value. unfold numeric. now rewrite Hc.
    + apply numeric_value. reflexivity.
  - cbn [pretty]. rewrite <- (whole_back n r). destruct (show_N_cons n) as (c & s & Hs & Hc). rewrite Hs. cbn [append]. apply numeric_value. unfold numeric. now rewrite Hc.
  - cbn [pretty]. unfold quoted. rewrite !append_assoc. cbn [append json_value skip_space orb Ascii.eqb Bool.eqb strip_prefix char_at ch_quot ch_sp ch_nl ch_tab ch_cr].
    rewrite string_back. reflexivity.
  - destruct l as [|x l]; [reflexivity|]. cbn [pretty]. set (q := x :: l) in *. unfold lines. rewrite !append_assoc.
    assert (K : json_items fuel (new_line (S d) +++ String.concat ("," +++ new_line (S d)) (map (pretty (S d)) q) +++ new_line d +++ "]" +++ r) = Some (q, r)).
    { apply (items_back d q IH); [discriminate | cbn [weight] in W; unfold weights; lia | apply skip_new_line]. }
    destruct (pretty_start x (S d)) as (c & t & Hc & C1 & C2 & C3).
    cbn [append json_value skip_space orb Ascii.eqb Bool.eqb strip_prefix char_at ch_quot ch_sp ch_nl ch_tab ch_cr].
    cbn [append] in K. rewrite K. rewrite skip_new_line.
    assert (Z : exists u, String.concat ("," +++ new_line (S d)) (map (pretty (S d)) q) = String c u /\ skip_space (String c u) = String c u).
    { unfold q. destruct l as [|y l]; cbn [map].
      - exists t. cbn [String.concat]. rewrite Hc. split; [reflexivity | exact C3].
      - change (String.concat ?s (?a :: ?b :: ?m)) with (a +++ s +++ String.concat s (b :: m)). rewrite Hc. eexists. split; [reflexivity|].
        revert C3. cbn [skip_space]. destruct (_ || _); [|reflexivity]. intros X. exfalso. apply (f_equal String.length) in X.
        assert (L : forall s, String.length (skip_space s) <= String.length s) by (clear; induction s as [|a s IH]; [apply le_n|]; cbn [skip_space]; destruct (_ || _); [cbn [String.length]; lia | apply le_n]).
        specialize (L t). cbn [String.length] in X. lia. }
    destruct Z as (u & Hu & Hs). cbn [append] in Hu. rewrite Hu. cbn [append].
    assert (Y : forall m, skip_space (String c m) = String c m).
    { intros m. revert Hs. cbn [skip_space]. destruct (_ || _); [|reflexivity]. intros X. exfalso. apply (f_equal String.length) in X.
      assert (L : forall s, String.length (skip_space s) <= String.length s) by (clear; induction s as [|a s IH]; [apply le_n|]; cbn [skip_space]; destruct (_ || _); [cbn [String.length]; lia | apply le_n]).
      specialize (L u). cbn [String.length] in X. lia. }
    rewrite Y. cbn [char_at]. rewrite C1. reflexivity.
  - destruct l as [|[k x] l]; [reflexivity|]. cbn [pretty]. fold (entry d). set (q := (k, x) :: l) in *. unfold lines. rewrite !append_assoc.
    assert (K : json_members fuel (new_line (S d) +++ String.concat ("," +++ new_line (S d)) (map (entry d) q) +++ new_line d +++ "}" +++ r) = Some (q, r)).
    { apply (members_back d q IH); [discriminate | cbn [weight] in W; unfold weights2; lia | apply skip_new_line]. }
    change (map (fun p : string * json => let (k0, x0) := p in quoted k0 +++ ": " +++ pretty (S d) x0) q) with (map (entry d) q).
    cbn [append json_value skip_space orb Ascii.eqb Bool.eqb strip_prefix char_at ch_quot ch_sp ch_nl ch_tab ch_cr].
    cbn [append] in K. rewrite K. rewrite skip_new_line.
    assert (Z : exists u, String.concat ("," +++ new_line (S d)) (map (entry d) q) = String ch_quot u).
    { unfold q. destruct l as [|y l]; cbn [map]; [|change (String.concat ?s (?a :: ?b :: ?m)) with (a +++ s +++ String.concat s (b :: m))]; eexists; reflexivity. }
    destruct Z as (u & Hu). cbn [append] in Hu. rewrite Hu. reflexivity.
Qed.
Lemma length_concat s l : fold_right (fun x k => String.length x + k) 0 l <= String.length (String.concat s l).
Proof.
  induction l as [|x [|y l] IH]; [apply le_n | cbn [String.concat fold_right]; lia|].
  change (String.concat s (x :: y :: l)) with (x +++ s +++ String.concat s (y :: l)). rewrite !append_length.
  change (fold_right _ _ (x :: y :: l)) with (String.length x + fold_right (fun x k => String.length x + k) 0 (y :: l)). lia.
Qed.
Lemma weight_bound v : forall d, weight v + 1 <= 2 * String.length (pretty d v).
Proof.
  assert (N : forall n, 1 <= String.length (show_N n)) by (intros n; destruct (show_N_cons n) as (c & s & -> & _); cbn [String.length]; lia).
  induction v as [|b|z|n|s|l IH|l IH] using json_tree_ind; intros d.
  - cbn. lia.
  - destruct b; cbn; lia.
  - cbn [weight pretty]. destruct z as [|p|p]; cbn [show_Z]; [cbn; lia | specialize (N (Npos p)); lia | rewrite append_length; cbn [String.length]; lia].
  - cbn [weight pretty]. rewrite append_length. cbn [String.length]. lia.
  - cbn [weight pretty]. unfold quoted. rewrite !append_length. cbn [String.length]. lia.
  - destruct l as [|x l]; [cbn; lia|]. cbn [pretty]. change (weight (JArr (x :: l))) with (S (weights (x :: l))). set (q := x :: l) in *. unfold lines. rewrite !append_length.
    pose proof (length_concat ("," +++ new_line (S d)) (map (pretty (S d)) q)) as L. change (String.length "[") with 1; change (String.length "{") with 1.
    assert (B : weights q <= 2 * fold_right (fun x k => String.length x + k) 0 (map (pretty (S d)) q)).
    { clear L. induction IH as [|y m Hy Hm IH]; [apply le_n|]. cbn [weights map fold_right]. fold (weights m). specialize (Hy (S d)). lia. }
    lia.
  - destruct l as [|x l]; [cbn; lia|]. cbn [pretty]. change (weight (JObj (x :: l))) with (S (weights2 (x :: l))). set (q := x :: l) in *. unfold lines. rewrite !append_length.
    change (map (fun p : string * json => let (k0, x0) := p in quoted k0 +++ ": " +++ pretty (S d) x0) q) with (map (entry d) q).
    pose proof (length_concat ("," +++ new_line (S d)) (map (entry d) q)) as L. change (String.length "[") with 1; change (String.length "{") with 1.
    assert (B : weights2 q <= 2 * fold_right (fun x k => String.length x + k) 0 (map (entry d) q)).
    { clear L. induction IH as [|[k y] m Hy Hm IH]; [apply le_n|]. cbn [weights2 map fold_right entry]. fold (weights2 m). cbn [snd] in Hy. specialize (Hy (S d)).
      rewrite !append_length. lia. }
    lia.
Qed.
Theorem text_back v : json_of (pretty 0 v) = Some v.
Proof.
  unfold json_of. pose proof (weight_bound v 0) as W. pose proof (value_back v (2 * String.length (pretty 0 v) + 2) 0 ""%string) as H.
  rewrite append_nil_r in H. rewrite H; [reflexivity | lia | reflexivity].
Qed.

(** Proofs about the texts and places of a tree that is read back. *)
From Coq Require Import NArith ZArith List Bool Lia.
From Verif Require Import Str StrFacts TypesModel Props Ast EscapeModel EscapeSpec EscapeProofs XmlParser XmlSpec XmlTreeProofs BuildModel RoundSpec SurviveSpec.
Import ListNotations.

Lemma flat_flat {A B C} (f : B -> list C) (g : A -> list B) l : flat_map f (flat_map g l) = flat_map (fun a => flat_map f (g a)) l.
Proof. induction l as [|a l IH]; cbn; [reflexivity|]. now rewrite flat_map_app, IH. Qed.
Lemma flat_ext_Forall {A B} (f g : A -> list B) l : Forall (fun a => f a = g a) l -> flat_map f l = flat_map g l.
Proof. induction 1 as [|a l H _ IH]; cbn; [reflexivity|]. now rewrite H, IH. Qed.
Lemma run_text_back n : flat_map run_text (reread_in_run n) = flat_map back (run_text n).
Proof. destruct n; try reflexivity; cbn; destruct s; reflexivity. Qed.
Lemma texts_back : forall n p, flat_map (texts p) (reread p n) = flat_map back (texts p n).
Proof.
  assert (D : forall l, Forall (fun n => forall p, flat_map (texts p) (reread p n) = flat_map back (texts p n)) l ->
    forall p, flat_map (texts p) (flat_map (reread p) l) = flat_map back (flat_map (texts p) l)).
  { intros l H p. rewrite !flat_flat. apply flat_ext_Forall. induction H; constructor; auto. }
  induction n as [n IH] using node_tree_ind. intros p.
  assert (IH' : forall p, flat_map (texts p) (flat_map (reread p) (children n)) = flat_map back (flat_map (texts p) (children n))) by (apply D; exact IH).
  clear IH D. destruct n; cbn [children] in IH'; cbn [reread texts flat_map]; try reflexivity; try (rewrite app_nil_r; apply IH').
  - rewrite app_nil_r, !flat_flat. apply flat_ext_Forall, Forall_forall. intros n _. apply run_text_back.
  - destruct p; reflexivity.
  - destruct p; try reflexivity; cbn [texts flat_map]; rewrite app_nil_r; apply IH'.
  - destruct p; cbn [texts flat_map]; try (rewrite app_nil_r; apply IH'). apply IH'.
  - assert (S : forall p, flat_map (texts p) (opt (fun m => NIns (reread_mark m) []) (r_ins (sd_rpr p0)) ++ opt (fun m => NDel (reread_mark m) []) (r_del (sd_rpr p0)) ++
        flat_map (reread p) ch) = flat_map back (flat_map (texts p) ch)).
    { intros q. rewrite !flat_map_app, IH'. destruct (r_ins (sd_rpr p0)), (r_del (sd_rpr p0)); reflexivity. }
    destruct p; try apply S; cbn [texts flat_map]; rewrite app_nil_r; apply IH'.
Qed.
Lemma texts_back_all p l : flat_map (texts p) (flat_map (reread p) l) = flat_map back (flat_map (texts p) l).
Proof. rewrite !flat_flat. apply flat_ext_Forall, Forall_forall. intros n _. apply texts_back. Qed.

(** ** Places *)
Lemma stands_incl p l q m : stands p l q m -> forall l', incl l l' -> stands p l' q m.
Proof. intros H l' Hi. destruct H as [n H|n p' ch q m H1 H2 H3]; [apply Here; auto | eapply Below; eauto]. Qed.
Lemma stands_back p l q m : stands p l q m -> forall m', In m' (reread q m) -> stands p (flat_map (reread p) l) q m'.
Proof.
  induction 1 as [p l n H|p l n p' ch q m H1 H2 H3 IH]; intros m' Hm.
  - apply Here. apply in_flat_map. eauto.
  - specialize (IH m' Hm).
    assert (C : (exists n', In n' (reread p n) /\ inner p n' = Some (p', flat_map (reread p') ch)) \/
                (p' = p /\ incl (flat_map (reread p') ch) (reread p n))).
    { destruct n; cbn [inner] in H2; try discriminate H2; cbn [reread];
        try (injection H2 as <- <-; left; eexists; split; [left; reflexivity | reflexivity]).
      - destruct p; try discriminate H2; injection H2 as <- <-; left; eexists; (split; [left; reflexivity | reflexivity]).
      - destruct p; injection H2 as <- <-; try (left; eexists; (split; [left; reflexivity | reflexivity])). right. split; [reflexivity | apply incl_refl].
      - destruct p; injection H2 as <- <-; try (left; eexists; (split; [left; reflexivity | reflexivity]));
          (right; split; [reflexivity | do 2 apply incl_appr; apply incl_refl]). }
    destruct C as [(n' & C1 & C2) | [-> C]].
    + eapply Below; [apply in_flat_map; eauto | exact C2 | exact IH].
    + apply (stands_incl _ _ _ _ IH). intros k Hk. apply in_flat_map. exists n. auto.
Qed.

(** ** Given texts *)
Lemma filter_filter f g s : filter_str f (filter_str g s) = filter_str (fun c => g c && f c) s.
Proof. induction s as [|c s IH]; cbn; [reflexivity|]. destruct (g c); cbn; [destruct (f c)|]; now rewrite ?IH. Qed.
Lemma filter_ext f g s : (forall c, f c = g c) -> filter_str f s = filter_str g s.
Proof. intros H. induction s as [|c s IH]; cbn; [reflexivity|]. now rewrite H, IH. Qed.
Lemma filter_length f s : String.length (filter_str f s) <= String.length s.
Proof. induction s as [|c s IH]; cbn; [lia|]. destruct (f c); cbn; lia. Qed.
Lemma filter_full f s : String.length (filter_str f s) = String.length s -> all_char f s = true.
Proof. induction s as [|c s IH]; cbn; [reflexivity|]. pose proof (filter_length f s). destruct (f c); cbn; [auto | lia]. Qed.
Lemma all_has c s : all_char (fun d => negb (d =c c)) s = negb (has_char c s).
Proof. induction s as [|d s IH]; cbn; [reflexivity|]. rewrite IH. now destruct (d =c c). Qed.
Lemma filter_gone c f s : f c = false -> has_char c (filter_str f s) = false.
Proof. intros H. induction s as [|d s IH]; cbn; [reflexivity|]. destruct (f d) eqn:F; [|exact IH]. cbn. destruct (Ascii.eqb_spec d c) as [->|]; [congruence | exact IH]. Qed.
Lemma replace_no_nl s : forall k, has_char ch_nl s = false -> has_char ch_nl (replace_escaped_from k s) = false.
Proof.
  induction s as [|c s IH]; intros k H; [reflexivity|]. cbn in H. apply orb_false_iff in H as [H1 H2]. cbn [replace_escaped_from]. destruct k as [|k]; [|auto].
  destruct (c =c ch_amp).
  - unfold entity_at. repeat match goal with |- context [if ?b then _ else _] => destruct b end; rewrite has_char_app, IH by assumption; reflexivity.
  - cbn. now rewrite H1, IH.
Qed.
Lemma one_line_id s : has_char ch_nl s = false -> one_line s = s.
Proof. intros H. unfold one_line. apply filter_str_all. rewrite all_has, H. reflexivity. Qed.
Lemma escape_nil v : escape v = ""%string <-> without_cr v = ""%string.
Proof.
  split; intros H; [pose proof (text_meaning_escape v) as E; rewrite H in E; cbn in E; congruence|].
  induction v as [|c v IH]; [reflexivity|]. unfold without_cr in *. cbn [filter_str] in H. unfold not_cr at 1 in H. cbn [escape].
  destruct (Ascii.eqb_spec c ch_cr) as [->|]; [cbn in H |- *; now apply IH | discriminate H].
Qed.
Lemma back_stored u : back (as_stored u) = as_read u.
Proof.
  unfold back, as_stored, as_read. set (v := filter_str (fun c => negb (line_end c)) u).
  assert (W : without_cr (one_line u) = v).
  { unfold without_cr, one_line. rewrite filter_filter. apply filter_ext. intros c. unfold line_end, not_cr. now rewrite negb_orb. }
  assert (N : has_char ch_nl v = false) by (apply filter_gone; reflexivity).
  destruct (escape (one_line u)) as [|c r] eqn:Ee.
  - apply escape_nil in Ee. rewrite W in Ee. now rewrite Ee.
  - assert (v <> ""%string) by (intros Hv; rewrite <- W in Hv; apply escape_nil in Hv; rewrite Hv in Ee; discriminate).
    assert (T : text_seen (String c r) = v) by (unfold text_seen; now rewrite <- Ee, text_meaning_escape, W).
    rewrite T, one_line_id by (apply replace_no_nl; exact N). now destruct v.
Qed.
Lemma as_read_iff u : as_read u = [u] <-> comes_back u.
Proof.
  unfold as_read, comes_back. set (v := filter_str (fun c => negb (line_end c)) u).
  assert (V : has_char ch_nl u = false -> has_char ch_cr u = false -> v = u).
  { intros H1 H2. apply filter_str_all. clear v. induction u as [|c u IH]; [reflexivity|]. cbn in *. apply orb_false_iff in H1 as [H1 H3], H2 as [H2 H4].
    rewrite (IH H3 H4). unfold line_end. now rewrite H1, H2. }
  split.
  - intros H. assert (R : replace_escaped v = u) by (destruct v; [discriminate | congruence]).
    assert (Hl : String.length v = String.length u).
    { pose proof (filter_length (fun c => negb (line_end c)) u). pose proof (replace_escaped_from_length 0 v) as L. unfold replace_escaped in R. rewrite R in L.
      fold v in H0. lia. }
    apply filter_full in Hl. assert (v = u) by (apply filter_str_all; exact Hl). split; [intros ->; now rewrite H0 in H|].
    split; [|split]; try (eapply all_char_has; [exact Hl | reflexivity]). apply replace_escaped_fix. congruence.
  - intros (H1 & H2 & H3 & H4). rewrite (V H2 H3). apply replace_escaped_fix in H4. destruct u; [contradiction|]. now rewrite H4.
Qed.

(** ** Texts that were read *)
Lemma ref_meaning nm : forall name rest v, has_char ch_amp nm = false -> has_char ch_lt nm = false -> has_char ";" nm = false ->
  resolve_ref (name +++ nm) = Some v -> text_meaning (Some name) (nm +++ ";" +++ rest) = option_map (fun u => v +++ u) (text_meaning None rest).
Proof.
  induction nm as [|c nm IH]; intros name rest v H1 H2 H3 H4; cbn [append].
  - rewrite append_nil_r in H4. cbn [text_meaning]. change (";" =c ";")%char with true. cbv iota. rewrite H4. now destruct (text_meaning None rest).
  - cbn [has_char] in *. apply orb_false_iff in H1 as [H1 H1'], H2 as [H2 H2'], H3 as [H3 H3']. cbn [text_meaning]. rewrite H1, H2, H3. cbn [orb].
    apply IH; try assumption. rewrite append_assoc. exact H4.
Qed.

Lemma meaning_ref_first r : forall name m, text_meaning (Some name) r = Some m ->
  exists nm rest v u, r = nm +++ ";" +++ rest /\ has_char ";" nm = false /\ has_char ch_amp nm = false /\ has_char ch_lt nm = false /\
    resolve_ref (name +++ nm) = Some v /\ text_meaning None rest = Some u /\ m = v +++ u.
Proof.
  induction r as [|c r IH]; intros name m H; [discriminate H|]. cbn [text_meaning] in H. destruct (Ascii.eqb_spec c ";") as [->|Hc].
  - destruct (resolve_ref name) as [v|] eqn:R; [|discriminate]. destruct (text_meaning None r) as [u|] eqn:T; [|discriminate]. injection H as <-.
    exists ""%string, r, v, u. rewrite append_nil_r. repeat split; assumption.
  - destruct ((c =c ch_amp) || (c =c ch_lt)) eqn:B; [discriminate|]. apply orb_false_iff in B as [B1 B2].
    apply IH in H as (nm & rest & v & u & -> & H0 & H1 & H2 & H3 & H4 & ->). exists (String c nm), rest, v, u.
    cbn [has_char]. rewrite B1, B2, H0, H1, H2. rewrite append_assoc in H3. apply Ascii.eqb_neq in Hc. rewrite Hc. repeat split; assumption.
Qed.
Lemma ref_tail a : forall nm rest b, has_char ch_amp nm = false -> nm +++ ";" +++ rest = a +++ str1 ch_amp +++ b -> exists a', rest = a' +++ str1 ch_amp +++ b.
Proof.
  induction a as [|x a IH]; intros nm rest b Hn Eq.
  - destruct nm as [|y nm]; cbn in Eq; [discriminate Eq|]. injection Eq as -> _. discriminate Hn.
  - destruct nm as [|y nm]; cbn in Eq; injection Eq as _ Eq; [now exists a|]. cbn in Hn. apply orb_false_iff in Hn as [_ Hn]. eapply IH; eassumption.
Qed.
Lemma legal_text_iff_len : forall n s, String.length s <= n ->
  ((exists m, text_meaning None s = Some m) <-> has_char ch_lt s = false /\ references_ok s).
Proof.
  induction n as [|n IH]; intros s Hn.
  { destruct s; [|cbn in Hn; lia]. split; [|intros _; now exists ""%string]. intros _. split; [reflexivity|]. intros a b E. destruct a; discriminate E. }
  destruct s as [|c s]. { split; [|intros _; now exists ""%string]. intros _. split; [reflexivity|]. intros a b E. destruct a; discriminate E. }
  cbn [String.length] in Hn. assert (Hs : String.length s <= n) by lia. cbn [text_meaning has_char].
  destruct (Ascii.eqb_spec c ch_lt) as [->|H1]; [split; [intros [m H]; discriminate | intros [H _]; discriminate]|]. cbn [orb].
  destruct (Ascii.eqb_spec c ch_amp) as [->|H2].
  - split.
    + intros [m H]. apply meaning_ref_first in H as (nm & rest & v & u & -> & H3 & H4 & H5 & H6 & H7 & ->).
      rewrite !append_length in Hs. cbn [String.length] in Hs.
      destruct (proj1 (IH rest ltac:(lia)) (ex_intro _ u H7)) as [H8 H9]. split.
      { rewrite !has_char_app, H5. cbn. exact H8. }
      intros a b Eq. destruct a as [|x a].
      * injection Eq as <-. exists nm, rest, v. auto.
      * injection Eq as _ Eq. apply (ref_tail _ _ _ _ H4) in Eq as [a' Eq]. exact (H9 a' b Eq).
    + intros [H3 H4]. destruct (H4 ""%string s eq_refl) as (name & rest & v & -> & H5 & H6 & H7).
      rewrite !has_char_app in H3. apply orb_false_iff in H3 as [H3 H8]. cbn in H8.
      rewrite !append_length in Hs. cbn [String.length] in Hs.
      destruct (proj2 (IH rest ltac:(lia))) as [u Hu].
      { split; [exact H8|]. intros a b ->. apply (H4 (String ch_amp (name +++ ";" +++ a))). cbn [append]. now rewrite append_assoc. }
      rewrite (ref_meaning name ""%string rest v) by assumption. rewrite Hu. now eexists.
  - assert (K : (exists m, text_meaning None s = Some m) <-> has_char ch_lt s = false /\ references_ok (String c s)).
    { rewrite (IH s Hs). split; intros [H3 H4]; (split; [exact H3|]); intros a b Eq.
      - destruct a as [|x a]; injection Eq as Eq1 Eq2; [congruence|]. exact (H4 a b Eq2).
      - apply (H4 (String c a) b). now rewrite Eq. }
    rewrite <- K. destruct (c =c ch_cr); [destruct s as [|d s]|].
    + cbn. split; eauto.
    + destruct (d =c ch_nl); [reflexivity|]. destruct (text_meaning None (String d s)); cbn; (split; intros [m H]; try discriminate H; eauto).
    + destruct (text_meaning None s); cbn; (split; intros [m H]; try discriminate H; eauto).
Qed.
Lemma legal_text_iff s : (exists m, text_meaning None s = Some m) <-> has_char ch_lt s = false /\ references_ok s.
Proof. exact (legal_text_iff_len _ s (le_n _)). Qed.

Lemma utf8_length n : String.length (utf8 n) <= 4.
Proof. unfold utf8. repeat match goal with |- context [if ?b then _ else _] => destruct b end; cbn; lia. Qed.
Lemma digit_length d k : parse_code (str1 d) = Some k -> String.length (utf8 k) = 1.
Proof. destruct d as [[] [] [] [] [] [] [] []]; intros H; try discriminate H; injection H as <-; reflexivity. Qed.
Lemma resolve_length name v : resolve_ref name = Some v -> String.length v < String.length name + 2.
Proof.
  unfold resolve_ref. intros H. assert (N : forall w (b : bool) o, (if b then Some w else o) = Some v -> String.length w = 1 ->
    (o = Some v -> String.length v < String.length name + 2) -> String.length v < String.length name + 2).
  { intros w [] o E1 E2 E3; [injection E1 as <-; lia | auto]. }
  assert (M : (if name =s "lt" then Some "<" else if name =s "gt" then Some ">" else if name =s "amp" then Some "&" else if name =s "apos" then Some "'"
               else if name =s "quot" then Some (str1 ch_quot) else None)%string = Some v -> String.length v < String.length name + 2).
  { intros K. do 5 (eapply N; [exact K | reflexivity | clear K; intros K]). discriminate K. }
  destruct name as [|c num]; [exact (M H)|].
  destruct (Ascii.eqb_spec c "#") as [->|Hc].
  - destruct num as [|d num]; [discriminate H|].
    destruct (parse_code (String d num)) as [k|] eqn:Pc; [|discriminate]. unfold char_of_code in H.
    destruct (k =? 0)%N; [discriminate|]. destruct ((55296 <=? k)%N && (k <=? 57343)%N); [discriminate|]. destruct (k <=? 1114111)%N; [|discriminate].
    injection H as <-. destruct num as [|d' num]; [apply digit_length in Pc; cbn; lia|]. pose proof (utf8_length k). cbn [String.length]. lia.
  - apply M. rewrite <- H. clear -Hc. destruct c as [[] [] [] [] [] [] [] []]; try reflexivity. contradiction Hc. reflexivity.
Qed.
Lemma meaning_length_len : forall n s m, String.length s <= n -> text_meaning None s = Some m -> String.length m <= String.length s.
Proof.
  induction n as [|n IH]; intros s m Hn H.
  { destruct s; [|cbn in Hn; lia]. injection H as <-. lia. }
  destruct s as [|c s]; [injection H as <-; lia|]. cbn [String.length] in *. assert (Hs : String.length s <= n) by lia. cbn [text_meaning] in H.
  assert (K : forall f, option_map (String f) (text_meaning None s) = Some m -> String.length m <= S (String.length s)).
  { intros f Hf. destruct (text_meaning None s) as [u|] eqn:T; [|discriminate]. injection Hf as <-. apply IH in T; [|exact Hs]. cbn. lia. }
  destruct (c =c ch_lt); [discriminate|]. destruct (c =c ch_amp).
  - apply meaning_ref_first in H as (nm & rest & v & u & -> & _ & _ & _ & H6 & H7 & ->). rewrite !append_length in *. cbn [String.length append] in *.
    apply resolve_length in H6. apply IH in H7; lia.
  - destruct (c =c ch_cr); [|exact (K _ H)]. destruct s as [|d s]; [exact (K _ H)|]. destruct (d =c ch_nl); [apply IH in H; lia | exact (K _ H)].
Qed.
Lemma meaning_length s m : text_meaning None s = Some m -> String.length m <= String.length s.
Proof. exact (meaning_length_len _ s m (le_n _)). Qed.
Lemma meaning_same s : text_meaning None s = Some s <-> has_char ch_lt s = false /\ has_char ch_amp s = false /\ has_char ch_cr s = false.
Proof.
  induction s as [|c s IH]; [split; auto|]. cbn [text_meaning has_char].
  destruct (Ascii.eqb_spec c ch_lt) as [->|H1]; [split; [discriminate | intros (H & _); discriminate]|].
  destruct (Ascii.eqb_spec c ch_amp) as [->|H2].
  { split; [|intros (_ & H & _); discriminate]. intros H. exfalso.
    apply meaning_ref_first in H as (nm & rest & v & u & -> & _ & _ & _ & H6 & H7 & Eq). apply meaning_length in H7. apply resolve_length in H6.
    apply (f_equal String.length) in Eq. cbn [String.length append] in *. rewrite !append_length in Eq. cbn [String.length append] in *. lia. }
  destruct (Ascii.eqb_spec c ch_cr) as [->|H3].
  { split; [|intros (_ & _ & H); discriminate]. intros H. exfalso. destruct s as [|d s]; [discriminate H|]. destruct (d =c ch_nl).
    - apply meaning_length in H. cbn in H. lia.
    - destruct (text_meaning None (String d s)); discriminate H. }
  cbn [orb]. rewrite <- IH. destruct (text_meaning None s); cbn; split; congruence.
Qed.
(** A legal text is read back as it is exactly when nothing in it has a meaning. *)
Lemma back_same t : (exists m, text_meaning None t = Some m) ->
  (back t = [t] <-> t <> ""%string /\ has_char ch_amp t = false /\ has_char ch_cr t = false /\ has_char ch_nl t = false).
Proof.
  intros [m Hm]. assert (Lt : has_char ch_lt t = false) by (apply (proj1 (legal_text_iff t)); eauto).
  assert (B : back t = [t] <-> t <> ""%string /\ one_line (replace_escaped m) = t).
  { unfold back. destruct t as [|c t]; [split; [discriminate | intros [H _]; contradiction]|]. unfold text_seen. rewrite Hm.
    split; [intros H; injection H as ->; split; [discriminate | reflexivity] | intros [_ ->]; reflexivity]. }
  rewrite B. apply and_iff_compat_l. split.
  - intros H. pose proof (meaning_length _ _ Hm) as L1. pose proof (replace_escaped_from_length 0 m) as L2. fold (replace_escaped m) in L2.
    pose proof (filter_length (fun c => negb (c =c ch_nl)) (replace_escaped m)) as L3. fold (one_line (replace_escaped m)) in L3. rewrite H in L3.
    assert (F : String.length (one_line (replace_escaped m)) = String.length (replace_escaped m)) by (rewrite H; lia).
    apply filter_full in F. assert (O : one_line (replace_escaped m) = replace_escaped m) by (now apply filter_str_all).
    assert (R : replace_escaped m = m).
    { destruct (entity_free_dec m) as [D|(e & v & Hin & Hc)]; [now apply replace_escaped_fix|].
      pose proof (replace_escaped_shorter _ _ _ Hin Hc). lia. }
    rewrite O, R in H. subst m. apply meaning_same in Hm as (_ & H4 & H5). repeat split; try assumption.
    rewrite R in F. eapply all_char_has; [exact F | reflexivity].
  - intros (H1 & H2 & H3). assert (E : text_meaning None t = Some t) by (apply meaning_same; auto). rewrite E in Hm. injection Hm as <-.
    assert (R : replace_escaped t = t).
    { apply replace_escaped_id. intros e v Hin (a & b & ->). rewrite !has_char_app in H1. revert H1.
      pattern e. apply (In_entities _ _ _ Hin); cbn [has_char append]; change (Ascii.eqb "&" ch_amp) with true; rewrite ?orb_true_r; discriminate. }
    rewrite R. now apply one_line_id.
Qed.

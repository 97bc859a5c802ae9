(** Proofs about the strings of built parts. *)
From Coq Require Import NArith ZArith List Bool Lia.
From Verif Require Import Str StrFacts TypesModel Props Ast IdsModel EscapeModel InstrModel WriterModel XmlParser XmlSpec BuildModel BuildProofs WellSpec.
From Verif Require RoundNums RoundBase EscapeProofs XmlTreeProofs.
Import ListNotations.

Definition plain_char (c : ascii) : bool := negb ((c =c ch_amp) || (c =c ch_lt) || (c =c ch_quot)).
Definition plain (s : string) : bool := all_char plain_char s.

Lemma plain_num s : all_char RoundNums.num_char s = true -> plain s = true.
Proof.
  apply all_char_impl. intros c H. destruct c as [[] [] [] [] [] [] [] []]; vm_compute in H |- *; congruence.
Qed.
Lemma plain_N n : plain (show_N n) = true.
Proof. apply plain_num, RoundNums.num_N. Qed.
Lemma plain_Z n : plain (show_Z n) = true.
Proof. apply plain_num, RoundNums.num_Z. Qed.
Lemma plain_app a b : plain (a +++ b) = plain a && plain b.
Proof. unfold plain. induction a as [|c a IH]; [reflexivity|]. cbn. rewrite IH. apply andb_assoc. Qed.
Lemma plain_zeros n : plain (zeros n) = true.
Proof. induction n; [reflexivity|]. cbn. exact IHn. Qed.
Lemma plain_hex_uint d : plain (HexadecimalString.NilEmpty.string_of_uint d) = true.
Proof. induction d; cbn; auto. Qed.
Lemma plain_id c : plain (pad0 8 (show_hex c)) = true.
Proof. unfold pad0, show_hex. now rewrite plain_app, plain_zeros, plain_hex_uint. Qed.

Section Spelling.
Variable P : piece -> Prop.
Hypothesis plain_value : forall s, plain s = true -> P (Value s).
Hypothesis plain_content : forall s, plain s = true -> P (Content s).
Hypothesis escaped_content : forall s, P (Content (escape s)).
Hypothesis escaped_value : forall s, P (Value (escape s)).
(** Names are legal, values and texts are [P]. *)
Definition attr_fine (kv : string * string) : Prop := attr_name_ok (fst kv) = true /\ P (Value (snd kv)).
Fixpoint spelled (x : xml) : Prop :=
  match x with
  | E n a ch => elem_name_ok n = true /\ Forall attr_fine a /\ fold_right (fun x q => spelled x /\ q) True ch
  | L n a ts => elem_name_ok n = true /\ Forall attr_fine a /\ P (Content (concat_str ts))
  end.
Definition all_spelled (l : list xml) : Prop := fold_right (fun x q => spelled x /\ q) True l.
Lemma all_spelled_app l m : all_spelled (l ++ m) <-> all_spelled l /\ all_spelled m.
Proof. induction l as [|x l IH]; cbn [app all_spelled fold_right]; [tauto|]. change (fold_right _ True (l ++ m)) with (all_spelled (l ++ m)). rewrite IH. unfold all_spelled. tauto. Qed.

Definition means (l : list xml) (m : list piece) : Prop := all_spelled l <-> Forall P m.
Definition values (l : list (string * string)) (m : list piece) : Prop := Forall attr_fine l <-> Forall P m.
Lemma means_nil : means [] [].
Proof. unfold means. cbn. intuition. Qed.
Lemma means_app l1 l2 m1 m2 : means l1 m1 -> means l2 m2 -> means (l1 ++ l2) (m1 ++ m2).
Proof. unfold means. rewrite all_spelled_app, Forall_app. tauto. Qed.
Lemma means_cons x l m1 m2 : means [x] m1 -> means l m2 -> means (x :: l) (m1 ++ m2).
Proof. intros. change (x :: l) with ([x] ++ l). now apply means_app. Qed.
Lemma means_skip l1 l2 m : means l1 [] -> means l2 m -> means (l1 ++ l2) m.
Proof. apply (means_app l1 l2 [] m). Qed.
Lemma means_skip1 x l m : means [x] [] -> means l m -> means (x :: l) m.
Proof. apply (means_cons x l [] m). Qed.
Lemma means_last l m1 : means l m1 -> means l (m1 ++ []).
Proof. now rewrite app_nil_r. Qed.
Lemma means_opt A (f : A -> xml) g o : (forall a, means [f a] (g a)) -> means (opt f o) (if_set g o).
Proof. intros H. destruct o; [apply H | apply means_nil]. Qed.
Lemma means_opt0 A (f : A -> xml) o : (forall a, means [f a] []) -> means (opt f o) [].
Proof. intros H. destruct o; [apply H | apply means_nil]. Qed.
Lemma means_on b l : means l [] -> means (on b l) [].
Proof. destruct b; [auto | intros; apply means_nil]. Qed.
Lemma means_map0 A (f : A -> xml) l : (forall a, means [f a] []) -> means (map f l) [].
Proof. intros H. induction l; [apply means_nil | apply means_skip1; auto]. Qed.
Lemma means_E n a ch m1 m2 : elem_name_ok n = true -> values a m1 -> means ch m2 -> means [E n a ch] (m1 ++ m2).
Proof. unfold means, values. cbn [all_spelled fold_right spelled]. rewrite Forall_app. unfold all_spelled. tauto. Qed.
Lemma means_E0 n ch m : elem_name_ok n = true -> means ch m -> means [E n [] ch] m.
Proof. intros. apply (means_E n [] ch [] m); auto. unfold values. intuition. Qed.
Lemma means_leaf n a m : elem_name_ok n = true -> values a m -> means [leaf n a] m.
Proof. intros. rewrite <- (app_nil_r m). apply means_E; auto. apply means_nil. Qed.
Lemma means_L n a s m : elem_name_ok n = true -> Forall attr_fine a -> (P (Content s) <-> Forall P m) -> means [L n a [s]] m.
Proof.
  intros H1 H2 H3. unfold means. cbn [all_spelled fold_right spelled concat_str]. rewrite append_nil_r. tauto.
Qed.
Lemma values_nil : values [] [].
Proof. unfold values. intuition. Qed.
Lemma values_app l1 l2 m1 m2 : values l1 m1 -> values l2 m2 -> values (l1 ++ l2) (m1 ++ m2).
Proof. unfold values. rewrite !Forall_app. tauto. Qed.
Lemma values_skip l1 l2 m : values l1 [] -> values l2 m -> values (l1 ++ l2) m.
Proof. apply (values_app l1 l2 [] m). Qed.
Lemma values_cons k v l m : attr_name_ok k = true -> values l m -> values ((k, v) :: l) (Value v :: m).
Proof.
  intros Hk H. unfold values in *. split; intros X; inversion X as [|? ? X1 X2]; subst; constructor; try tauto.
  - apply X1.
  - now split.
Qed.
Lemma values_skip1 k v l m : attr_name_ok k = true -> plain v = true -> values l m -> values ((k, v) :: l) m.
Proof.
  intros Hk Hv H. unfold values in *. rewrite <- H. split; intros X; [now inversion X | constructor; auto]. split; [exact Hk | now apply plain_value].
Qed.
Lemma values_s k o : attr_name_ok k = true -> values (attr_s k o) (value_of o).
Proof. intros H. destruct o; [now apply values_cons, values_nil | apply values_nil]. Qed.
Lemma values_opt0 A (f : A -> string * string) o : (forall a, attr_name_ok (fst (f a)) = true /\ plain (snd (f a)) = true) -> values (opt f o) [].
Proof. intros H. destruct o as [a|]; [|apply values_nil]. cbn [opt]. destruct (H a), (f a). now apply values_skip1, values_nil. Qed.

Lemma values_last l1 l2 m : values l1 m -> values l2 [] -> values (l1 ++ l2) m.
Proof. intros H1 H2. rewrite <- (app_nil_r m). now apply values_app. Qed.
Lemma means_then l1 l2 m : means l1 m -> means l2 [] -> means (l1 ++ l2) m.
Proof. intros H1 H2. rewrite <- (app_nil_r m). now apply means_app. Qed.
Lemma means_then1 x l m : means [x] m -> means l [] -> means (x :: l) m.
Proof. apply (means_then [x]). Qed.

Ltac str :=
  cbn [fst snd]; first [reflexivity | apply plain_N | apply plain_Z
    | match goal with |- plain (_ ?v) = true => destruct v; reflexivity end
    | unfold show_rule; match goal with |- plain (match ?v with _ => _ end) = true => destruct v; reflexivity end ].
Ltac vals1 :=
  first
  [ apply values_nil
  | apply values_s; reflexivity
  | apply values_cons; [reflexivity|]
  | apply values_skip1; [reflexivity | str |]
  | apply values_opt0; intros; split; [reflexivity | str]
  | apply values_app; [apply values_s; reflexivity|]
  | apply values_skip; [apply values_opt0; intros; split; [reflexivity | str]|]
  | apply values_last; [apply values_s; reflexivity|] ].
Ltac vals := solve [repeat vals1].
Ltac lf := apply means_leaf; [reflexivity | vals].
Lemma means_color c : means [x_color c] (in_color c).
Proof. lf. Qed.
Lemma means_fonts c : means [x_fonts c] (in_fonts c).
Proof. lf. Qed.
Lemma means_border c : means [x_text_border c] [Value (tb_color c)].
Proof. lf. Qed.
Lemma means_shading c : means [x_shading c] (in_shading c).
Proof. lf. Qed.
Lemma means_box n c : elem_name_ok n = true -> means [x_box n c] [Value (b_color c)].
Proof. intros H. apply means_leaf; [exact H | vals]. Qed.
Lemma means_pbox n c : elem_name_ok n = true -> means [x_pborder n c] [Value (pb_color c)].
Proof. intros H. apply means_leaf; [exact H | vals]. Qed.
Lemma means_ref n c : elem_name_ok n = true -> means [x_ref n c] (in_ref c).
Proof. intros H. apply means_leaf; [exact H | vals]. Qed.
Lemma means_valued n s : elem_name_ok n = true -> means [valued n s] [Value s].
Proof. intros H. apply means_leaf; [exact H | vals]. Qed.
Lemma means_frame c : means [x_frame c] (in_frame c).
Proof. lf. Qed.
Lemma means_tposition c : means [x_tposition c] (value_of (tp_vert_anchor c) ++ value_of (tp_horz_anchor c) ++ value_of (tp_x_spec c) ++ value_of (tp_y_spec c)).
Proof. lf. Qed.
Lemma means_binding c : means [x_binding c] (value_of (db_xpath c) ++ value_of (db_prefix c) ++ value_of (db_store c)).
Proof. lf. Qed.
Lemma means_mark n m i : elem_name_ok n = true -> plain i = true -> means [leaf n [("w:id", i); ("w:author", m_author m); ("w:date", m_date m)]] (in_mark m).
Proof. intros H Hi. apply means_leaf; [exact H|]. apply values_skip1; [reflexivity | exact Hi |]. vals. Qed.
Lemma means_none n a : elem_name_ok n = true -> values a [] -> means [leaf n a] [].
Proof. apply means_leaf. Qed.
(** One element without strings. *)
Ltac still :=
  unfold valued_n, valued_z, x_switch, x_bare, x_fit, x_ptab, x_tab, x_page_size, x_page_margin, x_doc_grid, x_spacing, x_uwidth, x_width, valued;
  repeat match goal with |- means [if ?b then _ else _] _ => destruct b end;
  (apply means_none; [reflexivity | vals]).
Ltac known := first
  [ apply means_color | apply means_fonts | apply means_border | apply means_shading | apply means_box; reflexivity | apply means_pbox; reflexivity
  | apply means_ref; reflexivity | apply means_valued; reflexivity | apply means_frame | apply means_tposition | apply means_binding ].
Ltac skips := solve [apply means_nil | apply means_opt0; intros; still | apply means_on; still | still].
Ltac gives := solve [apply means_opt; intros; known | known].
Ltac pieces1 := first
  [ skips | gives
  | apply means_skip; [skips|] | apply means_skip1; [skips|]
  | apply means_app; [gives|] | apply means_cons; [gives|]
  | apply means_then; [gives|] | apply means_then1; [gives|] ].
Ltac pieces := repeat pieces1.
Lemma means_before r : means (rpr_before r) (if_set in_color (r_color r) ++ value_of (r_highlight r) ++ value_of (r_underline r) ++ if_set in_fonts (r_fonts r) ++
  if_set (fun b => [Value (tb_color b)]) (r_border r)).
Proof. unfold rpr_before, value_of. pieces. Qed.
Lemma means_after r : means (rpr_after r) (value_of (r_style r) ++ if_set in_shading (r_shading r)).
Proof. unfold rpr_after, value_of. pieces. Qed.

(** Monadic builders *)
Definition yields (m : M (list xml)) (ps : list piece) : Prop := forall s a s', m s = Some (a, s') -> means a ps.
Lemma yields_ret l ps : means l ps -> yields (ret l) ps.
Proof. intros H s a s' X. injection X as <- <-. exact H. Qed.
Lemma take_hist_plain s i s' : take_hist s = Some (i, s') -> plain i = true.
Proof. unfold take_hist, gen_history. destruct (_ <? _)%N; [|discriminate]. intros H. injection H as <- _. apply plain_N. Qed.
Lemma take_change_plain s i s' : take_change s = Some (i, s') -> plain i = true.
Proof. unfold take_change, gen_paragraph_property_change, gen_history. destruct (_ <? _)%N; [|discriminate]. intros H. injection H as <- _. apply plain_N. Qed.
Lemma take_para_plain s i s' : take_para s = Some (i, s') -> plain i = true.
Proof. unfold take_para, gen_para. destruct (_ <? _)%N; [|discriminate]. intros H. injection H as <- _. apply plain_id. Qed.
Lemma yields_opt_mark n o : elem_name_ok n = true -> yields (b_opt_mark n o) (if_set in_mark o).
Proof.
  intros Hn. destruct o as [m|]; [|apply yields_ret, means_nil]. intros s a s' H. cbn [b_opt_mark] in H. unfold b_mark in H.
  apply bind_inv in H as (i & s1 & Hi & H). injection H as <- <-. apply means_mark; [exact Hn | eapply take_hist_plain, Hi].
Qed.
Lemma yields_rpr r : yields (b_rpr r) (in_rpr r).
Proof.
  intros s a s' H. unfold b_rpr in H. apply bind_inv in H as (i & s1 & Hi & H). apply bind_inv in H as (d & s2 & Hd & H). injection H as <- <-.
  apply means_E0; [reflexivity|]. pose proof (means_before r) as M1. pose proof (means_after r) as M2.
  pose proof (yields_opt_mark "w:ins" _ eq_refl _ _ _ Hi) as M3. pose proof (yields_opt_mark "w:del" _ eq_refl _ _ _ Hd) as M4.
  revert M1 M2 M3 M4. unfold in_rpr, means. rewrite !all_spelled_app, !Forall_app. tauto.
Qed.
Lemma means_sectpr p : means [x_sectpr p] (in_sectpr p).
Proof.
  apply means_E0; [reflexivity|]. unfold in_sectpr. cbn [app]. do 3 (apply means_skip1; [skips|]).
  apply means_skip; [skips|]. do 6 (apply means_app; [gives|]). apply means_app.
  - apply means_opt. intros q. unfold x_page_num. apply means_leaf; [reflexivity|]. apply values_skip; [apply values_opt0; intros; split; [reflexivity|str]|]. vals.
  - apply means_then; [|pieces]. destruct (sp_text_direction p =s "lrTb") eqn:Q.
    + apply String.eqb_eq in Q. rewrite Q. unfold means. cbn. split; [intros _|tauto]. constructor; [|constructor]. now apply plain_value.
    + cbn [negb on]. now apply means_valued.
Qed.
Lemma means_numpr n : means [x_numpr n] [].
Proof. apply means_E0; [reflexivity|]. pieces. Qed.
Lemma means_indent i : means [x_indent i] [].
Proof.
  unfold x_indent. apply means_leaf; [reflexivity|]. do 3 vals1. destruct (i_special i) as [[]|]; vals.
Qed.
Lemma means_pborders b : means [x_pborders b] (in_pborders b).
Proof. apply means_E0; [reflexivity|]. unfold in_pborders. cbv zeta. pieces. Qed.
Lemma means_ppr_before b : means (ppr_before b) (value_of (p_style b) ++ if_set in_frame (p_frame b) ++ value_of (p_alignment b)).
Proof.
  unfold ppr_before, value_of. apply means_app; [gives|]. apply means_skip; [apply means_opt0, means_numpr|]. apply means_app; [gives|].
  apply means_then; [gives|]. apply means_skip; [apply means_opt0, means_indent|]. pieces.
Qed.
Lemma means_ppr_after b : means (ppr_after b) (if_set in_pborders (p_borders b) ++ if_set in_shading (p_shading b) ++ if_set in_sectpr (p_section b)).
Proof.
  unfold ppr_after. apply means_app; [apply means_opt, means_pborders|]. apply means_app; [gives|].
  do 8 (apply means_skip; [skips|]). apply means_skip; [|apply means_opt, means_sectpr].
  destruct (p_tabs b); [apply means_nil|]. apply means_E0; [reflexivity|]. apply means_map0. intros. still.
Qed.
Lemma yields_ppr : forall p, yields (b_ppr p) (in_ppr p).
Proof.
  fix IH 1. intros [b c] s a s' H. cbn [b_ppr] in H. apply bind_inv in H as (r & s1 & Hr & H). apply bind_inv in H as (x & s2 & Hx & H). injection H as <- <-.
  apply means_E0; [reflexivity|].
  pose proof (yields_rpr _ _ _ _ Hr) as M1. pose proof (means_ppr_before b) as M2. pose proof (means_ppr_after b) as M3.
  assert (M4 : means x (match c with Some (PChange author date q) => Value author :: Value date :: in_ppr q | None => [] end)).
  { destruct c as [[author date q]|]; [|injection Hx as <- <-; apply means_nil].
    apply bind_inv in Hx as (i & s3 & Hi & Hx). apply bind_inv in Hx as (y & s4 & Hy & Hx). injection Hx as <- <-.
    apply (means_E "w:pPrChange" _ y [Value author; Value date] (in_ppr q)); [reflexivity | | exact (IH q _ _ _ Hy)].
    apply values_skip1; [reflexivity | eapply take_change_plain, Hi | vals]. }
  revert M1 M2 M3 M4. clear. pose proof (Forall_nil P) as F0. destruct c as [[author date q]|]; cbn [in_ppr]; unfold in_base, means;
    rewrite !all_spelled_app, !Forall_app; tauto.
Qed.
Lemma means_tborders b : means [x_tborders b] (in_box (tbs_top b) ++ in_box (tbs_left b) ++ in_box (tbs_bottom b) ++ in_box (tbs_right b) ++ in_box (tbs_inside_h b) ++ in_box (tbs_inside_v b)).
Proof. apply means_E0; [reflexivity|]. unfold in_box. pieces. Qed.
Lemma means_cborders b : means [x_cborders b] (in_box (cb_top b) ++ in_box (cb_left b) ++ in_box (cb_bottom b) ++ in_box (cb_right b) ++
                   in_box (cb_inside_h b) ++ in_box (cb_inside_v b) ++ in_box (cb_tl2br b) ++ in_box (cb_tr2bl b)).
Proof. apply means_E0; [reflexivity|]. unfold in_box. pieces. Qed.
Lemma means_tmargins m : means [x_tmargins m] [].
Proof. apply means_E0; [reflexivity|]. pieces. Qed.
Lemma means_cmargins m : means [x_cmargins m] [].
Proof. apply means_E0; [reflexivity|]. pieces. Qed.
Lemma means_tblpr p : means [x_tblpr p] (in_tblpr p).
Proof.
  apply means_E0; [reflexivity|]. unfold in_tblpr. cbv zeta. cbn [app]. apply means_skip1; [skips|].
  match goal with |- means _ (?a :: ?m) => change (a :: m) with ([a] ++ m) end.
  apply means_cons; [gives|]. apply means_cons; [apply means_tborders|]. apply means_skip; [apply means_opt0, means_tmargins|].
  apply means_skip; [skips|]. apply means_app; [gives|]. apply means_skip; [skips|]. gives.
Qed.
Lemma yields_trpr p : yields (b_trpr p) (in_trpr p).
Proof.
  intros s a s' H. unfold b_trpr in H. apply bind_inv in H as (d & s1 & Hd & H). apply bind_inv in H as (i & s2 & Hi & H). injection H as <- <-.
  apply means_E0; [reflexivity|]. apply means_app; [exact (yields_opt_mark "w:del" _ eq_refl _ _ _ Hd)|].
  apply means_then; [exact (yields_opt_mark "w:ins" _ eq_refl _ _ _ Hi)|]. pieces.
Qed.
Lemma means_tcpr p : means [x_tcpr p] (in_tcpr p).
Proof.
  apply means_E0; [reflexivity|]. unfold in_tcpr. apply means_skip; [skips|]. apply means_app; [apply means_opt, means_cborders|].
  do 4 (apply means_skip; [skips|]). apply means_then; [gives|]. apply means_opt0, means_cmargins.
Qed.
Lemma yields_sdtpr p : yields (b_sdtpr p) (in_sdtpr p).
Proof.
  intros s a s' H. unfold b_sdtpr in H. apply bind_inv in H as (r & s1 & Hr & H). injection H as <- <-.
  apply means_E0; [reflexivity|]. unfold in_sdtpr. apply means_app; [exact (yields_rpr _ _ _ _ Hr)|]. unfold value_of at 4. pieces.
Qed.
Lemma means_text n a s : elem_name_ok n = true -> Forall attr_fine a -> means [L n a [s]] [Content s].
Proof. intros H1 H2. apply means_L; auto. split; intros X; [now constructor | now inversion X]. Qed.
Lemma means_text0 n a s : elem_name_ok n = true -> Forall attr_fine a -> P (Content s) -> means [L n a [s]] [].
Proof. intros H1 H2 H3. apply means_L; auto. split; auto. Qed.
Lemma means_drawing p : means [x_drawing p] [Value (pic_id p)].
Proof.
  assert (G : means (x_graphic p) [Value (pic_id p)]).
  { unfold x_graphic. cbn [app]. do 2 (apply means_skip1; [skips|]). apply means_skip; [destruct (pic_overlap p); skips|].
    apply means_skip1; [skips|]. apply means_skip1; [apply means_E0; [reflexivity | skips]|].
    apply (means_E _ _ _ [] [Value (pic_id p)]); [reflexivity | vals|]. apply (means_E _ _ _ [] [Value (pic_id p)]); [reflexivity | vals|].
    unfold x_pic. apply (means_E _ _ _ [] [Value (pic_id p)]); [reflexivity | vals|].
    apply means_skip1. { apply means_E0; [reflexivity|]. apply means_skip1; [skips|]. apply means_E0; [reflexivity | skips]. }
    apply means_then1. { apply means_E0; [reflexivity|]. apply means_then1; [lf|]. apply means_skip1; [skips|]. apply means_E0; [reflexivity | skips]. }
    apply (means_E _ _ _ [] []); [reflexivity | vals |]. apply means_skip1.
    - apply (means_E _ _ _ [] []); [reflexivity | vals |]. pieces.
    - apply (means_E _ _ _ [] []); [reflexivity | vals |]. pieces. }
  assert (Q : forall n r d, elem_name_ok n = true -> plain r = true -> means [x_position n r d] []).
  { intros n r d Hn Hr. unfold x_position. apply (means_E _ _ _ [] []); [exact Hn | apply values_skip1; [reflexivity | exact Hr | apply values_nil] |].
    destruct d; apply means_text0; try reflexivity; try constructor; apply plain_content; str. }
  apply means_E0; [reflexivity|]. destruct (pic_anchor p).
  - apply (means_E _ _ _ [] [Value (pic_id p)]); [reflexivity | unfold dists; cbn [app]; vals |]. cbn [app].
    apply means_skip1; [skips|]. do 2 (apply means_skip1; [apply Q; [reflexivity|str]|]). exact G.
  - apply (means_E _ _ _ [] [Value (pic_id p)]); [reflexivity | unfold dists; vals | exact G].
Qed.

(** ** Nodes *)
Lemma space_fine : Forall attr_fine [("xml:space", "preserve")].
Proof. repeat constructor. now apply plain_value. Qed.
Lemma yields_bind A (m : M A) k ps : (forall s a s', m s = Some (a, s') -> yields (k a) ps) -> yields (bind m k) ps.
Proof. intros H s x s' X. apply bind_inv in X as (a & s1 & Ha & X). exact (H _ _ _ Ha _ _ _ X). Qed.
Lemma yields_instr n i : elem_name_ok n = true -> yields (b_instr n i) (in_instr i).
Proof.
  intros Hn. destruct i; cbn [b_instr in_instr]; try (apply yields_ret, means_text; [exact Hn | constructor]);
    try (apply yields_ret, means_text0; [exact Hn | constructor | now apply plain_content]).
  intros s a s' H. discriminate H.
Qed.
Lemma yields_leaf n m : b_leaf n = Some m -> yields m (in_node n).
Proof.
  destruct n; cbn [b_leaf]; intros H; try discriminate H; injection H as <-; cbn [in_node];
    try (apply yields_ret); try (intros s' a' s'' X; discriminate X).
  - apply means_text; [reflexivity | apply space_fine].
  - apply means_text; [reflexivity | apply space_fine].
  - lf.
  - lf.
  - still.
  - lf.
  - lf.
  - apply means_drawing.
  - lf.
  - now apply yields_instr.
  - now apply yields_instr.
  - apply means_text0; [reflexivity | apply space_fine | apply escaped_content].
  - lf.
  - apply means_shading.
  - lf.
  - apply means_skip1; [apply means_E0; [reflexivity|]; apply means_E0; [reflexivity | apply means_nil]|].
    apply means_skip1; [skips|]. apply means_E0; [reflexivity | skips].
  - lf.
  - lf.
Qed.
Lemma yields_seq m1 m2 p1 p2 : yields m1 p1 -> yields m2 p2 -> yields (a <- m1;; b <- m2;; ret (a ++ b)) (p1 ++ p2).
Proof.
  intros H1 H2. apply yields_bind. intros s a s' Ha. apply yields_bind. intros t b t' Hb. apply yields_ret, means_app; eauto.
Qed.
Lemma yields_seq0 m1 m2 : yields m1 [] -> yields m2 [] -> yields (a <- m1;; b <- m2;; ret (a ++ b)) [].
Proof. apply (yields_seq m1 m2 [] []). Qed.
Lemma yields_each A (f : A -> M (list xml)) g l : Forall (fun n => yields (f n) (g n)) l -> yields (each f l) (flat_map g l).
Proof. induction 1 as [|n l Hn Hl IH]; cbn [each flat_map]; [apply yields_ret, means_nil | now apply yields_seq]. Qed.
Lemma yields_leaves l : yields (b_leaves l) (flat_map (fun n => match b_leaf n with Some _ => in_node n | None => [] end) l).
Proof.
  apply yields_each. apply Forall_forall. intros n _. destruct (b_leaf n) as [m|] eqn:H; [now apply yields_leaf | apply yields_ret, means_nil].
Qed.
Lemma yields_run p inner ps : yields inner ps -> yields (b_run p inner) (in_rpr p ++ ps).
Proof.
  intros H. apply yields_bind. intros s r s' Hr. apply yields_bind. intros t c t' Hc. apply yields_ret, means_E0; [reflexivity|].
  apply means_app; [exact (yields_rpr _ _ _ _ Hr) | exact (H _ _ _ Hc)].
Qed.
Lemma yields_para i p inner ps : yields inner ps -> yields (b_para i p inner) (Value i :: in_ppr p ++ ps).
Proof.
  intros H. apply yields_bind. intros s r s' Hr. apply yields_bind. intros t c t' Hc. apply yields_ret.
  apply (means_E "w:p" _ _ [Value i] (in_ppr p ++ ps)); [reflexivity | vals|].
  apply means_app; [exact (yields_ppr _ _ _ _ Hr) | exact (H _ _ _ Hc)].
Qed.
Lemma drop_plain m i ps : plain i = true -> yields m (Value i :: ps) -> yields m ps.
Proof.
  intros Hi H s a s' X. specialize (H s a s' X). unfold means in *. rewrite H. split; intros Y; [now inversion Y | constructor; auto].
Qed.
Lemma yields_new_para p inner ps : yields inner ps -> yields (b_new_para p inner) (in_ppr p ++ ps).
Proof.
  intros H. apply yields_bind. intros s i s' Hi. apply (drop_plain _ i); [eapply take_para_plain, Hi|]. now apply yields_para.
Qed.
Lemma yields_tracked n m inner ps : elem_name_ok n = true -> yields inner ps -> yields (b_tracked n m inner) (in_mark m ++ ps).
Proof.
  intros Hn H. apply yields_bind. intros s i s' Hi. apply yields_bind. intros t c t' Hc. apply yields_ret, means_E; [exact Hn | | exact (H _ _ _ Hc)].
  apply values_skip1; [reflexivity | eapply take_hist_plain, Hi | vals].
Qed.
Lemma yields_link l h inner ps : yields inner ps -> yields (b_link l h inner) (Value (match l with External rid _ => rid | Anchor a => a end) :: ps).
Proof.
  intros H. apply yields_bind. intros t c t' Hc. apply yields_ret. apply (means_E _ _ _ [_] ps); [reflexivity | | exact (H _ _ _ Hc)].
  unfold link_attrs. destruct l; cbn [app]; vals.
Qed.
Lemma yields_simple l : yields (b_simple_run l) (flat_map (fun n => match b_leaf n with Some _ => in_node n | None => [] end) l).
Proof. apply (yields_run rpr_empty _ _ (yields_leaves l)). Qed.
Lemma drop_escaped s l : Forall P (Content (escape s) :: l) <-> Forall P l.
Proof. split; intros H; [now inversion H | now constructor]. Qed.
Lemma yields_eq m p1 p2 : (Forall P p1 <-> Forall P p2) -> yields m p1 -> yields m p2.
Proof. intros He H s a s' X. unfold means. rewrite <- He. exact (H s a s' X). Qed.
Ltac easy_pieces := rewrite ?drop_escaped, ?Forall_app, ?drop_escaped; try tauto.
Lemma yields_toc_line t : yields (toc_line t) [Content (print_pageref (ti_key t) true false)].
Proof.
  unfold toc_line. apply yields_bind. intros s a s' Ha. apply yields_bind. intros s1 b s1' Hb. apply yields_bind. intros s2 c s2' Hc. apply yields_ret.
  pose proof (yields_simple _ _ _ _ Ha) as M1. pose proof (yields_simple _ _ _ _ Hb) as M2. pose proof (yields_simple _ _ _ _ Hc) as M3.
  revert M1 M2 M3. unfold means. cbn [flat_map b_leaf in_node app in_instr]. rewrite !all_spelled_app.
  intros M1 M2 M3. rewrite M1, M2, M3. clear M1 M2 M3. split; intros H.
  - destruct H as (_ & _ & H). inversion H. now constructor.
  - inversion H. repeat constructor; auto; apply escaped_content.
Qed.
Lemma yields_toc_entry b t : yields (toc_entry b t)
  ((if b then [Content (print_toc (ti_instr t))] else []) ++
   (if it_hyperlink (ti_instr t) then [Value (ti_key t)] else []) ++ [Content (print_pageref (ti_key t) true false)]).
Proof.
  unfold toc_entry. eapply yields_eq; [|apply yields_new_para with (ps := (if b then [Content (print_toc (ti_instr t))] else []) ++
     (if it_hyperlink (ti_instr t) then [Value (ti_key t)] else []) ++ [Content (print_pageref (ti_key t) true false)])].
  - change (in_ppr (PPr (with_tab (toc_style (ti_level t)) toc_tab) None)) with [Value (escape ("ToC" +++ show_N (ti_level t)))].
    cbn [app]. split; intros H; [now inversion H | constructor; [apply escaped_value | exact H]].
  - apply yields_seq.
    + destruct b; [|apply yields_ret, means_nil]. exact (yields_simple _).
    + destruct (it_hyperlink (ti_instr t)); [apply (yields_link (Anchor (ti_key t)))|]; apply yields_toc_line.
Qed.
Lemma yields_toc_last t : yields (toc_last t) [].
Proof.
  unfold toc_last. eapply yields_eq; [|apply yields_new_para, yields_simple].
  change (in_ppr (PPr (toc_style (ti_level t)) None)) with [Value (escape ("ToC" +++ show_N (ti_level t)))].
  split; intros H; [constructor | constructor; [apply escaped_value | constructor]].
Qed.
Definition in_entry (t : toc_item) := (if it_hyperlink (ti_instr t) then [Value (ti_key t)] else []) ++ [Content (print_pageref (ti_key t) true false)].
Lemma yields_toc_entries l : forall b t, yields (toc_entries b (t :: l))
  ((if b then [Content (print_toc (ti_instr t))] else []) ++ flat_map in_entry (t :: l)).
Proof.
  induction l as [|u l IH]; intros b t.
  - cbn [flat_map]. rewrite app_nil_r. rewrite <- (app_nil_r (_ ++ in_entry t)). apply yields_seq; [apply yields_toc_entry | apply yields_toc_last].
  - change (flat_map in_entry (t :: u :: l)) with (in_entry t ++ flat_map in_entry (u :: l)). rewrite app_assoc. apply yields_seq; [apply yields_toc_entry | apply (IH false u)].
Qed.
Lemma yields_items d t l : yields (b_items (map (item_for d) (t :: l))) (Content (print_toc (td_instr d)) :: flat_map (in_item d) (t :: l)).
Proof.
  unfold b_items. apply yields_bind. intros s c s' Hc. apply yields_ret, means_E0; [reflexivity|]. apply means_skip1; [skips|].
  apply means_E0; [reflexivity|]. cbn [map] in Hc. pose proof (yields_toc_entries _ _ _ _ _ _ Hc) as M. cbn [item_for ti_instr app] in M.
  replace (flat_map (in_item d) (t :: l)) with (flat_map in_entry (item_for d t :: map (item_for d) l)); [exact M|].
  change (item_for d t :: map (item_for d) l) with (map (item_for d) (t :: l)). generalize (t :: l) as q. induction q as [|v q IH]; [reflexivity|].
  cbn [map flat_map]. now rewrite IH.
Qed.
Lemma yields_in_sdt d inner ps : yields inner ps -> yields (in_sdt d inner) ((if td_without_sdt d then [] else value_of (td_alias d)) ++ ps).
Proof.
  intros H. unfold in_sdt. destruct (td_without_sdt d); [exact H|]. apply yields_bind. intros s p s' Hp. apply yields_bind. intros t c t' Hc.
  apply yields_ret, means_E0; [reflexivity|]. apply means_app; [exact (yields_sdtpr _ _ _ _ Hp)|]. apply means_E0; [reflexivity | exact (H _ _ _ Hc)].
Qed.
Lemma yields_toc_open d : yields (toc_open d) (if_set in_ppr (td_ppr d) ++ if_set in_mark (td_delete d) ++ [Content (print_toc (td_instr d))]).
Proof.
  unfold toc_open. replace (if_set in_ppr (td_ppr d)) with (in_ppr (match td_ppr d with Some p => p | None => ppr_empty end)) by (now destruct (td_ppr d)).
  destruct (td_delete d) as [m|]; apply yields_new_para; [apply yields_tracked; [reflexivity|]|]; exact (yields_simple _).
Qed.
Lemma yields_end : yields end_run [].
Proof. exact (yields_simple _). Qed.
Lemma yields_empty_line : yields empty_line [].
Proof. eapply yields_eq; [|apply yields_new_para, yields_simple]. cbn [flat_map b_leaf in_node app]. apply (drop_escaped "" []). Qed.

Lemma yields_node : forall n, yields (b_node n) (in_node n) /\ Forall (fun n => yields (b_node n) (in_node n)) (children n).
Proof.
  induction n as [n IH] using node_tree_ind.
  assert (IH' : Forall (fun n => yields (b_node n) (in_node n)) (children n)).
  { rewrite Forall_forall in *. intros m Hm. apply (IH m Hm). }
  split; [|exact IH'].
  assert (X : forall ch, Forall (fun n => yields (b_node n) (in_node n)) ch -> yields (each b_node ch) (flat_map in_node ch)) by (intros; now apply yields_each).
  destruct n; cbn [children] in IH', IH; try (match goal with |- yields (b_node ?n) _ => apply (yields_leaf n); reflexivity end); cbn [b_node in_node].
  - apply yields_run, X, IH'.
  - apply yields_tracked; [reflexivity | apply X, IH'].
  - apply yields_tracked; [reflexivity | apply X, IH'].
  - apply yields_tracked; [reflexivity | apply X, IH'].
  - apply yields_tracked; [reflexivity | apply X, IH'].
  - apply yields_link, X, IH'.
  - apply yields_bind. intros s r s' Hr. apply yields_bind. intros s1 c s1' Hc. apply yields_ret, means_E0; [reflexivity|].
    apply means_app; [exact (yields_sdtpr _ _ _ _ Hr)|]. apply means_E0; [reflexivity|]. exact (X _ IH' _ _ _ Hc).
  - eapply yields_eq; [|exact (yields_simple _)]. cbn [flat_map b_leaf in_node app page_field in_instr]. apply (drop_escaped "1" []).
  - eapply yields_eq; [|exact (yields_simple _)]. cbn [flat_map b_leaf in_node app page_field in_instr]. apply (drop_escaped "1" []).
  - apply yields_para, X, IH'.
  - apply yields_bind. intros s c s' Hc. apply yields_ret, means_E0; [reflexivity|]. apply means_cons; [apply means_tblpr|].
    apply means_skip1; [|exact (X _ IH' _ _ _ Hc)]. apply means_E0; [reflexivity|]. apply means_map0. intros. still.
  - apply yields_bind. intros s r s' Hr. apply yields_bind. intros s1 c s1' Hc. apply yields_ret, means_E0; [reflexivity|].
    apply means_app; [exact (yields_trpr _ _ _ _ Hr) | exact (X _ IH' _ _ _ Hc)].
  - apply yields_bind. intros s c s' Hc. apply yields_bind. intros s1 e s1' He. apply yields_ret, means_E0; [reflexivity|].
    apply means_cons; [apply means_tcpr|]. apply means_then; [exact (X _ IH' _ _ _ Hc)|].
    assert (Y : yields (b_new_para ppr_empty (ret [])) []) by (apply (yields_new_para ppr_empty (ret []) []), yields_ret, means_nil).
    destruct ch as [|k [|]]; [exact (Y _ _ _ He) | | destruct k; injection He as <- <-; apply means_nil].
    destruct k; try (injection He as <- <-; apply means_nil). exact (Y _ _ _ He).
  - apply Forall_app in IH' as [Hb Ha]. apply Forall_app in IH as [_ IHs]. unfold in_toc. 
    assert (Xb := X _ Hb). assert (Xa := X _ Ha). clear X Hb.
    set (pa := flat_map in_node after) in *. set (pb := flat_map in_node before) in *.
    assert (Z : forall m q, yields m q -> (Forall P q <-> Forall P (match td_items d with
        | [] => if_set in_ppr (td_ppr d) ++ if_set in_mark (td_delete d) ++ [Content (print_toc (td_instr d))]
        | t :: l => Content (print_toc (td_instr d)) :: flat_map (in_item d) (t :: l) end ++ pb ++ pa)) ->
      yields (in_sdt d m) (((if td_without_sdt d then [] else value_of (td_alias d)) ++ match td_items d with
        | [] => if_set in_ppr (td_ppr d) ++ if_set in_mark (td_delete d) ++ [Content (print_toc (td_instr d))]
        | t :: l => Content (print_toc (td_instr d)) :: flat_map (in_item d) (t :: l) end) ++ pb ++ pa)).
    { intros m q Hm Hq. rewrite <- app_assoc. apply yields_in_sdt. eapply yields_eq; [exact Hq | exact Hm]. }
    assert (Yt : forall after0, after0 = after -> yields (e <- empty_line;; c <- each b_node after0;; ret (e ++ c)) pa).
    { intros a0 ->. apply (yields_seq _ _ [] pa); [apply yields_empty_line | exact Xa]. }
    destruct (td_items d) as [|t l] eqn:Hi.
    + apply Z with (q := pb ++ (if_set in_ppr (td_ppr d) ++ if_set in_mark (td_delete d) ++ [Content (print_toc (td_instr d))]) ++ pa);
        [|rewrite !Forall_app; tauto].
      apply yields_bind. intros s b s' Hbb. apply yields_bind. intros s1 o s1' Ho. apply yields_bind. intros s2 k s2' Hkk. apply yields_bind. intros s3 a s3' Haa.
      apply yields_ret, means_app; [exact (Xb _ _ _ Hbb)|]. apply means_app; [exact (yields_toc_open d _ _ _ Ho)|].
      revert Haa. revert s3 a s3'. change (yields (match after with
                  | [] => b_para k ppr_empty end_run
                  | NPara id p _ ch :: r => x <- b_para id p (e <- end_run;; c <- each b_node ch;; ret (e ++ c));; y <- each b_node r;; ret (x ++ y)
                  | NTable _ _ _ _ :: _ => e <- empty_line;; c <- each b_node after;; ret (e ++ c)
                  | _ => each b_node after
                  end) pa).
      destruct after as [|k0 r]; [apply (drop_plain _ k); [eapply take_para_plain, Hkk|]; exact (yields_para k ppr_empty _ _ yields_end)|].
      destruct k0; try exact Xa; [|now apply Yt].
      inversion Ha as [|? ? Hp Hr]; subst. unfold pa. cbn [flat_map]. apply yields_seq; [|now apply yields_each].
      inversion IHs as [|? ? [_ Hch] _]; subst. cbn [children] in Hch. cbn [in_node]. apply yields_para.
      apply (yields_seq _ _ [] _); [apply yields_end | now apply yields_each].
    + apply Z with (q := pb ++ (Content (print_toc (td_instr d)) :: flat_map (in_item d) (t :: l)) ++ pa); [|rewrite !Forall_app; tauto].
      apply yields_bind. intros s b s' Hbb. apply yields_bind. intros s1 o s1' Ho. apply yields_bind. intros s2 a s2' Haa.
      apply yields_ret, means_app; [exact (Xb _ _ _ Hbb)|]. apply means_app; [exact (yields_items d t l _ _ _ Ho)|].
      destruct after as [|k0 r]; [exact (Xa _ _ _ Haa)|]. destruct k0; try exact (Xa _ _ _ Haa). exact (Yt _ eq_refl _ _ _ Haa).
  - apply yields_bind. intros s i s' Hi. apply yields_bind. intros s1 c s1' Hc. apply Forall_app in IH' as [IHc _]. apply yields_ret, means_app; [exact (X _ IHc _ _ _ Hc)|].
    apply (means_E _ _ _ [] (in_sectpr p)); [reflexivity | apply values_skip1; [reflexivity | eapply take_para_plain, Hi | apply values_nil]|].
    apply means_E0; [reflexivity | apply means_sectpr].
  - apply yields_ret, means_nil.
Qed.

Lemma yields_nodes l : yields (b_nodes l) (in_body l).
Proof. apply yields_each. apply Forall_forall. intros n _. apply yields_node. Qed.
(** ** Parts *)
Lemma spelled_document body sp s x s' : b_document body sp s = Some (x, s') -> (spelled x <-> Forall P (in_document body sp)).
Proof.
  intros H. unfold b_document in H. apply bind_inv in H as (c & s1 & Hc & H). injection H as <- <-.
  assert (M : means [E "w:document" document_attrs [E "w:body" [] (c ++ [x_sectpr sp])]] (in_document body sp)).
  { apply (means_E _ _ _ [] (in_document body sp)); [reflexivity | vals |]. apply means_E0; [reflexivity|].
    apply means_app; [exact (yields_nodes _ _ _ _ Hc) | apply means_sectpr]. }
  unfold means in M. cbn [all_spelled fold_right] in M. tauto.
Qed.
Lemma spelled_part sl b1 b2 ch s x s' : b_part (NPart sl b1 b2 ch) s = Some (x, s') -> (spelled x <-> Forall P (in_body ch)).
Proof.
  intros H. unfold b_part in H. apply bind_inv in H as (c & s1 & Hc & H). injection H as <- <-.
  assert (M : means [E (part_root sl) part_attrs c] (in_body ch)).
  { apply (means_E _ _ _ [] (in_body ch)); [now destruct sl | vals |]. exact (yields_nodes _ _ _ _ Hc). }
  unfold means in M. cbn [all_spelled fold_right] in M. tauto.
Qed.
Lemma spelled_comments l s x s' : b_comments l s = Some (x, s') -> (spelled x <-> Forall P (in_comments l)).
Proof.
  intros H. unfold b_comments in H. apply bind_inv in H as (c & s1 & Hc & H). injection H as <- <-.
  assert (M : means [E "w:comments" comments_attrs c] (in_comments l)).
  { apply (means_E _ _ _ [] (in_comments l)); [reflexivity | vals |]. revert Hc. apply yields_each. apply Forall_forall. intros [d ch] _.
    apply yields_bind. intros t y t' Hy. apply yields_ret. apply (means_E _ _ _ [_; _] (in_body ch)); [reflexivity | vals |]. exact (yields_nodes _ _ _ _ Hy). }
  unfold means in M. cbn [all_spelled fold_right] in M. tauto.
Qed.
Lemma spelled_footnotes l s x s' : b_footnotes l s = Some (x, s') -> (spelled x <-> Forall P (in_footnotes l)).
Proof.
  intros H. unfold b_footnotes in H. apply bind_inv in H as (c & s1 & Hc & H). injection H as <- <-.
  assert (M : means [E "w:footnotes" footnotes_attrs c] (in_footnotes l)).
  { apply (means_E _ _ _ [] (in_footnotes l)); [reflexivity | vals |]. revert Hc. apply yields_each. apply Forall_forall. intros [i ch] _.
    apply yields_bind. intros t y t' Hy. apply yields_ret. apply (means_E _ _ _ [] (in_body ch)); [reflexivity | vals |]. cbn [snd] in Hy.
    destruct ch; [|exact (yields_nodes _ _ _ _ Hy)]. revert Hy. apply (yields_new_para ppr_empty (ret []) []), yields_ret, means_nil. }
  unfold means in M. cbn [all_spelled fold_right] in M. tauto.
Qed.
End Spelling.

(** ** Readable strings and readable parts *)
Lemma plain_char_amp c : plain_char c = true -> (c =c ch_amp) = false /\ (c =c ch_lt) = false /\ (c =c ch_quot) = false.
Proof. unfold plain_char. destruct (c =c ch_amp), (c =c ch_lt), (c =c ch_quot); intuition. Qed.
Lemma plain_text s : plain s = true -> exists t, text_meaning None s = Some t.
Proof.
  induction s as [|c s IH]; [now exists ""|]. unfold plain. cbn [all_char text_meaning]. intros H. apply andb_true_iff in H as [Hc Hs].
  destruct (plain_char_amp c Hc) as (-> & -> & _). destruct (IH Hs) as (t & ->).
  destruct (c =c ch_cr); [destruct s as [|d s']; [|destruct (d =c ch_nl)]|]; eexists; reflexivity.
Qed.
Lemma plain_decodes s : plain s = true -> exists t, decode_attr None s = Some t.
Proof.
  induction s as [|c s IH]; [now exists ""|]. unfold plain. cbn [all_char decode_attr]. intros H. apply andb_true_iff in H as [Hc Hs].
  destruct (plain_char_amp c Hc) as (-> & _). destruct (IH Hs) as (t & ->).
  destruct (c =c ch_cr); [destruct s as [|d s']; [|destruct (d =c ch_nl)]|destruct (is_ws c)]; eexists; reflexivity.
Qed.
Lemma plain_quote s : plain s = true -> has_char ch_quot s = false.
Proof.
  induction s as [|c s IH]; [reflexivity|]. unfold plain. cbn [all_char has_char]. intros H. apply andb_true_iff in H as [Hc Hs].
  destruct (plain_char_amp c Hc) as (_ & _ & Hq). now rewrite Hq, (IH Hs).
Qed.
Lemma readable_value s : plain s = true -> readable (Value s).
Proof. split; [now apply plain_quote | now apply plain_decodes]. Qed.
Lemma readable_content s : plain s = true -> readable (Content s).
Proof. apply plain_text. Qed.
Lemma readable_escaped_value s : readable (Value (escape s)).
Proof. split; [apply (EscapeProofs.escape_no_markup s ch_quot eq_refl) | rewrite XmlTreeProofs.decode_attr_escape; eauto]. Qed.
Lemma readable_escaped s : readable (Content (escape s)).
Proof. cbn. rewrite XmlTreeProofs.text_meaning_escape. eauto. Qed.
Lemma legal_value s : plain s = true -> legal (Value s).
Proof. split; [now apply plain_quote | now apply plain_text]. Qed.
Lemma legal_escaped_value s : legal (Value (escape s)).
Proof. split; [apply (EscapeProofs.escape_no_markup s ch_quot eq_refl) | rewrite XmlTreeProofs.text_meaning_escape; eauto]. Qed.

Definition def {A} (o : option A) : Prop := exists a, o = Some a.
Lemma def_some A (a : A) : def (Some a) <-> True.
Proof. split; [auto | now exists a]. Qed.
Lemma def_none A : def (@None A) <-> False.
Proof. split; [intros [a H]; discriminate | tauto]. Qed.
Lemma def_map A B (f : A -> B) o : def (option_map f o) <-> def o.
Proof. destruct o; cbn; rewrite ?def_some, ?def_none; tauto. Qed.
Lemma def_cat a b : def (cat_events a b) <-> def a /\ def b.
Proof. destruct a, b; cbn; rewrite ?def_some, ?def_none; tauto. Qed.
Lemma def_report raw : def (text_report raw) <-> readable (Content raw).
Proof.
  unfold text_report. destruct raw; [|apply def_map]. rewrite def_some. split; auto. intros _. now exists "".
Qed.
Lemma def_attrs a : def (attrs_meaning a) <-> Forall (attr_fine readable) a.
Proof.
  induction a as [|[k v] a IH]; cbn [attrs_meaning]; [rewrite def_some; intuition|].
  rewrite Forall_cons_iff, <- IH. unfold attr_fine. cbn [fst snd readable].
  destruct (attr_name_ok k); cbn [andb]; [|rewrite def_none; intuition discriminate].
  destruct (has_char ch_quot v); cbn [negb]; [rewrite def_none; intuition discriminate|].
  change (exists t, decode_attr None v = Some t) with (def (decode_attr None v)).
  destruct (decode_attr None v), (attrs_meaning a); rewrite ?def_some, ?def_none; intuition.
Qed.
Lemma reported_texts open ts : forall raw r, reported open raw (map CText ts ++ r) = reported open (raw +++ concat_str ts) r.
Proof.
  induction ts as [|t ts IH]; intros raw r; cbn [map app reported concat_str]; [now rewrite append_nil_r|]. now rewrite IH, append_assoc.
Qed.
Lemma def_reported : forall x open raw r,
  def (reported open raw (xcalls x ++ r)) <-> readable (Content raw) /\ spelled readable x /\ def (reported open "" r).
Proof.
  induction x as [n a ch IH|n a ts] using RoundBase.xml_tree_ind; intros open raw r.
  - cbn [xcalls app reported spelled]. destruct (elem_name_ok n) eqn:Hn; [|rewrite def_none; intuition discriminate].
    rewrite !def_cat, def_map, def_attrs, def_report.
    assert (K : def (reported (n :: open) "" ((flat_map xcalls ch ++ [CEnd]) ++ r)) <-> all_spelled readable ch /\ def (reported open "" r)).
    { rewrite <- app_assoc. clear a raw Hn. induction ch as [|x ch IHch].
      - cbn [flat_map app reported]. rewrite !def_cat. cbn [text_report all_spelled fold_right]. rewrite !def_some. tauto.
      - inversion IH as [|? ? Hx Hc]; subst. cbn [flat_map]. rewrite <- app_assoc, Hx, (IHch Hc). cbn [all_spelled fold_right].
        assert (readable (Content "")) by (now apply readable_content). tauto. }
    rewrite K. unfold all_spelled. tauto.
  - cbn [xcalls app reported spelled]. destruct (elem_name_ok n) eqn:Hn; [|rewrite def_none; intuition discriminate].
    rewrite !def_cat, def_map, def_attrs, def_report. rewrite <- app_assoc, reported_texts. cbn [app reported String.append].
    rewrite !def_cat, def_report, def_some. tauto.
Qed.
Lemma part_readable x : (exists evs, doc_reported (part_calls x) = Some evs) <-> spelled readable x.
Proof.
  unfold part_calls, doc_reported, decl. change (has_char ch_gt "1.0" || has_char ch_gt "UTF-8") with false. cbn iota.
  rewrite <- (app_nil_r (xcalls x)). fold (def (reported [] "" (xcalls x ++ []))). rewrite def_reported.
  cbn [reported]. rewrite def_report. assert (readable (Content "")) by (now apply readable_content). tauto.
Qed.

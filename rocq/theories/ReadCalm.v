(** No reader panics on start tags that lack nothing. *)
From Verif Require Import Str StrFind ListFacts TypesModel Props PropsSet Ast XmlParser FloatModel EscapeModel IdsModel
  ReadBase ReadProps ReadModel ReadSpec ReadProg ReadProofs.

(** [calm k m]: [m] does not panic when the tags are sound and there are ids for the
    events left and for [k] more; it uses up at most [k] ids more than events. *)
Definition budget (s : rst) : N := (rs_para s + N.of_nat (length (rs_events s)))%N.
Definition calm {A} (k : N) (m : R A) : Prop := forall s,
  Forall sound_event (rs_events s) -> (budget s + k < 4294967296)%N ->
  match m s with
  | Val _ s' | Err s' => Forall sound_event (rs_events s') /\ (budget s' <= budget s + k)%N
  | Panic => False
  | Hang | NoFuel => True
  end.
Lemma budget_st l c : budget {| rs_events := l; rs_para := c |} = (c + N.of_nat (length l))%N.
Proof. reflexivity. Qed.
Lemma calm_ret A k (a : A) : calm k (ret a).
Proof. intros s H1 H2. cbn. split; auto; lia. Qed.
Lemma calm_fail A k : calm k (@fail A).
Proof. intros s H1 H2. cbn. split; auto; lia. Qed.
Lemma calm_no_fuel A k : calm k (@no_fuel A).
Proof. intros s H1 H2. exact I. Qed.
Lemma calm_more A j k (m : R A) : calm j m -> (j <= k)%N -> calm k m.
Proof.
  intros H L s H1 H2. specialize (H s H1 ltac:(lia)). destruct (m s); auto; destruct H; split; auto; lia.
Qed.
Lemma calm_bind A B i j k (m : R A) (f : A -> R B) : calm i m -> (forall a, calm j (f a)) -> (i + j <= k)%N -> calm k (bind m f).
Proof.
  intros Hm Hf L s H1 H2. unfold bind. specialize (Hm s H1 ltac:(lia)). destruct (m s) as [a s'|s'| | |]; auto.
  - destruct Hm as [Hm1 Hm2]. specialize (Hf a s' Hm1 ltac:(lia)). destruct (f a s'); auto; destruct Hf; split; auto; lia.
  - destruct Hm; split; auto; lia.
Qed.
Lemma calm_attempt A k (m : R A) : calm k m -> calm k (attempt m).
Proof. intros Hm s H1 H2. unfold attempt. specialize (Hm s H1 H2). destruct (m s); auto. Qed.
Lemma calm_or_fail A k (o : option A) : calm k (or_fail o).
Proof. destruct o; [apply calm_ret | apply calm_fail]. Qed.
Lemma calm_or_crash A k (o : option A) : o <> None -> calm k (or_crash o).
Proof. destruct o; [intros _; apply calm_ret | congruence]. Qed.
Lemma calm_each A k (f : A -> string -> string -> R A) atts :
  (forall a q v, In (q, v) atts -> calm 0 (f a (q_local q) v)) -> forall a, calm k (each_attr_m f atts a).
Proof.
  intros Hf. induction atts as [|[q v] atts IH]; intros a; cbn [each_attr_m]; [apply calm_ret|].
  apply (calm_bind _ _ 0 k); [|intros b|lia].
  - apply Hf. now left.
  - apply IH. intros. apply Hf. now right.
Qed.
Lemma calm_fresh : calm 1 fresh_para.
Proof.
  intros s H1 H2. unfold fresh_para, gen_para, budget in *. destruct (rs_para s + 1 <? two32)%N eqn:L.
  - cbn [rs_events rs_para]. split; auto. lia.
  - apply N.ltb_ge in L. unfold two32 in L. lia.
Qed.
Lemma calm_loop A B k (body : A -> event -> R (turn A B)) a0 :
  (forall a q atts, sound_tag q atts -> calm 1 (body a (EStart q atts))) ->
  (forall a q, calm 1 (body a (EEnd q))) -> (forall a c, calm 1 (body a (EChars c))) ->
  (forall a c, calm 1 (body a (EWs c))) -> (forall a, calm 1 (body a EErr)) -> (forall a, calm 1 (body a EDocEnd)) ->
  calm k (loop body a0).
Proof.
  intros Hs He Hc Hw Hr Hd. apply (calm_more _ 0); [|lia].
  assert (Hb : forall a e, sound_event e -> calm 1 (body a e)).
  { intros a [q atts|q|c|c| |] S; auto. }
  clear Hs He Hc Hw Hr Hd. intros s H1 H2. unfold loop. generalize (length (rs_events s)) at 1 as fuel. intros fuel.
  revert a0 s H1 H2. induction fuel as [|n IH]; intros a0 s H1 H2; cbn [turns]; destruct (rs_events s) as [|e l] eqn:E; auto.
  inversion H1 as [|? ? He Hl]; subst.
  assert (Bs : budget s = (rs_para s + N.of_nat (length l) + 1)%N) by (unfold budget; rewrite E; cbn [length]; lia).
  specialize (Hb a0 e He {| rs_events := l; rs_para := rs_para s |} Hl). rewrite budget_st in Hb.
  specialize (Hb ltac:(lia)).
  destruct (body a0 e _) as [[a'|b] s'|s'| | |]; auto.
  - destruct Hb as [Hb1 Hb2]. specialize (IH a' s' Hb1 ltac:(lia)). destruct (turns n body a' s'); auto; destruct IH; split; auto; lia.
  - destruct Hb; split; auto; lia.
  - destruct Hb; split; auto; lia.
Qed.
Lemma calm_part A B k (body : A -> event -> R (turn A B)) fin a0 :
  (forall a q atts, sound_tag q atts -> calm 1 (body a (EStart q atts))) ->
  (forall a q, calm 1 (body a (EEnd q))) -> (forall a c, calm 1 (body a (EChars c))) ->
  (forall a c, calm 1 (body a (EWs c))) -> (forall a, calm 1 (body a EErr)) ->
  calm k (part_loop body fin a0).
Proof.
  intros Hs He Hc Hw Hr. apply (calm_more _ 0); [|lia].
  intros s H1 H2. unfold part_loop. generalize (length (rs_events s)) at 1 as fuel. intros fuel.
  revert a0 s H1 H2. induction fuel as [|n IH]; intros a0 s H1 H2; cbn [part_turns]; destruct (rs_events s) as [|e l] eqn:E.
  - rewrite E. split; auto; lia.
  - destruct e; auto. cbn. inversion H1. split; auto. unfold budget. rewrite E. cbn [rs_events rs_para length]. lia.
  - rewrite E. split; auto; lia.
  - inversion H1 as [|? ? Hse Hl]; subst.
    assert (Bs : budget s = (rs_para s + N.of_nat (length l) + 1)%N) by (unfold budget; rewrite E; cbn [length]; lia).
    assert (G : calm 1 (body a0 e) ->
      match (match body a0 e {| rs_events := l; rs_para := rs_para s |} with
             | Val (Again a') s' => part_turns n body fin a' s'
             | Val (Done b) s' => Val b s'
             | Err s' => Err s' | Panic => Panic | Hang => Hang | NoFuel => NoFuel end) with
      | Val _ s' | Err s' => Forall sound_event (rs_events s') /\ (budget s' <= budget s + 0)%N
      | Panic => False | _ => True end).
    { intros Hb. specialize (Hb {| rs_events := l; rs_para := rs_para s |} Hl). rewrite budget_st in Hb.
      specialize (Hb ltac:(lia)).
      destruct (body a0 e _) as [[a'|b] s'|s'| | |]; auto.
      - destruct Hb as [Hb1 Hb2]. specialize (IH a' s' Hb1 ltac:(lia)). destruct (part_turns n body fin a' s'); auto; destruct IH; split; auto; lia.
      - destruct Hb; split; auto; lia.
      - destruct Hb; split; auto; lia. }
    destruct e; try (apply G; auto; fail). cbn. split; auto. rewrite Bs. unfold budget. cbn [rs_events rs_para]. lia.
Qed.
Lemma calm_element A B k own (start : A -> qname -> list attribute -> R A) (fin : A -> B) a0 :
  (forall a q atts, sound_tag q atts -> calm 1 (start a q atts)) -> calm k (element own start fin a0).
Proof.
  intros H. unfold element. apply calm_loop; intros; try apply calm_ret; try apply calm_fail.
  apply (calm_bind _ _ 1 0); [auto | intros; apply calm_ret | lia].
Qed.

(** ** Attributes *)
Definition some_attr (atts : list attribute) : attr_first atts = None -> atts = [].
Proof. now destruct atts as [|[q v] l]. Qed.
Lemma calm_first k q atts : sound_tag q atts -> In (q_local q) needs_attribute -> calm k (or_crash (attr_first atts)).
Proof. intros [H _] Hn. apply calm_or_crash. intros E. now apply H, some_attr. Qed.
Lemma calm_dax k v : small_points v -> calm k (value_to_dax v).
Proof.
  intros H. unfold value_to_dax, small_points in *. destruct (ends_with "pt" v).
  - destruct (parse_f64 (replace "pt" "" v)) as [x|]; [|apply calm_fail].
    specialize (H eq_refl x eq_refl). intros s H1 H2. unfold bind, or_fail, ret. cbv zeta.
    destruct ((- max_i32 - 1 <=? as_i32f x * 20) && (as_i32f x * 20 <=? max_i32))%Z eqn:E.
    + split; auto; lia.
    + exfalso. unfold max_i32 in E. lia.
  - apply (calm_bind _ _ 0 k); [apply calm_or_fail | intros; apply calm_ret | lia].
Qed.

Ltac calm1 :=
  cbv beta;
  lazymatch goal with
  | |- calm _ (ret _) => apply calm_ret
  | |- calm _ fail => apply calm_fail
  | |- calm _ (or_fail _) => apply calm_or_fail
  | |- calm _ (attempt _) => apply calm_attempt
  | |- calm _ (if ?b then _ else _) => destruct b eqn:?; cbv iota
  | |- calm _ (ignore_if _ _) => unfold ignore_if
  | |- calm _ (match ?x with _ => _ end) => destruct x eqn:?; cbv iota
  | |- calm _ (let x := _ in _) => cbv zeta
  end.
Lemma calm_read_border k atts : calm k (read_border atts).
Proof.
  unfold read_border. apply calm_each. intros. repeat first [calm1 | apply (calm_bind _ _ 0 0); [|intros|lia]].
Qed.
Lemma calm_read_width k q atts : sound_tag q atts -> In (q_local q) needs_width -> calm k (read_width atts).
Proof.
  intros (_ & H & _) Hn. unfold read_width. apply calm_each. intros wt a v Hin.
  repeat first [calm1 | apply (calm_bind _ _ 0 0); [|intros|lia]].
  apply calm_or_crash. apply (H Hn a v Hin). now apply String.eqb_eq.
Qed.
Lemma calm_read_indent k q atts : sound_tag q atts -> In (q_local q) has_points -> calm k (read_indent atts).
Proof.
  intros (_ & _ & H & _) Hn. unfold read_indent. apply calm_each. intros wt a v Hin.
  repeat first [calm1 | apply (calm_bind _ _ 0 0); [|intros|lia]]; now apply calm_dax, (H Hn a).
Qed.
Lemma calm_read_page_size k q atts : sound_tag q atts -> In (q_local q) has_points -> calm k (read_page_size atts).
Proof.
  intros (_ & _ & H & _) Hn. unfold read_page_size. apply calm_each. intros wt a v Hin.
  repeat first [calm1 | apply (calm_bind _ _ 0 0); [|intros|lia]]; now apply calm_dax, (H Hn a).
Qed.
Lemma calm_read_page_margin k q atts : sound_tag q atts -> In (q_local q) has_points -> calm k (read_page_margin atts).
Proof.
  intros (_ & _ & H & _) Hn. unfold read_page_margin. apply calm_each. intros wt a v Hin.
  repeat first [calm1 | apply (calm_bind _ _ 0 0); [|intros|lia]]; now apply calm_dax, (H Hn a).
Qed.
Lemma calm_read_line_spacing k atts : calm k (read_line_spacing atts).
Proof.
  unfold read_line_spacing. apply calm_each. intros. repeat first [calm1 | apply (calm_bind _ _ 0 0); [|intros|lia]].
Qed.
Lemma calm_read_doc_grid k atts : calm k (read_doc_grid atts).
Proof.
  unfold read_doc_grid. apply calm_each. intros. repeat first [calm1 | apply (calm_bind _ _ 0 0); [|intros|lia]].
Qed.
Lemma calm_tcw k atts wt : calm k (each_attr_m (fun wt name v =>
             if name =s "type" then x <- or_fail (read_WidthType v) ;; ret (fst wt, x)
             else if name =s "w" then n <- or_fail (parse_usize v) ;; ret (n, snd wt)
             else ret wt) atts wt).
Proof.
  apply calm_each. intros. repeat first [calm1 | apply (calm_bind _ _ 0 0); [|intros|lia]].
Qed.
Lemma calm_bookmark_start k atts : calm k (read_bookmark_start atts).
Proof.
  unfold read_bookmark_start. apply (calm_bind _ _ 0 k); [|intros [[id|] [n|]]; apply calm_ret || apply calm_fail|lia].
  apply calm_each. intros. repeat first [calm1 | apply (calm_bind _ _ 0 0); [|intros|lia]].
Qed.
Lemma calm_bookmark_end k atts : calm k (read_bookmark_end atts).
Proof.
  unfold read_bookmark_end. apply (calm_bind _ _ 0 k); [|intros [id|]; apply calm_ret || apply calm_fail|lia].
  apply calm_each. intros. repeat first [calm1 | apply (calm_bind _ _ 0 0); [|intros|lia]].
Qed.
Lemma calm_ignore k own : calm k (ignore own).
Proof. unfold ignore. apply calm_loop; intros; apply calm_ret. Qed.
Lemma calm_instr k : calm k read_instr_text.
Proof. unfold read_instr_text. apply calm_loop; intros; apply calm_ret || apply calm_fail. Qed.
Lemma calm_position k A own (f : string -> option A) d atts : calm k (read_position own f d atts).
Proof. unfold read_position. apply calm_loop; intros; apply calm_ret || apply calm_fail. Qed.
Lemma calm_to_end k A own (a : A) : calm k (to_end own a).
Proof. unfold to_end. apply calm_element. intros. apply calm_ret. Qed.
Lemma calm_tab k atts : calm k (read_tab atts).
Proof. apply calm_to_end. Qed.
Lemma calm_ptab k atts : calm k (read_ptab atts).
Proof. apply calm_to_end. Qed.
Global Hint Resolve calm_tab calm_ptab calm_read_border calm_read_line_spacing calm_read_doc_grid calm_tcw calm_bookmark_start calm_bookmark_end
  calm_ignore calm_instr calm_position calm_to_end calm_ret calm_fail calm_no_fuel calm_or_fail : calm.

(** ** The readers *)
Ltac calm_names := cbn; match goal with H : (?a =s ?b) = true |- _ => apply String.eqb_eq in H; rewrite H end; cbn; tauto.
Ltac calm_leaf :=
  first
  [ solve [auto with calm]
  | eapply calm_first; [eassumption | calm_names]
  | eapply calm_read_width; [eassumption | calm_names]
  | eapply calm_read_indent; [eassumption | calm_names]
  | eapply calm_read_page_size; [eassumption | calm_names]
  | eapply calm_read_page_margin; [eassumption | calm_names] ].
(** A body of the loop: one of its calls may use the slack. *)
Ltac calm_clear := repeat match goal with H : (_ =s _) = false |- _ => clear H end.
Ltac calm2 :=
  first
  [ solve [calm_clear; calm_leaf]
  | calm1
  | apply (calm_bind _ _ 0 1); [solve [calm_clear; repeat first [calm_leaf | calm1]] | intros | lia]
  | apply (calm_bind _ _ 1 0); [ | intros; solve [repeat first [calm_leaf | calm1]] | lia ] ].
Ltac calm_body := unfold add_one, add_if, pa_set; cbv zeta; repeat calm2.
Ltac calm_tac := apply calm_element; intros; calm_body.
Lemma calm_tabs k : calm k read_tabs.
Proof. unfold read_tabs. calm_tac. Qed.
Lemma calm_numpr k : calm k read_numpr.
Proof. unfold read_numpr. calm_tac. Qed.
Lemma calm_pborders k : calm k read_pborders.
Proof. unfold read_pborders. calm_tac. Qed.
Lemma calm_tborders k : calm k read_tborders.
Proof. unfold read_tborders. calm_tac. Qed.
Lemma calm_cborders k : calm k read_cborders.
Proof. unfold read_cborders. calm_tac. Qed.
Lemma calm_tmargins k : calm k read_tmargins.
Proof. unfold read_tmargins. calm_tac. Qed.
Lemma calm_cmargins k : calm k read_cmargins.
Proof. unfold read_cmargins. calm_tac. Qed.
Lemma calm_sectpr k : calm k read_sectpr.
Proof. unfold read_sectpr. calm_tac. Qed.
Global Hint Resolve calm_tabs calm_numpr calm_pborders calm_tborders calm_cborders calm_tmargins calm_cmargins calm_sectpr : calm.
Lemma calm_tblpr k : calm k read_tblpr.
Proof. unfold read_tblpr. calm_tac. Qed.
Lemma calm_tcpr k : calm k read_tcpr.
Proof. unfold read_tcpr. calm_tac. Qed.
Lemma calm_pic k : calm k read_pic.
Proof. unfold read_pic. calm_tac. Qed.
Global Hint Resolve calm_tblpr calm_tcpr calm_pic : calm.

Section Subs.
Context (s : subs) (H : (forall k, calm k (s_rpr s)) /\ (forall k, calm k (s_ppr s)) /\ (forall k atts, calm k (s_change s atts)) /\
  (forall k, calm k (s_run s)) /\ (forall k atts, calm k (s_ins s atts)) /\ (forall k atts, calm k (s_del s atts)) /\
  (forall k atts, calm k (s_from s atts)) /\ (forall k atts, calm k (s_to s atts)) /\ (forall k atts, calm k (s_link s atts)) /\
  (forall k, calm k (s_sdt s)) /\ (forall atts, calm 1 (s_para s atts)) /\ (forall k, calm k (s_table s)) /\
  (forall k, calm k (s_row s)) /\ (forall k, calm k (s_cell s)) /\ (forall k, calm k (s_drawing s))).
Ltac use_subs := destruct H as (H1 & H2 & H3 & H4 & H5 & H6 & H7 & H8 & H9 & H10 & H11 & H12 & H13 & H14 & H15).
Lemma calm_rpr k : calm k (read_rpr s).
Proof. use_subs. unfold read_rpr. calm_tac. Qed.
Lemma calm_ppr k : calm k (read_ppr s).
Proof. use_subs. unfold read_ppr. calm_tac. Qed.
Lemma calm_change k atts : calm k (read_change s atts).
Proof. use_subs. unfold read_change. calm_tac. Qed.
Lemma calm_run k : calm k (read_run s).
Proof.
  use_subs. unfold read_run. apply calm_loop; intros; cbn [run_body]; try (apply calm_ret || apply calm_fail).
  unfold run_start. calm_body.
Qed.
Lemma calm_ins_like k own atts : calm k (read_ins_like own s atts).
Proof. use_subs. unfold read_ins_like. calm_tac. Qed.
Lemma calm_del k atts : calm k (read_del s atts).
Proof. use_subs. unfold read_del. calm_tac. Qed.
Lemma calm_from k atts : calm k (read_from s atts).
Proof. use_subs. unfold read_from. calm_tac. Qed.
Lemma calm_link k atts : calm k (read_link s atts).
Proof. use_subs. unfold read_link. calm_tac. Qed.
Lemma calm_sdt k : calm k (read_sdt s).
Proof. use_subs. unfold read_sdt. calm_tac. Qed.
Lemma calm_para atts : calm 1 (read_para s atts).
Proof. use_subs. unfold read_para. apply (calm_bind _ _ 1 0); [apply calm_fresh | intros | lia]. calm_tac. Qed.
Lemma calm_cell k : calm k (read_cell s).
Proof. use_subs. unfold read_cell. calm_tac. Qed.
Lemma calm_row k : calm k (read_row s).
Proof. use_subs. unfold read_row. calm_tac. Qed.
Lemma calm_table k : calm k (read_table s).
Proof. use_subs. unfold read_table. calm_tac. Qed.
Lemma calm_textbox k : calm k (read_textbox s).
Proof. use_subs. unfold read_textbox. calm_tac. Qed.
Lemma calm_drawing k : calm k (read_drawing s).
Proof. use_subs. pose proof calm_textbox as Ht. unfold read_drawing. calm_tac. Qed.
Lemma calm_comment k q atts : sound_tag q atts -> q_local q = "comment"%string -> calm k (read_comment s atts).
Proof.
  intros (_ & _ & _ & Hc) Hq. use_subs. unfold read_comment.
  apply (calm_bind _ _ 0 k); [apply calm_or_crash | intros v | lia].
  - destruct (Hc Hq) as (a & v & Hin & Ha). clear Hc. induction atts as [|[a' v'] atts IH]; [easy|]. cbn [attr_get].
    destruct (q_local a' =s "id") eqn:Ea; [discriminate|]. destruct Hin as [E|Hin]; [|now apply IH].
    injection E as -> ->. rewrite Ha in Ea. discriminate.
  - apply (calm_bind _ _ 0 k); [apply calm_or_fail | intros id | lia]. calm_tac.
Qed.
Lemma calm_document k : calm k (read_document_with s).
Proof.
  use_subs. unfold read_document_with. apply calm_part; intros; try (apply calm_ret || apply calm_fail). calm_body.
Qed.
Lemma calm_header k : calm k (read_header_with s).
Proof.
  use_subs. unfold read_header_with. apply calm_part; intros; try (apply calm_ret || apply calm_fail). calm_body.
Qed.
Lemma calm_comments k : calm k (read_comments_with s).
Proof.
  unfold read_comments_with. apply calm_part; intros; try (apply calm_ret || apply calm_fail).
  destruct (q_local q =s "comment") eqn:E; [|apply calm_ret]. apply String.eqb_eq in E.
  apply (calm_bind _ _ 1 0); [now apply (calm_comment _ q) | intros; apply calm_ret | lia].
Qed.
End Subs.
Lemma calm_readers d : let s := readers d in
  (forall k, calm k (s_rpr s)) /\ (forall k, calm k (s_ppr s)) /\ (forall k atts, calm k (s_change s atts)) /\
  (forall k, calm k (s_run s)) /\ (forall k atts, calm k (s_ins s atts)) /\ (forall k atts, calm k (s_del s atts)) /\
  (forall k atts, calm k (s_from s atts)) /\ (forall k atts, calm k (s_to s atts)) /\ (forall k atts, calm k (s_link s atts)) /\
  (forall k, calm k (s_sdt s)) /\ (forall atts, calm 1 (s_para s atts)) /\ (forall k, calm k (s_table s)) /\
  (forall k, calm k (s_row s)) /\ (forall k, calm k (s_cell s)) /\ (forall k, calm k (s_drawing s)).
Proof.
  induction d as [|d IH]; cbv zeta; cbn [readers next_subs no_subs s_rpr s_ppr s_change s_run s_ins s_del s_from s_to s_link s_sdt s_para s_table s_row s_cell s_drawing].
  - repeat split; intros; apply calm_no_fuel.
  - repeat split; intros; auto using calm_rpr, calm_ppr, calm_change, calm_run, calm_ins_like, calm_del, calm_from, calm_link,
      calm_sdt, calm_para, calm_table, calm_row, calm_cell, calm_drawing.
Qed.
Lemma with_depth_calm A (f : subs -> R A) s : (forall d, calm 0 (f (readers d))) ->
  Forall sound_event (rs_events s) -> ids_suffice s -> with_depth f s <> Panic.
Proof.
  intros Hf H1 H2 E. unfold with_depth in E. specialize (Hf (S (length (rs_events s))) s H1). unfold ids_suffice, budget in *.
  rewrite E in Hf. apply Hf. lia.
Qed.
Lemma document_calm s : Forall sound_event (rs_events s) -> ids_suffice s -> read_document s <> Panic.
Proof. apply with_depth_calm. intros d. apply calm_document, calm_readers. Qed.
Lemma header_calm s : Forall sound_event (rs_events s) -> ids_suffice s -> read_header s <> Panic.
Proof. apply with_depth_calm. intros d. apply calm_header, calm_readers. Qed.
Lemma comments_calm s : Forall sound_event (rs_events s) -> ids_suffice s -> read_comments s <> Panic.
Proof. apply with_depth_calm. intros d. apply calm_comments, calm_readers. Qed.

(** What the readers give, whatever the events. *)
From Verif Require Import Str TypesModel Props PropsSet Ast XmlParser FloatModel EscapeModel ReadBase ReadProps ReadModel GivesSpec.

Definition gives {A} (P : A -> Prop) (m : R A) : Prop := forall s a s', m s = Val a s' -> P a.

Lemma gives_any A (m : R A) : gives (fun _ => True) m.
Proof. easy. Qed.
Lemma gives_ret A (P : A -> Prop) a : P a -> gives P (ret a).
Proof. intros H s b s' [= <- _]. exact H. Qed.
Lemma gives_fail A (P : A -> Prop) : gives P fail.
Proof. easy. Qed.
Lemma gives_bind A B (Q : A -> Prop) (P : B -> Prop) m k : gives Q m -> (forall a, Q a -> gives P (k a)) -> gives P (bind m k).
Proof. intros Hm Hk s b s'. unfold bind. destruct (m s) eqn:M; try easy. apply (Hk _ (Hm _ _ _ M)). Qed.
Definition maybe {A} (P : A -> Prop) (o : option A) : Prop := match o with Some a => P a | None => True end.
Lemma gives_attempt A (P : A -> Prop) m : gives P m -> gives (maybe P) (attempt m).
Proof. intros H s o s'. unfold attempt. destruct (m s) eqn:M; try easy; intros [= <- _]; [exact (H _ _ _ M) | exact I]. Qed.
Lemma gives_loop A B (J : A -> Prop) (P : B -> Prop) body a0 :
  (forall a e, J a -> gives (fun t => match t with Again a => J a | Done b => P b end) (body a e)) -> J a0 -> gives P (loop body a0).
Proof.
  intros H H0 s. unfold loop. generalize (length (rs_events s)) as f. intros f. revert a0 H0 s.
  induction f as [|f IH]; intros a0 H0 s b s'; cbn [turns]; destruct (rs_events s) as [|e l]; try easy.
  destruct (body a0 e _) as [[a'|b']| | | |] eqn:Bd; try easy.
  - intros Ht. exact (IH _ (H _ _ H0 _ _ _ Bd) _ _ _ Ht).
  - intros [= <- _]. exact (H _ _ H0 _ _ _ Bd).
Qed.
Lemma gives_part A B (J : A -> Prop) (P : B -> Prop) body fin a0 :
  (forall a e, J a -> gives (fun t => match t with Again a => J a | Done b => P b end) (body a e)) -> J a0 ->
  (forall a, J a -> P (fin a)) -> gives P (part_loop body fin a0).
Proof.
  intros H H0 HF s. unfold part_loop. generalize (length (rs_events s)) as f. intros f. revert a0 H0 s.
  induction f as [|f IH]; intros a0 H0 s b s'; cbn [part_turns]; destruct (rs_events s) as [|e l].
  1, 3: intros [= <- _]; auto.
  - destruct e; try easy. intros [= <- _]; auto.
  - destruct e.
    all: try (intros [= <- _]; auto; fail).
    all: destruct (body a0 _ _) as [[a'|b']| | | |] eqn:Bd; try easy;
      [intros Ht; exact (IH _ (H _ _ H0 _ _ _ Bd) _ _ _ Ht) | intros [= <- _]; exact (H _ _ H0 _ _ _ Bd)].
Qed.
Lemma gives_element A B (J : A -> Prop) (P : B -> Prop) own start fin a0 :
  (forall a q atts, J a -> gives J (start a q atts)) -> J a0 -> (forall a, J a -> P (fin a)) -> gives P (element own start fin a0).
Proof.
  intros H H0 HF. unfold element. apply gives_loop with (J := J); [|exact H0].
  intros a e Ha. destruct e; try apply gives_fail; try (apply gives_ret; exact Ha).
  - eapply gives_bind; [apply H, Ha|]. intros a' Ha'. apply gives_ret. exact Ha'.
  - apply gives_ret. destruct (_ =s _); auto.
Qed.

(** A node of one of the kinds [k], as read. *)
Definition kind (k : node -> bool) (n : node) : Prop := k n = true /\ came_from_reading n.
Definition kinds (k : node -> bool) (l : list node) : Prop := Forall (kind k) l.
Lemma kinds_all k l : kinds k l -> forallb k l = true.
Proof. unfold kinds. rewrite Forall_forall, forallb_forall. intros H x Hx. apply (H x Hx). Qed.
Lemma kinds_nodes k l : kinds k l -> Forall (fun m => local_ok m = true /\ as_read m = true) (flat_map all_nodes l).
Proof. intros H. apply Forall_flat_map. revert H. apply Forall_impl. intros n Hn. apply Hn. Qed.
Lemma kinds_app k a b : kinds k a -> kinds k b -> kinds k (a ++ b).
Proof. intros. apply Forall_app. now split. Qed.
Lemma kinds_one k n : kind k n -> kinds k [n].
Proof. intros H. constructor; [exact H|constructor]. Qed.
Lemma kind_more (j k : node -> bool) n : (forall m, j m = true -> k m = true) -> kind j n -> kind k n.
Proof. intros H [Hj Hn]. split; auto. Qed.
Lemma kinds_nil k : kinds k [].
Proof. constructor. Qed.
(** The node over its children. *)
Lemma over n k j ch : k n = true -> kinds j ch -> local_ok n = forallb j ch -> as_read n = true -> all_nodes n = n :: flat_map all_nodes ch -> kind k n.
Proof.
  intros Hk Hch L A N. split; [exact Hk|]. unfold came_from_reading. rewrite N. constructor; [|exact (kinds_nodes _ _ Hch)].
  rewrite L, A. split; [exact (kinds_all _ _ Hch)|reflexivity].
Qed.
Lemma single n k : k n = true -> local_ok n = true -> as_read n = true -> all_nodes n = [n] -> kind k n.
Proof. intros Hk L A N. split; [exact Hk|]. unfold came_from_reading. rewrite N. now repeat constructor. Qed.

Definition is_run (n : node) : bool := match n with NRun _ _ => true | _ => false end.
Definition is_link (n : node) : bool := match n with NLink _ _ _ => true | _ => false end.
Definition is_sdt (n : node) : bool := match n with NSdt _ _ _ => true | _ => false end.
Definition is_table (n : node) : bool := match n with NTable _ _ _ _ => true | _ => false end.
Definition is_mark (n : node) : bool :=
  match n with NCommentStart _ _ | NCommentEnd _ => true | _ => false end.
Definition is_book (n : node) : bool :=
  match n with NBookmarkStart _ _ | NBookmarkEnd _ => true | _ => false end.

Lemma start_kinds k a : (forall m, is_mark m = true -> k m = true) -> kinds k (read_comment_start a).
Proof.
  intros H. unfold read_comment_start. destruct (attr_get "id" a); [|apply kinds_nil]. destruct (parse_usize s); [|apply kinds_nil].
  apply kinds_one. apply single; try reflexivity. now apply H.
Qed.
Lemma end_kinds k a : (forall m, is_mark m = true -> k m = true) -> kinds k (read_comment_end a).
Proof.
  intros H. unfold read_comment_end. destruct (attr_get "id" a); [|apply kinds_nil]. destruct (parse_usize s); [|apply kinds_nil].
  apply kinds_one. apply single; try reflexivity. now apply H.
Qed.
Lemma gives_book_start a : gives (kind is_book) (read_bookmark_start a).
Proof.
  unfold read_bookmark_start. eapply gives_bind; [apply gives_any|]. intros [[i|] [n|]] _; try apply gives_fail.
  apply gives_ret. now apply single.
Qed.
Lemma gives_book_end a : gives (kind is_book) (read_bookmark_end a).
Proof.
  unfold read_bookmark_end. eapply gives_bind; [apply gives_any|]. intros [i|] _; try apply gives_fail.
  apply gives_ret. now apply single.
Qed.
Lemma gives_add_one A (Q : A -> Prop) k sub f ch :
  gives Q sub -> (forall a, Q a -> kind k (f a)) -> kinds k ch -> gives (kinds k) (add_one sub f ch).
Proof.
  intros H HF Hch. unfold add_one. eapply gives_bind; [exact H|]. intros a Ha. apply gives_ret. apply kinds_app; [exact Hch|].
  apply kinds_one. auto.
Qed.
Lemma gives_add_if A (Q : A -> Prop) k sub f ch :
  gives Q sub -> (forall a, Q a -> kind k (f a)) -> kinds k ch -> gives (kinds k) (add_if sub f ch).
Proof.
  intros H HF Hch. unfold add_if. eapply gives_bind; [apply gives_attempt, H|]. intros [a|] Ha; apply gives_ret; cbn [upd]; [|exact Hch].
  apply kinds_app; [exact Hch|]. apply kinds_one. auto.
Qed.

Record good_subs (s : subs) : Prop := {
  g_run : gives (kind is_run) (s_run s);
  g_ins : forall a, gives (fun x => kinds ins_child (snd x)) (s_ins s a);
  g_del : forall a, gives (fun x => kinds del_child (snd x)) (s_del s a);
  g_from : forall a, gives (fun x => kinds del_child (snd x)) (s_from s a);
  g_to : forall a, gives (fun x => kinds ins_child (snd x)) (s_to s a);
  g_link : forall a, gives (kind is_link) (s_link s a);
  g_sdt : gives (kind is_sdt) (s_sdt s);
  g_para : forall a, gives (kind is_para) (s_para s a);
  g_table : gives (kind is_table) (s_table s);
  g_row : gives (kind is_row) (s_row s);
  g_cell : gives (kind is_cell) (s_cell s);
  g_drawing : gives (kind run_child) (s_drawing s) }.

Ltac kind_up := let m := fresh in let Hm := fresh in intros m Hm; revert Hm; apply kind_more; clear m; let m := fresh in intros m; now destruct m.
Ltac marks_up := let m := fresh in intros m; now destruct m.
Ltac gives1 :=
  first
  [ assumption
  | apply gives_fail
  | match goal with
    | |- gives _ (ret (_ ++ read_comment_start _)) => apply gives_ret; apply kinds_app; [assumption|apply start_kinds; marks_up]
    | |- gives _ (ret (_ ++ read_comment_end _)) => apply gives_ret; apply kinds_app; [assumption|apply end_kinds; marks_up]
    | |- gives _ (ret _) => apply gives_ret; try assumption
    | |- gives _ (if ?b then _ else _) => destruct b
    end ].
Ltac adder lem sub := eapply lem; [apply sub|kind_up|assumption].
Ltac add H :=
  match goal with
  | |- gives _ (add_one (s_run _) _ _) => adder gives_add_one (g_run _ H)
  | |- gives _ (add_one (s_link _ _) _ _) => adder gives_add_one (g_link _ H)
  | |- gives _ (add_one (s_para _ _) _ _) => adder gives_add_one (g_para _ H)
  | |- gives _ (add_one (s_table _) _ _) => adder gives_add_one (g_table _ H)
  | |- gives _ (add_if (s_run _) _ _) => adder gives_add_if (g_run _ H)
  | |- gives _ (add_if (s_para _ _) _ _) => adder gives_add_if (g_para _ H)
  | |- gives _ (add_if (s_table _) _ _) => adder gives_add_if (g_table _ H)
  | |- gives _ (add_if (s_sdt _) _ _) => adder gives_add_if (g_sdt _ H)
  | |- gives _ (add_one (read_bookmark_start _) _ _) => adder gives_add_one gives_book_start
  | |- gives _ (add_one (read_bookmark_end _) _ _) => adder gives_add_one gives_book_end
  | |- gives _ (add_if (read_bookmark_start _) _ _) => adder gives_add_if gives_book_start
  | |- gives _ (add_if (read_bookmark_end _) _ _) => adder gives_add_if gives_book_end
  | |- gives _ (add_one (s_ins _ _) _ _) => eapply gives_add_one; [apply (g_ins _ H)| |assumption]; let x := fresh in let Hx := fresh in intros x Hx; (eapply over; [reflexivity|exact Hx|reflexivity|reflexivity|reflexivity])
  | |- gives _ (add_one (s_del _ _) _ _) => eapply gives_add_one; [apply (g_del _ H)| |assumption]; let x := fresh in let Hx := fresh in intros x Hx; (eapply over; [reflexivity|exact Hx|reflexivity|reflexivity|reflexivity])
  | |- gives _ (add_one (s_from _ _) _ _) => eapply gives_add_one; [apply (g_from _ H)| |assumption]; let x := fresh in let Hx := fresh in intros x Hx; (eapply over; [reflexivity|exact Hx|reflexivity|reflexivity|reflexivity])
  | |- gives _ (add_one (s_to _ _) _ _) => eapply gives_add_one; [apply (g_to _ H)| |assumption]; let x := fresh in let Hx := fresh in intros x Hx; (eapply over; [reflexivity|exact Hx|reflexivity|reflexivity|reflexivity])
  | |- gives _ (add_if (s_ins _ _) _ _) => eapply gives_add_if; [apply (g_ins _ H)| |assumption]; let x := fresh in let Hx := fresh in intros x Hx; (eapply over; [reflexivity|exact Hx|reflexivity|reflexivity|reflexivity])
  | |- gives _ (add_if (s_del _ _) _ _) => eapply gives_add_if; [apply (g_del _ H)| |assumption]; let x := fresh in let Hx := fresh in intros x Hx; (eapply over; [reflexivity|exact Hx|reflexivity|reflexivity|reflexivity])
  end.

Section Levels.
  Context (s : subs) (H : good_subs s).

  Ltac steps := repeat (first [gives1 | add H | (eapply gives_bind; [apply gives_any|]; intros ? _)]).

  Lemma gives_ins_like own a : gives (fun x => kinds ins_child (snd x)) (read_ins_like own s a).
  Proof. apply gives_element with (J := kinds ins_child); [|apply kinds_nil|easy]. intros ch q b Hch. steps. Qed.
  Lemma gives_del a : gives (fun x => kinds del_child (snd x)) (read_del s a).
  Proof. apply gives_element with (J := kinds del_child); [|apply kinds_nil|easy]. intros ch q b Hch. steps. Qed.
  Lemma gives_from a : gives (fun x => kinds del_child (snd x)) (read_from s a).
  Proof. apply gives_element with (J := kinds del_child); [|apply kinds_nil|easy]. intros ch q b Hch. steps. Qed.
  Lemma gives_link a : gives (kind is_link) (read_link s a).
  Proof.
    apply gives_element with (J := kinds para_child); [|apply kinds_nil|].
    - intros ch q b Hch. steps.
    - intros ch Hch. (eapply over; [reflexivity|exact Hch|reflexivity|now destruct (attr_get "anchor" a)|reflexivity]).
  Qed.
  Lemma gives_sdt : gives (kind is_sdt) (read_sdt s).
  Proof.
    apply gives_element with (J := kinds sdt_child); [|apply kinds_nil|].
    - intros ch q b Hch. steps.
    - intros ch Hch. (eapply over; [reflexivity|exact Hch|reflexivity|reflexivity|reflexivity]).
  Qed.
  Lemma gives_pa_set p m : gives (kinds para_child) m -> gives (fun p => kinds para_child (pa_children p)) (pa_set p m).
  Proof. intros Hm. eapply gives_bind; [exact Hm|]. intros ch Hch. apply gives_ret. exact Hch. Qed.
  Lemma gives_para a : gives (kind is_para) (read_para s a).
  Proof.
    unfold read_para. eapply gives_bind; [apply gives_any|]. intros fresh _.
    apply gives_element with (J := fun p => kinds para_child (pa_children p)); [|apply kinds_nil|].
    - intros p q b Hp. cbv zeta.
      repeat match goal with
      | |- gives _ (if ?c then _ else _) => destruct c
      | |- gives _ (pa_set p _) => apply gives_pa_set; first [add H | gives1]
      | |- gives _ (ret p) => apply gives_ret; exact Hp
      end.
      eapply gives_bind; [apply gives_any|]. intros [x|] _; apply gives_ret; exact Hp.
    - intros p Hp. (eapply over; [reflexivity|exact Hp|reflexivity|reflexivity|reflexivity]).
  Qed.
  Lemma gives_cell : gives (kind is_cell) (read_cell s).
  Proof.
    apply gives_element with (J := fun c => kinds cell_child (ce_children c)); [|apply kinds_nil|].
    - intros c q b Hc.
      destruct (_ =s _).
      { eapply gives_bind; [apply (g_para _ H)|]. intros n Hn. apply gives_ret. apply kinds_app; [exact Hc|]. apply kinds_one.
        revert n Hn. kind_up. }
      destruct (_ =s _).
      { eapply gives_bind; [apply gives_attempt, (g_sdt _ H)|]. intros [n|] Hn; apply gives_ret; [|exact Hc].
        apply kinds_app; [exact Hc|]. apply kinds_one. cbn [maybe] in Hn. revert n Hn. kind_up. }
      destruct (_ =s _).
      { eapply gives_bind; [apply gives_any|]. intros [n|] _; apply gives_ret; exact Hc. }
      destruct (_ =s _); [|apply gives_ret; exact Hc].
      eapply gives_bind; [apply gives_attempt, (g_table _ H)|]. intros [n|] Hn; apply gives_ret; [|exact Hc].
      apply kinds_app; [exact Hc|]. apply kinds_one. cbn [maybe] in Hn. revert n Hn. kind_up.
    - intros c Hc. (eapply over; [reflexivity|exact Hc|reflexivity|reflexivity|reflexivity]).
  Qed.
  Lemma ro_same f r k : kinds k (ro_cells r) -> kinds k (ro_cells (ro_with f r)).
  Proof. easy. Qed.
  Lemma gives_row : gives (kind is_row) (read_row s).
  Proof.
    apply gives_element with (J := fun r => kinds is_cell (ro_cells r)); [|apply kinds_nil|].
    - intros r q b Hr. eapply gives_bind; [apply gives_any|]. intros _ _.
      destruct (_ =s _).
      { eapply gives_bind; [apply (g_cell _ H)|]. intros n Hn. apply gives_ret. apply kinds_app; [exact Hr|]. now apply kinds_one. }
      repeat match goal with
      | |- gives _ (if ?c then _ else _) => destruct c
      | |- gives _ (match ?o with Some _ => _ | None => _ end) => destruct o
      | |- gives _ (bind _ _) => eapply gives_bind; [apply gives_any|]; intros ? _
      | |- gives _ (let _ := _ in _) => cbv zeta
      | |- gives _ (ret (upd ?o _ _)) => destruct o; cbn [upd]
      | |- gives _ (ret (match ?o with Some _ => _ | None => _ end)) => destruct o
      | |- gives _ (ret _) => apply gives_ret
      end; try exact Hr.
      all: repeat match goal with
           | |- context [match ?o with Some _ => _ | None => _ end] => destruct o
           | |- context [upd ?o _ _] => destruct o; cbn [upd]
           end; exact Hr.
    - intros r Hr. (eapply over; [reflexivity|exact Hr|reflexivity|reflexivity|reflexivity]).
  Qed.
  Lemma gives_table : gives (kind is_table) (read_table s).
  Proof.
    apply gives_element with (J := fun t => kinds is_row (ta_rows t)); [|apply kinds_nil|].
    - intros t q b Ht. eapply gives_bind; [apply gives_any|]. intros _ _. eapply gives_bind; [apply gives_any|]. intros _ _.
      destruct (_ =s _).
      { eapply gives_bind; [apply (g_row _ H)|]. intros n Hn. apply gives_ret. apply kinds_app; [exact Ht|]. now apply kinds_one. }
      repeat match goal with
      | |- gives _ (if ?c then _ else _) => destruct c
      | |- gives _ (bind _ _) => eapply gives_bind; [apply gives_any|]; intros ? _
      | |- gives _ (ret (upd ?o _ _)) => destruct o; cbn [upd]
      | |- gives _ (ret _) => apply gives_ret
      end; exact Ht.
    - intros t Ht. (eapply over; [reflexivity|exact Ht|reflexivity|reflexivity|reflexivity]).
  Qed.
  Lemma gives_textbox : gives (kinds plain_block) (read_textbox s).
  Proof. apply gives_element with (J := kinds plain_block); [|apply kinds_nil|easy]. intros ch q b Hch. steps. Qed.
  Lemma gives_drawing : gives (kind run_child) (read_drawing s).
  Proof.
    apply gives_element with (J := fun d => pic_image (dr_pos d) = ""%string /\ kind run_child (dr_node d)); [| |intros d Hd; apply Hd].
    2: split; [reflexivity|now apply single].
    intros d q b [Hp Hn]. cbv zeta.
    assert (W : forall f, (forall p, pic_image p = ""%string -> pic_image (f p) = ""%string) ->
                gives (fun d => pic_image (dr_pos d) = ""%string /\ kind run_child (dr_node d)) (ret (dr_with f d))).
    { intros f Hf. apply gives_ret. split; [apply Hf, Hp|exact Hn]. }
    destruct (_ =s _).
    { apply W. intros p Hq. unfold upd.
      repeat match goal with |- context [match ?o with Some _ => _ | None => _ end] => destruct o | |- context [if ?c then _ else _] => destruct c end; exact Hq. }
    destruct (_ =s _).
    { apply W. intros p Hq. unfold upd.
      repeat match goal with |- context [match ?o with Some _ => _ | None => _ end] => destruct o | |- context [if ?c then _ else _] => destruct c end; exact Hq. }
    destruct (_ =s _).
    { apply W. intros p Hq. unfold upd.
      repeat match goal with |- context [match ?o with Some _ => _ | None => _ end] => destruct o | |- context [if ?c then _ else _] => destruct c end; exact Hq. }
    destruct (_ =s _).
    { eapply gives_bind; [apply gives_any|]. intros [x|] _; cbn [upd]; [|now apply gives_ret]. apply W. easy. }
    destruct (_ =s _).
    { eapply gives_bind; [apply gives_any|]. intros [x|] _; cbn [upd]; [|now apply gives_ret]. apply W. easy. }
    destruct (_ =s _).
    { eapply gives_bind; [apply gives_any|]. intros [x|] _; cbn [upd]; apply gives_ret; [|now split]. split; [exact Hp|].
      apply single; try reflexivity. cbn. apply String.eqb_eq. exact Hp. }
    destruct (_ =s _); [|now apply gives_ret].
    eapply gives_bind; [apply gives_attempt, gives_textbox|]. intros [ch|] Hch; cbn [upd]; apply gives_ret; [|now split]. split; [exact Hp|].
    (eapply over; [reflexivity|exact Hch|reflexivity|reflexivity|reflexivity]).
  Qed.
  Lemma rn_one r n : kinds run_child (rn_children r) -> kind run_child n -> kinds run_child (rn_children (rn_add r [n])).
  Proof. intros Hr Hn. apply kinds_app; [exact Hr|]. now apply kinds_one. Qed.
  Lemma rn_leaf r n : kinds run_child (rn_children r) -> run_child n = true -> local_ok n = true -> as_read n = true -> all_nodes n = [n] ->
    gives (fun r => kinds run_child (rn_children r)) (ret (rn_add r [n])).
  Proof. intros. apply gives_ret, rn_one; [assumption|]. now apply single. Qed.
  Lemma gives_run_start r q a : kinds run_child (rn_children r) -> gives (fun r => kinds run_child (rn_children r)) (run_start s r q a).
  Proof.
    intros Hr. unfold run_start. cbv zeta. destruct (q_prefix q) as [pre|]; [|now apply gives_ret].
    destruct (pre =s "w").
    - eapply gives_bind; [apply gives_any|]. intros _ _.
      destruct (_ =s _); [now apply rn_leaf|].
      destruct (_ =s _).
      { eapply gives_bind; [apply gives_any|]. intros [t|] _; cbn [upd]; [now apply rn_leaf|now apply gives_ret]. }
      destruct (_ =s _).
      { destruct (attr_get "font" a); [|now apply gives_ret]. destruct (attr_get "char" a); [now apply rn_leaf|now apply gives_ret]. }
      destruct (_ =s _).
      { eapply gives_bind; [apply gives_any|]. intros p _. now apply gives_ret. }
      destruct (_ =s _); [now apply gives_ret|].
      destruct (_ =s _); [now apply gives_ret|].
      destruct (_ =s _).
      { destruct (attr_first a); [|now apply rn_leaf]. eapply gives_bind; [apply gives_any|]. intros p _. now apply rn_leaf. }
      destruct (_ =s _); [now apply rn_leaf|].
      destruct (_ =s _).
      { eapply gives_bind; [apply gives_attempt, (g_drawing _ H)|]. intros [t|] Ht; cbn [upd]; apply gives_ret; [now apply rn_one|exact Hr]. }
      destruct (_ =s _); [|now apply gives_ret].
      unfold read_field_char. cbv zeta. destruct (fst _); [now apply rn_leaf|].
      apply gives_ret. unfold rn_add. cbn [rn_children]. now rewrite app_nil_r.
    - destruct (pre =s "mc").
      { destruct (_ =s _); [|now apply gives_ret]. eapply gives_bind; [apply gives_any|]. intros _ _. now apply gives_ret. }
      destruct (pre =s "v"); [|now apply gives_ret].
      destruct (_ =s _); [|now apply gives_ret].
      eapply gives_bind; [apply gives_any|]. intros [t|] _; cbn [upd]; [now apply rn_leaf|now apply gives_ret].
  Qed.
  Lemma rn_whole r : kinds run_child (rn_children r) -> kind is_run (rn_node r).
  Proof. intros Hr. (eapply over; [reflexivity|exact Hr|reflexivity|reflexivity|reflexivity]). Qed.
  Lemma rn_text_kinds c r : kinds run_child (rn_children r) -> kinds run_child (rn_children (rn_chars c r)).
  Proof. intros Hr. unfold rn_chars. destruct (rn_text r); [exact Hr| |]; apply rn_one; try exact Hr; now apply single. Qed.
  Lemma gives_run : gives (kind is_run) (read_run s).
  Proof.
    apply gives_loop with (J := fun r => kinds run_child (rn_children r)); [|apply kinds_nil].
    intros r e Hr. destruct e; cbn [run_body]; try apply gives_fail; try (apply gives_ret; exact Hr).
    - destruct (_ && _).
      + eapply gives_bind; [apply gives_any|]. intros [c|] _; apply gives_ret; [|now apply rn_whole].
        apply rn_one; [exact Hr|]. now apply single.
      + eapply gives_bind; [apply gives_run_start, Hr|]. intros r' Hr'. apply gives_ret. exact Hr'.
    - apply gives_ret. destruct (_ =s _); [now apply rn_whole|]. destruct (_ || _); exact Hr.
    - apply gives_ret. now apply rn_text_kinds.
    - apply gives_ret. now apply rn_text_kinds.
  Qed.
  Lemma good_next : good_subs (next_subs s).
  Proof.
    constructor; cbn [next_subs s_run s_ins s_del s_from s_to s_link s_sdt s_para s_table s_row s_cell s_drawing].
    - exact gives_run.
    - apply gives_ins_like.
    - exact gives_del.
    - exact gives_from.
    - apply gives_ins_like.
    - exact gives_link.
    - exact gives_sdt.
    - exact gives_para.
    - exact gives_table.
    - exact gives_row.
    - exact gives_cell.
    - exact gives_drawing.
  Qed.

  (** The parts. *)
  Lemma gives_document : gives (fun d => kinds section_child (fst d)) (read_document_with s).
  Proof.
    apply gives_part with (J := fun d => kinds section_child (fst d)); [|apply kinds_nil|easy].
    intros d e Hd. destruct e; try apply gives_fail; try (apply gives_ret; exact Hd).
    cbv zeta.
    repeat (first
      [ match goal with
        | |- gives _ (if ?c then _ else _) => destruct c
        | |- gives _ (ret (Again d)) => apply gives_ret; exact Hd
        | |- gives _ (bind (read_sectpr) _) => eapply gives_bind; [apply gives_any|]; intros sp _; apply gives_ret; exact Hd
        | |- gives _ (bind _ (fun ch' => ret (Again (ch', snd d)))) =>
            eapply gives_bind with (Q := kinds section_child); [first [add H | gives1] | intros ch' Hch; apply gives_ret; exact Hch]
        end ]).
  Qed.
  Lemma gives_header : gives (kinds part_child) (read_header_with s).
  Proof.
    apply gives_part with (J := kinds part_child); [|apply kinds_nil|easy].
    intros ch e Hch. destruct e; try apply gives_fail; try (apply gives_ret; exact Hch).
    cbv zeta.
    repeat (first
      [ match goal with
        | |- gives _ (if ?c then _ else _) => destruct c
        | |- gives _ (ret (Again ch)) => apply gives_ret; exact Hch
        | |- gives _ (bind _ (fun ch' => ret (Again ch'))) =>
            eapply gives_bind with (Q := kinds part_child); [add H | intros ch' Hch'; apply gives_ret; exact Hch']
        end ]).
  Qed.
  Lemma gives_comment a : gives (fun c => kinds is_para (snd c)) (read_comment s a).
  Proof.
    unfold read_comment. eapply gives_bind; [apply gives_any|]. intros v _. eapply gives_bind; [apply gives_any|]. intros id _.
    apply gives_element with (J := kinds is_para); [|apply kinds_nil|easy]. intros ch q b Hch. steps.
  Qed.
  Lemma gives_comments : gives (Forall (fun c => kinds is_para (snd c))) (read_comments_with s).
  Proof.
    apply gives_part with (J := Forall (fun c => kinds is_para (snd c))); [|constructor|easy].
    intros l e Hl. destruct e; try apply gives_fail; try (apply gives_ret; exact Hl).
    - destruct (_ =s _); [|apply gives_ret; exact Hl]. eapply gives_bind; [apply gives_comment|]. intros c Hc. apply gives_ret.
      apply Forall_app. split; [exact Hl|]. now constructor.
    - apply gives_ret. destruct (_ =s _); exact Hl.
  Qed.
End Levels.

Lemma good_readers d : good_subs (readers d).
Proof. induction d as [|d IH]; [|now apply good_next]. constructor; easy. Qed.
Lemma document_gives : gives (fun d => kinds section_child (fst d)) read_document.
Proof. intros s. apply gives_document, good_readers. Qed.
Lemma header_gives : gives (kinds part_child) read_header.
Proof. intros s. apply gives_header, good_readers. Qed.
Lemma comments_give : gives (Forall (fun c => kinds is_para (snd c))) read_comments.
Proof. intros s. apply gives_comments, good_readers. Qed.

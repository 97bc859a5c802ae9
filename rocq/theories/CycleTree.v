(** Reading what was read: the tree. *)
From Coq Require Import NArith ZArith List Bool Lia.
From Verif Require Import Str StrFacts TypesModel Props Ast IdsModel EscapeModel EscapeSpec EscapeProofs XmlParser XmlSpec
  RoundSpec SurviveSpec SurviveProofs WellSpec RoundTextProofs CycleSpec CycleProofs.
From Verif Require BuildModel BuildSpec XmlTreeProofs.
Import ListNotations.
Open Scope list_scope.

Lemma all_forall A (P : A -> Prop) l : fold_right (fun c q => P c /\ q) True l <-> Forall P l.
Proof. induction l as [|a l IH]; cbn [fold_right]; [split; auto using Forall_nil|]. rewrite Forall_cons_iff, IH. reflexivity. Qed.
Lemma flat_forall A B (P : B -> Prop) (f : A -> list B) l : Forall (fun a => Forall P (f a)) l -> Forall P (flat_map f l).
Proof. induction 1; cbn [flat_map]; [apply Forall_nil|]. apply Forall_app. auto. Qed.
Lemma forall_flat A B (P : B -> Prop) (f : A -> list B) l : Forall P (flat_map f l) -> Forall (fun a => Forall P (f a)) l.
Proof. induction l as [|a l IH]; cbn [flat_map]; [auto using Forall_nil|]. intros H. apply Forall_app in H as [H1 H2]. constructor; auto. Qed.
Lemma forall_two A (P Q : A -> Prop) l : Forall P l -> Forall Q l -> Forall (fun a => P a /\ Q a) l.
Proof. intros H1 H2. apply Forall_and; assumption. Qed.
Lemma flat_twice A (f : A -> list A) l : Forall (fun a => flat_map f (f a) = f a) l -> flat_map f (flat_map f l) = flat_map f l.
Proof. induction 1 as [|a l H _ IH]; cbn [flat_map]; [reflexivity|]. now rewrite flat_map_app, H, IH. Qed.

(** The children that [plain] looks at. *)
Definition below (n : node) : list node :=
  match n with
  | NRun _ ch | NIns _ ch | NDel _ ch | NMoveFrom _ ch | NMoveTo _ ch | NLink _ _ ch | NSdt _ _ ch
  | NPara _ _ _ ch | NTable _ _ _ ch | NRow _ _ ch | NCell _ _ ch => ch
  | _ => []
  end.
Lemma plain_iff n : plain n <-> Forall plain_piece (own_strings n) /\ Forall plain (below n).
Proof. destruct n; cbn [plain below]; rewrite ?all_forall; (split; [intros [H1 H2]; split; [exact H1 | auto] | intros [H1 H2]; split; auto]). Qed.

(** ** In runs *)
Lemma no_cr_in_without s : has_char ch_cr (without_cr s) = false.
Proof. unfold without_cr. induction s as [|c s IH]; [reflexivity|]. cbn [filter_str]. destruct (not_cr c) eqn:Q; [|exact IH]. cbn [has_char]. rewrite IH, orb_false_r. unfold not_cr in Q. now destruct (c =c ch_cr). Qed.
Lemma without_cr_same s : has_char ch_cr s = false -> without_cr s = s.
Proof.
  intros H. unfold without_cr. apply filter_str_all. induction s as [|c s IH]; [reflexivity|]. cbn in H |- *. apply orb_false_iff in H as [H1 H2].
  unfold not_cr at 1. rewrite H1. cbn. auto.
Qed.
Lemma escaped_seen s : text_seen (escape s) = without_cr s.
Proof. unfold text_seen. now rewrite XmlTreeProofs.text_meaning_escape. Qed.
Lemma text_again f s : (forall s, In (f s) [NText s; NDelText s]) -> plain_piece (Content s) -> flat_map reread_in_run (reread_text f s) = reread_text f s.
Proof.
  intros Hf H. pose proof (plain_text_back s H) as B. unfold reread_text at 1 2. destruct s as [|c s]; [reflexivity|]. rewrite B. cbn [flat_map].
  rewrite app_nil_r. destruct (Hf (String c s)) as [Q|[Q|[]]]; rewrite <- Q; cbn [reread_in_run]; unfold reread_text; rewrite B; reflexivity.
Qed.
Lemma child_again n : plain n -> slow n = false -> flat_map reread_in_run (reread_in_run n) = reread_in_run n.
Proof.
  intros H Hs. apply plain_iff in H as [Hp _]. destruct n; try reflexivity; cbn [own_strings] in Hp; cbn [reread_in_run].
  - apply text_again; [cbn; auto | now apply Forall_inv in Hp].
  - apply text_again; [cbn; auto | now apply Forall_inv in Hp].
  - apply Forall_cons_iff in Hp as [H1 Hp]. apply Forall_inv in Hp. cbn [flat_map reread_in_run app]. cbn [plain_piece] in *. now rewrite !(seen_unmarked _ H1), !(seen_unmarked _ Hp).
  - cbn [flat_map reread_in_run app]. rewrite (pic_settles p); [reflexivity | now apply Forall_inv in Hp | exact Hs].
  - cbn [flat_map reread_in_run app]. rewrite escaped_seen. cbn [slow] in Hs. now rewrite without_cr_same.
  - cbn [flat_map reread_in_run app]. rewrite !escaped_seen. now rewrite without_cr_same by apply no_cr_in_without.
Qed.
Lemma children_again ch : Forall plain ch -> Forall (fun n => slow n = false) ch -> flat_map reread_in_run (flat_map reread_in_run ch) = flat_map reread_in_run ch.
Proof. intros H1 H2. apply flat_twice. apply Forall_impl with (P := fun n => plain n /\ slow n = false); [|now apply forall_two]. intros n [A B]. now apply child_again. Qed.
Lemma child_plain n : plain n -> Forall plain (reread_in_run n).
Proof.
  assert (T : forall f s, (forall s, In (f s) [NText s; NDelText s]) -> plain_piece (Content s) -> Forall plain (reread_text f s)).
  { intros f s Hf H. unfold reread_text. destruct s as [|c s]; [apply Forall_nil|]. rewrite (plain_text_back _ H). constructor; [|apply Forall_nil].
    destruct (Hf (String c s)) as [Q|[Q|[]]]; rewrite <- Q; (split; [constructor; [exact H | apply Forall_nil] | exact I]). }
  assert (B : forall m, own_strings m = [] -> below m = [] -> plain m) by (intros m H1 H2; apply plain_iff; rewrite H1, H2; split; apply Forall_nil).
  intros H. apply plain_iff in H as [Hp _].
  destruct n; cbn [reread_in_run]; try apply Forall_nil; cbn [own_strings] in *; try (constructor; [|apply Forall_nil]); try (now apply B).
  - apply T; [cbn; auto | now apply Forall_inv in Hp].
  - apply T; [cbn; auto | now apply Forall_inv in Hp].
  - apply Forall_cons_iff in Hp as [H1 Hp]. apply Forall_inv in Hp. cbn [plain_piece] in *. split; [|exact I]. cbn [own_strings].
    constructor; [|constructor; [|apply Forall_nil]]; cbn [plain_piece]; now rewrite seen_unmarked.
  - apply Forall_inv in Hp. split; [constructor; [now apply pic_strings | apply Forall_nil] | exact I].
Qed.

(** ** What is calm: read as it is, but for the ends of comments *)
Fixpoint calm (p : place) (n : node) : Prop :=
  let all p := fold_right (fun c q => calm p c /\ q) True in
  match n with
  | NRun r ch => reread_rpr r = r /\ flat_map reread_in_run ch = ch
  | NCommentStart c ch => c = bare_comment (cd_id c) /\ ch = []
  | NCommentEnd _ | NBookmarkEnd _ => True
  | NBookmarkStart _ s => seen s = s
  | NIns m ch => reread_mark m = m /\ all InIns ch
  | NDel m ch => reread_mark m = m /\ all InDel ch
  | NMoveFrom m ch => p <> InLink /\ reread_mark m = m /\ all InDel ch
  | NMoveTo m ch => p <> InLink /\ reread_mark m = m /\ all InIns ch
  | NLink l h ch => reread_link l = l /\ h <> None /\ all InLink ch
  | NSdt q b ch => p <> InPara /\ p <> InLink /\ q = sdtpr_empty /\ b = false /\ all InSdt ch
  | NPara id q b ch => seen id = id /\ reread_ppr q = q /\ b = match p_numbering (base_of q) with Some _ => true | None => false end /\ all InPara ch
  | NTable q _ b ch => reread_tblpr q = q /\ b = false /\ all InTable ch
  | NRow q b ch => reread_trpr q = q /\ b = existsb numbered ch /\ all InRow ch
  | NCell q b ch => reread_tcpr q = q /\ b = existsb numbered ch /\ all InPart ch
  | _ => False
  end.

Definition no_slow (n : node) : Prop := Forall (fun m => slow m = false) (all_nodes n).
Lemma below_slow n : no_slow n -> Forall no_slow (children n).
Proof.
  unfold no_slow. intros H. apply forall_flat. revert H. destruct n; cbn [children all_nodes]; intros H; apply Forall_inv_tail in H; try exact H; try apply Forall_nil;
    now rewrite flat_map_app.
Qed.

Lemma mark_calm m : Forall plain_piece (in_mark m) -> reread_mark (reread_mark m) = reread_mark m.
Proof. intros H. now destruct (mark_settles m H). Qed.
Lemma empty_rpr : reread_rpr rpr_empty = rpr_empty.
Proof. reflexivity. Qed.
Lemma link_again l : plain_piece (Value (match l with External rid _ => rid | Anchor a => a end)) -> reread_link (reread_link l) = reread_link l.
Proof. destruct l; cbn [reread_link plain_piece]; intros H; now rewrite !(seen_unmarked _ H). Qed.
Lemma link_strings l : plain_piece (Value (match l with External rid _ => rid | Anchor a => a end)) ->
  plain_piece (Value (match reread_link l with External rid _ => rid | Anchor a => a end)).
Proof. destruct l; cbn [reread_link plain_piece]; intros H; now rewrite !(seen_unmarked _ H). Qed.
Lemma sdt_marks r : Forall plain_piece (in_rpr r) -> all_of (fun m => Forall plain_piece (in_mark m)) (r_ins r) /\ all_of (fun m => Forall plain_piece (in_mark m)) (r_del r).
Proof.
  intros H. unfold in_rpr in H. repeat (apply Forall_app in H as [? H]).
  split; [destruct (r_ins r) | destruct (r_del r)]; cbn [all_of if_set] in *; auto.
Qed.
Lemma base_reread p : base_of (reread_ppr p) = reread_base (base_of p).
Proof. destruct p; reflexivity. Qed.
Lemma read_is_calm : forall n p, plain n -> no_slow n -> Forall (calm p) (reread p n).
Proof.
  induction n as [n IH] using node_tree_ind. intros p Hp Hs.
  assert (Sl : Forall no_slow (children n)) by (now apply below_slow).
  assert (A : forall q, Forall plain (children n) -> Forall (calm q) (flat_map (reread q) (children n))).
  { intros q Pl. apply flat_forall. rewrite Forall_forall in *. auto. }
  apply plain_iff in Hp as [Ho Hb].
  destruct n; cbn [children] in A, Sl; cbn [reread]; try apply Forall_nil; cbn [below] in Hb; try (pose proof (fun q => A q Hb) as A'; clear A; rename A' into A); cbn [own_strings] in Ho.
  - constructor; [|apply Forall_nil]. cbn [calm]. split; [now apply rpr_settles|]. apply children_again; [exact Hb|].
    eapply Forall_impl; [|exact Sl]. intros m Hm. unfold no_slow in Hm. destruct m; now apply Forall_inv in Hm.
  - repeat constructor.
  - destruct p; repeat constructor.
  - apply Forall_inv in Ho. constructor; [|apply Forall_nil]. cbn [calm plain_piece] in *. now rewrite !(seen_unmarked _ Ho).
  - repeat constructor.
  - constructor; [|apply Forall_nil]. cbn [calm]. split; [now apply mark_calm|]. apply all_forall, A.
  - constructor; [|apply Forall_nil]. cbn [calm]. split; [now apply mark_calm|]. apply all_forall, A.
  - destruct p; try apply Forall_nil; (constructor; [|apply Forall_nil]); cbn [calm]; (split; [discriminate|]; split; [now apply mark_calm|]; apply all_forall, A).
  - destruct p; try apply A; (constructor; [|apply Forall_nil]); cbn [calm]; (split; [discriminate|]; split; [now apply mark_calm|]; apply all_forall, A).
  - apply Forall_inv in Ho. constructor; [|apply Forall_nil]. cbn [calm]. split; [now apply link_again|]. split; [discriminate|]. apply all_forall, A.
  - destruct (sdt_marks _ Ho) as [M1 M2].
    assert (X : forall q, q <> InPara -> q <> InLink -> Forall (calm q) [NSdt sdtpr_empty false (flat_map (reread InSdt) ch)]).
    { intros q Q1 Q2. constructor; [|apply Forall_nil]. cbn [calm]. repeat split; try assumption. apply all_forall, A. }
    assert (Y : forall q, Forall (calm q) (BuildModel.opt (fun m => NIns (reread_mark m) []) (r_ins (sd_rpr p0)) ++ BuildModel.opt (fun m => NDel (reread_mark m) []) (r_del (sd_rpr p0)))).
    { intros q. apply Forall_app. split; [destruct (r_ins (sd_rpr p0)) | destruct (r_del (sd_rpr p0))]; cbn [BuildModel.opt all_of] in *; try apply Forall_nil;
        (constructor; [|apply Forall_nil]); cbn [calm]; (split; [now apply mark_calm | exact I]). }
    destruct p; try (apply X; discriminate); rewrite app_assoc; (apply Forall_app; split; [apply Y | apply A]).
  - repeat constructor.
  - repeat constructor.
  - apply Forall_cons_iff in Ho as [H1 H2]. constructor; [|apply Forall_nil]. cbn [calm plain_piece] in *. rewrite !(seen_unmarked _ H1). split; [reflexivity|].
    split; [now apply ppr_settles|]. split; [now rewrite base_reread | apply all_forall, A].
  - constructor; [|apply Forall_nil]. cbn [calm]. split; [now apply tblpr_settles|]. split; [reflexivity | apply all_forall, A].
  - constructor; [|apply Forall_nil]. cbn [calm]. split; [now apply trpr_settles|]. split; [reflexivity | apply all_forall, A].
  - constructor; [|apply Forall_nil]. cbn [calm]. split; [now apply tcpr_settles|]. split; [reflexivity | apply all_forall, A].
Qed.

(** ** What is read is as plain, as well placed and as small *)
Lemma marks_plain r p : Forall plain_piece (in_rpr r) ->
  Forall plain (BuildModel.opt (fun m => NIns (reread_mark m) []) (r_ins r) ++ BuildModel.opt (fun m => NDel (reread_mark m) []) (r_del r)) /\
  Forall (calm p) (BuildModel.opt (fun m => NIns (reread_mark m) []) (r_ins r) ++ BuildModel.opt (fun m => NDel (reread_mark m) []) (r_del r)).
Proof.
  intros H. destruct (sdt_marks _ H) as [M1 M2].
  split; (apply Forall_app; split); [destruct (r_ins r) as [m|] | destruct (r_del r) as [m|] | destruct (r_ins r) as [m|] | destruct (r_del r) as [m|]];
    cbn [BuildModel.opt all_of] in *; try apply Forall_nil; (constructor; [|apply Forall_nil]);
    first [ split; [now apply mark_settles | exact I] | cbn [calm]; split; [now apply mark_calm | exact I]].
Qed.
Lemma read_is_plain : forall n p, plain n -> Forall plain (reread p n).
Proof.
  induction n as [n IH] using node_tree_ind. intros p Hp.
  assert (A : forall q, Forall plain (children n) -> Forall plain (flat_map (reread q) (children n))).
  { intros q Pl. apply flat_forall. rewrite Forall_forall in *. auto. }
  apply plain_iff in Hp as [Ho Hb].
  assert (T : forall m, Forall plain_piece (own_strings m) -> Forall plain (below m) -> Forall plain [m]).
  { intros m H1 H2. constructor; [|apply Forall_nil]. apply plain_iff. auto. }
  assert (R : forall q r, Forall plain [NRun r []] -> Forall plain (reread q (NCommentEnd 0)) -> True) by auto. clear R.
  destruct n; cbn [children] in A; cbn [reread]; try apply Forall_nil; cbn [below] in Hb; try (pose proof (fun q => A q Hb) as A'; clear A; rename A' into A); cbn [own_strings] in Ho.
  - apply T; cbn [own_strings below]; [now apply rpr_settles|]. apply flat_forall. eapply Forall_impl; [|exact Hb]. apply child_plain.
  - apply T; apply Forall_nil.
  - assert (Q : forall r, r = rpr_empty -> plain (NRun r [])) by (intros r ->; split; [apply Forall_nil | exact I]).
    assert (Q' : plain (NCommentEnd id)) by (split; [apply Forall_nil | exact I]).
    destruct p; repeat (constructor; auto).
  - apply Forall_inv in Ho. apply T; [|apply Forall_nil]. cbn [own_strings plain_piece] in *. constructor; [|apply Forall_nil]. cbn [plain_piece]. now rewrite seen_unmarked.
  - apply T; apply Forall_nil.
  - apply T; [now apply mark_settles | apply A].
  - apply T; [now apply mark_settles | apply A].
  - destruct p; try apply Forall_nil; (apply T; [now apply mark_settles | apply A]).
  - destruct p; try apply A; (apply T; [now apply mark_settles | apply A]).
  - apply Forall_inv in Ho. apply T; [|apply A]. constructor; [now apply link_strings | apply Forall_nil].
  - assert (X : Forall plain [NSdt sdtpr_empty false (flat_map (reread InSdt) ch)]) by (apply T; [apply Forall_nil | apply A]).
    destruct p; try exact X; rewrite app_assoc; (apply Forall_app; split; [now apply (marks_plain _ InPara) | apply A]).
  - repeat (constructor; auto); cbn; auto.
  - repeat (constructor; auto); cbn; auto.
  - apply Forall_cons_iff in Ho as [H1 H2]. apply T; [|apply A]. cbn [own_strings]. constructor; [cbn [plain_piece] in *; now rewrite seen_unmarked|]. now apply ppr_settles.
  - apply T; [now apply tblpr_settles | apply A].
  - apply T; [now apply trpr_settles | apply A].
  - apply T; [now apply tcpr_settles | apply A].
Qed.
Lemma read_is_quick : forall n p, Forall no_slow (reread p n).
Proof.
  induction n as [n IH] using node_tree_ind. intros p.
  assert (A : forall q, Forall no_slow (flat_map (reread q) (children n))) by (intros q; apply flat_forall; eapply Forall_impl; [|exact IH]; cbn; auto). clear IH.
  assert (T : forall m, slow m = false -> all_nodes m = m :: flat_map all_nodes (below m) -> Forall no_slow (below m) -> Forall no_slow [m]).
  { intros m H1 H2 H3. constructor; [|apply Forall_nil]. unfold no_slow. rewrite H2. constructor; [exact H1|]. now apply flat_forall. }
  destruct n; cbn [children] in A; cbn [reread]; try apply Forall_nil; try (apply T; [reflexivity | reflexivity | apply A || apply Forall_nil]).
  - apply T; [reflexivity | reflexivity |]. cbn [below]. apply flat_forall. apply Forall_forall. intros m _.
    destruct m; cbn [reread_in_run]; unfold reread_text; try apply Forall_nil; try (destruct s; [apply Forall_nil|]); (constructor; [|apply Forall_nil]);
      (constructor; [|apply Forall_nil]); try reflexivity. cbn [slow reread_pic pic_anchor pic_simple_pos]. apply andb_false_r.
  - destruct p; repeat constructor.
  - destruct p; try apply Forall_nil; (apply T; [reflexivity | reflexivity | apply A]).
  - destruct p; try apply A; (apply T; [reflexivity | reflexivity | apply A]).
  - assert (X : Forall no_slow [NSdt sdtpr_empty false (flat_map (reread InSdt) ch)]) by (apply T; [reflexivity | reflexivity | apply A]).
    destruct p; try exact X; (apply Forall_app; split; [destruct (r_ins (sd_rpr p0)); cbn [BuildModel.opt]; repeat constructor|]);
      (apply Forall_app; split; [destruct (r_del (sd_rpr p0)); cbn [BuildModel.opt]; repeat constructor | apply A]).
  - repeat constructor.
  - repeat constructor.
Qed.
(** Numbers. *)
Lemma fits_below n : fits n -> Forall fits (children n).
Proof.
  unfold fits. intros H. apply forall_flat. revert H. destruct n; cbn [children all_nodes]; intros H; apply Forall_inv_tail in H; try exact H; try apply Forall_nil;
    now rewrite flat_map_app.
Qed.
Lemma read_fits : forall n p, fits n -> Forall fits (reread p n).
Proof.
  induction n as [n IH] using node_tree_ind. intros p Hf. pose proof (fits_below _ Hf) as Hb.
  assert (A : forall q, Forall fits (flat_map (reread q) (children n))).
  { intros q. apply flat_forall. rewrite Forall_forall in *. auto. }
  assert (T : forall m, fits_node m -> all_nodes m = m :: flat_map all_nodes (below m) -> Forall fits (below m) -> Forall fits [m]).
  { intros m H1 H2 H3. constructor; [|apply Forall_nil]. unfold fits. rewrite H2. constructor; [exact H1|]. now apply flat_forall. }
  assert (Ho : fits_node n) by (unfold fits in Hf; destruct n; now apply Forall_inv in Hf).
  destruct n; cbn [children] in A; cbn [reread]; try apply Forall_nil; cbn [fits_node] in Ho; try (apply T; [exact Ho || exact I | reflexivity | apply A || apply Forall_nil]).
  - apply T; [now apply rpr_fits | reflexivity |]. cbn [below children] in *. apply flat_forall. rewrite Forall_forall in Hb |- *. intros m Hm. apply Hb in Hm.
    destruct m; cbn [reread_in_run]; unfold reread_text; try apply Forall_nil; try (destruct s; [apply Forall_nil|]); (constructor; [|apply Forall_nil]);
      (constructor; [|apply Forall_nil]); try exact I. cbn [fits_node]. apply pic_fits. now apply Forall_inv in Hm.
  - assert (R : Forall fits [NRun rpr_empty []]) by (apply T; [repeat split | reflexivity | apply Forall_nil]). apply Forall_inv in R.
    assert (E' : fits (NCommentEnd id)) by (constructor; [exact Ho | apply Forall_nil]).
    destruct p; repeat (constructor; auto).
  - destruct p; try apply Forall_nil; (apply T; [exact I | reflexivity | apply A]).
  - destruct p; try apply A; (apply T; [exact I | reflexivity | apply A]).
  - apply T; [|reflexivity | apply A]. cbn [fits_node all_of]. destruct history; [exact Ho | cbn; discriminate].
  - assert (X : Forall fits [NSdt sdtpr_empty false (flat_map (reread InSdt) ch)]) by (apply T; [repeat split | reflexivity | apply A]).
    assert (Y : forall m, fits (NIns m []) /\ fits (NDel m [])) by (intros m; split; (constructor; [exact I | apply Forall_nil])).
    destruct p; try exact X; (apply Forall_app; split; [destruct (r_ins (sd_rpr p0)); cbn [BuildModel.opt]; repeat (constructor; auto); apply Y|]);
      (apply Forall_app; split; [destruct (r_del (sd_rpr p0)); cbn [BuildModel.opt]; repeat (constructor; auto); apply Y | apply A]).
  - repeat (constructor; auto).
  - repeat (constructor; auto).
  - apply T; [now apply ppr_fits | reflexivity | apply A].
  - apply T; [split; [now apply tblpr_fits | apply Ho] | reflexivity | apply A].
  - apply T; [now apply tcpr_fits | reflexivity | apply A].
Qed.

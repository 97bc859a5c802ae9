(** What survives of styles, numberings and settings, and the ids they declare. *)
From Coq Require Import NArith ZArith List Bool Lia.
From Verif Require Import Str StrFacts TypesModel Props EscapeModel XmlParser XmlSpec RoundSpec SurviveSpec SurviveProofs StyleModel StyleSpec RoundStyle.
From Verif Require BuildModel BuildProofs.
Import ListNotations.

Lemma same_each A (f : A -> A) P : (forall a, f a = a <-> P a) -> forall l, map f l = l <-> Forall P l.
Proof.
  intros H. induction l as [|a l IH]; cbn [map]; [split; auto|]. split.
  - intros X. injection X as X1 X2. constructor; [now apply H | now apply IH].
  - intros X. inversion_clear X. f_equal; [now apply H | now apply IH].
Qed.
Lemma same_each1 A (f : A -> A) (P : A -> Prop) : (forall a, P a -> f a = a) -> forall l, Forall P l -> map f l = l.
Proof. intros H l X. induction X as [|a l Ha _ IH]; cbn [map]; [reflexivity|]. now rewrite (H a Ha), IH. Qed.

Lemma survives_style y : style_survives y -> reread_style y = y.
Proof.
  unfold style_survives. rewrite <- !survives_stored, <- survives_rpr, <- survives_ppr, <- !(survives_opt _ _ _ survives_stored).
  intros (H1 & H2 & H3 & H4 & H5 & H6 & H7 & H8 & H9 & H10 & H11 & H12).
  assert (T : (if is_table (sty_type y) then reread_tblpr (sty_tblpr y) else tblpr_default) = sty_tblpr y /\
              (if is_table (sty_type y) then reread_tcpr (sty_tcpr y) else tcpr_empty) = sty_tcpr y).
  { destruct (is_table (sty_type y)); destruct H5; split; auto using survives_tblpr, survives_tcpr. }
  destruct T as [T1 T2]. unfold reread_style. rewrite H1, H2, H3, H4, T1, T2, H6, H7.
  destruct y. cbn in *. subst. reflexivity.
Qed.
(** For a style that is not a table style this is exact. *)
Lemma style_survives_iff y : is_table (sty_type y) = false -> (reread_style y = y <-> style_survives y).
Proof.
  intros Ht. split; [|apply survives_style]. intros H.
  unfold style_survives. rewrite <- !survives_stored, <- survives_rpr, <- survives_ppr, <- !(survives_opt _ _ _ survives_stored), Ht.
  pose proof (f_equal sty_id H) as E1. pose proof (f_equal sty_name H) as E2. pose proof (f_equal sty_rpr H) as E3. pose proof (f_equal sty_ppr H) as E4.
  pose proof (f_equal sty_tblpr H) as E5. pose proof (f_equal sty_tcpr H) as E6. pose proof (f_equal sty_based_on H) as E7.
  pose proof (f_equal sty_link H) as E8. pose proof (f_equal sty_next H) as E9. pose proof (f_equal sty_q_format H) as E10.
  pose proof (f_equal sty_ui_priority H) as E11. pose proof (f_equal sty_semi_hidden H) as E12. pose proof (f_equal sty_unhide H) as E13.
  clear H. unfold reread_style in *.
  cbn [sty_id sty_name sty_rpr sty_ppr sty_tblpr sty_tcpr sty_based_on sty_link sty_next sty_q_format sty_ui_priority sty_semi_hidden sty_unhide] in *.
  rewrite Ht in *. repeat split; first [assumption | symmetry; assumption].
Qed.
Lemma survives_level l : reread_level l = l <-> level_survives l.
Proof.
  unfold level_survives, value_survives. rewrite <- survives_rpr, <- survives_ppr, <- (survives_opt _ _ _ survives_stored).
  destruct l. unfold reread_level. cbn. split; [intros H; injection H; intuition | intros (H1 & H2 & H3 & H4 & H5 & H6); congruence].
Qed.
Lemma survives_abstract a : reread_abstract a = a <-> abstract_survives a.
Proof.
  unfold abstract_survives. rewrite <- (same_each _ _ _ survives_level). destruct a. unfold reread_abstract. cbn.
  split; [intros H; injection H; intuition congruence | intros (H1 & H2 & H3 & H4); congruence].
Qed.
Lemma survives_override o : reread_override o = o <-> all_of level_survives (ov_replace o).
Proof.
  rewrite <- (survives_opt _ _ _ survives_level). destruct o. unfold reread_override. cbn. split; [intros H; injection H; auto | congruence].
Qed.
Lemma survives_num n : reread_num n = n <-> num_survives n.
Proof.
  unfold num_survives. rewrite <- (same_each _ _ _ survives_override). destruct n. unfold reread_num. cbn.
  split; [intros H; injection H; auto | congruence].
Qed.
Lemma survives_settings c : reread_settings c = c <-> settings_survive c.
Proof.
  unfold settings_survive. rewrite <- (survives_opt _ (fun i => without_braces (seen i)) _ (fun i => iff_refl _)).
  assert (V : forall v : string * string, (seen (fst v), seen (snd v)) = v <-> value_survives (fst v) /\ value_survives (snd v)).
  { intros [a b]. unfold value_survives. cbn. split; [intros H; injection H; auto | intros [H1 H2]; congruence]. }
  rewrite <- (same_each _ _ _ V). destruct c as [t i v e a sp]. unfold reread_settings. cbn. split.
  - intros H. injection H. intros H1 H2 H3. split; [exact H3|]. split; [exact H2|]. destruct sp as [[]|]; congruence.
  - intros (H1 & H2 & H3). rewrite H1, H2. destruct sp as [[]|]; congruence.
Qed.

(** ** Again and again *)
Lemma styles_cycles n t : ss_list (times n reread_styles t) = repeat style_normal n ++ map (times n reread_style) (ss_list t).
Proof.
  induction n as [|n IH]; cbn [times repeat app]; [now rewrite map_id|].
  cbn [reread_styles ss_list]. rewrite IH, map_app, map_map. f_equal. f_equal.
  clear. induction n as [|n IHn]; [reflexivity|]. cbn [repeat map]. f_equal. exact IHn.
Qed.
Lemma default_again : reread_abstract (reread_abstract default_abstract) = reread_abstract default_abstract.
Proof. vm_compute. reflexivity. Qed.
Lemma numberings_cycles n t :
  ns_abstracts (times n reread_numberings t) = repeat (reread_abstract default_abstract) n ++ map (times n reread_abstract) (ns_abstracts t) /\
  ns_nums (times n reread_numberings t) = repeat default_num n ++ map (times n reread_num) (ns_nums t).
Proof.
  induction n as [|n [IH1 IH2]]; [cbn; now rewrite !map_id|].
  cbn [times reread_numberings ns_abstracts ns_nums repeat app]. rewrite IH1, IH2, !map_app, !map_map. split; (f_equal; f_equal).
  - clear. induction n as [|n IHn]; [reflexivity|]. cbn [repeat map]. now rewrite default_again, IHn.
  - clear. induction n as [|n IHn]; [reflexivity|]. cbn [repeat map]. f_equal. exact IHn.
Qed.

(** ** Looking up *)
Lemma find_ext A (f : A -> bool) l x : Forall (fun a => f a = false) l -> find f (l ++ [x]) = if f x then Some x else None.
Proof. induction 1 as [|a l H _ IH]; cbn; [reflexivity|]. now rewrite H. Qed.
Lemma find_reread id l : Forall (fun y => stored_survives (sty_id y)) l ->
  find (fun y => sty_id y =s id) (map reread_style l) = option_map reread_style (find (fun y => sty_id y =s id) l).
Proof.
  induction 1 as [|y l H _ IH]; cbn [map find]; [reflexivity|]. apply survives_stored in H.
  change (sty_id (reread_style y)) with (stored (sty_id y)). rewrite H, IH. now destruct (sty_id y =s id).
Qed.

(** ** Ids *)
Import BuildModel (xml, E, L).
Lemma each_declares A (f : A -> BuildModel.M (list xml)) name a (g : A -> string) :
  (forall y s l s', f y s = Some (l, s') -> forall n atts, declared name a (E n atts l) = [g y]) ->
  forall ys s l s', BuildModel.each f ys s = Some (l, s') -> forall n atts, declared name a (E n atts l) = map g ys.
Proof.
  intros H. induction ys as [|y ys IH]; intros s l s' X n atts; cbn [BuildModel.each] in X.
  - injection X as <- _. reflexivity.
  - apply BuildProofs.bind_inv in X as (l1 & s1 & X1 & X). apply BuildProofs.bind_inv in X as (l2 & s2 & X2 & X).
    injection X as <- _. specialize (H _ _ _ _ X1 n atts). specialize (IH _ _ _ X2 n atts). cbn [declared] in *. rewrite flat_map_app, H, IH. reflexivity.
Qed.
Lemma style_declares y s l s' : b_style y s = Some (l, s') -> forall n atts, declared "w:style" "w:styleId" (E n atts l) = [sty_id y].
Proof.
  unfold b_style. intros X n atts. apply BuildProofs.bind_inv in X as (r & s1 & _ & X). apply BuildProofs.bind_inv in X as (p & s2 & _ & X).
  injection X as <- _. reflexivity.
Qed.
Lemma styles_declare t s x s' : b_styles t s = Some (x, s') ->
  declared "w:style" "w:styleId" x = "Normal"%string :: map sty_id (ss_list t).
Proof.
  unfold b_styles. intros X. apply BuildProofs.bind_inv in X as (d & s1 & Xd & X). apply BuildProofs.bind_inv in X as (n & s2 & Xn & X).
  apply BuildProofs.bind_inv in X as (l & s3 & Xl & X). injection X as <- _.
  pose proof (style_declares _ _ _ _ Xn "" []) as H1. pose proof (each_declares _ _ _ _ _ style_declares _ _ _ _ Xl "" []) as H2.
  unfold b_doc_defaults in Xd. apply BuildProofs.bind_inv in Xd as (r & s4 & _ & Xd). apply BuildProofs.bind_inv in Xd as (p & s5 & _ & Xd).
  injection Xd as <- _. cbn [declared] in *. rewrite !flat_map_app, H1, H2. reflexivity.
Qed.
Lemma abstract_declares y s l s' : b_abstract y s = Some (l, s') -> forall n atts,
  declared "w:abstractNum" "w:abstractNumId" (E n atts l) = [show_N (an_id y)] /\ declared "w:num" "w:numId" (E n atts l) = [].
Proof.
  unfold b_abstract. intros X n atts. apply BuildProofs.bind_inv in X as (r & s1 & _ & X). injection X as <- _. split; reflexivity.
Qed.
Lemma num_declares y s l s' : b_num y s = Some (l, s') -> forall n atts,
  declared "w:num" "w:numId" (E n atts l) = [show_N (nm_id y)] /\ declared "w:abstractNum" "w:abstractNumId" (E n atts l) = [].
Proof.
  unfold b_num. intros X n atts. apply BuildProofs.bind_inv in X as (r & s1 & _ & X). injection X as <- _. split; reflexivity.
Qed.
Lemma each_declares_nothing A (f : A -> BuildModel.M (list xml)) name a :
  (forall y s l s', f y s = Some (l, s') -> forall n atts, declared name a (E n atts l) = []) ->
  forall ys s l s', BuildModel.each f ys s = Some (l, s') -> forall n atts, declared name a (E n atts l) = [].
Proof.
  intros H. induction ys as [|y ys IH]; intros s l s' X n atts; cbn [BuildModel.each] in X.
  - injection X as <- _. reflexivity.
  - apply BuildProofs.bind_inv in X as (l1 & s1 & X1 & X). apply BuildProofs.bind_inv in X as (l2 & s2 & X2 & X).
    injection X as <- _. specialize (H _ _ _ _ X1 n atts). specialize (IH _ _ _ X2 n atts). cbn [declared] in *. rewrite flat_map_app, H, IH. reflexivity.
Qed.
Lemma numberings_declare t s x s' : b_numberings t s = Some (x, s') ->
  declared "w:abstractNum" "w:abstractNumId" x = map show_N (1%N :: map an_id (ns_abstracts t)) /\
  declared "w:num" "w:numId" x = map show_N (1%N :: map nm_id (ns_nums t)).
Proof.
  unfold b_numberings. intros X. apply BuildProofs.bind_inv in X as (d & s1 & Xd & X). apply BuildProofs.bind_inv in X as (a & s2 & Xa & X).
  apply BuildProofs.bind_inv in X as (e & s3 & Xe & X). apply BuildProofs.bind_inv in X as (n & s4 & Xn & X). injection X as <- _.
  pose proof (fun y s l s' H n atts => proj1 (abstract_declares y s l s' H n atts)) as A1.
  pose proof (fun y s l s' H n atts => proj2 (abstract_declares y s l s' H n atts)) as A2.
  pose proof (fun y s l s' H n atts => proj1 (num_declares y s l s' H n atts)) as N1.
  pose proof (fun y s l s' H n atts => proj2 (num_declares y s l s' H n atts)) as N2.
  pose proof (A1 _ _ _ _ Xd "" []) as H1. pose proof (A2 _ _ _ _ Xd "" []) as H2.
  pose proof (N1 _ _ _ _ Xe "" []) as H3. pose proof (N2 _ _ _ _ Xe "" []) as H4.
  pose proof (each_declares _ _ _ _ _ A1 _ _ _ _ Xa "" []) as H5. pose proof (each_declares_nothing _ _ _ _ A2 _ _ _ _ Xa "" []) as H6.
  pose proof (each_declares _ _ _ _ _ N1 _ _ _ _ Xn "" []) as H7. pose proof (each_declares_nothing _ _ _ _ N2 _ _ _ _ Xn "" []) as H8.
  cbn [declared] in *. rewrite !flat_map_app, H1, H2, H3, H4, H5, H6, H7, H8. cbn [map app]. rewrite !map_map, app_nil_r. split; reflexivity.
Qed.
(** ** References *)
Lemma override_declares o s l s' : b_override o s = Some (l, s') -> forall n atts, declared "w:abstractNumId" "w:val" (E n atts l) = [].
Proof.
  unfold b_override. intros X n atts. apply BuildProofs.bind_inv in X as (r & s1 & _ & X). injection X as <- _. reflexivity.
Qed.
Lemma each_refers A (f : A -> BuildModel.M (list xml)) name inner a (g : A -> list string) :
  (forall y s l s', f y s = Some (l, s') -> forall n atts, referred name inner a (E n atts l) = g y) ->
  forall ys s l s', BuildModel.each f ys s = Some (l, s') -> forall n atts, referred name inner a (E n atts l) = flat_map g ys.
Proof.
  intros H. induction ys as [|y ys IH]; intros s l s' X n atts; cbn [BuildModel.each] in X.
  - injection X as <- _. reflexivity.
  - apply BuildProofs.bind_inv in X as (l1 & s1 & X1 & X). apply BuildProofs.bind_inv in X as (l2 & s2 & X2 & X).
    injection X as <- _. specialize (H _ _ _ _ X1 n atts). specialize (IH _ _ _ X2 n atts). cbn [referred flat_map] in *. rewrite flat_map_app, H, IH. reflexivity.
Qed.
Lemma num_refers y s l s' : b_num y s = Some (l, s') -> forall n atts, referred "w:num" "w:abstractNumId" "w:val" (E n atts l) = [show_N (nm_abstract y)].
Proof.
  unfold b_num. intros X n atts. apply BuildProofs.bind_inv in X as (r & s1 & Xr & X). injection X as <- _.
  pose proof (each_declares_nothing _ _ _ _ override_declares _ _ _ _ Xr "" []) as H. cbn [declared] in H.
  cbn [referred flat_map declared BuildModel.valued_n BuildModel.valued BuildModel.leaf]. rewrite H. reflexivity.
Qed.
Lemma abstract_refers y s l s' : b_abstract y s = Some (l, s') -> forall n atts, referred "w:num" "w:abstractNumId" "w:val" (E n atts l) = [].
Proof. unfold b_abstract. intros X n atts. apply BuildProofs.bind_inv in X as (r & s1 & _ & X). injection X as <- _. reflexivity. Qed.
Lemma numberings_refer t s x s' : b_numberings t s = Some (x, s') ->
  referred "w:num" "w:abstractNumId" "w:val" x = map show_N (1%N :: map nm_abstract (ns_nums t)).
Proof.
  unfold b_numberings. intros X. apply BuildProofs.bind_inv in X as (d & s1 & Xd & X). apply BuildProofs.bind_inv in X as (a & s2 & Xa & X).
  apply BuildProofs.bind_inv in X as (e & s3 & Xe & X). apply BuildProofs.bind_inv in X as (n & s4 & Xn & X). injection X as <- _.
  pose proof (abstract_refers _ _ _ _ Xd "" []) as H1. pose proof (num_refers _ _ _ _ Xe "" []) as H2.
  pose proof (each_refers _ _ _ _ _ _ abstract_refers _ _ _ _ Xa "" []) as H3. pose proof (each_refers _ _ _ _ _ _ num_refers _ _ _ _ Xn "" []) as H4.
  cbn [referred] in *. rewrite !flat_map_app, H1, H2, H3, H4. cbn [map app].
  assert (Z : forall l : list abstract_num, flat_map (fun _ => @nil string) l = []) by (intros l; induction l; auto).
  rewrite Z. cbn [app]. f_equal. rewrite map_map. clear. induction (ns_nums t) as [|z zs IH]; cbn [flat_map map app]; [reflexivity | now rewrite IH].
Qed.
Lemma In_shown n l : In (show_N n) (map show_N l) <-> In n l.
Proof.
  split; [|apply in_map]. intros X. apply in_map_iff in X as (m & Em & Hm). apply show_N_inj in Em. now subst m.
Qed.
Lemma NoDup_shown l : NoDup (map show_N l) <-> NoDup l.
Proof.
  split; [apply NoDup_map_inv|]. intros H. induction H as [|n l Hn _ IH]; cbn [map]; constructor; auto.
  intros X. apply in_map_iff in X as (m & Em & Hm). apply show_N_inj in Em. congruence.
Qed.

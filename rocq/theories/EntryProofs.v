(** The setters of styles, numberings and settings do what they say. *)
From Coq Require Import NArith ZArith List Bool.
From Verif Require Import Str StrFacts EscapeModel TypesModel Props PropsSet JsonModel JsonProofs TsSpec TsProofs StyleModel SheetModel
  CallModel CallSpec CallProofs EntryModel EntrySpec.
Import ListNotations.
Open Scope list_scope.

(** ** Outside of some members *)
Definition outside (gs : list string) (w1 w2 : view) : Prop := forall k path, ~ In k gs -> w1 (k :: path) = w2 (k :: path).
Definition own (gs : list string) (c : change) : bool :=
  match c with Put (k :: _) _ | Drop (k :: _) | Append (k :: _) _ => negb (existsb (String.eqb k) gs) | _ => false end.
Lemma own_change gs c w1 w2 : own gs c = true -> outside gs w1 w2 -> outside gs (change_of c w1) (change_of c w2).
Proof.
  intros O A k path N. destruct c as [[|a q] v|[|a q]|q v|g j v|[|a q] v]; try discriminate O; cbn [change_of].
  - unfold put. destruct (below (a :: q) (k :: path)); [reflexivity | now apply A].
  - unfold put. destruct (below (a :: q) (k :: path)); [reflexivity | now apply A].
  - cbn [own] in O. apply negb_true_iff in O. rewrite (A a q).
    + destruct (w2 (a :: q)) as [[]|]; try now apply A. unfold put. destruct (below (a :: q) (k :: path)); [reflexivity | now apply A].
    + intros I. apply Bool.not_true_iff_false in O. apply O, existsb_exists. exists a. split; [exact I | apply String.eqb_refl].
Qed.
Lemma own_changes gs l : forall w1 w2, forallb (own gs) l = true -> outside gs w1 w2 -> outside gs (changes_of l w1) (changes_of l w2).
Proof.
  induction l as [|c l IH]; intros w1 w2 O A; [exact A|]. cbn [forallb] in O. apply andb_prop in O. destruct O as [O1 O2].
  apply IH; [exact O2|]. now apply own_change.
Qed.
Lemma own_histories {C P} gs (on : C -> P -> P) json_of says :
  (forall c, forallb (own gs) (says c) = true) -> (forall c p, outside gs (seen (json_of (on c p))) (changes_of (says c) (seen (json_of p)))) ->
  forall cs p, tells_outside gs says cs (seen (json_of p)) (seen (json_of (calls on cs p))).
Proof.
  intros O S cs p. change (outside gs (seen (json_of (calls on cs p))) (said says cs (seen (json_of p)))).
  assert (G : forall w, outside gs (seen (json_of p)) w -> outside gs (seen (json_of (calls on cs p))) (said says cs w)).
  { revert p. induction cs as [|c cs IH]; intros p w A; [exact A|]. cbn [fold_left calls said]. apply IH. intros k path N.
    rewrite (S c p k path N). now apply (own_changes gs _ _ _ (O c) A). }
  apply G. intros k path _. reflexivity.
Qed.
Lemma one_call_outside gs fs hs l ks : map fst fs = ks -> map fst hs = ks -> distinct ks = true -> forallb (known ks) l = true ->
  (forall k, In k ks -> ~ In k gs -> forall path, seen_in hs (k :: path) = changes_of l (seen_in fs) (k :: path)) ->
  outside gs (seen (obj hs)) (changes_of l (seen (obj fs))).
Proof.
  intros F G D Kn A k path Q. rewrite seen_obj by congruence. rewrite (changes_same l _ (seen_in fs)) by (apply seen_obj; congruence).
  destruct (in_dec string_dec k ks) as [I|N]; [now apply A|].
  apply not_known in N. rewrite (changes_other ks) by assumption. cbn [seen_in]. now rewrite !see_other by congruence.
Qed.

(** ** Parts *)
Lemma part_calls {C P A B} (on : C -> P -> P) (on' : A -> B -> B) (part : C -> option A) (get : P -> B) :
  (forall c p, get (on c p) = match part c with Some a => on' a (get p) | None => get p end) ->
  forall cs p, get (calls on cs p) = calls on' (only part cs) (get p).
Proof.
  intros H. induction cs as [|c cs IH]; intros p; [reflexivity|]. unfold calls in *. cbn [fold_left only flat_map].
  rewrite IH, H. unfold only. destruct (part c); reflexivity.
Qed.
Lemma part_tells {A B} (on : A -> B -> B) json_of says l b : does_what_it_says on json_of says ->
  tells says l (seen (json_of b)) (seen (json_of (calls on l b))).
Proof. intros D. exact (D l b). Qed.

Ltac own_calls c := apply own_histories; [intros c; destruct c; try reflexivity; match goal with v : bool |- _ => destruct v; reflexivity end|];
  intros c p; eapply one_call_outside; try reflexivity;
  [destruct c; try reflexivity; match goal with v : bool |- _ => destruct v; reflexivity end|].
Ltac names_of I := cbn [map fst has may flag In] in I; repeat (destruct I as [<-|I]); [..|destruct I].

(** ** Styles *)
Lemma style_own cs s : tells_outside ["runProperty"; "paragraphProperty"; "tableProperty"]%string style_says cs (seen (j_style s)) (seen (j_style (calls on_style cs s))).
Proof.
  own_calls c. intros k I N path. names_of I; try (exfalso; apply N; cbn; tauto).
  all: destruct c; try reflexivity; match goal with v : bool |- _ => destruct v; reflexivity end.
Qed.
Lemma style_run_part cs s : sty_rpr (calls on_style cs s) = calls on_run (only run_of_style cs) (sty_rpr s).
Proof. apply (part_calls on_style on_run run_of_style sty_rpr). now intros []. Qed.
Lemma style_para_part cs s : sty_ppr (calls on_style cs s) = calls on_para (only para_of_style cs) (sty_ppr s).
Proof. apply (part_calls on_style on_para para_of_style sty_ppr). now intros []. Qed.
Lemma style_table_part cs : forall s, existsb whole_table cs = false -> sty_tblpr (calls on_style cs s) = calls on_table (only table_of_style cs) (sty_tblpr s).
Proof.
  induction cs as [|c cs IH]; intros s W; [reflexivity|]. cbn [existsb] in W. apply orb_false_elim in W. destruct W as [W1 W2].
  unfold calls in *. cbn [fold_left only flat_map]. rewrite IH by exact W2. destruct c; try reflexivity. discriminate W1.
Qed.
Lemma style_history cs s : style_setters cs (seen (j_style s)) (seen (j_style (calls on_style cs s))).
Proof.
  split.
  - apply style_own.
  - change (tells run_says (only run_of_style cs) (seen (j_rpr (sty_rpr s))) (seen (j_rpr (sty_rpr (calls on_style cs s))))).
    rewrite style_run_part. apply part_tells, run_calls.
  - change (tells para_says (only para_of_style cs) (seen (j_ppr (sty_ppr s))) (seen (j_ppr (sty_ppr (calls on_style cs s))))).
    rewrite style_para_part. apply part_tells, para_calls.
  - intros W. change (tells table_says (only table_of_style cs) (seen (j_tblpr (sty_tblpr s))) (seen (j_tblpr (sty_tblpr (calls on_style cs s))))).
    rewrite style_table_part by exact W. apply part_tells, table_calls.
  - intros bs p ds -> W.
    change (tells table_says (only table_of_style ds) (seen (j_tblpr p)) (seen (j_tblpr (sty_tblpr (calls on_style (bs ++ YTableProperty p :: ds) s))))).
    unfold calls. rewrite fold_left_app. cbn [fold_left]. fold (calls on_style bs s). fold (calls on_style ds (on_style (YTableProperty p) (calls on_style bs s))).
    rewrite style_table_part by exact W. apply (part_tells on_table), table_calls.
Qed.
Lemma styles_history cs t : styles_setters cs (seen (j_styles t)) (seen (j_styles (calls on_styles cs t))).
Proof.
  split.
  - own_calls c. intros k I N path. names_of I; try (exfalso; apply N; cbn; tauto).
    destruct c; try reflexivity. destruct path as [|k path]; [|reflexivity]. cbn. now rewrite map_app.
  - cbn zeta. change (tells run_says (only default_run cs) (seen (j_rpr (ss_rpr t))) (seen (j_rpr (ss_rpr (calls on_styles cs t))))).
    rewrite (part_calls on_styles on_run default_run ss_rpr) by now intros []. apply part_tells, run_calls.
  - cbn zeta. change (tells para_says (only default_para cs) (seen (j_ppr (ss_ppr t))) (seen (j_ppr (ss_ppr (calls on_styles cs t))))).
    rewrite (part_calls on_styles on_para default_para ss_ppr) by now intros []. apply part_tells, para_calls.
Qed.

(** ** Numberings and settings *)
Lemma level_history cs l : level_setters cs (seen (j_level l)) (seen (j_level (calls on_level cs l))).
Proof.
  split.
  - own_calls c. intros k I N path. names_of I; try (exfalso; apply N; cbn; tauto).
    all: destruct c; try reflexivity.
  - change (tells run_says (only run_of_level cs) (seen (j_rpr (lv_rpr l))) (seen (j_rpr (lv_rpr (calls on_level cs l))))).
    rewrite (part_calls on_level on_run run_of_level lv_rpr) by now intros []. apply part_tells, run_calls.
  - change (tells para_says (only para_of_level cs) (seen (j_ppr (lv_ppr l))) (seen (j_ppr (lv_ppr (calls on_level cs l))))).
    rewrite (part_calls on_level on_para para_of_level lv_ppr) by now intros []. apply part_tells, para_calls.
Qed.
Ltac all_own c := own_calls c; let k := fresh "k" in let I := fresh "I" in let path := fresh "path" in
  intros k I _ path; names_of I; destruct c; try reflexivity; destruct path as [|? path]; try reflexivity; cbn; now rewrite map_app.
Lemma abstract_history cs a : tells_outside [] abstract_says cs (seen (j_abstract a)) (seen (j_abstract (calls on_abstract cs a))).
Proof. all_own c. Qed.
Lemma override_history cs o : tells_outside [] override_says cs (seen (j_override o)) (seen (j_override (calls on_override cs o))).
Proof. all_own c. Qed.
Lemma num_history cs n : tells_outside [] num_says cs (seen (j_num n)) (seen (j_num (calls on_num cs n))).
Proof. all_own c. Qed.
Lemma numberings_history cs t : tells_outside [] numberings_says cs (seen (j_numberings t)) (seen (j_numberings (calls on_numberings cs t))).
Proof. all_own c. Qed.
Lemma settings_history cs x : tells_outside [] settings_says cs (seen (j_settings x)) (seen (j_settings (calls on_settings cs x))).
Proof. all_own c. Qed.

(** ** The last call wins *)
Lemma said_elsewhere {C} (says : C -> list change) k path : (forall c, forallb placed (says c) = true) -> forall cs w,
  forallb (fun c => negb (names k (says c))) cs = true -> said says cs w (k :: path) = w (k :: path).
Proof.
  intros P. induction cs as [|c cs IH]; intros w N; [reflexivity|]. cbn [forallb] in N. apply andb_prop in N. destruct N as [N1 N2].
  unfold said in *. cbn [fold_left]. rewrite IH by exact N2. apply changes_elsewhere, named_distinct; [apply P | now apply negb_true_iff].
Qed.
Lemma said_last {C} (says : C -> list change) k path v bs c ds w : (forall c, forallb placed (says c) = true) ->
  filter (fun x => place_of x =s k) (says c) = [Put [k] v] -> forallb (fun d => negb (names k (says d))) ds = true ->
  said says (bs ++ c :: ds) w (k :: path) = at_ path v.
Proof.
  intros P F N. unfold said. rewrite fold_left_app. cbn [fold_left].
  change (said says ds (changes_of (says c) (said says bs w)) (k :: path) = at_ path v).
  rewrite said_elsewhere by assumption. now apply put_last.
Qed.

(** ** What is added *)
Lemma grown {C P A} (on : C -> P -> P) (part : C -> option A) (get : P -> list A) :
  (forall c p, get (on c p) = match part c with Some a => get p ++ [a] | None => get p end) ->
  forall cs p, get (calls on cs p) = get p ++ only part cs.
Proof.
  intros H. induction cs as [|c cs IH]; intros p; [symmetry; apply app_nil_r|]. unfold calls in *. cbn [fold_left only flat_map].
  rewrite IH, H. unfold only. destruct (part c); [now rewrite <- app_assoc | reflexivity].
Qed.

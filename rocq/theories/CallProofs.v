(** The setters do what they say. *)
From Coq Require Import NArith ZArith List Bool Lia.
From Verif Require Import Str StrFacts EscapeModel TypesModel Props PropsSet JsonModel JsonProofs TsSpec TsProofs CallModel CallSpec.
Import ListNotations.
Open Scope list_scope.

(** ** Histories *)
Definition agree (w1 w2 : view) : Prop := (forall path, plain path = true -> w1 path = w2 path) /\ (forall path, missing (w1 path) = missing (w2 path)).
Definition fine (c : change) : bool := match c with Append q _ => plain q | _ => true end.
Lemma agree_refl w : agree w w.
Proof. now split. Qed.
Lemma agree_trans w1 w2 w3 : agree w1 w2 -> agree w2 w3 -> agree w1 w3.
Proof. intros [A B] [C D]. split; intros path; [intros P; rewrite A, C by exact P; reflexivity | now rewrite B, D]. Qed.
Lemma put_agree q o w1 w2 : agree w1 w2 -> agree (put q o w1) (put q o w2).
Proof. intros [A B]. split; intros path; unfold put; [intros P|]; destruct (below q path); auto. Qed.
Lemma change_agree c w1 w2 : fine c = true -> agree w1 w2 -> agree (change_of c w1) (change_of c w2).
Proof.
  intros F A. destruct c as [q v|q|q v|g k v|q v]; cbn [change_of]; try now apply put_agree.
  - rewrite (proj2 A q). destruct (missing (w2 q)); [now apply put_agree | exact A].
  - rewrite (proj2 A [g]). destruct (missing (w2 [g])); [exact A | now apply put_agree].
  - cbn [fine] in F. rewrite (proj1 A q F). destruct (w2 q) as [[]|]; try exact A. now apply put_agree.
Qed.
Lemma changes_agree l : forall w1 w2, forallb fine l = true -> agree w1 w2 -> agree (changes_of l w1) (changes_of l w2).
Proof.
  induction l as [|c l IH]; intros w1 w2 F A; [exact A|]. cbn [forallb] in F. apply andb_prop in F. destruct F as [F1 F2].
  apply IH; [exact F2|]. now apply change_agree.
Qed.
Lemma histories {C P} (on : C -> P -> P) json_of says :
  (forall c, forallb fine (says c) = true) -> (forall c p, agree (seen (json_of (on c p))) (changes_of (says c) (seen (json_of p)))) ->
  does_what_it_says on json_of says.
Proof.
  intros F S cs p. cbn zeta. change (agree (seen (json_of (calls on cs p))) (fold_left (fun w c => changes_of (says c) w) cs (seen (json_of p)))).
  assert (G : forall w, agree (seen (json_of p)) w -> agree (seen (json_of (calls on cs p))) (fold_left (fun w c => changes_of (says c) w) cs w)).
  { revert p. induction cs as [|c cs IH]; intros p w A; [exact A|]. cbn [fold_left calls]. apply IH. eapply agree_trans; [apply S|]. now apply changes_agree. }
  apply G, agree_refl.
Qed.

(** ** Objects *)
Definition see (fs : fields) (k : string) (path : list string) : option json := match lookup k fs with Some v => at_ path v | None => None end.
Lemma at_obj fs k path : distinct (map fst fs) = true -> at_ (k :: path) (obj fs) = see fs k path.
Proof. intros D. cbn [at_ obj]. now rewrite member_lookup. Qed.
Definition seen_in (fs : fields) : view := fun path => match path with [] => Some (obj fs) | k :: path => see fs k path end.
Lemma seen_obj fs : distinct (map fst fs) = true -> forall path, seen (obj fs) path = seen_in fs path.
Proof. intros D [|k path]; [reflexivity|]. unfold seen. now rewrite at_obj. Qed.
Lemma changes_same l : forall w1 w2, (forall path, w1 path = w2 path) -> forall path, changes_of l w1 path = changes_of l w2 path.
Proof.
  induction l as [|c l IH]; intros w1 w2 S path; [apply S|]. apply IH. clear path. intros path.
  destruct c as [q v|q|q v|g k v|q v]; cbn [change_of]; rewrite ?S; unfold put.
  - destruct (below q path); [reflexivity | apply S].
  - destruct (below q path); [reflexivity | apply S].
  - destruct (missing (w2 q)); [destruct (below q path)|]; auto.
  - destruct (missing (w2 [g])); [|destruct (below [g; k] path)]; auto.
  - destruct (w2 q) as [[]|]; try apply S. destruct (below q path); auto.
Qed.
Definition groups := ["indent"; "borders"; "frameProperty"; "runProperty"; "margins"]%string.
Lemma agree_intro w1 w2 : (forall k path, plain (k :: path) = true -> w1 (k :: path) = w2 (k :: path)) ->
  missing (w1 []) = missing (w2 []) -> Forall (fun g => missing (w1 [g]) = missing (w2 [g])) groups -> agree w1 w2.
Proof.
  intros A B C. split.
  - intros [|k path] P; [discriminate P | now apply A].
  - intros [|k path]; [exact B|]. destruct (plain (k :: path)) eqn:P; [now rewrite A|]. destruct path as [|a path]; [|discriminate P].
    unfold plain in P. apply negb_false_iff, existsb_exists in P. destruct P as (g & I & G). apply String.eqb_eq in G as ->. rewrite Forall_forall in C. now apply C.
Qed.
(** Names the changes and the object do not have *)
Definition known (ks : list string) (c : change) : bool :=
  match c with Put [] _ | Drop [] | Default [] _ | Append [] _ => false | _ => existsb (String.eqb (place_of c)) ks end.
Lemma other_place ks k a : existsb (String.eqb a) ks = true -> existsb (String.eqb k) ks = false -> (a =s k) = false.
Proof. intros A B. destruct (a =s k) eqn:E; [|reflexivity]. apply String.eqb_eq in E as ->. congruence. Qed.
Lemma put_other q o w k path a r : q = a :: r -> (a =s k) = false -> put q o w (k :: path) = w (k :: path).
Proof. intros -> E. unfold put. cbn [below]. now rewrite E. Qed.
Lemma change_other ks c w k path : known ks c = true -> existsb (String.eqb k) ks = false -> change_of c w (k :: path) = w (k :: path).
Proof.
  intros K N. destruct c as [q v|q|q v|g j v|q v]; try (destruct q as [|a q]; [discriminate K|]);
    pose proof (other_place _ _ _ K N) as E; cbn [place_of] in E; cbn [change_of].
  - now apply (put_other _ _ _ _ _ a q).
  - now apply (put_other _ _ _ _ _ a q).
  - destruct (missing (w (a :: q))); [|reflexivity]. now apply (put_other _ _ _ _ _ a q).
  - destruct (missing (w [g])); [reflexivity|]. now apply (put_other _ _ _ _ _ g [j]).
  - destruct (w (a :: q)) as [[]|]; try reflexivity. now apply (put_other _ _ _ _ _ a q).
Qed.
Lemma changes_other ks k path : existsb (String.eqb k) ks = false -> forall l w, forallb (known ks) l = true ->
  changes_of l w (k :: path) = w (k :: path).
Proof.
  intros N. induction l as [|c l IH]; intros w K; [reflexivity|]. cbn [forallb] in K. apply andb_prop in K. destruct K as [K1 K2].
  change (changes_of (c :: l) w) with (changes_of l (change_of c w)). rewrite IH by exact K2. now apply (change_other ks).
Qed.
Lemma see_other fs k path : existsb (String.eqb k) (map fst fs) = false -> see fs k path = None.
Proof.
  unfold see. induction fs as [|[a o] fs IH]; [reflexivity|]. cbn [map fst existsb lookup]. intros N. apply orb_false_elim in N. destruct N as [N1 N2].
  rewrite String.eqb_sym in N1. rewrite N1. now apply IH.
Qed.
Lemma changes_whole ks : forall l w, forallb (known ks) l = true -> changes_of l w [] = w [].
Proof.
  induction l as [|c l IH]; intros w K; [reflexivity|]. cbn [forallb] in K. apply andb_prop in K. destruct K as [K1 K2].
  change (changes_of (c :: l) w) with (changes_of l (change_of c w)). rewrite IH by exact K2. clear IH K2.
  destruct c as [q v|q|q v|g j v|q v]; try (destruct q as [|a q]; [discriminate K1|]); cbn [change_of]; try reflexivity.
  - now destruct (missing (w (a :: q))).
  - now destruct (missing (w [g])).
  - now destruct (w (a :: q)) as [[]|].
Qed.
Lemma not_known ks k : ~ In k ks -> existsb (String.eqb k) ks = false.
Proof.
  intros N. destruct (existsb (String.eqb k) ks) eqn:E; [|reflexivity]. apply existsb_exists in E. destruct E as (a & I & Q).
  apply String.eqb_eq in Q as ->. contradiction.
Qed.
(** What has to be looked at for one call: the names of the object. *)
Lemma one_call_exact fs gs l ks : map fst fs = ks -> map fst gs = ks -> distinct ks = true -> forallb (known ks) l = true ->
  (forall k, In k ks -> forall path, seen_in gs (k :: path) = changes_of l (seen_in fs) (k :: path)) ->
  forall k path, seen (obj gs) (k :: path) = changes_of l (seen (obj fs)) (k :: path).
Proof.
  intros F G D Kn A k path. rewrite seen_obj by congruence. rewrite (changes_same l _ (seen_in fs)) by (apply seen_obj; congruence).
  destruct (in_dec string_dec k ks) as [I|N]; [now apply A|].
  apply not_known in N. rewrite (changes_other ks) by assumption. cbn [seen_in]. now rewrite !see_other by congruence.
Qed.
Lemma exact_agree l w1 w2 ks : forallb (known ks) l = true -> missing (w1 []) = missing (w2 []) ->
  (forall k path, w1 (k :: path) = changes_of l w2 (k :: path)) -> agree w1 (changes_of l w2).
Proof.
  intros K M A. split.
  - intros [|k path] P; [discriminate P | apply A].
  - intros [|k path]; [now rewrite (changes_whole ks) | now rewrite A].
Qed.
Lemma one_call fs gs l ks : map fst fs = ks -> map fst gs = ks -> distinct ks = true -> forallb (known ks) l = true ->
  (forall k, In k ks -> forall path, plain (k :: path) = true -> seen_in gs (k :: path) = changes_of l (seen_in fs) (k :: path)) ->
  (forall k, In k ks -> missing (seen_in gs [k]) = missing (changes_of l (seen_in fs) [k])) ->
  agree (seen (obj gs)) (changes_of l (seen (obj fs))).
Proof.
  intros F G D Kn A M. subst ks.
  assert (S1 : forall path, seen (obj gs) path = seen_in gs path) by (apply seen_obj; congruence).
  assert (S2 : forall path, changes_of l (seen (obj fs)) path = changes_of l (seen_in fs) path) by (apply changes_same; intros; apply seen_obj; congruence).
  assert (O : forall k path, ~ In k (map fst fs) -> seen_in gs (k :: path) = changes_of l (seen_in fs) (k :: path)).
  { intros k path N. apply not_known in N. rewrite (changes_other _ _ _ N) by exact Kn. cbn [seen_in]. now rewrite !see_other by congruence. }
  apply agree_intro.
  - intros k path P. rewrite S1, S2. destruct (in_dec string_dec k (map fst fs)) as [I|N]; [now apply A | now apply O].
  - rewrite S1, S2. now rewrite (changes_whole _ _ _ Kn).
  - apply Forall_forall. intros g _. rewrite S1, S2. destruct (in_dec string_dec g (map fst fs)) as [I|N]; [now apply M | now rewrite O].
Qed.
(** Changes of a group are changes of what is in it. *)
Definition groupable (c : change) : bool := match c with PutIn _ _ _ => false | _ => true end.
Lemma put_group g q o w path : put (g :: q) o w (g :: path) = put q o (fun p => w (g :: p)) path.
Proof. unfold put. cbn [below]. now rewrite String.eqb_refl. Qed.
Lemma changes_group g : forall l w path, forallb groupable l = true ->
  changes_of (map (in_group g) l) w (g :: path) = changes_of l (fun p => w (g :: p)) path.
Proof.
  induction l as [|c l IH]; intros w path K; [reflexivity|]. cbn [forallb] in K. apply andb_prop in K. destruct K as [K1 K2]. cbn [map].
  change (changes_of (in_group g c :: map (in_group g) l) w) with (changes_of (map (in_group g) l) (change_of (in_group g c) w)).
  rewrite IH by exact K2. change (changes_of (c :: l) (fun p => w (g :: p))) with (changes_of l (change_of c (fun p => w (g :: p)))).
  apply changes_same. clear path. intros path.
  destruct c as [q v|q|q v|h k v|q v]; cbn [change_of in_group]; try apply put_group; try discriminate K1.
  - destruct (missing (w (g :: q))); [apply put_group | reflexivity].
  - destruct (w (g :: q)) as [[]|]; try reflexivity. apply put_group.
Qed.

Ltac keys k l := match l with
  | nil => idtac
  | ?a :: ?l => let H := fresh "K" in destruct (a =s k) eqn:H; [apply String.eqb_eq in H; subst k | keys k l]
  end.
Ltac unknown := repeat match goal with H : (?a =s ?k) = false |- _ => rewrite H; clear H end.
Ltac each_name I := cbn [map fst has may flag rpr_fields ppr_fields In] in I; repeat (destruct I as [<-|I]); [..|destruct I].

(** ** Runs *)
Ltac run_cases c := destruct c; try match goal with id : option N |- _ => destruct id end.
Lemma run_fine c : forallb fine (run_says c) = true.
Proof. run_cases c; reflexivity. Qed.
Lemma run_known c p : forallb (known (map fst (rpr_fields p))) (run_says c) = true.
Proof. run_cases c; reflexivity. Qed.
Lemma run_exact c p k path : seen (j_rpr (on_run c p)) (k :: path) = changes_of (run_says c) (seen (j_rpr p)) (k :: path).
Proof.
  revert k path. apply one_call_exact with (ks := map fst (rpr_fields p)); try reflexivity; [apply run_known|].
  intros k I path. each_name I.
  all: run_cases c; try reflexivity.
  all: unfold on_run, color_or_auto; destruct p as [? ? ? o]; destruct o; reflexivity.
Qed.
Lemma run_calls : does_what_it_says on_run j_rpr run_says.
Proof.
  apply histories; [apply run_fine|]. intros c p. apply exact_agree with (ks := map fst (rpr_fields p)); [apply run_known | reflexivity|]. apply run_exact.
Qed.
Ltac simple_calls c := apply histories; [now destruct c|]; intros c p; eapply one_call; try reflexivity;
  [now destruct c | intros k I path _; each_name I; destruct c; reflexivity | intros k I; each_name I; destruct c; reflexivity].
Lemma font_calls : does_what_it_says on_fonts j_fonts font_says.
Proof. simple_calls c. Qed.
Lemma spacing_calls : does_what_it_says on_spacing j_spacing spacing_says.
Proof. simple_calls c. Qed.
Lemma row_calls : does_what_it_says on_row j_trpr row_says.
Proof. simple_calls c. Qed.

(** ** Groups *)
Ltac in_a_group e := intros k path; revert k path;
  match goal with |- forall k path, seen _ _ = put ?q ?o ?w _ => match o with Some ?v => change (put q o w) with (changes_of [Put q v] w) end end;
  eapply one_call_exact; try reflexivity; try (now destruct e); intros k I path; each_name I; destruct e; reflexivity.
Lemma pborder_exact s b x : forall k path, seen (j_pborders (pborders_set s b x)) (k :: path) =
  put [pside_name s] (Some (j_pborder (pside_name s) b)) (seen (j_pborders x)) (k :: path).
Proof. in_a_group s. Qed.
Lemma tborder_exact s b x : forall k path, seen (j_tborders (tborders_set s b x)) (k :: path) =
  put [tside_name s] (Some (j_border (tside_name s) b)) (seen (j_tborders x)) (k :: path).
Proof. in_a_group s. Qed.
Lemma cborder_exact s b x : forall k path, seen (j_cborders (cborders_set s b x)) (k :: path) =
  put [cside_name s] (Some (j_border (cside_name s) b)) (seen (j_cborders x)) (k :: path).
Proof. in_a_group s. Qed.
Lemma tmargin_exact e n t x : forall k path, seen (j_tmargins (tmargins_set e (n, t) x)) (k :: path) =
  put [edge_name e] (Some (margin_of n t)) (seen (j_tmargins x)) (k :: path).
Proof. in_a_group e. Qed.
Lemma cmargin_exact e n t x : forall k path, seen (j_cmargins (cmargins_set e (n, t) x)) (k :: path) =
  put [edge_name e] (Some (margin_of n t)) (seen (j_cmargins x)) (k :: path).
Proof. in_a_group e. Qed.
Lemma hanging_exact z i : forall k path, seen (j_indent (set_i_hanging_chars (Some z) i)) (k :: path) =
  put ["hangingChars"%string] (Some (JNum z)) (seen (j_indent i)) (k :: path).
Proof. in_a_group i. Qed.
Lemma first_line_exact z i : forall k path, seen (j_indent (set_i_first_line_chars (Some z) i)) (k :: path) =
  put ["firstLineChars"%string] (Some (JNum z)) (seen (j_indent i)) (k :: path).
Proof. in_a_group i. Qed.
Lemma frame_exact c f : forall k path, seen (j_frame (on_frame c f)) (k :: path) = change_of (frame_says c) (seen (j_frame f)) (k :: path).
Proof.
  change (change_of (frame_says c) (seen (j_frame f))) with (changes_of [frame_says c] (seen (j_frame f))).
  eapply one_call_exact; try reflexivity; [now destruct c | intros k I path; each_name I; destruct c; reflexivity].
Qed.
Lemma tcleared_exact x : forall k path, seen (j_tborders tborders_cleared) (k :: path) =
  changes_of (map (fun s => Put [tside_name s] (table_line (tside_name s) "nil")) [TLeft; TRight; TTop; TBottom; TInsideH; TInsideV]) (seen (j_tborders x)) (k :: path).
Proof. eapply one_call_exact; try reflexivity. intros k I path; each_name I; reflexivity. Qed.
Ltac in_group_of P path := destruct path as [|k path]; [discriminate P|].

(** ** Tables and cells *)
Lemma table_calls : does_what_it_says on_table j_tblpr table_says.
Proof.
  apply histories; [now destruct c|]. intros c p. eapply one_call; try reflexivity; [now destruct c | |].
  - intros k I path P. each_name I.
    all: destruct c; try reflexivity.
    all: try (in_group_of P path).
    all: try exact (tborder_exact _ _ _ _ _).
    all: try exact (tcleared_exact _ _ _).
    all: try (destruct p as [? ? ? m]; destruct m; try reflexivity).
    all: exact (tmargin_exact _ _ _ _ _ _).
  - intros k I. each_name I. all: destruct c; try reflexivity. all: destruct p as [? ? ? m]; destruct m; reflexivity.
Qed.
Lemma cell_calls : does_what_it_says on_cell j_tcpr cell_says.
Proof.
  apply histories; [now destruct c|]. intros c p. eapply one_call; try reflexivity; [now destruct c | |].
  - intros k I path P. each_name I.
    all: destruct c; try reflexivity.
    all: try (in_group_of P path).
    all: destruct p as [? bs ? ? ? ? ? m]; destruct bs; destruct m; try reflexivity.
    all: try exact (cborder_exact _ _ _ _ _).
    all: try exact (cmargin_exact _ _ _ _ _ _).
  - intros k I. each_name I. all: destruct c; try reflexivity. all: destruct p as [? bs ? ? ? ? ? m]; destruct bs; destruct m; reflexivity.
Qed.

(** ** Paragraphs *)
Ltac para_cases c := destruct c as [| | | | | | | | | | | | | | | | | | | | | | | | | | |r|f].
Lemma run_groupable r : forallb groupable (run_says r) = true.
Proof. run_cases r; reflexivity. Qed.
Lemma in_run_other r w k path : ("runProperty"%string =s k) = false -> changes_of (map (in_group "runProperty") (run_says r)) w (k :: path) = w (k :: path).
Proof.
  intros E. apply changes_other with (ks := ["runProperty"%string]); [cbn [existsb]; rewrite String.eqb_sym, E; reflexivity|]. run_cases r; reflexivity.
Qed.
Lemma in_run_missing r b ch : missing (changes_of (map (in_group "runProperty") (run_says r)) (seen_in (ppr_fields b ch)) ["runProperty"%string]) = false.
Proof. rewrite changes_group by apply run_groupable. rewrite (changes_whole _ _ _ (run_known r (p_rpr b))). reflexivity. Qed.
Lemma outline_clamped n : jn32 (if (10 <=? n)%N then 9%N else n) = number (N.min n 9).
Proof.
  unfold jn32, jn, number, as_u32. do 2 f_equal. destruct (N.leb_spec 10 n) as [L|L].
  - rewrite N.min_r by lia. reflexivity.
  - rewrite N.min_l by lia. apply N.mod_small. lia.
Qed.
Lemma para_calls : does_what_it_says on_para j_ppr para_says.
Proof.
  apply histories; [intros c; para_cases c; try reflexivity; [run_cases r | destruct f]; reflexivity|]. intros c [b ch].
  assert (E : forall b ch, j_ppr (PPr b ch) = obj (ppr_fields b (option_map j_change ch))) by (intros ? [?|]; reflexivity).
  cbn [on_para]. rewrite !E. clear E. apply one_call with (ks := map fst (ppr_fields b None)); try reflexivity. 
  - para_cases c; try reflexivity; [run_cases r | destruct f]; reflexivity.
  - intros k I path P. each_name I. all: para_cases c; try reflexivity.
    all: try (cbn [para_says]; rewrite in_run_other by reflexivity; reflexivity).
    all: try (in_group_of P path).
    all: try (destruct f; reflexivity).
    all: destruct b as [xr xs xn xa xi xl xkn xkl xb xp xw xo xsec xt xbo xf xta xar xsn xsh xd];
      match goal with
      | |- context [PHangingChars _] => destruct xi
      | |- context [PFirstLineChars _] => destruct xi
      | |- context [PFrame _] => destruct xf
      | |- context [PRun _] => idtac
      | |- context [POutline _] => idtac
      | |- _ => destruct xbo
      end; try reflexivity.
    all: try exact (pborder_exact _ _ _ _ _).
    all: try exact (hanging_exact _ _ _ _).
    all: try exact (first_line_exact _ _ _ _).
    all: try (destruct f; reflexivity).
    all: try exact (frame_exact _ _ _ _).
    all: try (destruct f; match goal with |- context [PFrame ?c] => exact (frame_exact c _ _ _) end).
    + cbn [para_says]. rewrite changes_group by apply run_groupable. exact (run_exact r _ _ _).
    + destruct path as [|k path]; [|reflexivity]. exact (f_equal Some (outline_clamped n)).
    + destruct path as [|k path]; [|reflexivity]. cbn. now rewrite map_app.
    + destruct path as [|k path]; [|reflexivity]. cbn. now rewrite map_app.
  - intros k I. each_name I. all: para_cases c; try reflexivity.
    all: try (cbn [para_says]; rewrite in_run_other by reflexivity; reflexivity).
    all: try (cbn [para_says]; rewrite in_run_missing; reflexivity).
    all: destruct b as [xr xs xn xa xi xl xkn xkl xb xp xw xo xsec xt xbo xf xta xar xsn xsh xd];
      match goal with
      | |- context [PHangingChars _] => destruct xi
      | |- context [PFirstLineChars _] => destruct xi
      | |- context [PFrame _] => destruct xf; destruct f
      | |- _ => destruct xbo
      end; reflexivity.
Qed.

(** ** The last call wins *)
Definition distinct_from k (c : change) : bool := match c with Put [] _ | Drop [] | Default [] _ | Append [] _ => false | _ => negb (place_of c =s k) end.
Lemma change_elsewhere c w k path : distinct_from k c = true -> change_of c w (k :: path) = w (k :: path).
Proof.
  intros D. destruct c as [q v|q|q v|g j v|q v]; try (destruct q as [|a q]; [discriminate D|]);
    cbn [distinct_from place_of] in D; apply negb_true_iff in D; cbn [change_of].
  - now apply (put_other _ _ _ _ _ a q).
  - now apply (put_other _ _ _ _ _ a q).
  - destruct (missing (w (a :: q))); [|reflexivity]. now apply (put_other _ _ _ _ _ a q).
  - destruct (missing (w [g])); [reflexivity|]. now apply (put_other _ _ _ _ _ g [j]).
  - destruct (w (a :: q)) as [[]|]; try reflexivity. now apply (put_other _ _ _ _ _ a q).
Qed.
Lemma changes_elsewhere k path : forall l w, forallb (distinct_from k) l = true -> changes_of l w (k :: path) = w (k :: path).
Proof.
  induction l as [|c l IH]; intros w D; [reflexivity|]. cbn [forallb] in D. apply andb_prop in D. destruct D as [D1 D2].
  change (changes_of (c :: l) w) with (changes_of l (change_of c w)). rewrite IH by exact D2. now apply change_elsewhere.
Qed.
Lemma named_distinct k l : forallb placed l = true -> names k l = false -> forallb (distinct_from k) l = true.
Proof.
  induction l as [|c l IH]; [reflexivity|]. cbn [forallb names existsb]. intros P N. apply andb_prop in P. destruct P as [P1 P2].
  apply orb_false_elim in N. destruct N as [N1 N2]. apply andb_true_intro. split; [|now apply IH].
  destruct c as [[|a q] v|[|a q]|[|a q] v|g j v|[|a q] v]; try discriminate P1; cbn [distinct_from]; now rewrite N1.
Qed.
Lemma put_last k path v : forall l w, forallb placed l = true -> filter (fun c => place_of c =s k) l = [Put [k] v] -> changes_of l w (k :: path) = at_ path v.
Proof.
  induction l as [|c l IH]; intros w P F; [discriminate F|]. cbn [forallb] in P. apply andb_prop in P. destruct P as [P1 P2].
  change (changes_of (c :: l) w) with (changes_of l (change_of c w)). cbn [filter] in F. destruct (place_of c =s k) eqn:E; [|now apply IH].
  injection F as -> F. rewrite changes_elsewhere.
  - cbn [change_of]. unfold put. cbn [below]. now rewrite String.eqb_refl.
  - apply named_distinct; [exact P2|]. unfold names. clear - F. induction l as [|c l IH]; [reflexivity|]. cbn [filter existsb] in *.
    destruct (place_of c =s k); [discriminate F | now apply IH].
Qed.
Section Wins.
Context {C P : Type} (on : C -> P -> P) (json_of : P -> json) (says : C -> list change).
Hypothesis placed_all : forall c, forallb placed (says c) = true.
Hypothesis does : does_what_it_says on json_of says.
Lemma unnamed_kept cs p k path : plain (k :: path) = true -> forallb (fun c => negb (names k (says c))) cs = true ->
  seen (json_of (calls on cs p)) (k :: path) = seen (json_of p) (k :: path).
Proof.
  intros Q N. destruct (does cs p) as [A _]. rewrite A by exact Q. clear A. generalize (seen (json_of p)). revert N.
  induction cs as [|c cs IH]; intros N w; [reflexivity|]. cbn [forallb] in N. apply andb_prop in N. destruct N as [N1 N2]. cbn [fold_left].
  rewrite IH by exact N2. apply changes_elsewhere, named_distinct; [apply placed_all | now apply negb_true_iff].
Qed.
Lemma last_wins cs c ds p k path v : plain (k :: path) = true -> filter (fun x => place_of x =s k) (says c) = [Put [k] v] ->
  forallb (fun d => negb (names k (says d))) ds = true -> seen (json_of (calls on (cs ++ c :: ds) p)) (k :: path) = at_ path v.
Proof.
  intros Q F N. unfold calls. rewrite fold_left_app. cbn [fold_left]. fold (calls on cs p). fold (calls on ds (on c (calls on cs p))).
  rewrite unnamed_kept by assumption. destruct (does [c] (calls on cs p)) as [A _]. unfold calls at 1 in A. cbn [fold_left] in A.
  rewrite A by exact Q. now apply put_last.
Qed.
Lemma wins : last_call_wins on json_of says.
Proof. split; intros; [now apply last_wins | now apply unnamed_kept]. Qed.
End Wins.

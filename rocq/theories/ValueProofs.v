(** The setters of sections, pages, pictures, borders and other values do what they say. *)
From Coq Require Import NArith ZArith List Bool.
From Verif Require Import Str StrFacts TypesModel Props PropsSet Ast JsonModel JsonProofs TsSpec TsProofs
  CallModel CallSpec CallProofs EntrySpec EntryProofs ValueModel ValueSpec.
Import ListNotations.
Open Scope list_scope.

Lemma all_of {C} (says : C -> list change) cs before after : tells_outside [] says cs before after -> tells_all says cs before after.
Proof. intros H k path. apply H. intros []. Qed.
Lemma size_history : forall cs x, tells_all size_says cs (seen (j_size x)) (seen (j_size (calls on_size cs x))).
Proof.
  intros cs x. apply all_of, own_histories; [now intros [| | |[]]|]. intros c p. eapply one_call_outside; try reflexivity; [now destruct c as [| | |[]]|].
  intros k I _ path. names_of I; destruct c as [| | |[]]; reflexivity.
Qed.
Ltac plain_calls := intros cs x; apply all_of, own_histories; [now intros []|]; let c := fresh "c" in let p := fresh "p" in intros c p;
  eapply one_call_outside; try reflexivity; [now destruct c|];
  let k := fresh "k" in let I := fresh "I" in let path := fresh "path" in intros k I _ path; names_of I; destruct c; reflexivity.
Lemma margin_history : forall cs x, tells_all margin_says cs (seen (j_margin x)) (seen (j_margin (calls on_margin cs x))).
Proof. plain_calls. Qed.
Lemma grid_history : forall cs x, tells_all grid_says cs (seen (j_grid x)) (seen (j_grid (calls on_grid cs x))).
Proof. plain_calls. Qed.
Lemma page_num_history : forall cs x, tells_all page_num_says cs (seen (j_page_num x)) (seen (j_page_num (calls on_page_num cs x))).
Proof. plain_calls. Qed.
Lemma position_history : forall cs x, tells_all position_says cs (seen (j_tposition x)) (seen (j_tposition (calls on_position cs x))).
Proof. plain_calls. Qed.
Lemma tab_history : forall cs x, tells_all tab_says cs (seen (j_tab x)) (seen (j_tab (calls on_tab cs x))).
Proof. plain_calls. Qed.
Lemma ptab_history : forall cs x, tells_all ptab_says cs (seen (j_ptab x)) (seen (j_ptab (calls on_ptab cs x))).
Proof. plain_calls. Qed.
Lemma shading_history : forall cs x, tells_all shading_says cs (seen (j_shading x)) (seen (j_shading (calls on_shading cs x))).
Proof. plain_calls. Qed.
Lemma border_history : forall at_ cs x, tells_all (line_says "borderType") cs (seen (j_border at_ x)) (seen (j_border at_ (calls on_border cs x))).
Proof.
  intros at_ cs x. apply all_of. apply (own_histories [] on_border (j_border at_)); [now intros []|]. intros c p.
  eapply one_call_outside; try reflexivity; [now destruct c|]. intros k I _ path. names_of I; destruct c; reflexivity.
Qed.
Lemma pborder_history : forall at_ cs x, tells_all (spaced_says "val") cs (seen (j_pborder at_ x)) (seen (j_pborder at_ (calls on_pborder cs x))).
Proof.
  intros at_ cs x. apply all_of. apply (own_histories [] on_pborder (j_pborder at_)); [now intros [[]|]|]. intros c p.
  eapply one_call_outside; try reflexivity; [now destruct c as [[]|]|]. intros k I _ path. names_of I; destruct c as [[]|]; reflexivity.
Qed.
Lemma text_border_history : forall cs x, tells_all (spaced_says "borderType") cs (seen (j_text_border x)) (seen (j_text_border (calls on_text_border cs x))).
Proof.
  intros cs x. apply all_of. apply (own_histories [] on_text_border j_text_border); [now intros [[]|]|]. intros c p.
  eapply one_call_outside; try reflexivity; [now destruct c as [[]|]|]. intros k I _ path. names_of I; destruct c as [[]|]; reflexivity.
Qed.
Lemma numpr_history : forall cs x, tells_all numpr_says cs (seen (j_numpr x)) (seen (j_numpr (calls on_numpr cs x))).
Proof. plain_calls. Qed.
Lemma binding_history : forall cs x, tells_all binding_says cs (seen (j_binding x)) (seen (j_binding (calls on_binding cs x))).
Proof. plain_calls. Qed.
Lemma tag_history : forall cs x, tells_all tag_says cs (seen (j_sdtpr x)) (seen (j_sdtpr (calls on_tag cs x))).
Proof. plain_calls. Qed.
Lemma frame_history : forall cs x, tells_all (fun c => [frame_says c]) cs (seen (j_frame x)) (seen (j_frame (calls on_frame cs x))).
Proof. plain_calls. Qed.
Ltac pic_cases c := destruct c as [| | | | | | |[]|[]| | | | | | | |].
Lemma pic_history : forall cs x, tells_all pic_says cs (seen (j_pic x)) (seen (j_pic (calls on_pic cs x))).
Proof.
  intros cs x. apply all_of, own_histories; [intros c; now pic_cases c|]. intros c p. apply one_call_outside with (ks := map fst (pic_fields p)); try reflexivity; [now pic_cases c|].
  intros k I _ path. cbn [pic_fields] in I. names_of I; pic_cases c; reflexivity.
Qed.

(** ** Sections *)
Ltac section_cases c := destruct c as [| | | | | |[]| | |].
Lemma section_own cs s : tells_outside ["pageSize"%string] section_says cs (seen (j_section_state s)) (seen (j_section_state (calls on_section cs s))).
Proof.
  apply own_histories; [intros c; now section_cases c|]. intros c p.
  apply one_call_outside with (ks := map fst (sectpr_fields no_parts (ss_prop p))); try reflexivity; [now section_cases c|].
  intros k I N path. cbn [sectpr_fields] in I. names_of I; try (exfalso; apply N; cbn; tauto).
  all: section_cases c; reflexivity.
Qed.
Lemma section_size_part cs : forall s, existsb whole_size cs = false -> sp_size (ss_prop (calls on_section cs s)) = calls on_size (only orient_of cs) (sp_size (ss_prop s)).
Proof.
  induction cs as [|c cs IH]; intros s W; [reflexivity|]. cbn [existsb] in W. apply orb_false_elim in W. destruct W as [W1 W2].
  unfold calls in *. cbn [fold_left only flat_map]. rewrite IH by exact W2. section_cases c; try reflexivity. discriminate W1.
Qed.
Lemma section_history cs s : section_setters cs (seen (j_section_state s)) (seen (j_section_state (calls on_section cs s))).
Proof.
  split.
  - apply section_own.
  - intros W. change (tells_all size_says (only orient_of cs) (seen (j_size (sp_size (ss_prop s)))) (seen (j_size (sp_size (ss_prop (calls on_section cs s)))))).
    rewrite section_size_part by exact W. apply size_history.
  - intros bs v ds -> W.
    change (tells_all size_says (only orient_of ds) (seen (j_size v)) (seen (j_size (sp_size (ss_prop (calls on_section (bs ++ KPageSize v :: ds) s)))))).
    unfold calls. rewrite fold_left_app. cbn [fold_left]. fold (calls on_section bs s). fold (calls on_section ds (on_section (KPageSize v) (calls on_section bs s))).
    rewrite section_size_part by exact W. apply (size_history (only orient_of ds) v).
Qed.

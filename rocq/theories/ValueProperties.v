(** Theorems about histories of setter calls on sections, pages, pictures, borders and other values (C80). *)
From Coq Require Import NArith ZArith List Bool.
From Verif Require Import Str StrFacts TypesModel Props PropsSet Ast JsonModel TsSpec CallModel CallSpec CallProofs EntrySpec EntryProofs ValueModel ValueSpec ValueProofs.
Import ListNotations.
Open Scope list_scope.

(** Whatever setters of a section were called, in whatever order and however often, its JSON shows what
    the calls, one after the other, say: each header and footer is in its own slot with its own reference. *)
Theorem section_setters_do_what_they_say : forall cs s, section_setters cs (seen (j_section_state s)) (seen (j_section_state (calls on_section cs s))).
Proof. exact section_history. Qed.
Theorem page_setters_do_what_they_say :
  (forall cs x, tells_all size_says cs (seen (j_size x)) (seen (j_size (calls on_size cs x)))) /\
  (forall cs x, tells_all margin_says cs (seen (j_margin x)) (seen (j_margin (calls on_margin cs x)))) /\
  (forall cs x, tells_all grid_says cs (seen (j_grid x)) (seen (j_grid (calls on_grid cs x)))) /\
  (forall cs x, tells_all page_num_says cs (seen (j_page_num x)) (seen (j_page_num (calls on_page_num cs x)))).
Proof. exact (conj size_history (conj margin_history (conj grid_history page_num_history))). Qed.
Theorem picture_setters_do_what_they_say : forall cs x, tells_all pic_says cs (seen (j_pic x)) (seen (j_pic (calls on_pic cs x))).
Proof. exact pic_history. Qed.
Theorem border_setters_do_what_they_say :
  (forall at_ cs x, tells_all (line_says "borderType") cs (seen (j_border at_ x)) (seen (j_border at_ (calls on_border cs x)))) /\
  (forall at_ cs x, tells_all (spaced_says "val") cs (seen (j_pborder at_ x)) (seen (j_pborder at_ (calls on_pborder cs x)))) /\
  (forall cs x, tells_all (spaced_says "borderType") cs (seen (j_text_border x)) (seen (j_text_border (calls on_text_border cs x)))).
Proof. exact (conj border_history (conj pborder_history text_border_history)). Qed.
Theorem value_setters_do_what_they_say :
  (forall cs x, tells_all position_says cs (seen (j_tposition x)) (seen (j_tposition (calls on_position cs x)))) /\
  (forall cs x, tells_all tab_says cs (seen (j_tab x)) (seen (j_tab (calls on_tab cs x)))) /\
  (forall cs x, tells_all ptab_says cs (seen (j_ptab x)) (seen (j_ptab (calls on_ptab cs x)))) /\
  (forall cs x, tells_all shading_says cs (seen (j_shading x)) (seen (j_shading (calls on_shading cs x)))) /\
  (forall cs x, tells_all numpr_says cs (seen (j_numpr x)) (seen (j_numpr (calls on_numpr cs x)))) /\
  (forall cs x, tells_all binding_says cs (seen (j_binding x)) (seen (j_binding (calls on_binding cs x)))) /\
  (forall cs x, tells_all tag_says cs (seen (j_sdtpr x)) (seen (j_sdtpr (calls on_tag cs x)))) /\
  (forall cs x, tells_all (fun c => [frame_says c]) cs (seen (j_frame x)) (seen (j_frame (calls on_frame cs x)))).
Proof.
  exact (conj position_history (conj tab_history (conj ptab_history (conj shading_history (conj numpr_history (conj binding_history (conj tag_history frame_history))))))).
Qed.

(** So the header or footer given last for a slot is the one it has, with its reference, whatever is
    called before, and whatever is called for other slots after; a slot nothing was called for is as it was. *)
Definition for_slot (x : slot) (c : section_call) : bool :=
  match c with
  | KPart y _ _ => String.eqb (part_name x) (part_name y)
  | KFirstHeaderOnly _ _ => match x with HFirst => true | _ => false end
  | KFirstFooterOnly _ _ => match x with FFirst => true | _ => false end
  | _ => false
  end.
Lemma section_placed c : forallb placed (section_says c) = true.
Proof. section_cases c; reflexivity. Qed.
Lemma slot_out x : ~ In (part_name x) ["pageSize"%string] /\ ~ In (ref_name x) ["pageSize"%string].
Proof. destruct x; split; cbn; intuition discriminate. Qed.
Lemma slot_named x cs : existsb (for_slot x) cs = false -> forallb (fun c => negb (names (part_name x) (section_says c))) cs = true /\
  forallb (fun c => negb (names (ref_name x) (section_says c))) cs = true.
Proof.
  induction cs as [|c cs IH]; [now split|]. cbn [existsb forallb]. intros F. apply orb_false_elim in F. destruct F as [F1 F2].
  destruct (IH F2) as [A B]. rewrite A, B, !andb_true_r. clear - F1. destruct x; section_cases c; try discriminate F1; split; reflexivity.
Qed.
Theorem last_header_wins : forall x bs part rid ds s, existsb (for_slot x) ds = false ->
  let v := j_section_state (calls on_section (bs ++ KPart x part rid :: ds) s) in
  at_ [part_name x] v = Some (JArr [JStr rid; part]) /\ at_ [ref_name x] v = Some (reference x rid).
Proof.
  intros x bs part rid ds s F v. destruct (slot_named x ds F) as [A B]. destruct (slot_out x) as [O1 O2]. split.
  - etransitivity; [exact (section_own _ s _ [] O1)|].
    etransitivity; [apply (said_last section_says (part_name x) [] (JArr [JStr rid; part])); [exact section_placed | now destruct x | exact A]|]. reflexivity.
  - etransitivity; [exact (section_own _ s _ [] O2)|].
    etransitivity; [apply (said_last section_says (ref_name x) [] (reference x rid)); [exact section_placed | now destruct x | exact B]|]. reflexivity.
Qed.
Theorem other_slots_kept : forall x cs s, existsb (for_slot x) cs = false ->
  let v := j_section_state (calls on_section cs s) in
  at_ [part_name x] v = at_ [part_name x] (j_section_state s) /\ at_ [ref_name x] v = at_ [ref_name x] (j_section_state s).
Proof.
  intros x cs s F v. destruct (slot_named x cs F) as [A B]. destruct (slot_out x) as [O1 O2]. split.
  - etransitivity; [exact (section_own _ s _ [] O1)|]. apply said_elsewhere; [exact section_placed | exact A].
  - etransitivity; [exact (section_own _ s _ [] O2)|]. apply said_elsewhere; [exact section_placed | exact B].
Qed.
(** The first page is a title page exactly if it was one before or some call makes it one. *)
Definition makes_title (c : section_call) : bool := match c with KTitlePg | KPart HFirst _ _ | KPart FFirst _ _ => true | _ => false end.
Theorem title_page : forall cs s b, at_ ["titlePg"%string] (j_section_state s) = Some (JBool b) ->
  at_ ["titlePg"%string] (j_section_state (calls on_section cs s)) = Some (JBool (b || existsb makes_title cs)).
Proof.
  intros cs s b H. assert (E : sp_title_pg (ss_prop s) = b) by (cbn in H; congruence). clear H. subst b.
  change (Some (JBool (sp_title_pg (ss_prop (calls on_section cs s)))) = Some (JBool (sp_title_pg (ss_prop s) || existsb makes_title cs))). do 2 f_equal.
  revert s. induction cs as [|c cs IH]; intros s; [symmetry; apply orb_false_r|]. unfold calls in *. cbn [fold_left existsb]. rewrite IH.
  section_cases c; cbn; now rewrite ?orb_true_r.
Qed.
(** The last call about a picture wins, and the bytes of its image never change. *)
Theorem last_picture_setter_wins : forall k path,
  (forall bs c ds x v, filter (fun y => place_of y =s k) (pic_says c) = [Put [k] v] -> forallb (fun d => negb (names k (pic_says d))) ds = true ->
     at_ (k :: path) (j_pic (calls on_pic (bs ++ c :: ds) x)) = at_ path v) /\
  (forall cs x, forallb (fun c => negb (names k (pic_says c))) cs = true -> at_ (k :: path) (j_pic (calls on_pic cs x)) = at_ (k :: path) (j_pic x)).
Proof.
  intros k path. assert (P : forall c, forallb placed (pic_says c) = true) by (intros c; now pic_cases c). split.
  - intros bs c ds x v F D. etransitivity; [exact (pic_history _ x k path)|]. now apply said_last.
  - intros cs x D. etransitivity; [exact (pic_history cs x k path)|]. now apply said_elsewhere.
Qed.
Theorem image_kept : forall cs x, at_ ["image"%string] (j_pic (calls on_pic cs x)) = at_ ["image"%string] (j_pic x).
Proof. intros cs x. apply (proj2 (last_picture_setter_wins "image" [])). apply forallb_forall. intros c _. now pic_cases c. Qed.

(** Turning the page does not exchange its width and height. *)
Theorem landscape_exchanges_refuted : forall x, let y := on_size (ZOrient PageOrientationType_Landscape) x in
  at_ ["w"%string] (j_size y) = at_ ["w"%string] (j_size x) /\ at_ ["h"%string] (j_size y) = at_ ["h"%string] (j_size x).
Proof. intros x. split; reflexivity. Qed.
(** Giving an offset does not make a picture float. *)
Theorem offset_floats_refuted : exists x, at_ ["positionType"%string] (j_pic (calls on_pic [XOffsetX 10; XOffsetY 20] x)) = Some (JStr "inline").
Proof.
  exists {| pic_id := "rIdImage1"; pic_image := "x"; pic_size := (1, 2)%N; pic_anchor := false; pic_simple_pos := false; pic_simple_x := 0; pic_simple_y := 0;
    pic_layout_in_cell := false; pic_relative_height := 190500; pic_overlap := false; pic_h := Offset 0; pic_v := Offset 0; pic_from_h := RelativeFromHType_Margin;
    pic_from_v := RelativeFromVType_Margin; pic_dist_t := 0; pic_dist_b := 0; pic_dist_l := 0; pic_dist_r := 0; pic_rot := 0 |}. reflexivity.
Qed.
(** A first header given without a title page is carried but the title page is not switched on. *)
Theorem first_header_is_shown_refuted : forall part rid,
  let s := on_section (KFirstHeaderOnly part rid) {| ss_prop := sectpr_default; ss_parts := fun _ => None |} in
  at_ ["firstHeader"%string] (j_section_state s) = Some (JArr [JStr rid; part]) /\ at_ ["titlePg"%string] (j_section_state s) = Some (JBool false).
Proof. intros. split; reflexivity. Qed.

(** Cases *)
Definition fresh_section : section_state := {| ss_prop := sectpr_default; ss_parts := fun _ => None |}.
Definition busy_section : section_state := calls on_section
  [KPageOrient PageOrientationType_Landscape; KPart HDefault (JStr "old") "rId1"; KPageSize {| pg_w := 100; pg_h := 200; pg_orient := None |};
   KPart FFirst (JStr "foot") "rId2"; KPart HDefault (JStr "new") "rId3"; KFirstHeaderOnly (JStr "first") "rId4"; KPageOrient PageOrientationType_Portrait] fresh_section.
Example section_case :
  at_ ["header"%string] (j_section_state busy_section) = Some (JArr [JStr "rId3"; JStr "new"]) /\
  at_ ["firstFooterReference"%string; "id"%string] (j_section_state busy_section) = Some (JStr "rId2") /\
  at_ ["firstHeaderReference"%string; "headerType"%string] (j_section_state busy_section) = Some (JStr "first") /\
  at_ ["pageSize"%string; "w"%string] (j_section_state busy_section) = Some (JNum 100) /\
  at_ ["pageSize"%string; "orient"%string] (j_section_state busy_section) = Some (JStr "portrait") /\
  at_ ["titlePg"%string] (j_section_state busy_section) = Some (JBool true) /\ at_ ["evenHeader"%string] (j_section_state busy_section) = None.
Proof. repeat split. Qed.
Example last_header_case : let v := j_section_state (calls on_section ([KPart HEven (JStr "a") "rId1"] ++ KPart HEven (JStr "b") "rId2" :: [KPart FEven (JStr "c") "rId3"; KTitlePg]) fresh_section) in
  at_ ["evenHeader"%string] v = Some (JArr [JStr "rId2"; JStr "b"]) /\ at_ ["evenHeaderReference"%string] v = Some (reference HEven "rId2").
Proof. exact (last_header_wins HEven [KPart HEven (JStr "a") "rId1"] (JStr "b") "rId2" [KPart FEven (JStr "c") "rId3"; KTitlePg] fresh_section eq_refl). Qed.
Example border_case : j_border "top" (calls on_border [EColor "ff0000"; ESize 4; EColor "00ff00"; EType BorderType_Double] (border_of BorderType_Single)) =
  JObj [("borderType", JStr "double"); ("size", JNum 4); ("color", JStr "00ff00"); ("position", JStr "top"); ("space", JNum 0)]%string%Z.
Proof. reflexivity. Qed.
Definition all_proved :=
  conj section_setters_do_what_they_say (conj page_setters_do_what_they_say (conj picture_setters_do_what_they_say (conj border_setters_do_what_they_say
  (conj value_setters_do_what_they_say (conj last_header_wins (conj other_slots_kept (conj title_page (conj last_picture_setter_wins (conj image_kept
  (conj landscape_exchanges_refuted (conj offset_floats_refuted first_header_is_shown_refuted))))))))))).
Print Assumptions all_proved.

(** Proofs that the JSON and the XML of a node tell the same properties. *)
From Coq Require Import NArith ZArith List Bool Lia.
From Verif Require Import Str StrFacts TypesModel Props Ast BuildModel BuildSpec JsonModel JsonSpec TellSpec TellProofs.
Import ListNotations.
Open Scope list_scope.

(** ** Looking up *)
Fixpoint look (k : string) (fs : fields) : option json :=
  match fs with
  | [] => None
  | (a, o) :: r => if a =s k then match o with Some v => Some v | None => look k r end else look k r
  end.
Lemma member_look k fs : member k (present fs) = look k fs.
Proof.
  induction fs as [|[a o] fs IH]; [reflexivity|].
  change (present ((a, o) :: fs)) with (match o with Some v => [(a, v)] | None => [] end ++ present fs). cbn [look].
  destruct o as [v|]; cbn [app member]; destruct (a =s k)%string; auto.
Qed.
Lemma at_obj k p fs : at_json (k :: p) (obj fs) = match look k fs with Some v => at_json p v | None => None end.
Proof. unfold obj. cbn [at_json]. now rewrite member_look. Qed.
Definition orelse {A} (a b : option A) : option A := match a with Some x => Some x | None => b end.
Lemma child_app k a b : child k (a ++ b) = orelse (child k a) (child k b).
Proof. induction a as [|[n at_ ch|n at_ ts] a IH]; [reflexivity | |]; cbn [app child]; destruct (n =s k)%string; auto. Qed.
Lemma child_opt {A} k (f : A -> xml) o : (forall x, child k [f x] = None) -> child k (opt f o) = None.
Proof. intros H. destruct o; [apply H | reflexivity]. Qed.
Lemma child_on k b l : child k l = None -> child k (on b l) = None.
Proof. destruct b; auto. Qed.
Lemma orelse_none {A} (a : option A) : orelse a None = a. Proof. now destruct a. Qed.
Lemma none_orelse {A} (a : option A) : orelse None a = a. Proof. reflexivity. Qed.
Lemma attribute_app k a b : attribute k (a ++ b) = orelse (attribute k a) (attribute k b).
Proof. induction a as [|[n v] a IH]; [reflexivity|]. cbn [app attribute]. destruct (n =s k)%string; auto. Qed.
Lemma attribute_opt {A} k (f : A -> string * string) o : (forall x, attribute k [f x] = None) -> attribute k (opt f o) = None.
Proof. intros H. destruct o; [apply H | reflexivity]. Qed.

(** ** Going down *)
Fixpoint jdown (p : list string) (v : json) : option json :=
  match p with
  | [] => Some v
  | k :: p => match v with JObj l => match member k l with Some w => jdown p w | None => None end | _ => None end
  end.
Fixpoint xdown (p : list string) (l : list xml) : option (list xml) :=
  match p with
  | [] => Some l
  | n :: p => match child n l with Some (_, ch) => xdown p ch | None => None end
  end.
Lemma at_json_app j p v : at_json (j ++ p) v = match jdown j v with Some w => at_json p w | None => None end.
Proof. revert v. induction j as [|k j IH]; intros v; [reflexivity|]. cbn [app at_json jdown]. destruct v; try reflexivity. destruct (member k l); auto. Qed.
Lemma attributes_app x p a l : p <> [] -> attributes_at (x ++ p) a l = match xdown x l with Some ch => attributes_at p [] ch | None => None end.
Proof.
  intros N. revert a l. induction x as [|n x IH]; intros a l.
  - cbn [app xdown]. destruct p; [now destruct N | reflexivity].
  - cbn [app attributes_at xdown]. destruct (child n l) as [[b ch]|]; auto.
Qed.
Definition inside (p : place) : Prop := xpath p <> [].
Lemma under_found j x l v ch w ps : xdown x l = Some ch -> jdown j v = Some w -> Forall inside ps -> Forall (tell_alike ch w) ps -> Forall (tell_alike l v) (under j x ps).
Proof.
  intros X J I H. unfold under. apply Forall_map. rewrite Forall_forall in *. intros p Hp. specialize (I p Hp). specialize (H p Hp).
  unfold tell_alike, at_xml in *. cbn [jpath xpath value is_switch]. rewrite at_json_app, J, attributes_app, X by exact I. exact H.
Qed.
Lemma under_none j x l v ps : xdown x l = None -> jdown j v = None -> Forall inside ps -> Forall (tell_alike l v) (under j x ps).
Proof.
  intros X J I. unfold under. apply Forall_map. rewrite Forall_forall in *. intros p Hp. specialize (I p Hp).
  unfold tell_alike, at_xml. cbn [jpath xpath value is_switch]. now rewrite at_json_app, J, attributes_app, X by exact I.
Qed.
Lemma under_inside j x ps : Forall inside ps -> Forall inside (under j x ps).
Proof. intros H. unfold under. apply Forall_map. revert H. apply Forall_impl. intros p I. unfold inside in *. cbn. destruct x; [exact I | discriminate]. Qed.

(** ** Numbers and names *)
Lemma cut_off n : (n < u32)%N -> JsonModel.as_u32 n = n.
Proof. intros H. unfold u32 in H. unfold JsonModel.as_u32. apply N.mod_small. exact H. Qed.
Lemma as_width n : (n < i32)%N -> as_i32 n = Z.of_N n.
Proof. intros H. unfold i32 in H. unfold as_i32. rewrite Z.mod_small by lia. destruct (Z.ltb_spec (Z.of_N n) 2147483648); lia. Qed.
Lemma same_border t : ser_BorderType t = show_BorderType t. Proof. now destruct t. Qed.
Lemma same_shd t : ser_ShdType t = show_ShdType t. Proof. now destruct t. Qed.
Lemma same_width t : ser_WidthType t = show_WidthType t. Proof. now destruct t. Qed.
Lemma same_pta t : ser_PositionalTabAlignmentType t = show_PositionalTabAlignmentType t. Proof. now destruct t. Qed.
Lemma same_ptr t : ser_PositionalTabRelativeTo t = show_PositionalTabRelativeTo t. Proof. now destruct t. Qed.
Lemma same_leader t : ser_TabLeaderType t = show_TabLeaderType t. Proof. now destruct t. Qed.
Lemma same_grid t : ser_DocGridType t = show_DocGridType t. Proof. now destruct t. Qed.
Lemma same_orient t : ser_PageOrientationType t = show_PageOrientationType t. Proof. now destruct t. Qed.
Lemma same_section t : ser_SectionType t = show_SectionType t. Proof. now destruct t. Qed.
Lemma same_rule t : ser_LineSpacingType t = show_rule t. Proof. now destruct t. Qed.

(** ** One place *)
Lemma no_child k a b : child k a = None -> child k b = None -> child k (a ++ b) = None.
Proof. intros H1 H2. now rewrite child_app, H1, H2. Qed.
Lemma later_child k a b r : child k a = None -> child k b = r -> child k (a ++ b) = r.
Proof. intros H1 H2. now rewrite child_app, H1, H2. Qed.
Lemma this_child k a b : child k b = None -> child k (a ++ b) = child k a.
Proof. intros H. now rewrite child_app, H, orelse_none. Qed.
Lemma later_cons k x b r : child k [x] = None -> child k b = r -> child k (x :: b) = r.
Proof. exact (later_child k [x] b r). Qed.
Lemma no_attribute k a b : attribute k a = None -> attribute k b = None -> attribute k (a ++ b) = None.
Proof. intros H1 H2. now rewrite attribute_app, H1, H2. Qed.
Lemma later_attribute k a b r : attribute k a = None -> attribute k b = r -> attribute k (a ++ b) = r.
Proof. intros H1 H2. now rewrite attribute_app, H1, H2. Qed.
Lemma this_attribute k a b : attribute k b = None -> attribute k (a ++ b) = attribute k a.
Proof. intros H. now rewrite attribute_app, H, orelse_none. Qed.
Lemma mark_child k n o s i s' : b_opt_mark n o s = Some (i, s') -> (n =s k)%string = false -> child k i = None.
Proof.
  intros H N. destruct o; cbn [b_opt_mark] in H; unfold b_mark in H; [step H|]; unfold ret in H; injection H as <- <-; [|reflexivity].
  cbn [child leaf]. now rewrite N.
Qed.
Ltac not_here :=
  first [ reflexivity
        | apply child_opt; intros; reflexivity
        | apply child_opt; let x := fresh in intros x; destruct x; reflexivity
        | apply child_on; reflexivity
        | match goal with C : forall k : string, _ -> child k _ = None |- _ => apply C; reflexivity end
        | eapply mark_child; [eassumption | reflexivity]
        | match goal with |- child _ (match ?l with _ => _ end) = _ => destruct l; reflexivity end ].
Ltac nowhere := lazymatch goal with |- child _ (_ ++ _) = _ => apply no_child; [not_here | nowhere] | _ => not_here end.
Ltac find_child :=
  lazymatch goal with
  | |- child _ (_ ++ _) = _ => first [eapply later_child; [not_here | find_child] | eapply this_child; nowhere]
  | |- child _ (_ :: _) = _ => first [eapply later_cons; [reflexivity | find_child] | reflexivity]
  | _ => reflexivity
  end.
Ltac no_attr := first [reflexivity | apply attribute_opt; intros; reflexivity | match goal with |- attribute _ (match ?o with _ => _ end) = _ => destruct o as [[]|]; reflexivity end].
Ltac no_attrs := lazymatch goal with |- attribute _ (_ ++ _) = _ => apply no_attribute; [no_attr | no_attrs] | _ => no_attr end.
Ltac find_attr :=
  lazymatch goal with
  | |- attribute _ (_ ++ _) = _ => first [eapply later_attribute; [no_attr | find_attr] | eapply this_attribute; no_attrs]
  | _ => reflexivity
  end.
Lemma in_child n l a (c : option (list (string * string) * list xml)) v (sw : bool) j : child n l = c -> match c with Some (b, _) => if sw then switched (attribute v b) else attribute v b | None => None end = at_json (jpath {| jpath := j; xpath := [n]; value := v; is_switch := sw |}) a ->
  tell_alike l a {| jpath := j; xpath := [n]; value := v; is_switch := sw |}.
Proof. intros <- H. unfold tell_alike, at_xml. cbn [xpath value is_switch attributes_at]. destruct (child n l) as [[b ch]|]; exact H. Qed.
Ltac looking := cbv beta iota zeta delta [look may has flag String.eqb Ascii.eqb Bool.eqb].
Ltac alike_names := rewrite ?show_jn, ?same_border, ?same_shd, ?same_width, ?same_pta, ?same_ptr, ?same_leader, ?same_grid, ?same_orient, ?same_section, ?same_rule.
Ltac in_child := eapply in_child; [rewrite <- ?app_assoc; find_child | cbn [jpath]; rewrite at_obj; looking].
Ltac one_attr := etransitivity; [unfold attr_s, attr_n, attr_z; cbn [app]; find_attr|].

(** ** Runs *)
Lemma mark_told n k o s i s' (f : mark -> json) : b_opt_mark n o s = Some (i, s') ->
  (forall m d, d = "author"%string \/ d = "date"%string -> at_json [d] (f m) = Some (if d =s "author" then m_author m else m_date m)%string) ->
  (k = "author" \/ k = "date")%string ->
  match child n i with Some (b, _) => attribute ("w:" +++ k) b | None => None end = match match option_map f o with Some v => Some v | None => None end with Some v => at_json [k] v | None => None end.
Proof.
  intros H F K. destruct o as [m|]; cbn [b_opt_mark] in H; unfold b_mark in H; [step H|]; unfold ret in H; injection H as <- <-; [|reflexivity].
  cbn [child leaf option_map]. rewrite String.eqb_refl, F by assumption. destruct K as [-> | ->]; reflexivity.
Qed.
Ltac marks_told :=
  match goal with
  | S : b_opt_mark ?n _ _ = Some (?i, _) |- match child ?n ?i with _ => _ end = _ =>
      first [refine (mark_told n "author" _ _ _ _ _ S _ _); [intros ? ? [-> | ->]; reflexivity | now left]
            |refine (mark_told n "date" _ _ _ _ _ S _ _); [intros ? ? [-> | ->]; reflexivity | now right]]
  end.
Lemma run_told p s l s' : uncut_run p -> b_rpr p s = Some (l, s') -> exists ch, l = [E "w:rPr" [] ch] /\ Forall (tell_alike ch (j_rpr p)) run_places.
Proof.
  intros [U1 U2] H. unfold b_rpr in H. step H. step H. unfold ret in H. injection H as <- <-. eexists. split; [reflexivity|].
  unfold run_places, mark_places, shading_places, these, val, switch, at_. cbn [map app fst snd]. unfold j_rpr.
  repeat apply Forall_cons; try apply Forall_nil.
  all: unfold rpr_before, rpr_after, rpr_fields; in_child.
  all: try (match goal with |- context [opt _ ?o] => destruct o as [x|]; [|reflexivity]; cbn; alike_names; reflexivity end).
  all: try (match goal with |- context [opt _ ?o] => destruct o as [[]|]; reflexivity end).
  all: try (match goal with |- context [on ?b _] => destruct b; reflexivity end).
  all: try marks_told.
  all: try (match goal with |- context [opt _ ?o] => destruct o as [x|]; [|reflexivity]; cbn [opt option_map j_fonts j_fit]; unfold x_fonts, x_fit, leaf;
     cbn [child String.eqb Ascii.eqb Bool.eqb]; unfold j_fonts, j_fit; rewrite at_obj; looking; one_attr;
     match goal with |- context [opt _ ?o] => destruct o; cbn; alike_names; reflexivity | _ => cbn; alike_names; reflexivity end end).
  all: match goal with |- context [opt (valued_n _) ?o] => destruct o as [x|]; [|reflexivity]; cbn in *; rewrite cut_off by assumption; alike_names; reflexivity end.
Qed.

(** ** Sections *)
Ltac undo := unfold x_fonts, x_fit, x_indent, x_spacing, x_frame, x_page_size, x_page_margin, x_doc_grid, x_page_num, x_shading, x_ptab, x_text_border,
  x_border, x_box, x_pborder, x_uwidth, x_width, x_tposition, x_binding, x_color, valued_n, valued_z, valued, leaf.
Ltac undo_json := unfold j_fonts, j_fit, j_indent, j_spacing, j_frame, j_size, j_margin, j_grid, j_page_num, j_shading, j_ptab, j_text_border, j_border, j_pborder,
  j_width, j_cmargin, j_tindent, j_tposition, j_binding.
Ltac plainly := cbn; alike_names; reflexivity.
Ltac by_attribute :=
  cbn [opt option_map j_opt]; undo; cbn [child String.eqb Ascii.eqb Bool.eqb]; undo_json; rewrite ?at_obj; looking;
  cbn [attribute String.eqb Ascii.eqb Bool.eqb]; one_attr;
  match goal with |- context [opt _ ?o] => destruct o; plainly | _ => plainly end.
Ltac told :=
  first [ plainly
        | match goal with |- context [opt _ ?o] => destruct o as [x|]; [|reflexivity]; first [plainly | by_attribute | (destruct x; plainly)] end
        | match goal with |- context [on ?b _] => destruct b; reflexivity end
        | by_attribute
        | marks_told ].
Lemma section_told parts p : Forall (tell_alike match x_sectpr p with E _ _ ch => ch | _ => [] end (j_sectpr parts p)) section_places.
Proof.
  unfold section_places, these, val, switch, at_, x_sectpr. cbn [map app fst snd]. unfold j_sectpr.
  repeat apply Forall_cons; try apply Forall_nil.
  all: unfold sectpr_fields; in_child; try told.
Qed.

(** ** Paragraphs *)
Lemma under_one {A} j x l fs (o : option A) (f : A -> json) (g : A -> list xml) ps :
  child x l = match o with Some b => Some ([], g b) | None => None end -> look j fs = option_map f o -> Forall inside ps ->
  (forall b, o = Some b -> Forall (tell_alike (g b) (f b)) ps) -> Forall (tell_alike l (obj fs)) (under [j] [x] ps).
Proof.
  intros X J I H. unfold obj. destruct o as [b|].
  - apply (under_found _ _ _ _ (g b) (f b)); [cbn [xdown]; now rewrite X | cbn [jdown]; now rewrite member_look, J | exact I | now apply H].
  - apply under_none; [cbn [xdown]; now rewrite X | cbn [jdown]; now rewrite member_look, J | exact I].
Qed.
Ltac all_inside := repeat apply Forall_cons; try apply Forall_nil; discriminate.
Ltac found_one := etransitivity; [rewrite <- ?app_assoc; find_child | match goal with |- context [opt _ ?o] => destruct o; reflexivity | _ => reflexivity end].
Definition base_children (b : ppr_base) (r c : list xml) : list xml := r ++ ppr_before b ++ c ++ ppr_after b.
Definition change_shape (c : list xml) (o : option json) : Prop :=
  (c = [] /\ o = None) \/ exists i au da x q, c = [E "w:pPrChange" [("w:id", i); ("w:author", au); ("w:date", da)] x] /\
    o = Some (obj [has "author" (JStr au); has "date" (JStr da); has "property" q]).
Lemma change_child k c o : change_shape c o -> ("w:pPrChange" =s k)%string = false -> child k c = None.
Proof. intros [[-> _] | (i & au & da & x & q & -> & _)] H; [reflexivity|]. cbn [child]. now rewrite H. Qed.
Lemma own_told b ch c o : at_most u32 (p_outline b) -> change_shape c o ->
  Forall (tell_alike (base_children b [E "w:rPr" [] ch] c) (obj (ppr_fields b o))) own_paragraph_places.
Proof.
  intros U C. unfold own_paragraph_places, shading_places, these, val, switch, at_. cbn [map app fst snd].
  assert (C' := fun k => change_child k c o C).
  repeat apply Forall_cons; try apply Forall_nil.
  all: unfold base_children, ppr_before, ppr_after, ppr_fields.
  all: in_child; try told.
  - destruct (p_outline b) as [x|]; [|reflexivity]. cbn in *. rewrite cut_off by assumption. now rewrite show_jn.
  - destruct C as [[-> ->] | (i & au & da & x & q & -> & ->)]; reflexivity.
  - destruct C as [[-> ->] | (i & au & da & x & q & -> & ->)]; reflexivity.
Qed.
Lemma nested_told b ch c o : change_shape c o -> Forall (tell_alike (base_children b [E "w:rPr" [] ch] c) (obj (ppr_fields b o))) nested_paragraph_places.
Proof.
  intros C. assert (C' := fun k => change_child k c o C). unfold nested_paragraph_places. apply Forall_app. split.
  - apply (under_one _ _ _ _ (p_numbering b) j_numpr (fun n => opt (valued_n "w:numId") (n_id n) ++ opt (valued_n "w:ilvl") (n_level n))).
    + unfold base_children, ppr_before, ppr_after. found_one.
    + unfold ppr_fields. looking. now destruct (p_numbering b).
    + all_inside.
    + intros n _. unfold val, at_, j_numpr. repeat apply Forall_cons; try apply Forall_nil; in_child; told.
  - apply (under_one _ _ _ _ (p_borders b) j_pborders (fun b => match x_pborders b with E _ _ ch => ch | _ => [] end)).
    + unfold base_children, ppr_before, ppr_after. found_one.
    + unfold ppr_fields. looking. now destruct (p_borders b).
    + unfold paragraph_border_places, these, at_. cbn [flat_map map app]. all_inside.
    + intros n _. unfold paragraph_border_places, these, at_, j_pborders, x_pborders. cbn [flat_map map app fst snd].
      change ("w:" +++ "left")%string with "w:left"%string. change ("w:" +++ "right")%string with "w:right"%string. change ("w:" +++ "top")%string with "w:top"%string.
      change ("w:" +++ "bottom")%string with "w:bottom"%string. change ("w:" +++ "between")%string with "w:between"%string. change ("w:" +++ "bar")%string with "w:bar"%string.
      repeat apply Forall_cons; try apply Forall_nil; in_child; told.
Qed.
Lemma run_inside : Forall inside run_places.
Proof. unfold run_places, mark_places, shading_places, these, val, switch, at_. cbn [map app]. all_inside. Qed.
Lemma section_inside : Forall inside section_places.
Proof. unfold section_places, these, val, switch, at_. cbn [map app]. all_inside. Qed.
Lemma own_inside : Forall inside own_paragraph_places.
Proof. unfold own_paragraph_places, shading_places, these, val, switch, at_. cbn [map app]. all_inside. Qed.
Lemma nested_inside : Forall inside nested_paragraph_places.
Proof. unfold nested_paragraph_places. apply Forall_app. split; apply under_inside; unfold paragraph_border_places, these, val, at_; cbn [flat_map map app]; all_inside. Qed.
Lemma paragraph_inside d : Forall inside (paragraph_places d).
Proof.
  induction d as [|d IH]; cbn [paragraph_places]; (apply Forall_app; split; [exact own_inside|]); (apply Forall_app; split; [exact nested_inside|]);
    (apply Forall_app; split; [apply under_inside; exact run_inside|]); (apply Forall_app; split; [apply under_inside; exact section_inside|]);
    [apply Forall_nil | apply under_inside; exact IH].
Qed.
Lemma paragraph_told d : forall p s l s', uncut_paragraph p -> b_ppr p s = Some (l, s') ->
  exists ch, l = [E "w:pPr" [] ch] /\ Forall (tell_alike ch (j_ppr p)) (paragraph_places d).
Proof.
  induction d as [|d IH]; intros [b c] s l s' [U1 [U2 U3]] H; cbn [b_ppr] in H; step H; step H; unfold ret in H; injection H as <- <-; eexists; (split; [reflexivity|]);
    destruct (run_told _ _ _ _ U1 S) as (ch & -> & R);
    assert (C : exists o, o = option_map j_change c /\ change_shape a0 o /\ j_ppr (PPr b c) = obj (ppr_fields b o)) by
      (destruct c as [[au da q]|]; [exists (Some (j_change (PChange au da q))) | exists None]; (split; [reflexivity|]); (split; [|reflexivity]);
       [right; repeat step S0; unfold ret in S0; injection S0 as <- <-; do 5 eexists; split; reflexivity | left; unfold ret in S0; injection S0 as <- <-; now split]);
    destruct C as (o & O & C & ->); change ([E "w:rPr" [] ch] ++ ppr_before b ++ a0 ++ ppr_after b) with (base_children b [E "w:rPr" [] ch] a0);
    cbn [paragraph_places]; (apply Forall_app; split; [now apply own_told|]); (apply Forall_app; split; [now apply nested_told|]);
    (apply Forall_app; split; [refine (under_found _ _ _ _ ch (j_rpr (p_rpr b)) _ _ _ run_inside R); reflexivity|]); (apply Forall_app; split;
    [apply (under_one _ _ _ _ (p_section b) (j_sectpr no_parts) (fun p => match x_sectpr p with E _ _ ch => ch | _ => [] end));
      [assert (C' := fun k => change_child k a0 o C); unfold base_children, ppr_before, ppr_after; found_one
      | unfold ppr_fields; looking; now destruct (p_section b) | exact section_inside | intros q _; apply section_told]|]); [apply Forall_nil|].
  assert (X : child "w:pPrChange" (base_children b [E "w:rPr" [] ch] a0) = child "w:pPrChange" a0)
    by (unfold base_children, ppr_before, ppr_after; rewrite <- ?app_assoc; find_child).
  assert (J : jdown ["paragraphPropertyChange"; "property"]%string (obj (ppr_fields b o)) = match o with Some v => jdown ["property"]%string v | None => None end)
    by (unfold obj; cbn [jdown]; rewrite member_look; unfold ppr_fields; looking; destruct o; reflexivity).
  destruct c as [[au da q]|].
  - repeat step S0. unfold ret in S0. injection S0 as <- <-. destruct (IH _ _ _ _ U3 S2) as (ch' & -> & Q).
    apply (under_found _ _ _ _ ch' (j_ppr q)); [cbn [xdown]; rewrite X; reflexivity | rewrite J, O; reflexivity | apply paragraph_inside | exact Q].
  - unfold ret in S0. injection S0 as <- <-. apply under_none; [cbn [xdown]; rewrite X; reflexivity | rewrite J, O; reflexivity | apply paragraph_inside].
Qed.

(** ** Tables *)
Lemma under_null {A} j x l fs (o : option A) (f : A -> json) (g : A -> list xml) ps :
  child x l = match o with Some b => Some ([], g b) | None => None end -> look j fs = Some (j_opt f o) -> Forall inside ps -> Forall (fun p => jpath p <> []) ps ->
  (forall b, o = Some b -> Forall (tell_alike (g b) (f b)) ps) -> Forall (tell_alike l (obj fs)) (under [j] [x] ps).
Proof.
  intros X J I N H. unfold obj. destruct o as [b|].
  - apply (under_found _ _ _ _ (g b) (f b)); [cbn [xdown]; now rewrite X | cbn [jdown]; now rewrite member_look, J | exact I | now apply H].
  - unfold under. apply Forall_map. rewrite Forall_forall in *. intros p Hp. specialize (I p Hp). specialize (N p Hp).
    unfold tell_alike, at_xml. cbn [jpath xpath value is_switch]. rewrite at_json_app, attributes_app by exact I. cbn [xdown jdown]. rewrite X, member_look, J. cbn [j_opt].
    destruct (jpath p); [now destruct N | reflexivity].
Qed.
Ltac side_names := cbn [flat_map map app fst snd append].
Ltac widths := repeat match goal with U : (_ < i32)%N |- _ => rewrite (as_width _ U); clear U end.
Lemma margins_inside : Forall inside (flat_map margin_places sides).
Proof. unfold margin_places, sides, these, at_. side_names. all_inside. Qed.
Lemma table_told p : uncut_width (Some (tpr_width p)) -> match tpr_margins p with Some m => uncut_tmargins m | None => True end ->
  Forall (tell_alike match x_tblpr p with E _ _ ch => ch | _ => [] end (j_tblpr p)) table_places.
Proof.
  intros U1 U2. unfold table_places. apply Forall_app. split; [|apply Forall_app; split].
  - unfold own_table_places, these, val, at_. cbn [map app fst snd]. unfold x_tblpr, j_tblpr.
    repeat apply Forall_cons; try apply Forall_nil; in_child.
    all: try told. cbn in *. rewrite (as_width _ U1). reflexivity.
  - apply (under_one _ _ _ _ (Some (tpr_borders p)) j_tborders (fun b => match x_tborders b with E _ _ ch => ch | _ => [] end)); try reflexivity.
    + unfold border_places, sides, these, at_. side_names. all_inside.
    + intros b _. unfold border_places, sides, these, at_, j_tborders, x_tborders. side_names.
      repeat apply Forall_cons; try apply Forall_nil; in_child; told.
  - apply (under_one _ _ _ _ (tpr_margins p) j_tmargins (fun b => match x_tmargins b with E _ _ ch => ch | _ => [] end)).
    + unfold x_tblpr. found_one.
    + unfold j_tblpr. looking. now destruct (tpr_margins p).
    + apply margins_inside.
    + intros m E. rewrite E in U2. destruct U2 as (V1 & V2 & V3 & V4). cbn in V1, V2, V3, V4. unfold margin_places, sides, these, at_, j_tmargins, x_tmargins. side_names.
      repeat apply Forall_cons; try apply Forall_nil; in_child; cbn; widths; alike_names; reflexivity.
Qed.
Lemma row_told p s l s' : b_trpr p s = Some (l, s') -> exists ch, l = [E "w:trPr" [] ch] /\ Forall (tell_alike ch (j_trpr p)) row_places.
Proof.
  intros H. unfold b_trpr in H. step H. step H. unfold ret in H. injection H as <- <-. eexists. split; [reflexivity|].
  unfold row_places, mark_places, these, at_. cbn [map app fst snd]. unfold j_trpr.
  repeat apply Forall_cons; try apply Forall_nil; in_child; marks_told.
Qed.
Lemma cell_told p : uncut_width (tc_width p) -> at_most u32 (tc_grid_span p) -> match tc_margins p with Some m => uncut_cmargins m | None => True end ->
  Forall (tell_alike match x_tcpr p with E _ _ ch => ch | _ => [] end (j_tcpr p)) cell_places.
Proof.
  intros U1 U2 U3. unfold cell_places. apply Forall_app. split; [|apply Forall_app; split].
  - unfold own_cell_places, shading_places, these, val, at_. cbn [map app fst snd]. unfold x_tcpr, j_tcpr.
    repeat apply Forall_cons; try apply Forall_nil; in_child.
    all: try told.
    + destruct (tc_width p) as [w|]; [|reflexivity]. cbn in *. rewrite (as_width _ U1). reflexivity.
    + destruct (tc_grid_span p) as [w|]; [|reflexivity]. cbn in *. rewrite cut_off by assumption. now rewrite show_jn.
  - apply (under_null _ _ _ _ (tc_borders p) j_cborders (fun b => match x_cborders b with E _ _ ch => ch | _ => [] end)).
    + unfold x_tcpr. found_one.
    + unfold j_tcpr. looking. reflexivity.
    + unfold border_places, sides, these, at_. side_names. all_inside.
    + unfold border_places, sides, these, at_. side_names. all_inside.
    + intros b _. unfold border_places, sides, these, at_, j_cborders, x_cborders. side_names.
      repeat apply Forall_cons; try apply Forall_nil; in_child; told.
  - apply (under_one _ _ _ _ (tc_margins p) j_cmargins (fun b => match x_cmargins b with E _ _ ch => ch | _ => [] end)).
    + unfold x_tcpr. found_one.
    + unfold j_tcpr. looking. now destruct (tc_margins p).
    + apply margins_inside.
    + intros m E. rewrite E in U3. destruct U3 as (V1 & V2 & V3 & V4). unfold margin_places, sides, these, at_, j_cmargins, x_cmargins. side_names.
      repeat apply Forall_cons; try apply Forall_nil; in_child; match goal with |- context [opt _ ?o] => destruct o; [|reflexivity] end; cbn in *; widths; alike_names; reflexivity.
Qed.
Lemma tag_told p s l s' : uncut_run (sd_rpr p) -> b_sdtpr p s = Some (l, s') -> exists ch, l = [E "w:sdtPr" [] ch] /\ Forall (tell_alike ch (j_sdtpr p)) tag_places.
Proof.
  intros U H. unfold b_sdtpr in H. step H. unfold ret in H. injection H as <- <-. destruct (run_told _ _ _ _ U S) as (ch & -> & R). eexists. split; [reflexivity|].
  unfold tag_places. apply Forall_app. split.
  - unfold own_tag_places, these, val, at_. cbn [map app fst snd]. unfold j_sdtpr. repeat apply Forall_cons; try apply Forall_nil; in_child; told.
  - refine (under_found _ _ _ _ ch (j_rpr (sd_rpr p)) _ _ _ run_inside R); reflexivity.
Qed.

(** ** Nodes *)
Lemma node_told d n s l s' : uncut n -> b_node n s = Some (l, s') -> Forall (tell_alike l (j_node n)) (places d n).
Proof.
  intros U H. destruct n; cbn [places]; try apply Forall_nil; cbn [b_node uncut] in *.
  - unfold b_run in H. steps H. destruct (run_told _ _ _ _ U S) as (ch' & -> & R).
    refine (under_found _ _ _ _ ch' (j_rpr p) _ _ _ run_inside R); reflexivity.
  - steps H. destruct (tag_told _ _ _ _ U S) as (ch' & -> & R). refine (under_found _ _ _ _ ch' (j_sdtpr p) _ _ _ _ R); [reflexivity | reflexivity|].
    unfold tag_places. apply Forall_app. split; [unfold own_tag_places, these, val, at_; cbn [map]; all_inside | apply under_inside, run_inside].
  - unfold b_para in H. steps H. destruct (paragraph_told d _ _ _ _ U S) as (ch' & -> & R).
    refine (under_found _ _ _ _ ch' (j_ppr p) _ _ _ _ R); [reflexivity | reflexivity | apply paragraph_inside].
  - destruct U as [U1 U2]. steps H. refine (under_found _ _ _ _ _ (j_tblpr p) _ _ _ _ (table_told p U1 U2)); [reflexivity | reflexivity|].
    unfold table_places. apply Forall_app. split; [unfold own_table_places, these, val, at_; cbn [map app]; all_inside|]. apply Forall_app. split; apply under_inside; [|apply margins_inside].
    unfold border_places, sides, these, at_. side_names. all_inside.
  - steps H. destruct (row_told _ _ _ _ S) as (ch' & -> & R). refine (under_found _ _ _ _ ch' (j_trpr p) _ _ _ _ R); [reflexivity | reflexivity|].
    unfold row_places, mark_places, these, at_. cbn [map app]. all_inside.
  - destruct U as (U1 & U2 & U3). step H. step H. unfold ret in H. injection H as <- <-.
    refine (under_found _ _ _ _ _ (j_tcpr p) _ _ _ _ (cell_told p U1 U2 U3)); [reflexivity | reflexivity|].
    unfold cell_places. apply Forall_app. split; [unfold own_cell_places, shading_places, these, val, at_; cbn [map app]; all_inside|].
    apply Forall_app. split; apply under_inside; [|apply margins_inside].
    unfold border_places, sides, these, at_. side_names. all_inside.
Qed.

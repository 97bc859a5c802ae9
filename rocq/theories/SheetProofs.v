(** Proofs that the JSON of styles, numberings and settings tells what their files tell. *)
From Coq Require Import NArith ZArith List Bool Lia.
From Verif Require Import Str StrFacts TypesModel Props Ast BuildModel BuildSpec JsonModel JsonSpec TellSpec TellProofs TellPlaces StyleModel SheetModel SheetSpec.
Import ListNotations.
Open Scope list_scope.

Lemma ppr_one p s l s' : b_ppr p s = Some (l, s') -> exists ch, l = [E "w:pPr" [] ch].
Proof. intros H. destruct p as [b [[au da q]|]]; cbn [b_ppr] in H; steps H; eexists; reflexivity. Qed.
Lemma rpr_one p s l s' : b_rpr p s = Some (l, s') -> exists ch, l = [E "w:rPr" [] ch].
Proof. intros H. unfold b_rpr in H. steps H. eexists; reflexivity. Qed.
Lemma table_inside : Forall inside table_places.
Proof.
  unfold table_places. apply Forall_app. split; [unfold own_table_places, these, val, at_; cbn [map app]; all_inside|]. apply Forall_app. split; apply under_inside; [|apply margins_inside].
  unfold border_places, sides, these, at_. side_names. all_inside.
Qed.
Lemma cell_inside : Forall inside cell_places.
Proof.
  unfold cell_places. apply Forall_app. split; [unfold own_cell_places, shading_places, these, val, at_; cbn [map app]; all_inside|].
  apply Forall_app. split; apply under_inside; [|apply margins_inside].
  unfold border_places, sides, these, at_. side_names. all_inside.
Qed.
Lemma ser_style t : ser_StyleType t = show_StyleType t. Proof. now destruct t. Qed.
Lemma ser_spacing t : ser_CharacterSpacingValues t = show_CharacterSpacingValues t. Proof. now destruct t. Qed.

(** ** Places of the element itself, and of its children *)
Lemma here n a ch v j k w : attribute k a = w -> at_json j v = w -> tell_alike [E n a ch] v (at_ j [n] k).
Proof. intros A J. unfold tell_alike, at_xml, at_. cbn [xpath jpath value is_switch attributes_at child]. rewrite String.eqb_refl. now rewrite A, J. Qed.
Lemma in_element n a ch v ps : Forall inside ps -> Forall (tell_alike ch v) ps -> Forall (tell_alike [E n a ch] v) (under [] [n] ps).
Proof. intros I H. refine (under_found [] [n] _ _ ch v _ _ _ I H); [|reflexivity]. cbn [xdown child]. now rewrite String.eqb_refl. Qed.
Lemma deeper j n m a ch b ch' v w ps : child m ch = Some (b, ch') -> jdown j v = Some w -> Forall inside ps -> Forall (tell_alike ch' w) ps ->
  Forall (tell_alike [E n a ch] v) (under j [n; m] ps).
Proof. intros C J I H. refine (under_found j [n; m] _ _ ch' w _ _ J I H). cbn [xdown child]. now rewrite String.eqb_refl, C. Qed.

(** ** Styles *)
Definition style_children (s : style) (r p : list xml) : list xml :=
  [valued "w:name" (sty_name s)] ++ r ++ p ++
  match sty_type s with StyleType_Table => [x_tcpr (sty_tcpr s); x_tblpr (sty_tblpr s)] | _ => [] end ++
  opt (valued "w:next") (sty_next s) ++ opt (valued "w:link") (sty_link s) ++
  on (sty_q_format s) [leaf "w:qFormat" []] ++ opt (valued_n "w:uiPriority") (sty_ui_priority s) ++
  on (sty_semi_hidden s) [leaf "w:semiHidden" []] ++ on (sty_unhide s) [leaf "w:unhideWhenUsed" []] ++
  opt (valued "w:basedOn") (sty_based_on s).
Lemma table_part_child k t : ("w:tcPr" =s k)%string = false -> ("w:tblPr" =s k)%string = false ->
  child k match sty_type t with StyleType_Table => [x_tcpr (sty_tcpr t); x_tblpr (sty_tblpr t)] | _ => [] end = None.
Proof. intros A B. destruct (sty_type t); try reflexivity. unfold x_tcpr, x_tblpr. cbn [child]. now rewrite A, B. Qed.
Lemma style_one depth t s l s' : uncut_style t -> b_style t s = Some (l, s') -> exists x, l = [x] /\ named "w:style" x = true /\ style_told depth (j_style t) x.
Proof.
  intros (U1 & U2 & U3) H. unfold b_style in H. step H. step H. unfold ret in H. injection H as <- <-.
  exists (E "w:style" [("w:type", show_StyleType (sty_type t)); ("w:styleId", sty_id t)]%string (style_children t a a0)). split; [reflexivity|]. split; [reflexivity|].
  destruct (run_told _ _ _ _ U1 S) as (r & -> & R). destruct (paragraph_told depth _ _ _ _ U2 S0) as (p & -> & P).
  assert (T := fun k => table_part_child k t).
  split.
  - unfold same_at, style_places. apply Forall_app. split; [unfold own_style_places; apply Forall_app; split|apply Forall_app; split].
    + repeat apply Forall_cons; try apply Forall_nil; (eapply here; [reflexivity|]); unfold j_style; rewrite at_obj; looking; cbn; rewrite ?ser_style; reflexivity.
    + apply in_element; [all_inside|]. unfold val, switch, at_, j_style, style_children.
      repeat apply Forall_cons; try apply Forall_nil; in_child; told.
    + eapply deeper; [unfold style_children; reflexivity | unfold j_style, obj; cbn [jdown]; rewrite member_look; looking; reflexivity | exact run_inside | exact R].
    + eapply deeper; [unfold style_children; reflexivity | unfold j_style, obj; cbn [jdown]; rewrite member_look; looking; reflexivity | apply paragraph_inside | exact P].
  - intros K. assert (Ty : sty_type t = StyleType_Table).
    { unfold j_style in K. rewrite at_obj in K. revert K. looking. intros K. destruct (sty_type t); try reflexivity; discriminate. }
    destruct (U3 Ty) as (W1 & W2 & W3 & W4 & W5). unfold same_at, table_style_places. apply Forall_app. split.
    + eapply deeper; [unfold style_children; rewrite Ty; reflexivity | unfold j_style, obj; cbn [jdown]; rewrite member_look; looking; reflexivity | exact table_inside | exact (table_told _ W1 W2)].
    + eapply deeper; [unfold style_children; rewrite Ty; reflexivity | unfold j_style, obj; cbn [jdown]; rewrite member_look; looking; reflexivity | exact cell_inside | exact (cell_told _ W3 W4 W5)].
  - assert (X : child "w:qFormat" (style_children t [E "w:rPr" [] r] [E "w:pPr" [] p]) = child "w:qFormat" (on (sty_q_format t) [leaf "w:qFormat" []])).
    { unfold style_children. rewrite <- ?app_assoc. find_child. }
    assert (Q : at_xml q_format [E "w:style" [("w:type", show_StyleType (sty_type t)); ("w:styleId", sty_id t)] (style_children t [E "w:rPr" [] r] [E "w:pPr" [] p])]
                = if sty_q_format t then Some "true"%string else None).
    { unfold at_xml, q_format. cbn [xpath value is_switch attributes_at child String.eqb Ascii.eqb Bool.eqb]. rewrite X. destruct (sty_q_format t); reflexivity. }
    assert (J : at_json ["qFormat"%string] (j_style t) = if sty_q_format t then None else Some "false"%string).
    { unfold j_style. rewrite at_obj. looking. destruct (sty_q_format t); reflexivity. }
    rewrite Q, J. destruct (sty_q_format t); [left | right]; now split.
Qed.

(** ** Lists *)
Lemma each_one {A} (f : A -> M (list xml)) (j : A -> json) n (P : json -> xml -> Prop) (U : A -> Prop) :
  (forall a s l s', U a -> f a s = Some (l, s') -> exists x, l = [x] /\ named n x = true /\ P (j a) x) ->
  forall l s xs s', Forall U l -> each f l s = Some (xs, s') -> filter (named n) xs = xs /\ Forall2 P (map j l) xs.
Proof.
  intros H. induction l as [|a l IH]; intros s xs s' UL B; cbn [each] in B.
  - unfold ret in B. injection B as <- <-. split; [reflexivity | constructor].
  - step B. step B. unfold ret in B. injection B as <- <-. inversion UL; subst. destruct (H _ _ _ _ H2 S) as (x & -> & N & Px).
    destruct (IH _ _ _ H3 S0) as [F Q]. cbn [app filter map]. rewrite N, F. split; [reflexivity | now constructor].
Qed.
Lemma each_not {A} (f : A -> M (list xml)) n : (forall a s l s', f a s = Some (l, s') -> filter (named n) l = []) ->
  forall l s xs s', each f l s = Some (xs, s') -> filter (named n) xs = [].
Proof.
  intros H. induction l as [|a l IH]; intros s xs s' B; cbn [each] in B.
  - unfold ret in B. injection B as <- <-. reflexivity.
  - step B. step B. unfold ret in B. injection B as <- <-. now rewrite filter_app, (H _ _ _ _ S), (IH _ _ _ S0).
Qed.
Lemma entries_here k fs l : look k fs = Some (JArr l) -> entries k (obj fs) = l.
Proof. intros H. unfold entries, obj. now rewrite member_look, H. Qed.

(** ** The styles file *)
Lemma styles_all depth t s x s' : uncut_styles t -> b_styles t s = Some (x, s') ->
  same_at (defaults_places depth) (j_styles t) x /\
  exists normal l, elements "w:style" x = normal :: l /\ at_xml (at_ [] ["w:style"] "w:styleId") [normal] = Some "Normal"%string /\
    one_by_one (style_told depth) (entries "styles" (j_styles t)) l.
Proof.
  intros (U1 & U2 & U3) H. unfold b_styles in H. step H. step H. step H. unfold ret in H. injection H as <- <-.
  unfold b_doc_defaults in S. step S. step S. unfold ret in S. injection S as <- <-.
  destruct (run_told _ _ _ _ U1 S2) as (r & -> & R). destruct (paragraph_told depth _ _ _ _ U2 S3) as (p & -> & P). split.
  - unfold same_at, defaults_places. apply Forall_app. split.
    + refine (under_found _ _ _ _ r (j_rpr (ss_rpr t)) _ _ _ run_inside R); reflexivity.
    + refine (under_found _ _ _ _ p (j_ppr (ss_ppr t)) _ _ _ (paragraph_inside depth) P); reflexivity.
  - destruct (each_one b_style j_style "w:style" (style_told depth) uncut_style (style_one depth) _ _ _ _ U3 S1) as [F Q].
    unfold b_style in S0. step S0. step S0. unfold ret in S0. injection S0 as <- <-.
    eexists _, _. split; [|split].
    + unfold elements. cbn [children app filter named String.eqb Ascii.eqb Bool.eqb]. rewrite F. reflexivity.
    + reflexivity.
    + unfold one_by_one, j_styles. rewrite (entries_here _ _ (map j_style (ss_list t))) by reflexivity. exact Q.
Qed.

(** ** Numberings *)
Definition level_children (l : level) (p r : list xml) : list xml :=
  [valued_n "w:start" (lv_start l)] ++ [valued "w:numFmt" (lv_format l)] ++ [valued "w:lvlText" (lv_text l)] ++
  [valued "w:lvlJc" (lv_jc l)] ++ p ++ r ++ opt (valued "w:pStyle") (lv_pstyle l) ++
  opt (valued_n "w:lvlRestart") (lv_restart l) ++ on (lv_lgl l) [leaf "w:isLgl" []] ++
  match lv_suffix l with LevelSuffixType_Tab => [] | s => [valued "w:suff" (show_LevelSuffixType s)] end.
Lemma suff_child k l : ("w:suff" =s k)%string = false ->
  child k match lv_suffix l with LevelSuffixType_Tab => [] | s => [valued "w:suff" (show_LevelSuffixType s)] end = None.
Proof. intros H. destruct (lv_suffix l); try reflexivity; unfold valued, leaf; cbn [child]; now rewrite H. Qed.
Lemma level_one depth t s l s' : uncut_level t -> b_level t s = Some (l, s') -> exists x, l = [x] /\ named "w:lvl" x = true /\ level_told depth (j_level t) x.
Proof.
  intros (U0 & U1 & U2) H. unfold b_level in H. step H. step H. unfold ret in H. injection H as <- <-.
  exists (E "w:lvl" [("w:ilvl", show_N (lv_level t))]%string (level_children t a a0)). split; [reflexivity|]. split; [reflexivity|].
  destruct (paragraph_told depth _ _ _ _ U2 S) as (p & -> & P). destruct (run_told _ _ _ _ U1 S0) as (r & -> & R).
  assert (T := fun k => suff_child k t). split.
  - unfold same_at, level_places. apply Forall_app. split; [unfold own_level_places; apply Forall_cons|apply Forall_app; split].
    + eapply here; [reflexivity|]. unfold j_level. rewrite at_obj. looking. cbn. now rewrite show_jn.
    + apply in_element; [all_inside|]. unfold val, switch, at_, j_level, level_children.
      repeat apply Forall_cons; try apply Forall_nil; in_child; try told.
      unfold jn32. rewrite cut_off by assumption. plainly.
    + eapply deeper; [unfold level_children; reflexivity | unfold j_level, obj; cbn [jdown]; rewrite member_look; looking; reflexivity | exact run_inside | exact R].
    + eapply deeper; [unfold level_children; reflexivity | unfold j_level, obj; cbn [jdown]; rewrite member_look; looking; reflexivity | apply paragraph_inside | exact P].
  - assert (X : child "w:suff" (level_children t [E "w:pPr" [] p] [E "w:rPr" [] r]) =
              child "w:suff" match lv_suffix t with LevelSuffixType_Tab => [] | s => [valued "w:suff" (show_LevelSuffixType s)] end).
    { unfold level_children. rewrite <- ?app_assoc. find_child. }
    unfold suffix_told, at_xml, suffix, at_. cbn [xpath value is_switch attributes_at child String.eqb Ascii.eqb Bool.eqb]. rewrite X.
    unfold j_level. rewrite at_obj. looking. destruct (lv_suffix t); reflexivity.
Qed.
Lemma levels_all depth l s xs s' : Forall uncut_level l -> each b_level l s = Some (xs, s') ->
  filter (named "w:lvl") xs = xs /\ Forall2 (level_told depth) (map j_level l) xs.
Proof. apply (each_one b_level j_level "w:lvl" (level_told depth) uncut_level (level_one depth)). Qed.
Lemma level_shape l s xs s' : b_level l s = Some (xs, s') -> exists a ch, xs = [E "w:lvl" a ch].
Proof. intros H. unfold b_level in H. steps H. eexists _, _. reflexivity. Qed.
Lemma levels_child k l : forall s xs s', each b_level l s = Some (xs, s') -> ("w:lvl" =s k)%string = false -> child k xs = None.
Proof.
  induction l as [|a l IH]; intros s xs s' B N; cbn [each] in B.
  - unfold ret in B. injection B as <- <-. reflexivity.
  - step B. step B. unfold ret in B. injection B as <- <-. destruct (level_shape _ _ _ _ S) as (x & ch & ->). cbn [app child]. rewrite N. eapply IH; eauto.
Qed.
Lemma abstract_one depth t s l s' : Forall uncut_level (an_levels t) -> b_abstract t s = Some (l, s') ->
  exists x, l = [x] /\ named "w:abstractNum" x = true /\ abstract_told depth (j_abstract t) x.
Proof.
  intros U H. unfold b_abstract in H. step H. unfold ret in H. injection H as <- <-. eexists. split; [reflexivity|]. split; [reflexivity|].
  destruct (levels_all depth _ _ _ _ U S) as [F Q]. split.
  - unfold same_at, abstract_places. repeat apply Forall_cons; try apply Forall_nil.
    + eapply here; [reflexivity|]. unfold j_abstract. rewrite at_obj. looking. cbn. now rewrite show_jn.
    + unfold tell_alike, at_xml, at_. cbn [xpath jpath value is_switch attributes_at child String.eqb Ascii.eqb Bool.eqb].
      rewrite this_child by (eapply levels_child; [exact S | reflexivity]). unfold j_abstract. rewrite at_obj. looking. destruct (an_multi t); reflexivity.
  - unfold one_by_one, j_abstract. rewrite (entries_here _ _ (map j_level (an_levels t))) by reflexivity.
    unfold elements. cbn [children]. rewrite filter_app, F. destruct (an_multi t); exact Q.
Qed.
Lemma level_paths depth : Forall (fun p => jpath p <> []) (level_places depth).
Proof.
  assert (J : forall k x ps, Forall (fun p => jpath p <> []) (under [k] x ps)).
  { intros k x ps. unfold under. apply Forall_map. apply Forall_forall. intros p _. discriminate. }
  unfold level_places. apply Forall_app. split; [|apply Forall_app; split; apply J].
  unfold own_level_places. apply Forall_cons; [discriminate|]. unfold under, val, switch, at_. cbn [map app]. all_inside.
Qed.
Lemma level_inside depth : Forall inside (level_places depth).
Proof.
  unfold level_places. apply Forall_app. split; [|apply Forall_app; split; apply under_inside; [exact run_inside | apply paragraph_inside]].
  unfold own_level_places. apply Forall_cons; [discriminate|]. apply under_inside. unfold val, switch, at_. all_inside.
Qed.
Lemma override_one depth t s l s' : match ov_replace t with Some l => uncut_level l | None => True end -> b_override t s = Some (l, s') ->
  exists x, l = [x] /\ named "w:lvlOverride" x = true /\ same_at (override_places depth) (j_override t) x.
Proof.
  intros U H. unfold b_override in H. step H. unfold ret in H. injection H as <- <-. eexists. split; [reflexivity|]. split; [reflexivity|].
  assert (A : (ov_replace t = None /\ a = []) \/ exists v x, ov_replace t = Some v /\ a = [x] /\ named "w:lvl" x = true /\ level_told depth (j_level v) x).
  { destruct (ov_replace t) as [v|]; [right | left].
    - destruct (level_one depth _ _ _ _ U S) as (x & -> & N & T). exists v, x. auto.
    - unfold ret in S. injection S as <- <-. now split. }
  unfold same_at, override_places. apply Forall_cons; [|apply Forall_cons].
  - eapply here; [reflexivity|]. unfold j_override. rewrite at_obj. looking. cbn. now rewrite show_jn.
  - unfold tell_alike, at_xml, at_. cbn [xpath jpath value is_switch attributes_at child String.eqb Ascii.eqb Bool.eqb].
    assert (C : child "w:startOverride" (a ++ opt (valued_n "w:startOverride") (ov_start t)) = child "w:startOverride" (opt (valued_n "w:startOverride") (ov_start t))).
    { apply later_child; [|reflexivity]. destruct A as [[_ ->]|(v & x & _ & -> & N & _)]; [reflexivity|]. destruct x as [m q ch|m q ts]; cbn [named] in N; apply String.eqb_eq in N; subst m; reflexivity. }
    rewrite C. unfold j_override. rewrite at_obj. looking. destruct (ov_start t); cbn; rewrite ?show_jn; reflexivity.
  - destruct A as [[O ->]|(v & x & O & -> & N & T & _)].
    + unfold under. apply Forall_map. pose proof (level_inside depth) as I. pose proof (level_paths depth) as J. rewrite Forall_forall in *. intros p Hp.
      specialize (I p Hp). specialize (J p Hp). unfold tell_alike, at_xml. cbn [jpath xpath value is_switch]. rewrite at_json_app, attributes_app by exact I.
      cbn [xdown child String.eqb Ascii.eqb Bool.eqb app]. unfold j_override, obj. cbn [jdown]. rewrite member_look. looking. rewrite O. cbn [j_opt].
      assert (Y : forall p, In p (level_places depth) -> exists r, xpath p = "w:lvl"%string :: r).
      { intros q Hq. unfold level_places, own_level_places in Hq. rewrite !in_app_iff in Hq. cbn [In] in Hq. unfold under in Hq. rewrite !in_map_iff in Hq.
        destruct Hq as [[<-|(z & <- & _)]|[(z & <- & _)|(z & <- & _)]]; eexists; reflexivity. }
      destruct (Y p Hp) as (rest & E). rewrite E. cbn [attributes_at]. destruct (jpath p) as [|jk jr]; [now destruct J|]. cbn [at_json].
      assert (Z : child "w:lvl" (opt (valued_n "w:startOverride") (ov_start t)) = None) by (destruct (ov_start t); reflexivity). now rewrite Z.
    + assert (T' : Forall (tell_alike ([x] ++ opt (valued_n "w:startOverride") (ov_start t)) (j_level v)) (level_places depth)).
      { unfold same_at in T. rewrite Forall_forall in *. intros p Hp. specialize (T p Hp). revert T.
        assert (Y : forall p, In p (level_places depth) -> exists r, xpath p = "w:lvl"%string :: r).
        { intros q Hq. unfold level_places, own_level_places in Hq. rewrite !in_app_iff in Hq. cbn [In] in Hq. unfold under in Hq. rewrite !in_map_iff in Hq.
          destruct Hq as [[<-|(z & <- & _)]|[(z & <- & _)|(z & <- & _)]]; eexists; reflexivity. }
        destruct (Y p Hp) as (rest & E). unfold tell_alike, at_xml. rewrite E. cbn [attributes_at].
        destruct x as [m q ch|m q ts]; cbn [named] in N; cbn [app child]; rewrite N; auto. }
      refine (under_found _ _ _ _ _ (j_level v) _ _ _ (level_inside depth) T'); [reflexivity|].
      unfold j_override, obj. cbn [jdown]. rewrite member_look. looking. now rewrite O.
Qed.
Lemma num_one depth t s l s' : Forall (fun o => match ov_replace o with Some l => uncut_level l | None => True end) (nm_overrides t) -> b_num t s = Some (l, s') ->
  exists x, l = [x] /\ named "w:num" x = true /\ num_told depth (j_num t) x.
Proof.
  intros U H. unfold b_num in H. step H. unfold ret in H. injection H as <- <-. eexists. split; [reflexivity|]. split; [reflexivity|].
  destruct (each_one b_override j_override "w:lvlOverride" (same_at (override_places depth)) _ (override_one depth) _ _ _ _ U S) as [F Q]. split.
  - unfold same_at, num_places. repeat apply Forall_cons; try apply Forall_nil.
    + eapply here; [reflexivity|]. unfold j_num. rewrite at_obj. looking. cbn. now rewrite show_jn.
    + unfold tell_alike, at_xml, at_. cbn [xpath jpath value is_switch]. unfold j_num. rewrite at_obj. looking. cbn. now rewrite show_jn.
  - unfold one_by_one, j_num. rewrite (entries_here _ _ (map j_override (nm_overrides t))) by reflexivity.
    unfold elements. cbn [children]. change (filter (named "w:lvlOverride") (valued_n "w:abstractNumId" (nm_abstract t) :: a)) with (filter (named "w:lvlOverride") a). now rewrite F.
Qed.
Lemma abstract_shape t s l s' : b_abstract t s = Some (l, s') -> exists a ch, l = [E "w:abstractNum" a ch].
Proof. intros H. unfold b_abstract in H. steps H. eexists _, _. reflexivity. Qed.
Lemma num_shape t s l s' : b_num t s = Some (l, s') -> exists a ch, l = [E "w:num" a ch].
Proof. intros H. unfold b_num in H. steps H. eexists _, _. reflexivity. Qed.
Lemma numberings_all depth t s x s' : uncut_numberings t -> b_numberings t s = Some (x, s') ->
  exists a0 la n0 ln, elements "w:abstractNum" x = a0 :: la /\ elements "w:num" x = n0 :: ln /\
    at_xml (at_ [] ["w:abstractNum"] "w:abstractNumId") [a0] = Some "1"%string /\ at_xml (at_ [] ["w:num"] "w:numId") [n0] = Some "1"%string /\
    one_by_one (abstract_told depth) (entries "abstractNums" (j_numberings t)) la /\ one_by_one (num_told depth) (entries "numberings" (j_numberings t)) ln.
Proof.
  intros (U1 & U2) H. unfold b_numberings in H. step H. step H. step H. step H. unfold ret in H. injection H as <- <-.
  destruct (each_one b_abstract j_abstract "w:abstractNum" (abstract_told depth) _ (abstract_one depth) _ _ _ _ U1 S0) as [F1 Q1].
  destruct (each_one b_num j_num "w:num" (num_told depth) _ (num_one depth) _ _ _ _ U2 S2) as [F2 Q2].
  assert (G1 : filter (named "w:num") a0 = []) by (eapply (each_not b_abstract); [|exact S0]; intros y z l' z' B; destruct (abstract_shape _ _ _ _ B) as (? & ? & ->); reflexivity).
  assert (G2 : filter (named "w:abstractNum") a2 = []) by (eapply (each_not b_num); [|exact S2]; intros y z l' z' B; destruct (num_shape _ _ _ _ B) as (? & ? & ->); reflexivity).
  unfold b_abstract in S. step S. unfold ret in S. injection S as <- <-. unfold b_num in S1. step S1. unfold ret in S1. injection S1 as <- <-.
  eexists _, a0, _, a2. unfold elements. cbn [children]. rewrite !filter_app, F1, F2, G1, G2. split; [cbn [filter named String.eqb Ascii.eqb Bool.eqb app]; rewrite app_nil_r; reflexivity|].
  split; [reflexivity|]. split; [reflexivity|]. split; [reflexivity|]. unfold one_by_one, j_numberings.
  rewrite (entries_here "abstractNums" _ (map j_abstract (ns_abstracts t))) by reflexivity. rewrite (entries_here "numberings" _ (map j_num (ns_nums t))) by reflexivity. now split.
Qed.

(** ** Settings *)
Lemma vars_all l : Forall2 (same_at var_places) (map j_var l) (map x_doc_var l).
Proof. induction l as [|[n v] l IH]; cbn [map]; constructor; [|exact IH]. repeat constructor. Qed.
Lemma settings_all c : settings_told (j_settings c) (x_settings c).
Proof.
  split.
  - unfold same_at, settings_places. apply in_element; [all_inside|]. unfold val, at_, j_settings. repeat apply Forall_cons; try apply Forall_nil.
    + in_child. told.
    + in_child. reflexivity.
    + unfold tell_alike, at_xml. cbn [jpath xpath value is_switch]. rewrite at_obj. looking. destruct c as [tb di vs eo ad [sp|]], ad; try destruct sp; reflexivity.
  - unfold switched_on. destruct c as [tb [di|] [|v vs] eo ad sp], eo; reflexivity.
  - unfold switched_on. destruct c as [tb di vs eo ad [sp|]], ad; reflexivity.
  - destruct c as [tb [di|] [|v vs] eo ad sp], eo; reflexivity.
  - unfold one_by_one, j_settings. rewrite (entries_here _ _ (map j_var (cfg_vars c))) by reflexivity.
    replace (flat_map (elements "w:docVar") (elements "w:docVars" (x_settings c))) with (map x_doc_var (cfg_vars c)); [apply vars_all|].
    assert (F : forall l, filter (named "w:docVar") (map x_doc_var l) = map x_doc_var l) by (induction l as [|v l IH]; cbn [map filter]; [reflexivity|]; cbn; now rewrite IH).
    destruct c as [tb [di|] [|v vs] eo ad sp], eo; cbn [cfg_vars]; try reflexivity;
      (transitivity (filter (named "w:docVar") (map x_doc_var (v :: vs)) ++ []); [now rewrite F, app_nil_r | reflexivity]).
Qed.

(** ** Comments *)
Definition as_start (c : comment_data * list node) : node := NCommentStart (fst c) (snd c).
Lemma comment_one c s l s' : forallb all_alike (snd c) = true -> b_comment c s = Some (l, s') ->
  exists x, l = [x] /\ named "w:comment" x = true /\ comment_told (j_comment (fst c) (map j_node (snd c))) x.
Proof.
  intros A H. unfold b_comment, b_nodes in H. step H. unfold ret in H. injection H as <- <-. eexists. split; [reflexivity|]. split; [reflexivity|].
  assert (A' : forallb alike (flat_map written (snd c)) = true).
  { clear - A. induction (snd c) as [|n body IH]; [reflexivity|]. cbn [forallb flat_map] in *. apply andb_true_iff in A. destruct A as [A1 A2].
    rewrite forallb_app. unfold all_alike in A1. now rewrite A1, IH. }
  split; [reflexivity|]. split.
  - unfold same_at, comment_places. cbn [map fst snd]. repeat apply Forall_cons; try apply Forall_nil; (eapply here; [reflexivity|]); unfold j_comment; rewrite at_obj; looking; cbn; rewrite ?show_jn; reflexivity.
  - transitivity (flat_map things_in_xml a); [|reflexivity]. rewrite (each_agree _ (all_agree (snd c)) A' _ _ _ S).
    unfold j_comment. cbn. destruct (cd_parent (fst c)); cbn; rewrite !app_nil_r; reflexivity.
Qed.
Lemma comments_all l s x s' : Forall (fun c => forallb all_alike (snd c) = true) l -> b_comments l s = Some (x, s') ->
  one_by_one comment_told (entries "comments" (j_comments (map as_start l))) (children x).
Proof.
  intros A H. unfold b_comments in H. step H. unfold ret in H. injection H as <- <-.
  destruct (each_one b_comment (fun c => j_comment (fst c) (map j_node (snd c))) "w:comment" comment_told _ comment_one _ _ _ _ A S) as [_ Q].
  unfold j_comments. rewrite map_map. unfold as_start. rewrite (entries_here _ _ (map (fun c => j_comment (fst c) (map j_node (snd c))) l)) by reflexivity. exact Q.
Qed.

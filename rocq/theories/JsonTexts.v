(** Which texts the JSON of a document has. *)
From Coq Require Import NArith ZArith List Bool Lia.
From Verif Require Import Str StrFacts TypesModel Props Ast RoundSpec SurviveSpec JsonModel JsonSpec JsonProofs.
From Verif Require RoundTextProofs.
Import ListNotations.
Open Scope list_scope.

(** ** Properties have no texts *)
Definition quiet (v : json) : Prop := texts_found v = [].
Definition hush (f : string * option json) : Prop := match snd f with Some v => quiet v | None => True end.
Definition heard (f : string * option json) : list string := match snd f with Some v => texts_found v | None => [] end.
Definition no_data (fs : fields) : bool := negb (existsb (String.eqb "data") (map fst fs)).
Lemma member_present k fs : existsb (String.eqb k) (map fst fs) = false -> member k (present fs) = None.
Proof.
  induction fs as [|[a o] fs IH]; [reflexivity|]. cbn [map fst existsb]. intros H. apply orb_false_elim in H. destruct H as [H1 H2].
  change (present ((a, o) :: fs)) with (match o with Some v => [(a, v)] | None => [] end ++ present fs).
  destruct o as [v|]; [|now apply IH]. cbn [app member]. rewrite String.eqb_sym in H1. rewrite H1. now apply IH.
Qed.
Lemma no_text l : member "data" l = None -> text_here l = [].
Proof. intros H. unfold text_here. rewrite H. destruct (member "type" l) as [[]|]; reflexivity. Qed.
Lemma texts_obj fs : no_data fs = true -> texts_found (obj fs) = flat_map heard fs.
Proof.
  intros H. unfold no_data in H. apply negb_true_iff in H. unfold obj. cbn [texts_found]. rewrite (no_text _ (member_present _ _ H)). cbn [app]. clear H.
  induction fs as [|[a o] fs IH]; [reflexivity|].
  change (present ((a, o) :: fs)) with (match o with Some v => [(a, v)] | None => [] end ++ present fs). rewrite flat_map_app, IH. cbn [flat_map].
  f_equal. destruct o as [v|]; [|reflexivity]. unfold heard. cbn [flat_map snd]. apply app_nil_r.
Qed.
Lemma hushed fs : Forall hush fs -> flat_map heard fs = [].
Proof.
  induction 1 as [|[k [v|]] fs H Hs IH]; [reflexivity | |]; cbn [flat_map]; rewrite IH; unfold hush, heard in *; cbn [snd] in *; [rewrite H|]; reflexivity.
Qed.
Lemma quiet_obj fs : no_data fs = true -> Forall hush fs -> quiet (obj fs).
Proof. intros N H. unfold quiet. rewrite texts_obj by assumption. now apply hushed. Qed.
Lemma hush_has k v : quiet v -> hush (has k v). Proof. trivial. Qed.
Lemma hush_may {A} k (f : A -> json) o : (forall x, quiet (f x)) -> hush (may k f o). Proof. intros H. destruct o; [apply H | exact I]. Qed.
Lemma hush_flag k v b : quiet v -> hush (flag k v b). Proof. intros H. destruct b; [apply H | exact I]. Qed.
Lemma quiet_opt {A} (f : A -> json) o : (forall x, quiet (f x)) -> quiet (j_opt f o). Proof. intros H. destruct o; [apply H | reflexivity]. Qed.
Lemma quiet_str s : quiet (JStr s). Proof. reflexivity. Qed.
Lemma quiet_bool s : quiet (JBool s). Proof. reflexivity. Qed.
Lemma quiet_num s : quiet (JNum s). Proof. reflexivity. Qed.
Lemma quiet_whole s : quiet (JWhole s). Proof. reflexivity. Qed.
Lemma quiet_jn s : quiet (jn s). Proof. reflexivity. Qed.
Lemma quiet_jn32 s : quiet (jn32 s). Proof. reflexivity. Qed.
Lemma quiet_null : quiet JNull. Proof. reflexivity. Qed.
Lemma quiet_color s : quiet (j_color s). Proof. reflexivity. Qed.
Lemma quiet_map {A} (f : A -> json) l : (forall x, quiet (f x)) -> quiet (JArr (map f l)).
Proof. intros H. unfold quiet. cbn [texts_found]. induction l as [|x l IH]; [reflexivity|]. cbn [map flat_map]. now rewrite H, IH. Qed.
Lemma quiet_nil : quiet (JArr []). Proof. reflexivity. Qed.
Create HintDb quiet discriminated.
#[export] Hint Constants Opaque : quiet.
#[export] Hint Resolve hush_has hush_may hush_flag quiet_opt quiet_str quiet_bool quiet_num quiet_whole quiet_jn quiet_jn32 quiet_null quiet_color quiet_map quiet_nil : quiet.
Ltac quietly := apply quiet_obj; [reflexivity|]; repeat apply Forall_cons; try apply Forall_nil; auto with quiet.
Lemma quiet_ins x : quiet (j_ins x). Proof. quietly. Qed.
Lemma quiet_del x : quiet (j_del x). Proof. quietly. Qed.
Lemma quiet_review x : quiet (j_review x). Proof. quietly. Qed.
Lemma quiet_fit x : quiet (j_fit x). Proof. quietly. Qed.
Lemma quiet_fonts x : quiet (j_fonts x). Proof. quietly. Qed.
Lemma quiet_text_border x : quiet (j_text_border x). Proof. quietly. Qed.
Lemma quiet_ptab x : quiet (j_ptab x). Proof. quietly. Qed.
Lemma quiet_shading x : quiet (j_shading x). Proof. quietly. Qed.
#[export] Hint Resolve quiet_ins quiet_del quiet_review quiet_fit quiet_fonts quiet_text_border quiet_ptab quiet_shading : quiet.
Lemma quiet_rpr x : quiet (j_rpr x). Proof. quietly. Qed.
Lemma quiet_special x : quiet (j_special x). Proof. destruct x; quietly. Qed.
#[export] Hint Resolve quiet_rpr quiet_special : quiet.
Lemma quiet_indent x : quiet (j_indent x). Proof. quietly. Qed.
Lemma quiet_spacing x : quiet (j_spacing x). Proof. quietly. Qed.
Lemma quiet_numpr x : quiet (j_numpr x). Proof. quietly. Qed.
Lemma quiet_tab x : quiet (j_tab x). Proof. quietly. Qed.
Lemma quiet_pborder a x : quiet (j_pborder a x). Proof. quietly. Qed.
#[export] Hint Resolve quiet_indent quiet_spacing quiet_numpr quiet_tab quiet_pborder : quiet.
Lemma quiet_pborders x : quiet (j_pborders x). Proof. quietly. Qed.
Lemma quiet_frame x : quiet (j_frame x). Proof. quietly. Qed.
Lemma quiet_size x : quiet (j_size x). Proof. quietly. Qed.
Lemma quiet_margin x : quiet (j_margin x). Proof. quietly. Qed.
Lemma quiet_grid x : quiet (j_grid x). Proof. quietly. Qed.
Lemma quiet_page_num x : quiet (j_page_num x). Proof. quietly. Qed.
Lemma quiet_header_ref x : quiet (j_header_ref x). Proof. quietly. Qed.
Lemma quiet_footer_ref x : quiet (j_footer_ref x). Proof. quietly. Qed.
#[export] Hint Resolve quiet_pborders quiet_frame quiet_size quiet_margin quiet_grid quiet_page_num quiet_header_ref quiet_footer_ref : quiet.
Lemma quiet_section x : quiet (j_sectpr no_parts x).
Proof. unfold j_sectpr, no_parts. quietly; exact I. Qed.
#[export] Hint Resolve quiet_section : quiet.
Lemma quiet_base b c : match c with Some v => quiet v | None => True end -> quiet (obj (ppr_fields b c)).
Proof. intros H. quietly. Qed.
Lemma quiet_ppr : forall x, quiet (j_ppr x).
Proof.
  fix F 1. intros [b [[a d q]|]]; cbn [j_ppr j_change]; apply quiet_base; [|exact I]. quietly.
Qed.
Lemma quiet_border a x : quiet (j_border a x). Proof. quietly. Qed.
#[export] Hint Resolve quiet_ppr quiet_border : quiet.
Lemma quiet_tborders x : quiet (j_tborders x). Proof. quietly. Qed.
Lemma quiet_cborders x : quiet (j_cborders x). Proof. quietly. Qed.
Lemma quiet_width x : quiet (j_width x). Proof. quietly. Qed.
Lemma quiet_cmargin x : quiet (j_cmargin x). Proof. quietly. Qed.
Lemma quiet_tindent x : quiet (j_tindent x). Proof. quietly. Qed.
#[export] Hint Resolve quiet_tborders quiet_cborders quiet_width quiet_cmargin quiet_tindent : quiet.
Lemma quiet_cmargins x : quiet (j_cmargins x). Proof. quietly. Qed.
Lemma quiet_tmargins x : quiet (j_tmargins x). Proof. quietly. Qed.
Lemma quiet_tposition x : quiet (j_tposition x). Proof. quietly. Qed.
#[export] Hint Resolve quiet_cmargins quiet_tmargins quiet_tposition : quiet.
Lemma quiet_tblpr x : quiet (j_tblpr x). Proof. quietly. Qed.
Lemma quiet_trpr x : quiet (j_trpr x). Proof. quietly. Qed.
Lemma quiet_tcpr x : quiet (j_tcpr x). Proof. quietly. Qed.
Lemma quiet_binding x : quiet (j_binding x). Proof. quietly. Qed.
#[export] Hint Resolve quiet_tblpr quiet_trpr quiet_tcpr quiet_binding : quiet.
Lemma quiet_sdtpr x : quiet (j_sdtpr x). Proof. quietly. Qed.
Lemma quiet_range x : quiet (j_range x). Proof. reflexivity. Qed.
Lemma quiet_style_level x : quiet (j_style_level x). Proof. reflexivity. Qed.
#[export] Hint Resolve quiet_sdtpr quiet_range quiet_style_level : quiet.
Lemma quiet_instr_toc x : quiet (j_instr_toc x). Proof. quietly. Qed.
#[export] Hint Resolve quiet_instr_toc : quiet.
Lemma texts_kind t v : (t =s "text") || (t =s "deleteText") = false -> texts_found (kind t v) = texts_found v.
Proof.
  intros H. unfold kind. cbn [obj texts_found present has flat_map snd fst app]. unfold text_here. cbn [member]. cbn. rewrite H.
  destruct v; cbn; rewrite ?app_nil_r; reflexivity.
Qed.
Lemma quiet_kind t v : (t =s "text") || (t =s "deleteText") = false -> quiet v -> quiet (kind t v).
Proof. intros H Q. unfold quiet. rewrite texts_kind by assumption. exact Q. Qed.
Lemma quiet_instr x : quiet (j_instr x).
Proof. destruct x; cbn [j_instr]; apply quiet_kind; try reflexivity; try (quietly; fail); auto with quiet. Qed.
Lemma quiet_bytes s : quiet (j_bytes s). Proof. apply quiet_map. intros x. apply quiet_jn. Qed.
Lemma quiet_position x : quiet (j_position x). Proof. destruct x; quietly. Qed.
#[export] Hint Resolve quiet_instr quiet_bytes quiet_position : quiet.
Lemma quiet_pic x : quiet (j_pic x).
Proof. quietly. unfold hush. cbn [snd]. destruct (pic_image x); [exact I | apply quiet_bytes]. Qed.
Lemma quiet_toc_item x : quiet (j_toc_item x). Proof. quietly. Qed.
#[export] Hint Resolve quiet_pic quiet_toc_item : quiet.

(** ** The tree *)
Definition tells (n : node) : Prop := texts_found (j_node n) = texts_of n.
Definition part_tells (n : node) : Prop := match n with NPart _ _ _ l => Forall tells l | _ => True end.
Lemma map_tells l : Forall tells l -> flat_map texts_found (map j_node l) = flat_map texts_of l.
Proof. induction 1 as [|n l Hn Hl IH]; [reflexivity|]. cbn [map flat_map]. now rewrite Hn, IH. Qed.
Lemma heard_quiet f : hush f -> heard f = [].
Proof. unfold hush, heard. destruct (snd f); [trivial|reflexivity]. Qed.
Lemma heard_kids k l : Forall tells l -> heard (has k (JArr (map j_node l))) = flat_map texts_of l.
Proof. apply map_tells. Qed.
Lemma heard_list k l : Forall tells l -> heard (k, some_list (map j_node l)) = flat_map texts_of l.
Proof. intros H. rewrite <- (map_tells l H). now destruct l. Qed.
Ltac hear :=
  cbn [flat_map];
  repeat match goal with
  | |- context [heard ?f] => first [rewrite (heard_quiet f) by (auto with quiet) | rewrite heard_kids by assumption | rewrite heard_list by assumption]
  end; cbn [app]; rewrite ?app_nil_r.
Lemma part_json_texts rid b l : Forall tells l -> texts_found (j_part rid b (map j_node l)) = flat_map texts_of l.
Proof. intros H. unfold j_part. cbn [texts_found flat_map app]. rewrite texts_obj by reflexivity. hear. reflexivity. Qed.
Definition part_texts_of (parts : list node) : list (slot * list string) :=
  flat_map (fun q => match q with NPart s _ _ l => [(s, flat_map texts_of l)] | _ => [] end) parts.
Lemma first_texts_found s parts : first_texts s (part_texts_of parts) = match find_part s parts with Some (_, _, l) => flat_map texts_of l | None => [] end.
Proof.
  unfold first_texts. induction parts as [|n parts IH]; [reflexivity|]. unfold part_texts_of in *. cbn [flat_map find_part]. destruct n; cbn [app]; try exact IH.
  cbn [filter fst]. destruct (same_slot s s0); [reflexivity|exact IH].
Qed.
Lemma heard_part k s parts : Forall part_tells parts -> heard (k, part_in s (parts_json parts)) = first_texts s (part_texts_of parts).
Proof.
  intros H. rewrite part_in_found, first_texts_found. unfold heard. cbn [snd]. destruct (find_part s parts) as [[[r b] l]|] eqn:F; [|reflexivity].
  cbn [option_map]. apply found_in in F. apply (proj1 (Forall_forall _ _) H) in F. now apply part_json_texts.
Qed.
Lemma heard_section k parts p : Forall part_tells parts ->
  heard (has k (j_sectpr (fun s => part_in s (parts_json parts)) p)) = flat_map (fun s => first_texts s (part_texts_of parts)) slots.
Proof.
  intros H. unfold heard, has, j_sectpr. cbn [snd]. rewrite texts_obj by reflexivity. unfold sectpr_fields, slots. cbn [flat_map].
  repeat match goal with
  | |- context [heard (?k, part_in ?s (parts_json parts))] => rewrite (heard_part k s parts H)
  | |- context [heard ?f] => rewrite (heard_quiet f) by (auto with quiet)
  end. reflexivity.
Qed.
Lemma node_tells n : tells n /\ part_tells n.
Proof.
  induction n as [n IH2] using node_tree_ind.
  assert (IH := Forall_impl _ (fun c H => proj1 H) IH2). assert (IP := Forall_impl _ (fun c H => proj2 H) IH2). clear IH2.
  split; [|destruct n; cbn [part_tells]; try exact I; exact IH].
  unfold tells. destruct n; cbn [children] in IH, IP; try (cbn [j_node texts_of]; rewrite ?texts_kind by reflexivity; first [reflexivity | now auto with quiet]; fail);
   try (cbn [j_node texts_of]; rewrite !texts_kind by reflexivity; rewrite texts_obj by reflexivity; hear; reflexivity).
  - apply quiet_kind; [reflexivity|]. apply quiet_kind; [reflexivity|]. apply quiet_pic.
  - apply quiet_kind; [reflexivity|]. apply quiet_instr.
  - apply quiet_kind; [reflexivity|]. apply quiet_instr.
  - cbn [j_node texts_of]. rewrite texts_kind, texts_obj by reflexivity. cbn [flat_map]. rewrite (heard_quiet (has "id" _)) by (auto with quiet).
    cbn [app]. rewrite app_nil_r. unfold heard, has at 1, j_comment. cbn [snd]. rewrite texts_obj by reflexivity. hear. reflexivity.
  - cbn [j_node texts_of]. destruct l as [rid path|a]; cbn [link_fields app]; rewrite texts_kind, texts_obj by reflexivity; hear; [|reflexivity].
    destruct path; cbn [heard snd texts_found app]; reflexivity.
  - apply Forall_app in IH. destruct IH as [IB IA]. cbn [j_node texts_of]. rewrite texts_kind, texts_obj by reflexivity. hear. reflexivity.
  - apply Forall_app in IH. apply Forall_app in IP. destruct IH as [IH _], IP as [_ IP]. rewrite section_json, texts_kind, texts_obj by reflexivity.
    cbn [flat_map]. rewrite (heard_section _ _ _ IP). hear. reflexivity.
Qed.
Lemma all_tell l : Forall tells l. Proof. apply Forall_forall. intros n _. apply node_tells. Qed.
Lemma all_parts_tell l : Forall part_tells l. Proof. apply Forall_forall. intros n _. apply node_tells. Qed.
Lemma document_texts body sp parts nb : texts_found (j_document body sp parts nb) = flat_map texts_of body ++ part_texts parts.
Proof.
  unfold j_document. rewrite texts_obj by reflexivity. cbn [flat_map]. rewrite (heard_section _ _ _ (all_parts_tell parts)).
  rewrite heard_kids by apply all_tell. rewrite (heard_quiet (has "hasNumbering" _)) by (auto with quiet). now rewrite !app_nil_r.
Qed.

(** ** What was read *)
Import RoundTextProofs.
Lemma run_texts_back n : flat_map texts_of (reread_in_run n) = flat_map back (run_text n).
Proof. destruct n; try reflexivity; cbn; destruct s; reflexivity. Qed.
Lemma read_texts : forall n p, flat_map texts_of (reread p n) = flat_map back (texts p n).
Proof.
  assert (D : forall l, Forall (fun n => forall p, flat_map texts_of (reread p n) = flat_map back (texts p n)) l ->
    forall p, flat_map texts_of (flat_map (reread p) l) = flat_map back (flat_map (texts p) l)).
  { intros l H p. rewrite !flat_flat. apply flat_ext_Forall. induction H; constructor; auto. }
  induction n as [n IH] using node_tree_ind. intros p.
  assert (IH' : forall p, flat_map texts_of (flat_map (reread p) (children n)) = flat_map back (flat_map (texts p) (children n))) by (apply D; exact IH).
  clear IH D. destruct n; cbn [children] in IH'; cbn [reread texts texts_of flat_map]; try reflexivity; try (rewrite app_nil_r; apply IH').
  - rewrite app_nil_r, !flat_flat. apply flat_ext_Forall, Forall_forall. intros n _. apply run_texts_back.
  - destruct p; reflexivity.
  - destruct p; try reflexivity; cbn [texts_of flat_map]; rewrite app_nil_r; apply IH'.
  - destruct p; cbn [texts_of flat_map]; try (rewrite app_nil_r; apply IH'). apply IH'.
  - assert (S : forall p, flat_map texts_of (BuildModel.opt (fun m => NIns (reread_mark m) []) (r_ins (sd_rpr p0)) ++ BuildModel.opt (fun m => NDel (reread_mark m) []) (r_del (sd_rpr p0)) ++
        flat_map (reread p) ch) = flat_map back (flat_map (texts p) ch)).
    { intros q. rewrite !flat_map_app, IH'. destruct (r_ins (sd_rpr p0)), (r_del (sd_rpr p0)); reflexivity. }
    destruct p; try apply S; cbn [texts_of flat_map]; rewrite app_nil_r; apply IH'.
Qed.
Lemma all_read_texts p l : flat_map texts_of (flat_map (reread p) l) = flat_map back (flat_map (texts p) l).
Proof. rewrite !flat_flat. apply flat_ext_Forall, Forall_forall. intros n _. apply read_texts. Qed.

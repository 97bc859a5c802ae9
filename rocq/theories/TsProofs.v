(** The JSON of documents has the declared types. *)
From Coq Require Import NArith ZArith List Bool Lia.
From Verif Require Import Str StrFacts TypesModel Props Ast JsonModel JsonProofs TsSpec.
Import ListNotations.
Open Scope list_scope.

Section Strict.
Variable strict : bool.
Notation "v ∈ t" := (has_type strict v t) (at level 70).

(** ** Objects *)
Fixpoint lookup (k : string) (fs : fields) : option json := match fs with [] => None | (a, o) :: fs => if a =s k then o else lookup k fs end.
Lemma no_member k fs : existsb (String.eqb k) (map fst fs) = false -> member_of k (present fs) = None.
Proof.
  induction fs as [|[a o] fs IH]; [reflexivity|]. cbn [map fst existsb]. intros H. apply orb_false_elim in H. destruct H as [H1 H2].
  change (present ((a, o) :: fs)) with (match o with Some v => [(a, v)] | None => [] end ++ present fs).
  destruct o as [v|]; [|now apply IH]. cbn [app member_of]. rewrite String.eqb_sym in H1. rewrite H1. now apply IH.
Qed.
Lemma member_lookup k fs : distinct (map fst fs) = true -> member_of k (present fs) = lookup k fs.
Proof.
  induction fs as [|[a o] fs IH]; [reflexivity|]. cbn [map fst distinct lookup]. intros H. apply andb_prop in H. destruct H as [H1 H2]. apply negb_true_iff in H1.
  change (present ((a, o) :: fs)) with (match o with Some v => [(a, v)] | None => [] end ++ present fs).
  destruct (a =s k) eqn:K.
  - apply String.eqb_eq in K as <-. destruct o as [v|]; cbn [app member_of]; [now rewrite String.eqb_refl | now apply no_member].
  - destruct o as [v|]; cbn [app member_of]; [rewrite K|]; now apply IH.
Qed.
Definition field_ok (fs : fields) (d : string * bool * ts) : Prop :=
  match d with (k, o, t) => match lookup k fs with Some v => v ∈ t | None => o || (negb strict && nullable t) = true end end.
Lemma obj_ok fs ds : distinct (map fst fs) = true -> Forall (field_ok fs) ds -> obj fs ∈ TObj ds.
Proof.
  intros D H. assert (A := proj1 (Forall_forall _ _) H). constructor.
  - intros k o t I M. specialize (A _ I). unfold field_ok in A. rewrite <- member_lookup, M in A by exact D. exact A.
  - intros k o t v I M. specialize (A _ I). unfold field_ok in A. rewrite <- member_lookup, M in A by exact D. exact A.
Qed.
Lemma kind_ok t v d : v ∈ d -> kind t v ∈ TObj [req "type" (TLit t); req "data" d].
Proof. intros H. apply obj_ok; [reflexivity|]. constructor; [apply is_lit|]. constructor; [exact H | constructor]. Qed.

(** ** Other values *)
Lemma may_ok {A} (f : A -> json) o t (P : Prop) : (forall a, o = Some a -> f a ∈ t) -> (o = None -> P) -> match option_map f o with Some v => v ∈ t | None => P end.
Proof. intros H N. destruct o; cbn; auto. Qed.
Lemma flag_ok v (b : bool) t (P : Prop) : v ∈ t -> P -> match (if b then Some v else None) with Some v => v ∈ t | None => P end.
Proof. intros H N. now destruct b. Qed.
Definition has_null (l : list ts) : bool := existsb (fun t => match t with TNull => true | _ => false end) l.
Lemma null_in l : has_null l = true -> JNull ∈ TUnion l.
Proof.
  intros H. apply existsb_exists in H. destruct H as (t & I & E). destruct t; try discriminate E. now apply (is_union _ _ TNull); [|apply is_null].
Qed.
Lemma opt_null {A} (f : A -> json) o l : has_null l = true -> (forall a, o = Some a -> f a ∈ TUnion l) -> j_opt f o ∈ TUnion l.
Proof. intros N H. destruct o; [now apply H | now apply null_in]. Qed.
Lemma first_type v t l : v ∈ t -> v ∈ TUnion (t :: l).
Proof. intros H. apply (is_union _ _ t); [now left | exact H]. Qed.
Lemma lit_ok s l : existsb (fun t => match t with TLit u => u =s s | _ => false end) l = true -> JStr s ∈ TUnion l.
Proof.
  intros H. apply existsb_exists in H. destruct H as (t & I & E). destruct t; try discriminate E. apply String.eqb_eq in E as ->.
  now apply (is_union _ _ (TLit s)); [|apply is_lit].
Qed.
Lemma map_ok {A} (f : A -> json) l t : (forall a, In a l -> f a ∈ t) -> JArr (map f l) ∈ TArr t.
Proof. intros H. constructor. intros v I. apply in_map_iff in I. destruct I as (a & <- & I). now apply H. Qed.
Lemma nil_ok t : JArr [] ∈ TArr t. Proof. constructor. intros v []. Qed.
Lemma jn_ok n : jn n ∈ TNum. Proof. apply is_num. Qed.
Lemma jn32_ok n : jn32 n ∈ TNum. Proof. apply is_num. Qed.
Lemma color_ok c : j_color c ∈ TStr. Proof. apply is_str. Qed.

Ltac look := unfold field_ok; cbv [lookup rpr_fields ppr_fields sectpr_fields link_fields app has may flag req opt String.eqb Ascii.eqb Bool.eqb].
Ltac ty :=
  intros;
  tryif assumption then idtac else
  lazymatch goal with
  | |- (JStr _) ∈ TStr => apply is_str
  | |- (JNum _) ∈ TNum => apply is_num
  | |- (JWhole _) ∈ TNum => apply is_whole
  | |- (jn _) ∈ TNum => apply jn_ok
  | |- (jn32 _) ∈ TNum => apply jn32_ok
  | |- (j_color _) ∈ TStr => apply color_ok
  | |- (JBool _) ∈ TBool => apply is_bool
  | |- (JStr _) ∈ (TLit _) => apply is_lit
  | |- (JArr []) ∈ (TArr _) => apply nil_ok
  | |- (JArr (map _ _)) ∈ (TArr _) => apply map_ok; ty
  | |- (j_opt _ _) ∈ (TUnion _) => apply opt_null; [reflexivity|]; ty
  | |- (JStr _) ∈ (TUnion (TLit _ :: _)) => first [apply lit_ok; reflexivity | match goal with |- JStr (_ ?x) ∈ _ => apply lit_ok; destruct x; solve [reflexivity | congruence] end | idtac]
  | |- _ ∈ (TUnion (_ :: _)) => apply first_type; ty
  | |- (j_cmargin _) ∈ (TRef _) => try solve [auto with ts]
  | |- (j_tmargins _) ∈ (TRef _) => idtac
  | |- (j_cmargins _) ∈ (TRef _) => idtac
  | |- (JStr (ser_WidthType _)) ∈ (TRef _) => try solve [auto with ts]
  | |- (j_frame _) ∈ (TRef "FrameProperty") => idtac
  | |- (j_sectpr _ _) ∈ (TRef "SectionPropertyJSON") => idtac
  | |- (j_tposition _) ∈ (TRef "TablePositionProperty") => idtac
  | |- _ ∈ (TRef _) => first [solve [auto with ts] | eapply is_ref; [reflexivity|]; ty]
  | |- _ ∈ (TObj _) => tryif apply obj_ok then [> reflexivity | repeat apply Forall_cons; try apply Forall_nil; look; ty] else idtac
  | |- match option_map _ _ with Some _ => _ | None => _ end => apply may_ok; ty
  | |- match (if _ then Some _ else None) with Some _ => _ | None => _ end => apply flag_ok; ty
  | |- (true || _)%bool = true => reflexivity
  | |- _ => idtac
  end.
Create HintDb ts discriminated.
Lemma ins_ok m : j_ins m ∈ TRef "InsertJSONData". Proof. ty. Qed.
Lemma del_ok m : j_del m ∈ TRef "DeleteJSONData". Proof. ty. Qed.
Lemma fonts_ok m : j_fonts m ∈ TRef "RunFontsJSON". Proof. ty. Qed.
Lemma fit_ok m : j_fit m ∈ TRef "FitTextJSON". Proof. ty. Qed.
Lemma border_type_ok b : JStr (ser_BorderType b) ∈ TRef "BorderType". Proof. ty. Qed.
Hint Resolve ins_ok del_ok fonts_ok fit_ok border_type_ok : ts.
Lemma text_border_ok m : j_text_border m ∈ TRef "TextBorderJSON". Proof. ty. Qed.
Lemma shading_ok m : j_shading m ∈ TRef "ShadingJSON". Proof. ty. Qed.
Hint Resolve text_border_ok shading_ok : ts.
Ltac no_such := match goal with H : context [match ?x with _ => _ end] |- _ => destruct x end.
Lemma rpr_typed p : rpr_ok p = true -> j_rpr p ∈ TRef "RunPropertyJSON".
Proof. intros H. unfold rpr_ok, opt_ok in H. ty. rewrite H0 in H. destruct a; solve [discriminate H | apply lit_ok; reflexivity]. Qed.
Lemma numpr_ok p : j_numpr p ∈ TRef "NumberingPropertyJSON". Proof. ty. Qed.
Lemma special_ok i : j_special i ∈ TObj [req "type" (TUnion [TLit "firstLine"; TLit "hanging"]); req "val" TNum].
Proof. destruct i; ty. Qed.
Lemma indent_ok i : j_indent i ∈ TRef "IndentJSON".
Proof. ty; apply special_ok. Qed.
Lemma spacing_ok i : j_spacing i ∈ TRef "LineSpacingJSON". Proof. ty. Qed.
Lemma tab_ok i : j_tab i ∈ TRef "CustomTabStopJSON". Proof. ty. Qed.
Hint Resolve numpr_ok indent_ok spacing_ok tab_ok : ts.
Ltac whole H :=
  match goal with N : _ = None |- _ => rewrite ?N in H end; destruct strict; [cbn in H; rewrite ?andb_false_r in H; discriminate H | reflexivity].
Lemma frame_typed f : frame_ok strict f = true -> j_frame f ∈ TRef "FrameProperty".
Proof. intros H. unfold frame_ok, all_set in H. eapply is_ref; [reflexivity|]. ty; whole H. Qed.
Lemma page_num_typed n : all_set strict [set_ (pn_start n); set_ (pn_chap_style n)] = true -> j_page_num n ∈ TRef "PageNumType".
Proof. intros H. unfold all_set in H. ty; whole H. Qed.
Lemma grid_typed g : j_grid g ∈ TRef "DocGridJSON". Proof. ty. Qed.
Lemma header_ref_ok g : j_header_ref g ∈ TRef "HeaderReferenceJSON". Proof. ty. Qed.
Lemma footer_ref_ok g : j_footer_ref g ∈ TRef "FooterReferenceJSON". Proof. ty. Qed.
Hint Resolve grid_typed header_ref_ok footer_ref_ok : ts.
Lemma sectpr_typed parts s : sectpr_ok strict s = true ->
  (forall h v, parts h = Some v -> v ∈ TRef (match h with HDefault | HFirst | HEven => "HeaderJSON" | _ => "FooterJSON" end)) ->
  j_sectpr parts s ∈ TRef "SectionPropertyJSON".
Proof.
  intros H P. unfold sectpr_ok, opt_ok in H. eapply is_ref; [reflexivity|]. ty.
  all: try (match goal with |- match ?f ?x with Some _ => _ | None => _ end => destruct (f x) as [v|] eqn:E; [exact (P x v E) | reflexivity] end).
  all: rewrite H0 in H; unfold all_set in H; whole H.
Qed.
Lemma existsb_lit a l : existsb (String.eqb a) l = true -> JStr a ∈ TUnion (map TLit l).
Proof.
  intros H. apply existsb_exists in H. destruct H as (x & I & E). apply String.eqb_eq in E as <-.
  apply (is_union _ _ (TLit a)); [now apply in_map | apply is_lit].
Qed.
Lemma ppr_part b c : base_ok strict b = true -> (forall v, c = Some v -> v ∈ TObj [req "author" TStr; req "date" TStr; req "property" (TRef "ParagraphPropertyJSON")]) ->
  obj (ppr_fields b c) ∈ TRef "ParagraphPropertyJSON".
Proof.
  intros H C. unfold base_ok in H. apply andb_prop in H. destruct H as [H S]. apply andb_prop in H. destruct H as [H F]. apply andb_prop in H. destruct H as [R A].
  unfold opt_ok in *. pose proof (rpr_typed _ R) as R'. ty.
  - rewrite H in A. exact (existsb_lit _ _ A).
  - destruct c; [now apply C | reflexivity].
  - rewrite H in S. apply sectpr_typed; [exact S | discriminate].
  - rewrite H in F. now apply frame_typed.
Qed.
Lemma ppr_typed : forall p, ppr_ok strict p = true -> j_ppr p ∈ TRef "ParagraphPropertyJSON".
Proof.
  fix IH 1. intros [b [c|]] H.
  - cbn [ppr_ok] in H. apply andb_prop in H. destruct H as [H C]. cbn [j_ppr]. apply ppr_part; [exact H|]. intros v [= <-].
    destruct c as [a d q]. cbn [change_ok] in C. cbn [j_change]. specialize (IH q C). ty.
  - cbn [j_ppr]. apply ppr_part; [exact H | discriminate].
Qed.
(** ** Tables *)
Ltac both := repeat match goal with H : (_ && _)%bool = true |- _ => apply andb_prop in H; destruct H end.
Lemma width_type_ok w : width_ok w = true -> JStr (ser_WidthType w) ∈ TRef "WidthType".
Proof. intros H. eapply is_ref; [reflexivity|]. destruct w; try discriminate H; ty. Qed.
Hint Resolve width_type_ok : ts.
Lemma border_ok s b : j_border s b ∈ TRef "BorderJSON". Proof. ty. Qed.
Hint Resolve border_ok : ts.
Lemma margin_ok w : width_ok (snd w) = true -> j_cmargin w ∈ TRef "TableCellMarginJSON". Proof. intros H. eapply is_ref; [reflexivity|]. ty. Qed.
Hint Resolve margin_ok : ts.
Lemma tmargins_typed m : tmargins_ok m = true -> j_tmargins m ∈ TRef "TableCellMarginsJSON".
Proof. intros H. unfold tmargins_ok in H. both. eapply is_ref; [reflexivity|]. ty. Qed.
Lemma tposition_typed f : tposition_ok strict f = true -> j_tposition f ∈ TRef "TablePositionProperty".
Proof. intros H. unfold tposition_ok, all_set in H. eapply is_ref; [reflexivity|]. ty; whole H. Qed.
Ltac known := match goal with E : ?o = Some _, H : context [match ?o with _ => _ end] |- _ => rewrite E in H end.
Lemma tblpr_typed p : tblpr_ok strict p = true -> j_tblpr p ∈ TRef "TablePropertyJSON".
Proof.
  intros H. unfold tblpr_ok, opt_ok in H. both. ty; try known.
  - match goal with H : existsb _ _ = true |- _ => exact (existsb_lit _ _ H) end.
  - now apply tmargins_typed.
  - now apply width_type_ok.
  - now apply tposition_typed.
Qed.
Lemma trpr_typed p : trpr_ok strict p = true -> j_trpr p ∈ TRef "TableRowPropertyJSON".
Proof. intros H. unfold trpr_ok, all_set in H. ty.  all: whole H. Qed.
Lemma cell_border_ok s b : existsb (String.eqb s) ["left"; "right"; "top"; "bottom"; "insideH"; "insideV"; "tl2br"; "tr2bl"]%string = true -> j_border s b ∈ TRef "TableCellBorder".
Proof. intros H. ty. exact (existsb_lit _ _ H). Qed.
Lemma cborders_ok b : j_cborders b ∈ TRef "TableCellBorders".
Proof. ty. all: try now apply cell_border_ok.  Qed.
Hint Resolve cborders_ok : ts.
Lemma cmargins_typed m : side_ok (cm_top m) && side_ok (cm_left m) && side_ok (cm_bottom m) && side_ok (cm_right m) = true -> j_cmargins m ∈ TRef "CellMarginsJSON".
Proof.
  intros H. both. eapply is_ref; [reflexivity|]. destruct m as [[t|] [l|] [b|] [r|]]; try discriminate.
  cbn [cm_top cm_left cm_bottom cm_right side_ok] in *. ty; try discriminate.
  all: match goal with H : _ = Some _ |- _ => injection H as <- end; now apply margin_ok.
Qed.
Lemma tcpr_typed p : tcpr_ok p = true -> j_tcpr p ∈ TRef "TableCellPropertyJSON".
Proof.
  intros H. unfold tcpr_ok, opt_ok in H. both. ty; try known.
  - now apply width_type_ok.
  - destruct a; solve [discriminate | apply lit_ok; reflexivity].
  - destruct a; solve [discriminate | apply lit_ok; reflexivity].
  - now apply cmargins_typed.
Qed.
(** ** The tree *)
Definition own (n : node) : string :=
  match n with
  | NRun _ _ => "RunJSON" | NText _ => "TextJSON" | NSym _ _ => "SymJSON" | NDelText _ => "DeleteTextJSON" | NTab => "TabJSON" | NCr => "CarriageReturnJSON"
  | NBreak _ => "BreakJSON" | NTextBox _ => "DrawingJSON" | NPTab _ => "PtabJSON" | NCommentStart _ _ => "CommentRangeStartJSON"
  | NCommentEnd _ => "CommentRangeEndJSON" | NFieldChar _ _ => "FieldCharJSON" | NInstrString _ => "InstrTextStringJSON"
  | NBookmarkStart _ _ => "BookmarkStartJSON" | NBookmarkEnd _ => "BookmarkEndJSON" | NIns _ _ => "InsertJSON" | NDel _ _ => "DeleteJSON"
  | NLink _ _ _ => "HyperlinkJSON" | NSdt _ _ _ => "StructuredTagJSON" | NPara _ _ _ _ => "ParagraphJSON" | NTable _ _ _ _ => "TableJSON"
  | NRow _ _ _ => "TableRowJSON" | NCell _ _ _ => "TableCellJSON"
  | _ => ""
  end.
Definition members (s : spot) : list ts :=
  let refs x := match declaration x declarations with Some (TUnion l) => l | _ => [] end in
  match s with
  | AtDocument => refs "DocumentChildJSON"%string | AtPara => refs "ParagraphChildJSON"%string | AtLink => refs "HyperlinkChildJSON"%string
  | AtIns => [TRef "DeleteJSON"; TRef "RunJSON"; TRef "CommentRangeStartJSON"; TRef "CommentRangeEndJSON"]
  | AtDel => refs "DeleteChildJSON"%string | AtRun => refs "RunChildJSON"%string | AtTag => refs "StructuredDataTagChildJSON"%string
  | AtCell => refs "TableCellChildJSON"%string | AtRow => [TRef "TableCellJSON"] | AtTable => [TRef "TableRowJSON"]
  | AtBlock => [TRef "ParagraphJSON"; TRef "TableJSON"]
  end.
Definition Typed (n : node) : Prop := forall s, as_declared strict s n = true -> j_node n ∈ TRef (own n).
Definition is_ts (a b : ts) : bool := match a, b with TRef x, TRef y => x =s y | _, _ => false end.
Lemma member_in s n : allowed s n = true -> In (TRef (own n)) (members s).
Proof.
  intros H. assert (E : existsb (is_ts (TRef (own n))) (members s) = true) by (destruct s, n; try discriminate H; reflexivity).
  apply existsb_exists in E. destruct E as (t & I & E). destruct t; try discriminate E. apply String.eqb_eq in E as ->. exact I.
Qed.
Lemma as_allowed s n : as_declared strict s n = true -> allowed s n = true.
Proof. intros H. destruct n; cbn [as_declared] in H; apply andb_prop in H; apply H. Qed.
Lemma kids_ok s ch : Forall Typed ch -> forallb (as_declared strict s) ch = true -> forall v, In v (map j_node ch) -> v ∈ TUnion (members s).
Proof.
  intros IH H v I. apply in_map_iff in I. destruct I as (n & <- & I). rewrite Forall_forall in IH. rewrite forallb_forall in H.
  specialize (IH _ I s (H _ I)). apply (is_union _ _ (TRef (own n))); [|exact IH]. apply member_in, as_allowed. now apply H.
Qed.
Lemma kids_one s ch x : Forall Typed ch -> members s = [TRef x] -> forallb (as_declared strict s) ch = true -> JArr (map j_node ch) ∈ TArr (TRef x).
Proof.
  intros IH E H. constructor. intros v I. assert (K := kids_ok s ch IH H v I). rewrite E in K. inversion K as [| | | | | | | | | | ? t ? J T |]; subst.
  destruct J as [<-|[]]. exact T.
Qed.
Lemma kids_ref s ch x : Forall Typed ch -> declaration x declarations = Some (TUnion (members s)) -> forallb (as_declared strict s) ch = true ->
  JArr (map j_node ch) ∈ TArr (TRef x).
Proof. intros IH E H. constructor. intros v I. apply (is_ref _ _ _ _ E). now apply (kids_ok s ch). Qed.
Lemma kids_union s ch : Forall Typed ch -> forallb (as_declared strict s) ch = true -> JArr (map j_node ch) ∈ TArr (TUnion (members s)).
Proof. intros IH H. constructor. now apply kids_ok. Qed.
Lemma comment_typed c ch : JArr ch ∈ TArr (TRef "CommentChildJSON") -> j_comment c ch ∈ TRef "CommentJSON".
Proof. ty. Qed.
Lemma node_typed : forall n, Typed n.
Proof.
  refine (node_tree_ind _ _). intros n IH s H.
  destruct n; cbn [as_declared] in H; apply andb_prop in H; destruct H as [A H]; try (destruct s; discriminate A); clear A; cbn [children] in IH;
    cbn [own j_node]; both; (eapply is_ref; [reflexivity|]).
  all: try (solve [ty]).
  all: try (match goal with H : forallb (as_declared _ ?s) ?ch = true |- _ =>
       match s with
       | AtPara => pose proof (kids_ref s ch "ParagraphChildJSON" IH eq_refl H)
       | AtLink => pose proof (kids_ref s ch "HyperlinkChildJSON" IH eq_refl H)
       | AtDel => pose proof (kids_ref s ch "DeleteChildJSON" IH eq_refl H)
       | AtRun => pose proof (kids_ref s ch "RunChildJSON" IH eq_refl H)
       | AtTag => pose proof (kids_ref s ch "StructuredDataTagChildJSON" IH eq_refl H)
       | AtCell => pose proof (kids_ref s ch "TableCellChildJSON" IH eq_refl H)
       | AtRow => pose proof (kids_one s ch "TableCellJSON" IH eq_refl H)
       | AtTable => pose proof (kids_one s ch "TableRowJSON" IH eq_refl H)
       | AtBlock => pose proof (kids_ref s ch "CommentChildJSON" IH eq_refl H); pose proof (kids_union s ch IH H)
       | _ => pose proof (kids_union s ch IH H)
       end end).
  all: try (match goal with H : rpr_ok _ = true |- _ => apply rpr_typed in H | H : ppr_ok _ _ = true |- _ => apply ppr_typed in H
     | H : tblpr_ok _ _ = true |- _ => apply tblpr_typed in H | H : trpr_ok _ _ = true |- _ => apply trpr_typed in H | H : tcpr_ok _ = true |- _ => apply tcpr_typed in H end).
  all: try (solve [ty]).
  - apply kind_ok. apply (is_union _ _ (TObj [req "type" (TLit "textBox"); req "data" (TObj [req "children" (TArr (TUnion (members AtBlock)))])])).
    + right. left. reflexivity.
    + apply kind_ok. ty.
  - apply kind_ok. destruct l as [rid path|a]; cbn [link_fields app].
    + ty.
    + apply (is_union _ _ (TObj [req "type" (TLit "anchor"); req "anchor" TStr; req "children" (TArr (TRef "HyperlinkChildJSON"))]));
        [right; left; reflexivity | ty].
Qed.
Lemma all_typed ch : Forall Typed ch. Proof. apply Forall_forall. intros n _. apply node_typed. Qed.

Lemma part_in_some s l v : part_in s l = Some v -> In v (map snd l).
Proof.
  induction l as [|[t w] l IH]; [discriminate|]. cbn [part_in map snd In]. destruct s, t; intros H; try (right; now apply IH); injection H as <-; now left.
Qed.
Definition part_type : ts := TTuple [TStr; TObj [req "children" (TArr (TUnion [TRef "ParagraphJSON"; TRef "TableJSON"; TRef "StructuredTagJSON"]))]].
Lemma part_typed rid nb ch : forallb (as_declared strict AtCell) ch = true -> j_part rid nb (map j_node ch) ∈ part_type.
Proof.
  intros H. pose proof (kids_union AtCell ch (all_typed ch) H) as K. constructor; [reflexivity|]. cbn [combine]. intros v t [I|[I|[]]]; injection I as <- <-; ty.
Qed.
Lemma parts_typed parts : forallb (part_as_declared strict) parts = true -> forall v, In v (map snd (parts_json parts)) -> v ∈ part_type.
Proof.
  intros H v I. apply in_map_iff in I. destruct I as ((s & w) & <- & I). unfold parts_json in I. apply in_flat_map in I. destruct I as (n & I & J).
  rewrite forallb_forall in H. specialize (H _ I). destruct n; try (exfalso; exact J). cbn [part_as_declared] in H. cbn [snd] in *.
  destruct J as [J|[]]. injection J as _ <-. now apply part_typed.
Qed.
Lemma document_typed body sp parts nb :
  forallb (as_declared strict AtDocument) body = true -> sectpr_ok strict sp = true -> forallb (part_as_declared strict) parts = true ->
  j_document body sp parts nb ∈ TRef "DocumentJSON".
Proof.
  intros B S P. pose proof (kids_ref AtDocument body "DocumentChildJSON" (all_typed body) eq_refl B) as K.
  assert (Q : j_sectpr (fun s => part_in s (parts_json parts)) sp ∈ TRef "SectionPropertyJSON").
  { apply sectpr_typed; [exact S|]. intros h v E. apply part_in_some in E. apply (parts_typed _ P) in E.
    destruct h; apply (is_ref _ _ _ part_type); solve [reflexivity | exact E]. }
  ty.
Qed.
Definition a_comment_node (n : node) : bool := match n with NCommentStart _ _ => true | _ => false end.
Lemma comments_typed l : forallb (fun n => a_comment_node n && as_declared strict AtPara n) l = true ->
  j_comments l ∈ TObj [req "comments" (TArr (TRef "CommentJSON"))].
Proof.
  intros H. apply obj_ok; [reflexivity|]. constructor; [|constructor]. look. apply map_ok. intros n I.
  rewrite forallb_forall in H. specialize (H _ I). apply andb_prop in H. destruct H as [C H]. destruct n; try discriminate C.
  apply comment_typed. cbn [as_declared] in H. apply andb_prop in H. destruct H as [_ H].
  exact (kids_ref AtBlock ch "CommentChildJSON" (all_typed ch) eq_refl H).
Qed.
End Strict.

(** ** What has not its type *)
Lemma ref_inv strict v x : has_type strict v (TRef x) -> exists t, declaration x declarations = Some t /\ has_type strict v t.
Proof. intros H. inversion H; subst. eauto. Qed.
Lemma obj_inv strict l fs k o t : has_type strict (JObj l) (TObj fs) -> In (k, o, t) fs ->
  match member_of k l with Some v => has_type strict v t | None => o || (negb strict && nullable t) = true end.
Proof. intros H I. inversion H; subst. destruct (member_of k l) eqn:E; eauto. Qed.
Lemma union_inv strict v l : has_type strict v (TUnion l) -> exists t, In t l /\ has_type strict v t.
Proof. intros H. inversion H; subst. eauto. Qed.
Lemma pic_not_typed strict p : ~ has_type strict (j_node (NPic p)) (TRef "DrawingJSON").
Proof.
  intros H. apply ref_inv in H. destruct H as (t & E & H). vm_compute in E. injection E as <-.
  eapply (obj_inv _ _ _ "data") in H; [|right; left; reflexivity]. cbn in H.
  apply union_inv in H. destruct H as (t & [<-|[<-|[]]] & H).
  - eapply (obj_inv _ _ _ "data") in H; [|right; left; reflexivity]. cbn in H.
    apply ref_inv in H. destruct H as (t & E & H). vm_compute in E. injection E as <-.
    eapply (obj_inv _ _ _ "image") in H; [|right; left; reflexivity].
    unfold j_pic, obj in H. rewrite member_lookup in H by reflexivity. cbn [lookup pic_fields String.eqb Ascii.eqb Bool.eqb has] in H.
    destruct (pic_image p); [now destruct strict | inversion H].
  - eapply (obj_inv _ _ _ "type") in H; [|left; reflexivity]. cbn in H. inversion H.
Qed.
Lemma row_not_typed n ch : tr_height n = None -> ~ has_type true (j_node (NRow n false ch)) (TRef "TableRowJSON").
Proof.
  intros N H. apply ref_inv in H. destruct H as (t & E & H). vm_compute in E. injection E as <-.
  eapply (obj_inv _ _ _ "data") in H; [|right; left; reflexivity]. cbn [member_of String.eqb] in H.
  change (has_type true (obj [has "cells" (JArr (map j_node ch)); has "hasNumbering" (JBool false); has "property" (j_trpr n)]) (TObj [req "cells" (TArr (TRef "TableCellJSON")); req "property" (TRef "TableRowPropertyJSON")])) in H.
  eapply (obj_inv _ _ _ "property") in H; [|right; left; reflexivity].
  change (has_type true (j_trpr n) (TRef "TableRowPropertyJSON")) in H.
  apply ref_inv in H. destruct H as (t & E & H). vm_compute in E. injection E as <-.
  eapply (obj_inv _ _ _ "rowHeight") in H; [|right; right; left; reflexivity].
  unfold j_trpr, obj in H. rewrite member_lookup in H by reflexivity. cbn [lookup String.eqb Ascii.eqb Bool.eqb has may] in H. rewrite N in H. discriminate H.
Qed.
(** Each declared child of a paragraph says in [type] what it is. *)
Definition type_of (v : json) : option json := match v with JObj l => member_of "type" l | _ => None end.
Lemma union_types strict v l : has_type strict v (TUnion l) ->
  forallb (fun t => match t with
                    | TRef x => match declaration x declarations with Some (TObj ((k, false, TLit _) :: _)) => k =s "type" | _ => false end
                    | _ => false
                    end) l = true ->
  exists x s fs, In (TRef x) l /\ declaration x declarations = Some (TObj (("type"%string, false, TLit s) :: fs)) /\ (forall m, v = JObj m -> member_of "type" m = Some (JStr s)).
Proof.
  intros H A. apply union_inv in H. destruct H as (t & I & H). rewrite forallb_forall in A. specialize (A _ I). destruct t as [| | | | | | | | | |x]; try discriminate A.
  apply ref_inv in H. destruct H as (t & E & H). rewrite E in A. destruct t as [| | | | | | | |fs| |]; try discriminate A.
  destruct fs as [|[[k [|]] t] fs]; try discriminate A. destruct t; try discriminate A. apply String.eqb_eq in A. subst k.
  exists x, s, fs. split; [exact I|]. split; [exact E|]. intros m ->. eapply (obj_inv _ _ _ "type") in H; [|left; reflexivity].
  destruct (member_of "type" m) as [w|]; [|cbn [nullable orb] in H; rewrite andb_false_r in H; discriminate H]. now inversion H; subst.
Qed.
Definition undeclared_in_paragraph (n : node) : bool :=
  match n with NMoveFrom _ _ | NMoveTo _ _ | NSdt _ _ _ | NPageNum | NNumPages => true | _ => false end.
Lemma undeclared_not_typed strict n : undeclared_in_paragraph n = true -> ~ has_type strict (j_node n) (TRef "ParagraphChildJSON").
Proof.
  intros U H. apply ref_inv in H. destruct H as (t & E & H). vm_compute in E. injection E as <-.
  apply union_types in H; [|vm_compute; reflexivity]. destruct H as (x & s & fs & I & D & M).
  cbn [In] in I. repeat (destruct I as [I|I]; [injection I as <-; vm_compute in D; injection D as <- _; destruct n; try discriminate U; specialize (M _ eq_refl); discriminate M|]).
  exact I.
Qed.

(** The shape of the readers, once for all.  [Prog here m]: [m] is what a reader does
    at the start event of an element named [here]; it takes further events only by
    one reader of that element.  [Reader own m]: [m] is a loop that follows the
    element [own] to its end.  All readers of ReadModel have this shape, and the
    general facts about reading are proved by induction on it. *)
From Verif Require Import Str StrFind TypesModel Props PropsSet Ast XmlParser FloatModel EscapeModel ReadBase ReadProps ReadModel.

Definition st (l : list event) (c : N) : rst := {| rs_events := l; rs_para := c |}.
Lemma st_eta s : s = st (rs_events s) (rs_para s).
Proof. now destruct s. Qed.

(** ** Computations that take no event *)
Inductive pout (A : Type) : Type := PVal (a : A) (c : N) | PErr (c : N) | PPanic.
Arguments PVal {A}. Arguments PErr {A}. Arguments PPanic {A}.
Definition lift {A} (o : pout A) (l : list event) : out A :=
  match o with PVal a c => Val a (st l c) | PErr c => Err (st l c) | PPanic => Panic end.
Definition pure {A} (m : R A) : Prop := forall c, exists o, forall l, m (st l c) = lift o l.

Lemma pure_ret A (a : A) : pure (ret a).
Proof. intros c. now exists (PVal a c). Qed.
Lemma pure_fail A : pure (@fail A).
Proof. intros c. now exists (PErr c). Qed.
Lemma pure_crash A : pure (@crash A).
Proof. intros c. now exists PPanic. Qed.
Lemma pure_fresh : pure fresh_para.
Proof.
  intros c. destruct (IdsModel.gen_para c) as [[id c']|] eqn:G.
  - exists (PVal id c'). intros l. unfold fresh_para, st. cbn. now rewrite G.
  - exists PPanic. intros l. unfold fresh_para, st. cbn. now rewrite G.
Qed.
Lemma pure_bind A B (m : R A) (k : A -> R B) : pure m -> (forall a, pure (k a)) -> pure (bind m k).
Proof.
  intros Hm Hk c. destruct (Hm c) as [[a c'|c'|] E].
  - destruct (Hk a c') as [o E']. exists o. intros l. unfold bind. rewrite E. cbn. apply E'.
  - exists (PErr c'). intros l. unfold bind. now rewrite E.
  - exists PPanic. intros l. unfold bind. now rewrite E.
Qed.
Lemma pure_attempt A (m : R A) : pure m -> pure (attempt m).
Proof.
  intros Hm c. destruct (Hm c) as [[a c'|c'|] E].
  - exists (PVal (Some a) c'). intros l. unfold attempt. now rewrite E.
  - exists (PVal None c'). intros l. unfold attempt. now rewrite E.
  - exists PPanic. intros l. unfold attempt. now rewrite E.
Qed.
Lemma pure_or_fail A (o : option A) : pure (or_fail o).
Proof. destruct o; [apply pure_ret | apply pure_fail]. Qed.
Lemma pure_or_crash A (o : option A) : pure (or_crash o).
Proof. destruct o; [apply pure_ret | apply pure_crash]. Qed.
Lemma pure_each A (f : A -> string -> string -> R A) atts :
  (forall a n v, pure (f a n v)) -> forall a, pure (each_attr_m f atts a).
Proof.
  intros Hf. induction atts as [|[q v] atts IH]; intros a; cbn [each_attr_m]; [apply pure_ret|].
  apply pure_bind; [apply Hf | intros; apply IH].
Qed.

Ltac pure1 :=
  match goal with
  | |- pure (ret _) => apply pure_ret
  | |- pure fail => apply pure_fail
  | |- pure crash => apply pure_crash
  | |- pure fresh_para => apply pure_fresh
  | |- pure (or_fail _) => apply pure_or_fail
  | |- pure (or_crash _) => apply pure_or_crash
  | |- pure (attempt _) => apply pure_attempt
  | |- pure (each_attr_m _ _ _) => apply pure_each; intros
  | |- pure (bind _ _) => apply pure_bind; [|intros]
  | |- pure (if ?b then _ else _) => destruct b
  | |- pure (match ?x with _ => _ end) => destruct x
  | |- pure (let x := _ in _) => cbv zeta
  end.
Ltac pure_tac := repeat pure1.
Lemma pure_read_border atts : pure (read_border atts).
Proof. unfold read_border. pure_tac. Qed.
Lemma pure_dax v : pure (value_to_dax v).
Proof. unfold value_to_dax. pure_tac. Qed.
Lemma pure_read_width atts : pure (read_width atts).
Proof. unfold read_width. pure_tac. Qed.
Lemma pure_read_indent atts : pure (read_indent atts).
Proof. unfold read_indent. pure_tac; apply pure_dax. Qed.
Lemma pure_read_line_spacing atts : pure (read_line_spacing atts).
Proof. unfold read_line_spacing. pure_tac. Qed.
Lemma pure_read_doc_grid atts : pure (read_doc_grid atts).
Proof. unfold read_doc_grid. pure_tac. Qed.
Lemma pure_read_page_size atts : pure (read_page_size atts).
Proof. unfold read_page_size. pure_tac; apply pure_dax. Qed.
Lemma pure_read_page_margin atts : pure (read_page_margin atts).
Proof. unfold read_page_margin. pure_tac; apply pure_dax. Qed.
Lemma pure_bookmark_start atts : pure (read_bookmark_start atts).
Proof. unfold read_bookmark_start. pure_tac. Qed.
Lemma pure_bookmark_end atts : pure (read_bookmark_end atts).
Proof. unfold read_bookmark_end. pure_tac. Qed.
Global Hint Resolve pure_read_border pure_dax pure_read_width pure_read_indent pure_read_line_spacing
  pure_read_doc_grid pure_read_page_size pure_read_page_margin pure_bookmark_start pure_bookmark_end : pure.
Ltac pure_auto := repeat (first [solve [auto with pure] | pure1]).

(** ** The shape *)
Inductive Prog : string -> forall A : Type, (subs -> R A) -> Prop :=
| prog_pure here A (m : R A) : pure m -> Prog here A (fun _ => m)
| prog_pure_then here A B (m : R A) (k : subs -> A -> R B) :
    pure m -> (forall a, Prog here B (fun s => k s a)) -> Prog here B (fun s => bind m (k s))
| prog_then here A B (m : subs -> R A) (k : A -> R B) :
    Prog here A m -> (forall a, pure (k a)) -> Prog here B (fun s => bind (m s) k)
| prog_attempt here A (m : subs -> R A) : Prog here A m -> Prog here (option A) (fun s => attempt (m s))
| prog_reader here A (m : subs -> R A) : Reader here A m -> Prog here A m
| prog_rpr : Prog "rPr" rpr s_rpr
| prog_ppr : Prog "pPr" ppr s_ppr
| prog_change atts : Prog "pPrChange" ppr_change (fun s => s_change s atts)
| prog_run : Prog "r" node s_run
| prog_ins atts : Prog "ins" _ (fun s => s_ins s atts)
| prog_del atts : Prog "del" _ (fun s => s_del s atts)
| prog_from atts : Prog "moveFrom" _ (fun s => s_from s atts)
| prog_to atts : Prog "moveTo" _ (fun s => s_to s atts)
| prog_link atts : Prog "hyperlink" node (fun s => s_link s atts)
| prog_sdt : Prog "sdt" node s_sdt
| prog_para atts : Prog "p" node (fun s => s_para s atts)
| prog_table : Prog "tbl" node s_table
| prog_row : Prog "tr" node s_row
| prog_cell : Prog "tc" node s_cell
| prog_drawing : Prog "drawing" node s_drawing
with Reader : string -> forall A : Type, (subs -> R A) -> Prop :=
| reader_pure_then own A B (m : R A) (k : subs -> A -> R B) :
    pure m -> (forall a, Reader own B (fun s => k s a)) -> Reader own B (fun s => bind m (k s))
| reader_loop own A B (body : subs -> A -> event -> R (turn A B)) (a0 : A)
    (start : A -> qname -> list attribute -> subs -> R A)
    (instr : A -> qname -> list attribute -> option ((string -> A) * B))
    (fin : A -> B) (skip : A -> event -> A) (strict : bool) :
    (forall a q atts, Prog (q_local q) A (start a q atts)) ->
    (forall s a q atts, body s a (EStart q atts) =
       match instr a q atts with
       | None => bind (start a q atts s) (fun a' => ret (Again a'))
       | Some (f, b) => bind read_instr_text (fun o => ret (match o with Some c => Again (f c) | None => Done b end))
       end) ->
    (forall a q atts, instr a q atts <> None -> own = "r"%string) ->
    (forall s a q, body s a (EEnd q) = ret (if q_local q =s own then Done (fin a) else Again (skip a (EEnd q)))) ->
    (forall s a, body s a EErr = if strict then fail else ret (Again (skip a EErr))) ->
    (forall s a c, body s a (EChars c) = ret (Again (skip a (EChars c)))) ->
    (forall s a c, body s a (EWs c) = ret (Again (skip a (EWs c)))) ->
    (forall s a, body s a EDocEnd = ret (Again (skip a EDocEnd))) ->
    Reader own B (fun s => loop (body s) a0).
Scheme Prog_mind := Induction for Prog Sort Prop
  with Reader_mind := Induction for Reader Sort Prop.
Combined Scheme shape_ind from Prog_mind, Reader_mind.
Arguments Prog here {A}. Arguments Reader own {A}.

Lemma reader_element own A B (start : subs -> A -> qname -> list attribute -> R A) (fin : A -> B) a0 :
  (forall a q atts, Prog (q_local q) (fun s => start s a q atts)) ->
  Reader own (fun s => element own (start s) fin a0).
Proof.
  intros H. unfold element.
  eapply (reader_loop own A B
    (fun s a e => match e with
                  | EStart q atts => bind (start s a q atts) (fun a' => ret (Again a'))
                  | EEnd q => ret (if q_local q =s own then Done (fin a) else Again a)
                  | EErr => fail
                  | _ => ret (Again a)
                  end) a0
    (fun a q atts s => start s a q atts) (fun _ _ _ => None) fin (fun a _ => a) true); cbn; auto.
  intros. congruence.
Qed.
Lemma reader_ignore own : Reader own (fun _ => ignore own).
Proof.
  unfold ignore.
  eapply (reader_loop own unit unit
    (fun _ _ e => match e with
                  | EEnd q => ret (if q_local q =s own then Done tt else Again tt)
                  | _ => ret (Again tt)
                  end) tt
    (fun _ _ _ _ => ret tt) (fun _ _ _ => None) (fun _ => tt) (fun a _ => a) false); cbn; auto.
  - intros. apply prog_pure, pure_ret.
  - intros. congruence.
  - intros s a q. now destruct a.
  - intros s []. reflexivity.
  - intros s [] c. reflexivity.
  - intros s [] c. reflexivity.
  - intros s []. reflexivity.
Qed.
Lemma reader_position A own (f : string -> option A) d atts : Reader own (fun _ => read_position own f d atts).
Proof.
  unfold read_position.
  eapply (reader_loop own Z (A * Z)
    (fun _ off e => match e with
      | EChars c => ret (Again (match parse_f64 c with Some x => as_i32f x | None => off end))
      | EEnd q =>
          ret (if q_local q =s own
               then Done (match attr_get "relativeFrom" atts with
                          | Some v => match f v with Some a => a | None => d end
                          | None => d
                          end, off)
               else Again off)
      | EErr => fail
      | _ => ret (Again off)
      end) 0%Z
    (fun a _ _ _ => ret a) (fun _ _ _ => None)
    (fun off => (match attr_get "relativeFrom" atts with
                 | Some v => match f v with Some a => a | None => d end
                 | None => d
                 end, off))
    (fun off e => match e with
                  | EChars c => match parse_f64 c with Some x => as_i32f x | None => off end
                  | _ => off
                  end) true); cbn; auto.
  - intros. apply prog_pure, pure_ret.
  - intros. congruence.
Qed.

(** [ignore_if] at the head of a body: what follows it takes no event when it skipped. *)
Lemma prog_ignore_if here name B (k : subs -> R B) :
  (here = name -> exists k', pure k' /\ k = (fun _ => k')) -> Prog here k ->
  Prog here (fun s => bind (ignore_if here name) (fun _ => k s)).
Proof.
  intros H1 H2. unfold ignore_if. destruct (here =s name) eqn:E.
  - apply String.eqb_eq in E. subst name. destruct (H1 eq_refl) as (k' & Hk' & ->).
    refine (prog_then here _ _ (fun _ => ignore here) (fun _ => k') _ (fun _ => Hk')).
    apply prog_reader, reader_ignore.
  - refine (prog_pure_then here _ _ (ret tt) (fun s _ => k s) (pure_ret _ _) _). intros _. exact H2.
Qed.

Ltac prog_here :=
  repeat match goal with
  | H : (?a || ?b) = true |- _ => apply orb_true_iff in H
  | H : (?a =s ?b) = true |- _ => apply String.eqb_eq in H
  end.
Ltac prog_call :=
  first
  [ apply prog_rpr | apply prog_ppr | apply prog_change | apply prog_run | apply prog_ins | apply prog_del
  | apply prog_from | apply prog_to | apply prog_link | apply prog_sdt | apply prog_para | apply prog_table
  | apply prog_row | apply prog_cell | apply prog_drawing ].
Ltac prog_leaf :=
  first [ apply prog_pure; solve [pure_auto] | prog_call | apply prog_reader; solve [auto with reader] ].
Ltac prog1 :=
  cbv beta;
  lazymatch goal with
  | |- Prog _ (fun _ => if ?b then _ else _) => destruct b eqn:?; cbv iota
  | |- Prog ?h (fun _ => bind (ignore_if ?h ?n) _) =>
      apply prog_ignore_if;
      [ let E := fresh in intros E; rewrite !E; cbv [ignore_if String.eqb Ascii.eqb Bool.eqb orb andb]; cbv iota beta;
        eexists; split; [|reflexivity]; solve [pure_auto]
      | ]
  | |- Prog _ (fun _ => match ?x with _ => _ end) => destruct x eqn:?; cbv iota
  | |- Prog _ (fun s => attempt _) => refine (prog_attempt _ _ (fun s => _) _)
  | |- Prog _ (fun s => bind _ _) =>
      first [ refine (prog_pure_then _ _ _ _ (fun s => _) _ _); [solve [pure_auto] | intros]
            | refine (prog_then _ _ _ (fun s => _) _ _ _); [ | intros; solve [pure_auto]] ]
  end.
Ltac prog_tac :=
  unfold add_one, add_if, pa_set; cbv zeta;
  repeat prog1;
  try solve [apply prog_pure; pure_auto];
  repeat match goal with H : (_ =s _) = false |- _ => clear H end;
  prog_here;
  try match goal with H : _ \/ _ |- _ => destruct H end; prog_here;
  try match goal with H : q_local _ = _ |- _ => rewrite H in * end;
  try prog_leaf.

Lemma reader_to_end own A (a : A) : Reader own (fun _ => to_end own a).
Proof. unfold to_end. apply reader_element. intros. apply prog_pure, pure_ret. Qed.
Global Hint Resolve reader_to_end reader_ignore reader_position : reader.
Ltac reader_tac := refine (reader_element _ _ _ (fun s => _) _ _ _); intros; prog_tac.
Lemma reader_ptab atts : Reader "ptab" (fun _ => read_ptab atts).
Proof. apply reader_to_end. Qed.
Lemma reader_tab atts : Reader "tab" (fun _ => read_tab atts).
Proof. apply reader_to_end. Qed.
Global Hint Resolve reader_ptab reader_tab : reader.
Lemma reader_tabs : Reader "tabs" (fun _ => read_tabs).
Proof. unfold read_tabs. reader_tac. Qed.
Lemma reader_numpr : Reader "numPr" (fun _ => read_numpr).
Proof. unfold read_numpr. reader_tac. Qed.
Lemma reader_pborders : Reader "pBdr" (fun _ => read_pborders).
Proof. unfold read_pborders. reader_tac. Qed.
Lemma reader_tborders : Reader "tblBorders" (fun _ => read_tborders).
Proof. unfold read_tborders. reader_tac. Qed.
Lemma reader_cborders : Reader "tcBorders" (fun _ => read_cborders).
Proof. unfold read_cborders. reader_tac. Qed.
Lemma reader_tmargins : Reader "tblCellMar" (fun _ => read_tmargins).
Proof. unfold read_tmargins. reader_tac. Qed.
Lemma reader_cmargins : Reader "tcMar" (fun _ => read_cmargins).
Proof. unfold read_cmargins. reader_tac. Qed.
Lemma reader_sectpr : Reader "sectPr" (fun _ => read_sectpr).
Proof. unfold read_sectpr. reader_tac. Qed.
Global Hint Resolve reader_tabs reader_numpr reader_pborders reader_tborders reader_cborders reader_tmargins
  reader_cmargins reader_sectpr : reader.
Lemma reader_tblpr : Reader "tblPr" (fun _ => read_tblpr).
Proof. unfold read_tblpr. reader_tac. Qed.
Lemma reader_tcpr : Reader "tcPr" (fun _ => read_tcpr).
Proof. unfold read_tcpr. reader_tac. Qed.
Global Hint Resolve reader_tblpr reader_tcpr : reader.
Lemma reader_rpr : Reader "rPr" read_rpr.
Proof. unfold read_rpr. reader_tac. Qed.
Lemma reader_ppr : Reader "pPr" read_ppr.
Proof. unfold read_ppr. reader_tac. Qed.
Lemma reader_change atts : Reader "pPrChange" (fun s => read_change s atts).
Proof. unfold read_change. reader_tac. Qed.
Lemma prog_run_start r q atts : Prog (q_local q) (fun s => run_start s r q atts).
Proof. unfold run_start. prog_tac. Qed.
Lemma reader_run : Reader "r" read_run.
Proof.
  unfold read_run.
  refine (reader_loop "r" _ _ run_body _ (fun r q atts s => run_start s r q atts)
    (fun r q _ => if match q_prefix q with Some pre => pre =s "w" | None => false end && (q_local q =s "instrText")
                  then Some ((fun c => rn_add r [NInstrString c]), rn_node r) else None)
    rn_node
    (fun r e => match e with
                | EChars c | EWs c => rn_chars c r
                | EEnd q => if (q_local q =s "delText") || (q_local q =s "t") then rn_state TIdle r else r
                | _ => r
                end) true _ _ _ _ _ _ _ _); cbn [run_body]; try reflexivity.
  - intros. apply prog_run_start.
  - intros s a q atts. now destruct (match q_prefix q with Some _ => _ | None => _ end && _).
  - intros s a q. destruct (q_local q =s "r"); [reflexivity|]. now destruct ((q_local q =s "delText") || (q_local q =s "t")).
Qed.
Lemma reader_ins_like own atts : Reader own (fun s => read_ins_like own s atts).
Proof. unfold read_ins_like. reader_tac. Qed.
Lemma reader_del atts : Reader "del" (fun s => read_del s atts).
Proof. unfold read_del. reader_tac. Qed.
Lemma reader_from atts : Reader "moveFrom" (fun s => read_from s atts).
Proof. unfold read_from. reader_tac. Qed.
Lemma reader_link atts : Reader "hyperlink" (fun s => read_link s atts).
Proof. unfold read_link. reader_tac. Qed.
Lemma reader_sdt : Reader "sdt" read_sdt.
Proof. unfold read_sdt. reader_tac. Qed.
Lemma reader_para atts : Reader "p" (fun s => read_para s atts).
Proof.
  unfold read_para. refine (reader_pure_then _ _ _ _ (fun s => _) _ _); [apply pure_fresh | intros fresh]. reader_tac.
Qed.
Lemma reader_cell : Reader "tc" read_cell.
Proof. unfold read_cell. reader_tac. Qed.
Lemma reader_row : Reader "tr" read_row.
Proof. unfold read_row. reader_tac. Qed.
Lemma reader_table : Reader "tbl" read_table.
Proof. unfold read_table. reader_tac. Qed.
Lemma reader_textbox : Reader "txbx" read_textbox.
Proof. unfold read_textbox. reader_tac. Qed.
Lemma reader_pic : Reader "pic" (fun _ => read_pic).
Proof. unfold read_pic. reader_tac. Qed.
Global Hint Resolve reader_textbox reader_pic : reader.
Lemma reader_drawing : Reader "drawing" read_drawing.
Proof. unfold read_drawing. reader_tac. Qed.
Lemma reader_comment atts : Reader "comment" (fun s => read_comment s atts).
Proof.
  unfold read_comment.
  refine (reader_pure_then _ _ _ _ (fun s => _) _ _); [apply pure_or_crash | intros v].
  refine (reader_pure_then _ _ _ _ (fun s => _) _ _); [apply pure_or_fail | intros id].
  reader_tac.
Qed.
Global Hint Resolve reader_comment : reader.

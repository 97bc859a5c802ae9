(** The loops that take nodes of the tree, and what they do with one node. *)
From Coq Require Import NArith ZArith List Bool Lia.
From Verif Require Import Str StrFacts StrFind TypesModel Props PropsSet Ast EscapeModel XmlParser XmlSpec
  ReadBase ReadProps ReadModel ReadProg ReadProofs.
From Verif Require BuildModel BuildSpec VocabProofs.
From Verif Require Import RoundSpec RoundBase RoundNums RoundRpr RoundSect RoundPpr RoundTable RoundPic RoundRun.
Import ListNotations.
Import BuildModel (xml, E, L, leaf, opt, on, valued, valued_n, valued_z, attr_s, attr_n, attr_z).

(** ** The loops *)
Inductive lp := LDoc | LHeader | LCell | LSdt | LComment | LPara | LLink | LIns | LTo | LDel | LFrom | LTable | LRow.
Definition place_of (p : lp) : place :=
  match p with
  | LDoc => InDocument | LHeader | LCell => InPart | LSdt => InSdt | LComment => InComment | LPara => InPara
  | LLink => InLink | LIns | LTo => InIns | LDel | LFrom => InDel | LTable => InTable | LRow => InRow
  end.
Definition state (p : lp) : Type :=
  match p with
  | LDoc => (list node * sectpr)%type | LCell => cell_state | LPara => para_state | LTable => table_state | LRow => row_state
  | _ => list node
  end.
Definition closes (p : lp) (l : string) : bool :=
  match p with
  | LDoc | LHeader => false
  | LCell => l =s "tc" | LSdt => l =s "sdt" | LComment => l =s "comment" | LPara => l =s "p" | LLink => l =s "hyperlink"
  | LIns => l =s "ins" | LTo => l =s "moveTo" | LDel => l =s "del" | LFrom => l =s "moveFrom" | LTable => l =s "tbl" | LRow => l =s "tr"
  end.
Definition doc_start (s : subs) (d : list node * sectpr) (q : qname) (a : list attribute) : R (list node * sectpr) :=
  let ch := fst d in
  let keep (m : R (list node)) := ch' <- m ;; ret (ch', snd d) in
  if q_local q =s "p" then keep (add_one (s_para s a) same ch)
  else if q_local q =s "tbl" then keep (add_one (s_table s) same ch)
  else if q_local q =s "bookmarkStart" then keep (add_one (read_bookmark_start a) same ch)
  else if q_local q =s "bookmarkEnd" then keep (add_one (read_bookmark_end a) same ch)
  else if q_local q =s "commentRangeStart" then keep (ret (ch ++ read_comment_start a))
  else if q_local q =s "commentRangeEnd" then keep (ret (ch ++ read_comment_end a))
  else if q_local q =s "sectPr" then sp <- read_sectpr ;; ret (ch, sp)
  else if q_local q =s "sdt" then keep (add_if (s_sdt s) same ch)
  else ret d.
Definition header_start (s : subs) (ch : list node) (q : qname) (a : list attribute) : R (list node) :=
  if q_local q =s "p" then add_if (s_para s a) same ch
  else if q_local q =s "tbl" then add_if (s_table s) same ch
  else if q_local q =s "sdt" then add_if (s_sdt s) same ch
  else ret ch.
Definition comment_start (s : subs) (ch : list node) (q : qname) (a : list attribute) : R (list node) :=
  if q_local q =s "p" then add_one (s_para s a) same ch else ret ch.
Definition ce_start (s : subs) : cell_state -> qname -> list attribute -> R cell_state :=
  ltac:(let t := eval unfold read_cell in (read_cell s) in match t with element _ ?f _ _ => exact f end).
Definition sdt_start (s : subs) : list node -> qname -> list attribute -> R (list node) :=
  ltac:(let t := eval unfold read_sdt in (read_sdt s) in match t with element _ ?f _ _ => exact f end).
Definition pa_start (s : subs) : para_state -> qname -> list attribute -> R para_state :=
  ltac:(let t := eval unfold read_para in (read_para s []) in match t with bind _ (fun _ => element _ ?f _ _) => exact f end).
Definition link_start (s : subs) : list node -> qname -> list attribute -> R (list node) :=
  ltac:(let t := eval unfold read_link in (read_link s []) in match t with element _ ?f _ _ => exact f end).
Definition from_start (s : subs) : list node -> qname -> list attribute -> R (list node) :=
  ltac:(let t := eval unfold read_from in (read_from s []) in match t with element _ ?f _ _ => exact f end).
Definition ta_start (s : subs) : table_state -> qname -> list attribute -> R table_state :=
  ltac:(let t := eval unfold read_table in (read_table s) in match t with element _ ?f _ _ => exact f end).
Definition starts (p : lp) : subs -> state p -> qname -> list attribute -> R (state p) :=
  match p return subs -> state p -> qname -> list attribute -> R (state p) with
  | LDoc => doc_start | LHeader => header_start | LCell => ce_start | LSdt => sdt_start | LComment => comment_start
  | LPara => pa_start | LLink => link_start | LIns | LTo => ins_start | LDel => del_start | LFrom => from_start
  | LTable => ta_start | LRow => ro_start
  end.
Lemma starts_shape p a q atts : Prog (q_local q) (fun s => starts p s a q atts).
Proof.
  destruct p; cbn [starts];
    unfold doc_start, header_start, ce_start, sdt_start, comment_start, pa_start, link_start, ins_start, del_start, from_start, ta_start, ro_start;
    prog_tac.
Qed.
(** What taking nodes does to the local variables. *)
Definition adds (p : lp) : list node -> state p -> state p :=
  match p return list node -> state p -> state p with
  | LDoc => fun ns d => (fst d ++ ns, snd d)
  | LCell => fun ns c => {| ce_prop := ce_prop c; ce_numbering := ce_numbering c || existsb node_numbering ns; ce_children := ce_children c ++ ns |}
  | LPara => fun ns a => {| pa_prop := pa_prop a; pa_numbering := pa_numbering a; pa_children := pa_children a ++ ns |}
  | LTable => fun ns t => {| ta_prop := ta_prop t; ta_grid := ta_grid t; ta_rows := ta_rows t ++ ns |}
  | LRow => fun ns r => {| ro_prop := ro_prop r; ro_cells := ro_cells r ++ ns |}
  | LHeader | LSdt | LComment | LLink | LIns | LTo | LDel | LFrom => fun ns ch => ch ++ ns
  end.
Lemma adds_nil p a : adds p [] a = a.
Proof. destruct p, a; cbn [adds existsb fst snd]; rewrite ?app_nil_r, ?orb_false_r; try reflexivity. Qed.
Lemma adds_app p a l m : adds p m (adds p l a) = adds p (l ++ m) a.
Proof.
  destruct p, a; cbn;
    rewrite ?existsb_app, ?app_assoc, ?orb_assoc; try reflexivity.
Qed.

(** ** What makes a loop *)
Definition looping (p : lp) {B} (G : nat -> state p -> R B) : Prop :=
  (forall d a q atts l c a' s', starts p (readers d) a q atts (st l c) = Val a' s' -> G d a (st (EStart q atts :: l) c) = G d a' s') /\
  (forall d a q l c, closes p (q_local q) = false -> G d a (st (EEnd q :: l) c) = G d a (st l c)) /\
  (forall d a s l c, G d a (st (text_events s ++ l) c) = G d a (st l c)).
(** Taking the events [ev], with [k] paragraphs in them, adds the nodes [ns]. *)
Definition ate (p : lp) (k : N) (ev : list event) (ns : list node) : Prop :=
  forall B (G : nat -> state p -> R B), looping p G -> forall a, eats G k a ev (adds p ns a).
Lemma ate_nil p : ate p 0 [] [].
Proof. intros B G HG a. rewrite adds_nil. apply eats_nil. Qed.
Lemma ate_app p k1 k2 e1 e2 n1 n2 : ate p k1 e1 n1 -> ate p k2 e2 n2 -> ate p (k1 + k2) (e1 ++ e2) (n1 ++ n2).
Proof. intros H1 H2 B G HG a. rewrite <- adds_app. eapply eats_app; [now apply H1 | now apply H2]. Qed.
Lemma ate_app0 p e1 e2 n1 n2 : ate p 0 e1 n1 -> ate p 0 e2 n2 -> ate p 0 (e1 ++ e2) (n1 ++ n2).
Proof. apply (ate_app p 0 0). Qed.
Lemma loops_sub p {B} (G : nat -> state p -> R B) : looping p G -> forall q atts ev k a a',
  reads k (fun d => starts p (readers d) a q atts) ev a' -> eats G k a (EStart q atts :: ev) a'.
Proof. intros (HS & _) q atts ev k a a' H d l c Ld Kd. cbn [app length] in *. apply HS, H; [lia | exact Kd]. Qed.
Lemma loops_through p {B} (G : nat -> state p -> R B) : looping p G -> forall q atts ev k a b a',
  closes p (q_local q) = false ->
  (forall d l c, starts p (readers d) a q atts (st l c) = Val b (st l c)) ->
  eats G k b ev a' -> eats G k a (EStart q atts :: ev ++ [EEnd q]) a'.
Proof.
  intros (HS & HE & _) q atts ev k a b a' Hq Hs He d l c Ld Kd. cbn [app length] in *. rewrite app_length in Ld. cbn [length] in Ld.
  rewrite (HS _ _ _ _ _ _ _ _ (Hs d _ _)). rewrite <- app_assoc, He by lia. cbn [app]. now apply HE.
Qed.
Lemma loops_leaf p {B} (G : nat -> state p -> R B) : looping p G -> forall q atts a b,
  closes p (q_local q) = false ->
  (forall d l c, starts p (readers d) a q atts (st l c) = Val b (st l c)) ->
  eats G 0 a (EStart q atts :: [EEnd q]) b.
Proof. intros HG q atts a b Hq Hs. apply (loops_through p G HG q atts [] 0 a b b Hq Hs). apply eats_nil. Qed.
Lemma ate_through p q atts ev k ns :
  closes p (q_local q) = false ->
  (forall a d l c, starts p (readers d) a q atts (st l c) = Val a (st l c)) ->
  ate p k ev ns -> ate p k (EStart q atts :: ev ++ [EEnd q]) ns.
Proof. intros Hq Hs He B G HG a. eapply loops_through; eauto. Qed.
Lemma ate_leaf p q atts ns :
  closes p (q_local q) = false ->
  (forall a d l c, starts p (readers d) a q atts (st l c) = Val (adds p ns a) (st l c)) ->
  ate p 0 (EStart q atts :: [EEnd q]) ns.
Proof. intros Hq Hs B G HG a. eapply loops_leaf; eauto. Qed.
Lemma ate_sub p q atts ev k ns :
  (forall a, reads k (fun d => starts p (readers d) a q atts) ev (adds p ns a)) ->
  ate p k (EStart q atts :: ev) ns.
Proof. intros Hs B G HG a. now apply loops_sub. Qed.

(** ** The loops of the readers *)
Definition own (p : lp) : string :=
  match p with
  | LCell => "tc" | LSdt => "sdt" | LComment => "comment" | LPara => "p" | LLink => "hyperlink" | LIns => "ins" | LTo => "moveTo"
  | LDel => "del" | LFrom => "moveFrom" | LTable => "tbl" | LRow => "tr" | LDoc | LHeader => ""
  end%string.
Definition in_part (p : lp) : bool := match p with LDoc | LHeader => false | _ => true end.
Lemma F_looping p B (fin : state p -> B) : in_part p = true -> looping p (F (own p) (starts p) fin).
Proof.
  intros Hp. split; [|split].
  - intros d a q atts l c a' s' H. now apply (elem_start (own p) (starts p) fin (starts_shape p)).
  - intros d a q l c H. apply (elem_skip (own p) (starts p) fin (starts_shape p)). destruct p; try discriminate Hp; exact H.
  - intros. apply (elem_text (own p) (starts p) fin (starts_shape p)).
Qed.
Lemma ate_deep p B (fin : state p -> B) k (m : nat -> R B) a ev ns q : in_part p = true -> ate p k ev ns -> q_local q = own p ->
  (forall d, m (S d) = F (own p) (starts p) fin d a) ->
  reads k m (ev ++ [EEnd q]) (fin (adds p ns a)).
Proof.
  intros Hp H Hq Hm. apply (reads_deep (own p) (starts p) fin (starts_shape p) _ _ a _ _ _ Hm Hq). now apply H, F_looping.
Qed.

(** Loops of parts. *)
Lemma part_ext A B (b1 b2 : A -> event -> R (turn A B)) fin : (forall a e s, b1 a e s = b2 a e s) ->
  forall a s, part_loop b1 fin a s = part_loop b2 fin a s.
Proof.
  intros H a s. unfold part_loop. generalize (length (rs_events s)). intros n. revert a s.
  induction n as [|n IH]; intros a s; cbn [part_turns]; destruct (rs_events s) as [|[] l]; try reflexivity;
    rewrite H; match goal with |- match ?x with _ => _ end = _ => destruct x as [[]| | | |] end; auto.
Qed.
Section Part.
  Context {A B : Type} (close : string -> bool) (start : subs -> A -> qname -> list attribute -> R A) (fin : A -> B).
  Hypothesis shape : forall a q atts, Prog (q_local q) (fun s => start s a q atts).
  Definition pbody (s : subs) (a : A) (e : event) : R (turn A B) :=
    match e with
    | EStart q atts => a' <- start s a q atts ;; ret (Again a')
    | EEnd q => ret (if close (q_local q) then Done (fin a) else Again a)
    | EErr => fail
    | _ => ret (Again a)
    end.
  Definition PF (d : nat) : A -> R B := part_loop (pbody (readers d)) fin.
  Lemma pbody_takes d a e : takes (pbody (readers d) a e).
  Proof.
    destruct e as [q atts|q|s|s| |]; cbn [pbody]; [|apply takes_pure; pure_auto ..].
    apply takes_bind; [|intros; apply takes_pure; pure_auto].
    apply (proj1 shape_takes (q_local q) _ _ (shape a q atts)), readers_take.
  Qed.
  Lemma part_enough n1 : forall n2 d a s, length (rs_events s) <= n1 -> length (rs_events s) <= n2 ->
    part_turns n1 (pbody (readers d)) fin a s = part_turns n2 (pbody (readers d)) fin a s.
  Proof.
    induction n1 as [|n1 IH]; intros n2 d a s L1 L2; destruct s as [ev c]; cbn [rs_events] in *.
    - destruct ev; [|cbn in L1; lia]. destruct n2; reflexivity.
    - destruct ev as [|e ev]; [destruct n2; reflexivity|]. destruct n2 as [|n2]; [cbn in L2; lia|].
      cbn [part_turns rs_events rs_para]. destruct e; try reflexivity;
        match goal with |- match ?x with _ => _ end = _ => destruct x as [[a'|b] s'|s'| | |] eqn:Hb end; try reflexivity;
        (apply IH; match type of Hb with _ ?a ?e ?s0 = _ => pose proof (pbody_takes d a e s0) as T end;
         unfold ReadProofs.takes in T; rewrite Hb in T; cbn in T; apply suffix_length in T; cbn in T, L1, L2; lia).
  Qed.
  Lemma part_step d a e l c : e <> EDocEnd -> PF d a (st (e :: l) c) =
    match pbody (readers d) a e (st l c) with
    | Val (Again a') s' => PF d a' s'
    | Val (Done b) s' => Val b s'
    | Err s' => Err s' | Panic => Panic | Hang => Hang | NoFuel => NoFuel
    end.
  Proof.
    intros He. unfold PF, part_loop. cbn [st rs_events length part_turns rs_para].
    change {| rs_events := l; rs_para := c |} with (st l c).
    destruct e; try contradiction;
      match goal with |- match ?x with _ => _ end = _ => destruct x as [[a'|b] s'|s'| | |] eqn:Hb end; try reflexivity;
        (apply part_enough; [|lia]; match type of Hb with _ ?a ?e ?s0 = _ => pose proof (pbody_takes d a e s0) as T end;
         unfold ReadProofs.takes in T; rewrite Hb in T; cbn in T; apply suffix_length in T; cbn in T; lia).
  Qed.
  Lemma part_nil d a c : PF d a (st [] c) = Val (fin a) (st [] c).
  Proof. reflexivity. Qed.
  Lemma part_start d a q atts l c a' s' : start (readers d) a q atts (st l c) = Val a' s' ->
    PF d a (st (EStart q atts :: l) c) = PF d a' s'.
  Proof. intros H. rewrite part_step by discriminate. cbn [pbody]. unfold bind. rewrite H. reflexivity. Qed.
  Lemma part_skip d a q l c : close (q_local q) = false -> PF d a (st (EEnd q :: l) c) = PF d a (st l c).
  Proof. intros H. rewrite part_step by discriminate. cbn [pbody ret]. now rewrite H. Qed.
  Lemma part_text d a s l c : PF d a (st (text_events s ++ l) c) = PF d a (st l c).
  Proof.
    unfold text_events. destruct s as [|ch s]; [reflexivity|]. cbn [app].
    destruct (all_char is_ws (text_seen (String ch s))); rewrite part_step by discriminate; reflexivity.
  Qed.
End Part.
Lemma PF_looping p B (fin : state p -> B) : in_part p = false -> looping p (PF (closes p) (starts p) fin).
Proof.
  intros Hp. split; [|split].
  - intros d a q atts l c a' s' H. apply (part_start (closes p) (starts p) fin (starts_shape p)). exact H.
  - intros d a q l c H. now apply (part_skip (closes p) (starts p) fin (starts_shape p)).
  - intros. apply (part_text (closes p) (starts p) fin (starts_shape p)).
Qed.
Lemma bind_assoc A B C (m : R A) (f : A -> R B) (g : B -> R C) s : bind (bind m f) g s = bind m (fun a => bind (f a) g) s.
Proof. unfold bind. now destruct (m s). Qed.
Lemma read_document_PF d s : read_document_with (readers d) s = PF (fun _ => false) doc_start (fun x => x) d ([], sectpr_default) s.
Proof.
  unfold read_document_with, PF. apply part_ext. clear s. intros a e s. destruct e as [q atts|q|x|x| |]; try reflexivity.
  cbn [pbody]. unfold doc_start. cbv zeta.
  repeat match goal with |- (if ?b then _ else _) _ = _ => destruct b end; rewrite ?bind_assoc; reflexivity.
Qed.
Lemma read_header_PF d s : read_header_with (readers d) s = PF (fun _ => false) header_start (fun x => x) d [] s.
Proof.
  unfold read_header_with, PF. apply part_ext. clear s. intros a e s. destruct e as [q atts|q|x|x| |]; try reflexivity.
  cbn [pbody]. unfold header_start. cbv zeta.
  repeat match goal with |- (if ?b then _ else _) _ = _ => destruct b end; rewrite ?bind_assoc; reflexivity.
Qed.
Definition comments_start (s : subs) (cs : list (comment_data * list node)) (q : qname) (a : list attribute) : R (list (comment_data * list node)) :=
  if q_local q =s "comment" then c <- read_comment s a ;; ret (cs ++ [c]) else ret cs.
Lemma comments_shape a q atts : Prog (q_local q) (fun s => comments_start s a q atts).
Proof. unfold comments_start. prog_tac. Qed.
Lemma read_comments_PF d s : read_comments_with (readers d) s = PF (fun l => l =s "comments") comments_start (fun x => x) d [] s.
Proof.
  unfold read_comments_with, PF. apply part_ext. clear s. intros a e s. destruct e as [q atts|q|x|x| |]; try reflexivity.
  cbn [pbody]. unfold comments_start. destruct (q_local q =s "comment"); rewrite ?bind_assoc; reflexivity.
Qed.

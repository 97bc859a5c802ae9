(** Reading the texts of the parts that OpenModel reads and RenderModel writes. *)
From Coq Require Import NArith ZArith List Bool Lia.
From Verif Require Import Str StrFacts TypesModel Props PropsSet Ast EscapeModel XmlParser XmlSpec XmlProofs XmlProperties WriterModel ReadBase ReadProps ReadModel ReadProg ReadProofs ReadSpec
  ZipNameModel PathModel DepsModel PackModel StyleModel StyleRead RenderModel RenderSpec RenderProofs OpenModel WellSpec.
From Verif Require BuildModel BuildSpec BuildProofs WellProofs WellStyle.
From Verif Require Import RoundSpec RoundBase RoundNums RoundParts RoundStyle.
Import ListNotations.
Import BuildModel (xml, E, L, leaf, xcalls, part_calls).
Open Scope list_scope.

(** ** From a text to its events *)
Definition declaring (pre : list WriterModel.call) : Prop := pre = [] \/ exists s, pre = [CDecl "1.0" (Some "UTF-8"%string) s].
Lemma reported_pre pre x : declaring pre -> doc_reported (pre ++ xcalls x) = doc_reported (xcalls x).
Proof. intros [->|[s ->]]; [reflexivity|]. destruct x; reflexivity. Qed.
Lemma events_text pre x : declaring pre -> WellProofs.spelled readable x ->
  exists l, events_of (text_of (pre ++ xcalls x)) = events_of_xml x ++ l /\ Forall (eq EDocEnd) l.
Proof.
  intros Hp Hx. apply WellStyle.bare_readable in Hx as (evs & He). pose proof (bare_events _ _ He) as ->. rewrite <- (reported_pre pre x Hp) in He.
  destruct (written_calls_read_back _ _ He) as (w & Hw & Hn). unfold text_of. rewrite Hw.
  destruct (same_nth _ EDocEnd (events_of_xml x) (no_end x) (events_of (WriterModel.out w))) as (l & Hl & Hd).
  - intros n. rewrite <- nth_request_events. apply Hn.
  - now exists l.
Qed.
(** Reading such a text with a reader that knows the tree. *)
Lemma on_text_reads A (m : R A) pre x v k s : declaring pre -> WellProofs.spelled readable x ->
  (forall l, Forall (eq EDocEnd) l -> exists r, m (st (events_of_xml x ++ l) (rs_para s)) = Val v {| rs_events := r; rs_para := rs_para s + k |}) ->
  on_text m (text_of (pre ++ xcalls x)) s = Val v {| rs_events := rs_events s; rs_para := rs_para s + k |}.
Proof.
  intros Hp Hx H. destruct (events_text pre x Hp Hx) as (l & Hl & Hd). destruct (H l Hd) as (r & Hr). unfold on_text. rewrite Hl.
  unfold st in Hr. now rewrite Hr.
Qed.

(** ** Content types and package relationships *)
Lemma children_ends A (f : A -> list attribute -> option A) l a d : Forall (eq EDocEnd) l -> children_of_root f l d a = Some (a, false).
Proof. intros H. now destruct H as [|e l <- H]. Qed.
Fixpoint folds {A} (f : A -> list attribute -> option A) (l : list (list (string * string))) (a : A) : option A :=
  match l with [] => Some a | x :: r => match f a (meant x) with Some a' => folds f r a' | None => None end end.
Lemma children_leaves A (f : A -> list attribute -> option A) (xs : list (string * list (string * string))) : forall a a' l,
  folds f (map snd xs) a = Some a' ->
  children_of_root f (xml_events (map (fun x => leaf (fst x) (snd x)) xs) ++ l) 1 a = children_of_root f l 1 a'.
Proof.
  induction xs as [|[n x] xs IH]; intros a a' l H; cbn [map folds snd] in H.
  - injection H as <-. reflexivity.
  - cbn [map]. rewrite xml_events_cons. unfold leaf at 1. cbn [events_of_xml flat_map app fst snd children_of_root].
    change (1 =? 1)%Z with true. cbn iota. destruct (f a (meant x)) as [a1|]; [|discriminate].
    cbn [children_of_root]. change (1 + 1 - 1)%Z with 1%Z. now apply IH.
Qed.
Lemma children_root A (f : A -> list attribute -> option A) n atts (xs : list (string * list (string * string))) a a' l : Forall (eq EDocEnd) l ->
  folds f (map snd xs) a = Some a' ->
  children_of_root f (events_of_xml (E n atts (map (fun x => leaf (fst x) (snd x)) xs)) ++ l) 0 a = Some (a', false).
Proof.
  intros Hl H. cbn [events_of_xml app children_of_root]. change (0 =? 1)%Z with false. cbn iota. rewrite <- app_assoc.
  change (0 + 1)%Z with 1%Z. fold (xml_events (map (fun x : string * list (string * string) => leaf (fst x) (snd x)) xs)).
  rewrite (children_leaves A f xs a a' _ H). cbn [app children_of_root]. now apply children_ends.
Qed.
Definition seen_rel (r : rel) : rel := mk_rel (seen (rel_id r)) (seen (rel_kind r)) (seen (rel_target r)).
Lemma read_rel_meant i t g : read_rel (meant [("Id", i); ("Type", t); ("Target", g)]%string) =
  {| ar_type := seen t; ar_id := seen i; ar_target := seen g; ar_mode := None |}.
Proof. cbn [meant map fst snd]. generalize (seen i), (seen t), (seen g). reflexivity. Qed.
Lemma read_rel_meant4 i t g m : read_rel (meant [("Id", i); ("Type", t); ("Target", g); ("TargetMode", m)]%string) =
  {| ar_type := seen t; ar_id := seen i; ar_target := seen g; ar_mode := Some (seen m) |}.
Proof. cbn [meant map fst snd]. generalize (seen i), (seen t), (seen g), (seen m). reflexivity. Qed.
Lemma package_rels_read l s : WellProofs.spelled readable (x_package_rels l) ->
  on_text read_package_rels (text_of (decl_none :: xcalls (x_package_rels l))) s = Val (map seen_rel l) s.
Proof.
  intros H. change (decl_none :: xcalls (x_package_rels l)) with ([decl_none] ++ xcalls (x_package_rels l)).
  rewrite (on_text_reads _ read_package_rels [decl_none] _ (map seen_rel l) 0 s); [destruct s; now rewrite N.add_0_r | right; now exists None | exact H |].
  intros r Hr. unfold read_package_rels. cbn [st rs_events]. unfold x_package_rels, x_rels. eexists.
  set (att := fun r : rel => [("Id", rel_id r); ("Type", rel_kind r); ("Target", rel_target r)]%string).
  assert (M : map (fun r0 => x_rel (rel_id r0) (rel_kind r0) (rel_target r0)) l =
              map (fun x => leaf (fst x) (snd x)) (map (fun r => ("Relationship"%string, att r)) l)).
  { rewrite map_map. reflexivity. }
  rewrite M. rewrite (children_root _ _ _ _ _ _ (map seen_rel l) _ Hr).
  - rewrite N.add_0_r. reflexivity.
  - rewrite map_map. cbn [snd].
    assert (G : forall acc, folds (fun l atts => let r := read_rel atts in Some (l ++ [mk_rel (ar_id r) (ar_type r) (ar_target r)])) (map att l) acc
       = Some (acc ++ map seen_rel l)); [|exact (G [])]. clear M Hr H.
    induction l as [|a l IH]; intros acc; cbn [map folds]; [now rewrite app_nil_r|]. change (att a) with [("Id", rel_id a); ("Type", rel_kind a); ("Target", rel_target a)]%string.
    rewrite read_rel_meant. cbn [ar_id ar_type ar_target]. rewrite IH, <- app_assoc. reflexivity.
Qed.
Lemma types_read t s : WellProofs.spelled readable (x_types t) -> exists t', on_text read_types (text_of (decl_none :: xcalls (x_types t))) s = Val t' s.
Proof.
  intros H. change (decl_none :: xcalls (x_types t)) with ([decl_none] ++ xcalls (x_types t)).
  set (att := map (fun e : string * string => ("Default"%string, [("ContentType", snd e); ("Extension", fst e)]%string)) default_extensions ++
              map (fun e : string * string => ("Override"%string, [("PartName", fst e); ("ContentType", snd e)]%string)) (t_map t)).
  set (f := fun (t : types) (atts : list attribute) => match atts with (_, ns) :: (_, path) :: _ => Some (t_put t path ns) | _ => None end).
  assert (Hf : exists t', folds f (map snd att) types_default = Some t').
  { unfold att. rewrite map_app, !map_map. generalize types_default as a. cbn [snd].
    assert (G : forall (n1 n2 : string * string -> string) v1 v2 (l : list (string * string)) m a,
      (forall a, exists t', folds f m a = Some t') -> exists t', folds f (map (fun x => [(n1 x, v1 x); (n2 x, v2 x)]) l ++ m) a = Some t').
    { intros n1 n2 v1 v2. induction l as [|e l IH]; intros m a Hm; [apply Hm|]. cbn [map app folds]. unfold f at 1. cbn [meant map]. now apply IH. }
    intros a. apply (G (fun _ => "ContentType"%string) (fun _ => "Extension"%string) snd fst). intros b.
    pose proof (G (fun _ => "PartName"%string) (fun _ => "ContentType"%string) fst snd (t_map t) [] b) as Y. rewrite app_nil_r in Y. apply Y. intros c. now exists c. }
  destruct Hf as (t' & Ht). exists t'.
  rewrite (on_text_reads _ read_types [decl_none] _ t' 0 s); [destruct s; now rewrite N.add_0_r | right; now exists None | exact H |].
  intros r Hr. unfold read_types. cbn [st rs_events].
  assert (M : x_types t = E "Types" [("xmlns", "http://schemas.openxmlformats.org/package/2006/content-types")]%string (map (fun x => leaf (fst x) (snd x)) att)).
  { unfold x_types, att. now rewrite map_app, !map_map. }
  rewrite M. fold f. rewrite (children_root _ f _ _ _ _ t' _ Hr Ht). eexists. now rewrite N.add_0_r.
Qed.

(** ** Relationships of a part *)
Lemma loop_pure A B (body : A -> event -> R (turn A B)) a e l c : (forall a e, takes (body a e)) ->
  forall t, body a e (st l c) = Val t (st l c) -> loop body a (st (e :: l) c) = match t with Again a' => loop body a' (st l c) | Done b => Val b (st l c) end.
Proof. intros T t H. rewrite loop_step by exact T. rewrite H. now destruct t. Qed.
Definition rels_body (dir : string) (l : read_rels) (e : event) : R (turn read_rels read_rels) :=
  match e with
  | EStart q atts => a' <- ret (if q_local q =s "Relationship"%string then add_rel_read dir l atts else l) ;; ret (Again a')
  | EEnd q => ret (if q_local q =s "Relationships"%string then Done l else Again l)
  | EErr => fail
  | _ => ret (Again l)
  end.
Lemma rels_body_takes dir l e : takes (rels_body dir l e).
Proof. destruct e; cbn [rels_body]; apply takes_pure; pure_auto. Qed.
Lemma rels_read_tree dir (xs : list (list (string * string))) : forall a l c,
  loop (rels_body dir) a (st (xml_events (map (leaf "Relationship") xs) ++ EEnd (split_qname "Relationships") :: l) c) =
  Val (fold_left (add_rel_read dir) (map meant xs) a) (st l c).
Proof.
  induction xs as [|x xs IH]; intros a l c.
  - cbn [map fold_left xml_events flat_map app]. erewrite loop_pure; [|apply rels_body_takes | reflexivity]. reflexivity.
  - cbn [map]. rewrite xml_events_cons. unfold leaf at 1. cbn [events_of_xml flat_map app fold_left].
    erewrite loop_pure; [|apply rels_body_takes | reflexivity].
    change (q_local (split_qname "Relationship") =s "Relationship"%string) with true. cbn iota.
    erewrite loop_pure; [|apply rels_body_takes | reflexivity].
    change (q_local (split_qname "Relationship") =s "Relationships"%string) with false. cbn iota. apply IH.
Qed.
Lemma rels_read pre dir xs s : declaring pre -> WellProofs.spelled readable (x_rels (map (leaf "Relationship") xs)) ->
  on_text (read_rels_xml dir) (text_of (pre ++ xcalls (x_rels (map (leaf "Relationship") xs)))) s = Val (fold_left (add_rel_read dir) (map meant xs) []) s.
Proof.
  intros Hp H. rewrite (on_text_reads _ (read_rels_xml dir) pre _ (fold_left (add_rel_read dir) (map meant xs) []) 0 s);
    [destruct s; now rewrite N.add_0_r | exact Hp | exact H |].
  intros r Hr. exists r. change (read_rels_xml dir) with (loop (rels_body dir) []). unfold x_rels. cbn [events_of_xml app].
  erewrite loop_pure; [|apply rels_body_takes | reflexivity].
  change (q_local (split_qname "Relationships") =s "Relationship"%string) with false. cbn iota.
  rewrite <- app_assoc. cbn [app]. fold (xml_events (map (leaf "Relationship") xs)).
  match goal with |- loop _ ?a _ = _ => change a with (@nil (string * list target)) end.
  rewrite rels_read_tree. rewrite N.add_0_r. reflexivity.
Qed.

(** ** Loops that return at the end of the document *)
Lemma part_turns_enough A B (body : A -> event -> R (turn A B)) (fin : A -> B) : (forall a e, takes (body a e)) ->
  forall n1 n2 a s, length (rs_events s) <= n1 -> length (rs_events s) <= n2 -> part_turns n1 body fin a s = part_turns n2 body fin a s.
Proof.
  intros T. induction n1 as [|n1 IH]; intros n2 a s L1 L2.
  - destruct s as [[|e l] c]; [|cbn in L1; lia]. now destruct n2.
  - destruct s as [[|e l] c]; [now destruct n2|]. destruct n2 as [|n2]; [cbn in L2; lia|]. cbn [part_turns rs_events rs_para length] in *.
    destruct e; try reflexivity;
      match goal with |- match ?x with _ => _ end = _ => destruct x as [[a'|b] s'|s'| | |] eqn:Hb end; try reflexivity;
      (apply IH; match type of Hb with _ ?a ?e ?s0 = _ => pose proof (T a e s0) as Ht end; rewrite Hb in Ht; cbn in Ht; apply suffix_length in Ht; cbn in Ht; lia).
Qed.
Lemma part_loop_step A B (body : A -> event -> R (turn A B)) (fin : A -> B) a e l c : (forall a e, takes (body a e)) -> e <> EDocEnd ->
  part_loop body fin a (st (e :: l) c) =
  match body a e (st l c) with
  | Val (Again a') s' => part_loop body fin a' s'
  | Val (Done b) s' => Val b s'
  | Err s' => Err s' | Panic => Panic | Hang => Hang | NoFuel => NoFuel
  end.
Proof.
  intros T He. unfold part_loop. cbn [st rs_events length part_turns rs_para]. change {| rs_events := l; rs_para := c |} with (st l c).
  destruct e; try contradiction;
    match goal with |- match ?x with _ => _ end = _ => destruct x as [[a'|b] s'|s'| | |] eqn:Hb end; try reflexivity;
    (apply part_turns_enough; auto; match type of Hb with _ ?a ?e ?s0 = _ => pose proof (T a e s0) as Ht end; rewrite Hb in Ht; cbn in Ht; apply suffix_length in Ht; cbn in Ht; lia).
Qed.
Lemma part_loop_end A B (body : A -> event -> R (turn A B)) (fin : A -> B) a l c : Forall (eq EDocEnd) l ->
  exists r, part_loop body fin a (st l c) = Val (fin a) (st r c).
Proof. intros H. destruct H as [|e l <- H]; eexists; reflexivity. Qed.
Lemma takes_next : takes next_event.
Proof. intros [[|e l] c]; cbn; [apply suffix_refl | exists [e]; reflexivity]. Qed.

(** ** Custom properties *)
(** What is read of the text of an element, if anything: not if it is empty or blank. *)
Definition text_read (v : string) : option string := match text_events v with [EChars t] => Some t | _ => None end.
Definition custom_read (m : list (string * string)) (e : string * string) : list (string * string) :=
  match text_read (snd e) with Some t => put_custom (seen (fst e)) t m | None => m end.
Definition property_body (key : string) (m : list (string * string)) (e : event) : R (turn (list (string * string)) (list (string * string))) :=
  match e with
  | EStart q _ =>
      if q_local q =s "lpwstr"%string then
        x <- next_event ;; ret (Again (match x with EChars c => put_custom key c m | _ => m end))
      else ret (Again m)
  | EEnd q => ret (if q_local q =s "property"%string then Done m else Again m)
  | _ => ret (Again m)
  end.
Lemma property_takes key m e : takes (property_body key m e).
Proof.
  destruct e; cbn [property_body]; try (solve [apply takes_pure; pure_auto]); match goal with |- takes (if ?b then _ else _) => destruct b end; [|apply takes_pure; pure_auto].
  apply takes_bind; [apply takes_next | intros; apply takes_pure; pure_auto].
Qed.
Lemma property_read key v m l c :
  read_property key m (st (events_of_xml (x_text "vt:lpwstr" v) ++ EEnd (split_qname "property") :: l) c) =
  Val (match text_read v with Some t => put_custom key t m | None => m end) (st l c).
Proof.
  change (read_property key) with (loop (property_body key)). unfold x_text. cbn [events_of_xml app concat_str]. rewrite append_nil_r.
  rewrite loop_step by apply property_takes. cbn [property_body].
  change (q_local (split_qname "vt:lpwstr") =s "lpwstr"%string) with true. cbn iota. unfold bind, ret.
  assert (X : (text_read v = None /\ text_events v = []) \/ (text_read v = None /\ exists w, text_events v = [EWs w]) \/ (exists t, text_read v = Some t /\ text_events v = [EChars t])).
  { unfold text_read, text_events. destruct v as [|ch v]; [auto|]. destruct (all_char _ _); eauto. }
  destruct X as [[-> ->]|[[-> [w ->]]|(t & -> & ->)]]; cbn [app next_event rs_events st rs_para]; repeat match goal with |- context [{| rs_events := ?x; rs_para := c |}] => change {| rs_events := x; rs_para := c |} with (st x c) end.
  - rewrite (loop_pure _ _ _ m (EEnd (split_qname "property")) l c (property_takes key) (Done m)) by reflexivity. reflexivity.
  - rewrite (loop_pure _ _ _ m (EEnd (split_qname "vt:lpwstr")) _ c (property_takes key) (Again m)) by reflexivity.
    rewrite (loop_pure _ _ _ m (EEnd (split_qname "property")) l c (property_takes key) (Done m)) by reflexivity. reflexivity.
  - rewrite (loop_pure _ _ _ _ (EEnd (split_qname "vt:lpwstr")) _ c (property_takes key) (Again (put_custom key t m))) by reflexivity.
    rewrite (loop_pure _ _ _ _ (EEnd (split_qname "property")) l c (property_takes key) (Done (put_custom key t m))) by reflexivity. reflexivity.
Qed.
Definition custom_body (m : list (string * string)) (e : event) : R (turn (list (string * string)) (list (string * string))) :=
  match e with
  | EStart q atts =>
      if q_local q =s "property"%string then
        match attr_get "name" atts with
        | Some key => m' <- read_property key m ;; ret (Again m')
        | None => ret (Again m)
        end
      else ret (Again m)
  | EErr => fail
  | _ => ret (Again m)
  end.
Lemma custom_takes m e : takes (custom_body m e).
Proof.
  destruct e; cbn [custom_body]; try (solve [apply takes_pure; pure_auto]); match goal with |- takes (if ?b then _ else _) => destruct b end; [|apply takes_pure; pure_auto].
  match goal with |- takes (match ?b with _ => _ end) => destruct b as [key|] end; [|apply takes_pure; pure_auto].
  apply takes_bind; [apply (takes_loop _ _ (property_body key)), property_takes | intros; apply takes_pure; pure_auto].
Qed.
Lemma customs_read es : forall i m l c,
  part_loop custom_body (fun m => m) m (st (xml_events (x_custom_from i es) ++ l) c) = part_loop custom_body (fun m => m) (fold_left custom_read es m) (st l c).
Proof.
  induction es as [|e es IH]; intros i m l c; [reflexivity|]. cbn [x_custom_from fold_left]. rewrite xml_events_cons. cbn [events_of_xml flat_map app].
  rewrite part_loop_step by (apply custom_takes || discriminate). unfold custom_body at 1.
  change (q_local (split_qname "property") =s "property"%string) with true. cbn iota.
  replace (attr_get "name" _) with (Some (seen (fst e))).
  2: { cbn [meant map fst snd attr_get]. generalize (seen (fst e)), (seen (show_N i)). reflexivity. }
  rewrite app_nil_r, <- !app_assoc. cbn [app]. unfold bind. rewrite property_read. cbn [ret]. rewrite IH. reflexivity.
Qed.
Lemma custom_text_read es s : WellProofs.spelled readable (x_custom es) ->
  on_text read_custom (text_of (part_calls (x_custom es))) s = Val (fold_left custom_read es []) s.
Proof.
  intros H. change (part_calls (x_custom es)) with ([BuildModel.decl] ++ xcalls (x_custom es)).
  rewrite (on_text_reads _ read_custom [BuildModel.decl] _ (fold_left custom_read es []) 0 s);
    [destruct s; now rewrite N.add_0_r | right; unfold BuildModel.decl; eexists; reflexivity | exact H |].
  intros r Hr. change read_custom with (part_loop custom_body (fun m => m) []). unfold x_custom. cbn [events_of_xml app]. rewrite <- app_assoc.
  rewrite part_loop_step by (apply custom_takes || discriminate). unfold custom_body at 1.
  change (q_local (split_qname "Properties") =s "property"%string) with false. cbn iota. cbn [ret].
  fold (xml_events (x_custom_from 2 es)). rewrite customs_read. cbn [app].
  rewrite part_loop_step by (apply custom_takes || discriminate). cbn [custom_body ret].
  destruct (part_loop_end _ _ custom_body (fun m => m) (fold_left custom_read es []) r (rs_para s) Hr) as (r' & ->). exists r'. now rewrite N.add_0_r.
Qed.

(** ** Extended comments *)
Definition reread_ext (x : comment_ext) : comment_ext :=
  {| ce_para := seen (ce_para x); ce_done := ce_done x; ce_parent := option_map seen (ce_parent x) |}.
Definition ext_body (l : list comment_ext) (e : event) : R (turn (list comment_ext) (list comment_ext)) :=
  match e with
  | EStart q atts => if q_local q =s "commentEx"%string then x <- read_comment_ext atts ;; ret (Again (put_ext x l)) else ret (Again l)
  | EEnd q => ret (if q_local q =s "commentsEx"%string then Done l else Again l)
  | EErr => fail
  | _ => ret (Again l)
  end.
Lemma ext_takes l e : takes (ext_body l e).
Proof.
  destruct e; cbn [ext_body]; try (solve [apply takes_pure; pure_auto]); match goal with |- takes (if ?b then _ else _) => destruct b end; [|apply takes_pure; pure_auto].
  apply takes_bind; [|intros; apply takes_pure; pure_auto]. unfold read_comment_ext. apply takes_bind; [|intros; apply takes_pure; pure_auto].
  apply takes_pure. pure_auto.
Qed.
Definition ext_attrs (x : comment_ext) : list (string * string) :=
  [("w15:paraId"%string, ce_para x)] ++ BuildModel.opt (fun p => ("w15:paraIdParent"%string, p)) (ce_parent x) ++ [("w15:done"%string, BuildModel.show_01 (ce_done x))].
Lemma comment_ext_meant x s : read_comment_ext (meant (ext_attrs x)) s
  = Val (reread_ext x) s.
Proof.
  destruct x as [i d p]. unfold reread_ext, ext_attrs. cbn [ce_para ce_parent ce_done]. destruct p as [p|]; cbn [BuildModel.opt app meant map fst snd option_map];
    destruct d; unfold BuildModel.show_01; [change (seen "1") with "1"%string | change (seen "0") with "0"%string | change (seen "1") with "1"%string | change (seen "0") with "0"%string];
    generalize (seen i) as v; try (generalize (seen p) as w); reflexivity.
Qed.
Lemma exts_read es : forall a l c,
  part_loop ext_body (fun l => l) a (st (xml_events (map x_comment_ext es) ++ l) c) = part_loop ext_body (fun l => l) (fold_left (fun l x => put_ext (reread_ext x) l) es a) (st l c).
Proof.
  induction es as [|e es IH]; intros a l c; [reflexivity|]. cbn [map fold_left]. rewrite xml_events_cons. unfold x_comment_ext at 1, leaf. cbn [events_of_xml flat_map app].
  rewrite part_loop_step by (apply ext_takes || discriminate). unfold ext_body at 1.
  change (q_local (split_qname "w15:commentEx") =s "commentEx"%string) with true. cbn iota. unfold bind. 
  match goal with |- context [read_comment_ext (meant ?x)] => change x with (ext_attrs e) end.
  rewrite comment_ext_meant. cbn [ret].
  rewrite part_loop_step by (apply ext_takes || discriminate). cbn [ext_body ret].
  change (q_local (split_qname "w15:commentEx") =s "commentsEx"%string) with false. cbn iota. apply IH.
Qed.
Definition reread_exts (es : list comment_ext) : list comment_ext := fold_left (fun l x => put_ext (reread_ext x) l) es [].
Lemma ext_text_read es s : WellProofs.spelled readable (x_comments_ext es) ->
  on_text read_comments_ext (text_of (xcalls (x_comments_ext es))) s = Val (reread_exts es) s.
Proof.
  intros H. change (xcalls (x_comments_ext es)) with ([] ++ xcalls (x_comments_ext es)).
  rewrite (on_text_reads _ read_comments_ext [] _ (reread_exts es) 0 s); [destruct s; now rewrite N.add_0_r | left; reflexivity | exact H |].
  intros r Hr. change read_comments_ext with (part_loop ext_body (fun l => l) []). unfold x_comments_ext. cbn [events_of_xml app]. rewrite <- app_assoc.
  rewrite part_loop_step by (apply ext_takes || discriminate). unfold ext_body at 1. generalize (meant comments_ext_attrs). intros atts.
  change (q_local (split_qname "w15:commentsEx") =s "commentEx"%string) with false. cbn iota. cbn [ret].
  fold (xml_events (map x_comment_ext es)). rewrite exts_read. fold (reread_exts es). cbn [app].
  rewrite part_loop_step by (apply ext_takes || discriminate). cbn [ext_body ret].
  change (q_local (split_qname "w15:commentsEx") =s "commentsEx"%string) with true. cbn iota. exists r. now rewrite N.add_0_r.
Qed.

(** From what is written to what a reader loop does with it. *)
From Coq Require Import NArith ZArith List Bool Lia.
From Verif Require Import Str StrFacts TypesModel Props Ast XmlParser XmlSpec XmlProperties WriterModel ReadBase ReadProps ReadModel ReadProg ReadProofs.
From Verif Require BuildModel.
From Verif Require Import RoundSpec.
Import ListNotations.
Import BuildModel (xml, E, L, xcalls, leaf, part_calls, decl).

(** ** The events of what is written *)
Lemma attrs_meant a a' : attrs_meaning a = Some a' -> a' = meant a.
Proof.
  revert a'. induction a as [|[k v] r IH]; cbn [attrs_meaning meant map]; intros a' H.
  - now injection H as <-.
  - destruct (attr_name_ok k && negb (has_char ch_quot v)); [|discriminate].
    cbn [fst snd]. unfold seen. destruct (decode_attr None v) as [v'|]; [|discriminate].
    destruct (attrs_meaning r) as [r'|] eqn:Er; [|discriminate]. injection H as <-.
    f_equal. now apply IH.
Qed.
Lemma report_events s ev : text_report s = Some ev -> ev = text_events s.
Proof.
  unfold text_report, text_events, text_seen. destruct s as [|c s]; [now intros [= <-]|].
  destruct (text_meaning None (String c s)) as [t|]; [|discriminate]. now intros [= <-].
Qed.
Lemma cat_some a b ev : cat_events a b = Some ev -> exists x y, a = Some x /\ b = Some y /\ ev = x ++ y.
Proof. destruct a as [x|], b as [y|]; cbn; try discriminate. intros [= <-]. eauto. Qed.
Lemma reported_texts ts open raw r : reported open raw (map CText ts ++ r) = reported open (raw +++ concat_str ts) r.
Proof.
  revert raw. induction ts as [|t ts IH]; cbn [map app reported concat_str]; intros raw.
  - now rewrite append_nil_r.
  - rewrite IH. now rewrite append_assoc.
Qed.
Section XmlInd.
  Variable P : xml -> Prop.
  Hypothesis HE : forall n a ch, Forall P ch -> P (E n a ch).
  Hypothesis HL : forall n a ts, P (L n a ts).
  Fixpoint xml_tree_ind (x : xml) : P x :=
    match x with
    | E n a ch => HE n a ch ((fix go l : Forall P l := match l with [] => Forall_nil _ | y :: l => Forall_cons _ (xml_tree_ind y) (go l) end) ch)
    | L n a ts => HL n a ts
    end.
End XmlInd.
Definition xml_events (l : list xml) : list event := flat_map events_of_xml l.
Lemma reported_xml x : forall open r ev, reported open "" (xcalls x ++ r) = Some ev ->
  exists ev2, reported open "" r = Some ev2 /\ ev = events_of_xml x ++ ev2.
Proof.
  induction x as [n a ch IH|n a ts] using xml_tree_ind; intros open r ev H.
  - cbn [xcalls app reported] in H. destruct (elem_name_ok n); [|discriminate].
    apply cat_some in H as (e1 & e2 & H1 & H2 & ->). injection H1 as <-.
    apply cat_some in H2 as (e3 & e4 & H3 & H4 & ->).
    destruct (attrs_meaning a) as [a'|] eqn:Ha; [|discriminate]. injection H3 as <-. apply attrs_meant in Ha. subst a'.
    assert (X : forall l, Forall (fun x => forall open r ev, reported open "" (xcalls x ++ r) = Some ev ->
                 exists ev2, reported open "" r = Some ev2 /\ ev = events_of_xml x ++ ev2) l ->
               forall open r ev, reported open "" (flat_map xcalls l ++ r) = Some ev ->
                 exists ev2, reported open "" r = Some ev2 /\ ev = xml_events l ++ ev2).
    { induction l as [|y l IHl]; intros F o r' ev' H'; [exists ev'; auto|].
      inversion F as [|? ? F1 F2]; subst. cbn [flat_map] in H'. rewrite <- app_assoc in H'.
      destruct (F1 _ _ _ H') as (e5 & H5 & ->). destruct (IHl F2 _ _ _ H5) as (e6 & H6 & ->).
      exists e6. split; [exact H6|]. unfold xml_events. cbn [flat_map]. now rewrite app_assoc. }
    rewrite <- app_assoc in H4. destruct (X ch IH _ _ _ H4) as (e5 & H5 & ->).
    cbn [app reported text_report] in H5. apply cat_some in H5 as (e6 & e7 & H6 & H7 & ->). injection H6 as <-.
    apply cat_some in H7 as (e8 & e9 & H8 & H9 & ->). injection H8 as <-.
    exists e9. split; [exact H9|]. cbn [events_of_xml app]. rewrite <- app_assoc. reflexivity.
  - cbn [xcalls app reported] in H. destruct (elem_name_ok n); [|discriminate].
    apply cat_some in H as (e1 & e2 & H1 & H2 & ->). injection H1 as <-.
    apply cat_some in H2 as (e3 & e4 & H3 & H4 & ->).
    destruct (attrs_meaning a) as [a'|] eqn:Ha; [|discriminate]. injection H3 as <-. apply attrs_meant in Ha. subst a'.
    rewrite <- app_assoc, reported_texts in H4. cbn [app reported] in H4. change (""%string +++ concat_str ts) with (concat_str ts) in H4.
    apply cat_some in H4 as (e6 & e7 & H6 & H7 & ->). apply report_events in H6. subst e6.
    apply cat_some in H7 as (e8 & e9 & H8 & H9 & ->). injection H8 as <-.
    exists e9. split; [exact H9|]. cbn [events_of_xml app]. rewrite <- app_assoc. reflexivity.
Qed.
Lemma part_events x ev : doc_reported (part_calls x) = Some ev -> ev = events_of_xml x.
Proof.
  unfold part_calls, decl. cbn [doc_reported]. intros H.
  destruct (has_char _ _ || has_char _ _); [discriminate|].
  rewrite <- (app_nil_r (xcalls x)) in H. destruct (reported_xml _ _ _ _ H) as (e & He & ->).
  injection He as <-. now rewrite app_nil_r.
Qed.

(** ** Loops *)
Definition two32 : N := 4294967296.
(** Reading [ev], with [k] paragraphs in it, gives [v] and takes [ev] and no more. *)
Definition reads {A} (k : N) (m : nat -> R A) (ev : list event) (v : A) : Prop :=
  forall d l c, length ev <= d -> (c + k < two32)%N -> m d (st (ev ++ l) c) = Val v (st l (c + k)%N).
(** A loop with local variables [a] takes [ev] and goes on with [a']. *)
Definition eats {A B} (F : nat -> A -> R B) (k : N) (a : A) (ev : list event) (a' : A) : Prop :=
  forall d l c, length ev <= d -> (c + k < two32)%N -> F d a (st (ev ++ l) c) = F d a' (st l (c + k)%N).
Lemma eats_nil A B (F : nat -> A -> R B) a : eats F 0 a [] a.
Proof. intros d l c _ _. now rewrite N.add_0_r. Qed.
Lemma eats_app A B (F : nat -> A -> R B) k1 k2 a b c e1 e2 :
  eats F k1 a e1 b -> eats F k2 b e2 c -> eats F (k1 + k2) a (e1 ++ e2) c.
Proof.
  intros H1 H2 d l n L K. rewrite app_length in L. rewrite <- app_assoc. rewrite H1 by lia. rewrite H2 by lia.
  now rewrite N.add_assoc.
Qed.
Lemma eats_app0 A B (F : nat -> A -> R B) a b c e1 e2 :
  eats F 0 a e1 b -> eats F 0 b e2 c -> eats F 0 a (e1 ++ e2) c.
Proof. apply (eats_app A B F 0 0). Qed.
Lemma eats_opt A B X (F : nat -> A -> R B) (f : X -> xml) (o : option X) (g : X -> A -> A) a :
  (forall x, o = Some x -> eats F 0 a (events_of_xml (f x)) (g x a)) ->
  eats F 0 a (xml_events (BuildModel.opt f o)) (upd o g a).
Proof.
  intros H. destruct o as [x|]; cbn; [rewrite app_nil_r; now apply H | apply eats_nil].
Qed.
Lemma eats_on A B (F : nat -> A -> R B) (b : bool) x a a' :
  (b = true -> eats F 0 a (events_of_xml x) a') ->
  eats F 0 a (xml_events (BuildModel.on b [x])) (if b then a' else a).
Proof. intros H. destruct b; cbn; [rewrite app_nil_r; now apply H | apply eats_nil]. Qed.
Lemma xml_events_app a b : xml_events (a ++ b) = xml_events a ++ xml_events b.
Proof. apply flat_map_app. Qed.
Lemma xml_events_cons x l : xml_events (x :: l) = events_of_xml x ++ xml_events l.
Proof. reflexivity. Qed.

(** One turn of a loop. *)
Lemma loop_step A B (body : A -> event -> R (turn A B)) a e l c :
  (forall a e, takes (body a e)) ->
  loop body a (st (e :: l) c) =
  match body a e (st l c) with
  | Val (Again a') s' => loop body a' s'
  | Val (Done b) s' => Val b s'
  | Err s' => Err s' | Panic => Panic | Hang => Hang | NoFuel => NoFuel
  end.
Proof.
  intros T. unfold loop. cbn [st rs_events length turns rs_para]. specialize (T a e (st l c)) as Te. unfold st in *.
  destruct (body a e {| rs_events := l; rs_para := c |}) as [[a'|b] s'|s'| | |]; try reflexivity.
  cbn in Te. apply suffix_length in Te. apply turns_enough; auto.
Qed.
Section Element.
  Context {A B : Type} (own : string) (start : subs -> A -> qname -> list attribute -> R A) (fin : A -> B).
  Hypothesis shape : forall a q atts, Prog (q_local q) (fun s => start s a q atts).
  Definition F (d : nat) : A -> R B := element own (start (readers d)) fin.
  Lemma elem_takes d a e : takes ((fun a e =>
    match e with
    | EStart q atts => a' <- start (readers d) a q atts ;; ret (Again a')
    | EEnd q => ret (if q_local q =s own then Done (fin a) else Again a)
    | EErr => fail
    | _ => ret (Again a)
    end) a e).
  Proof.
    destruct e as [q atts|q|s|s| |]; [|apply takes_pure; pure_auto ..].
    apply takes_bind; [|intros; apply takes_pure; pure_auto].
    apply (proj1 shape_takes (q_local q) _ _ (shape a q atts)), readers_take.
  Qed.
  Lemma elem_end d a q l c : q_local q = own -> F d a (st (EEnd q :: l) c) = Val (fin a) (st l c).
  Proof.
    intros Hq. unfold F, element. rewrite loop_step by (apply elem_takes). cbn.
    now rewrite Hq, String.eqb_refl.
  Qed.
  Lemma elem_skip d a q l c : (q_local q =s own) = false -> F d a (st (EEnd q :: l) c) = F d a (st l c).
  Proof. intros Hq. unfold F, element at 1. rewrite loop_step by (apply elem_takes). cbn. now rewrite Hq. Qed.
  Lemma elem_start d a q atts l c a' s' : start (readers d) a q atts (st l c) = Val a' s' ->
    F d a (st (EStart q atts :: l) c) = F d a' s'.
  Proof.
    intros H. unfold F, element at 1. rewrite loop_step by (apply elem_takes). cbn. unfold bind. rewrite H. reflexivity.
  Qed.
  Lemma elem_text d a s l c : F d a (st (text_events s ++ l) c) = F d a (st l c).
  Proof.
    unfold text_events. destruct s as [|ch s]; [reflexivity|]. cbn [app].
    destruct (all_char is_ws (text_seen (String ch s))); unfold F, element at 1; rewrite loop_step by (apply elem_takes); reflexivity.
  Qed.
  (** An element read from its attributes. *)
  Lemma eats_leaf n atts a a' :
    (q_local (split_qname n) =s own) = false ->
    (forall d l c, start (readers d) a (split_qname n) (meant atts) (st l c) = Val a' (st l c)) ->
    eats F 0 a (events_of_xml (leaf n atts)) a'.
  Proof.
    intros Hn H d l c _ _. cbn [leaf events_of_xml flat_map app]. rewrite (elem_start _ _ _ _ _ _ _ _ (H d _ _)).
    rewrite elem_skip by exact Hn. now rewrite N.add_0_r.
  Qed.
  (** An element with text that is not looked at. *)
  Lemma eats_text n atts ts a :
    (q_local (split_qname n) =s own) = false ->
    (forall d l c, start (readers d) a (split_qname n) (meant atts) (st l c) = Val a (st l c)) ->
    eats F 0 a (events_of_xml (L n atts ts)) a.
  Proof.
    intros Hn H d l c _ _. cbn [events_of_xml app]. rewrite (elem_start _ _ _ _ _ _ _ _ (H d _ _)).
    rewrite <- app_assoc, elem_text. cbn [app]. rewrite elem_skip by exact Hn. now rewrite N.add_0_r.
  Qed.
  (** An element whose start is skipped: its children are taken by the same loop. *)
  Lemma eats_through n atts ch k a a' :
    (q_local (split_qname n) =s own) = false ->
    (forall a d l c, start (readers d) a (split_qname n) (meant atts) (st l c) = Val a (st l c)) ->
    eats F k a (xml_events ch) a' ->
    eats F k a (events_of_xml (E n atts ch)) a'.
  Proof.
    intros Hn H He d l c Ld Kd. cbn [events_of_xml app length] in *. rewrite app_length in Ld. cbn [length] in Ld.
    rewrite (elem_start _ _ _ _ _ _ _ _ (H a d _ _)). rewrite <- app_assoc. fold (xml_events ch).
    rewrite He by (unfold xml_events; lia). cbn [app]. now rewrite elem_skip by exact Hn.
  Qed.
  (** An element read by a reader of its own. *)
  Lemma eats_sub n atts ch k a a' :
    reads k (fun d => start (readers d) a (split_qname n) (meant atts)) (xml_events ch ++ [EEnd (split_qname n)]) a' ->
    eats F k a (events_of_xml (E n atts ch)) a'.
  Proof.
    intros H d l c Ld Kd. cbn [events_of_xml app length] in *.
    apply elem_start. apply H; [unfold xml_events; lia | exact Kd].
  Qed.
  (** The whole element: by a reader at the same level, or one level up. *)
  Lemma elem_whole k a ev a' q : q_local q = own -> eats F k a ev a' ->
    forall d l c, length ev <= d -> (c + k < two32)%N ->
    F d a (st ((ev ++ [EEnd q]) ++ l) c) = Val (fin a') (st l (c + k)%N).
  Proof. intros Hq H d l c Ld Kd. rewrite <- app_assoc. rewrite H by lia. cbn [app]. now apply elem_end. Qed.
  Lemma reads_flat k (m : nat -> R B) a ev a' q : (forall d, m d = F d a) -> q_local q = own -> eats F k a ev a' ->
    reads k m (ev ++ [EEnd q]) (fin a').
  Proof.
    intros Hm Hq H d l c Ld Kd. rewrite app_length in Ld. rewrite Hm. apply elem_whole; auto; lia.
  Qed.
  Lemma reads_deep k (m : nat -> R B) a ev a' q : (forall d, m (S d) = F d a) -> q_local q = own -> eats F k a ev a' ->
    reads k m (ev ++ [EEnd q]) (fin a').
  Proof.
    intros Hm Hq H d l c Ld Kd. rewrite app_length in Ld. cbn [length] in Ld. destruct d as [|d]; [lia|].
    rewrite Hm. apply elem_whole; auto; lia.
  Qed.
End Element.

Lemma reads_bind A B k (m : nat -> R A) (f : A -> R B) ev v w :
  reads k m ev v -> (forall s, f v s = Val w s) -> reads k (fun d => bind (m d) f) ev w.
Proof. intros H Hf d l c Ld Kd. unfold bind. rewrite H by assumption. apply Hf. Qed.
Lemma reads_attempt A k (m : nat -> R A) ev v : reads k m ev v -> reads k (fun d => attempt (m d)) ev (Some v).
Proof. intros H d l c Ld Kd. unfold attempt. now rewrite H by assumption. Qed.

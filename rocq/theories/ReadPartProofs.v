(** Reading whole parts: the loops of [Document::from_xml], [Header::from_xml] and
    [Comments::from_xml] over the readers of ReadProofs. *)
From Verif Require Import Str Props Ast XmlParser XmlTree ReadBase ReadProps ReadModel ReadSpec ReadProg ReadProofs.
Open Scope nat_scope.

(** What the three loops have in common. *)
Record part_shape {A B} (body : subs -> A -> event -> R (turn A B)) : Prop := {
  ps_start : forall a q atts, Prog (q_local q) (fun s => body s a (EStart q atts));
  ps_again : forall s a q atts s0 v s', body s a (EStart q atts) s0 = Val v s' -> exists a', v = Again a';
  ps_end : forall a q, exists t, forall s, body s a (EEnd q) = ret t;
  ps_err : forall s a, body s a EErr = fail;
  ps_chars : forall a c, exists a', forall s, body s a (EChars c) = ret (Again a');
  ps_ws : forall a c, exists a', forall s, body s a (EWs c) = ret (Again a') }.
Arguments ps_start {A B body}. Arguments ps_again {A B body}. Arguments ps_end {A B body}. Arguments ps_err {A B body}.
Arguments ps_chars {A B body}. Arguments ps_ws {A B body}.

Section Part.
Context {A B : Type} (body : subs -> A -> event -> R (turn A B)) (fin : A -> B) (H : part_shape body).

Lemma part_pure s a e : match e with EStart _ _ => False | EDocEnd => False | _ => True end -> pure (body s a e).
Proof.
  destruct e as [q atts|q|c|c| |]; try easy; intros _.
  - destruct (ps_end H a q) as [t E]. rewrite E. apply pure_ret.
  - destruct (ps_chars H a c) as [t E]. rewrite E. apply pure_ret.
  - destruct (ps_ws H a c) as [t E]. rewrite E. apply pure_ret.
  - rewrite (ps_err H). apply pure_fail.
Qed.
Lemma part_body_takes s a e : take_subs s -> e <> EDocEnd -> takes (body s a e).
Proof.
  intros Ts He. destruct e as [q atts|q|c|c| |]; try (apply takes_pure, part_pure; exact I); try easy.
  exact (proj1 shape_takes _ _ _ (ps_start H a q atts) s Ts).
Qed.
Lemma part_body_fueled s k a e : take_subs s -> all_subs (fun A _ m => fueled k m) s -> e <> EDocEnd ->
  fueled k (body s a e).
Proof.
  intros Ts Fs He. destruct e as [q atts|q|c|c| |]; try (apply fueled_pure, part_pure; exact I); try easy.
  exact (proj1 shape_fueled _ _ _ (ps_start H a q atts) s k Ts Fs).
Qed.
Lemma part_body_rel s s' a e : take_subs s -> take_subs s' -> rel_subs s s' -> e <> EDocEnd ->
  rel (body s a e) (body s' a e).
Proof.
  intros Ts Ts' Rs He. destruct e as [q atts|q|c|c| |]; try easy.
  - exact (proj1 shape_rel _ _ _ (ps_start H a q atts) s s' Ts Ts' Rs).
  - destruct (ps_end H a q) as [t E]. rewrite !E. apply rel_pure, pure_ret.
  - destruct (ps_chars H a c) as [t E]. rewrite !E. apply rel_pure, pure_ret.
  - destruct (ps_ws H a c) as [t E]. rewrite !E. apply rel_pure, pure_ret.
  - rewrite !(ps_err H). apply rel_pure, pure_fail.
Qed.

(** The bound is not met. *)
Lemma part_turns_fueled s k : take_subs s -> all_subs (fun A _ m => fueled k m) s ->
  forall fuel a s0, length (rs_events s0) <= fuel -> length (rs_events s0) <= k ->
  part_turns fuel (body s) fin a s0 <> NoFuel.
Proof.
  intros Ts Fs. induction fuel as [|n IH]; intros a s0 L Lk; cbn [part_turns]; destruct (rs_events s0) as [|e l] eqn:E;
    cbn [length] in *; try discriminate; try lia.
  destruct e as [q atts|q|c|c| |] eqn:Ee; try discriminate;
    (match goal with |- context [body s a ?ev _] =>
       assert (Fb := part_body_fueled s k a ev Ts Fs ltac:(discriminate) (st l (rs_para s0)) ltac:(cbn; lia));
       assert (Tb := part_body_takes s a ev Ts ltac:(discriminate) (st l (rs_para s0)));
       unfold st in Fb, Tb; destruct (body s a ev _) as [[a'|b] s'|s'| | |]; try discriminate; try easy;
       apply IH; cbn in Tb; apply suffix_length in Tb; lia end).
Qed.

(** A stream that closes all its elements never makes it hang. *)
Lemma part_turns_closing s : all_subs (@closes) s ->
  forall fuel a s0 open, closing open (rs_events s0) -> part_turns fuel (body s) fin a s0 <> Hang.
Proof.
  intros Cs. induction fuel as [|n IH]; intros a s0 open Hc; cbn [part_turns]; destruct (rs_events s0) as [|e l] eqn:E;
    try discriminate; [destruct e; discriminate|].
  destruct e as [q atts|q|c|c| |]; try discriminate.
  - assert (Hc' : closing (q :: open) l).
    { destruct Hc as [Hl Hn]. apply no_error_cons in Hn. now split. }
    pose proof (proj1 shape_closes _ _ _ (ps_start H a q atts) s Cs (st l (rs_para s0)) q open eq_refl Hc') as Cb.
    unfold st in Cb. destruct (body s a (EStart q atts) _) as [[a'|b] s'|s'| | |]; try discriminate; try easy.
    destruct Cb as [inner Cb]. now apply (IH a' s' (inner ++ open)).
  - destruct (ps_end H a q) as [t Et]. rewrite Et. unfold ret. destruct t as [a'|b]; try discriminate.
    destruct Hc as [Hl Hn]. apply no_error_cons in Hn. cbn in Hl. destruct open as [|m open]; [discriminate|].
    destruct (qname_eqb q m); [|discriminate]. now apply (IH _ _ open).
  - destruct (ps_chars H a c) as [t Et]. rewrite Et. unfold ret. apply (IH _ _ open). cbn.
    now apply (closing_other _ (EChars c)).
  - destruct (ps_ws H a c) as [t Et]. rewrite Et. unfold ret. apply (IH _ _ open). cbn.
    now apply (closing_other _ (EWs c)).
  - destruct Hc as [_ Hn]. exfalso. apply Hn. now left.
Qed.

(** Whatever the local variables of the loop hold stays there. *)
Context (grows : A -> A -> Prop) (grows_refl : forall a, grows a a)
  (grows_trans : forall a b c, grows a b -> grows b c -> grows a c)
  (grows_step : forall s a e s0 a' s', body s a e s0 = Val (Again a') s' -> grows a a')
  (grows_done : forall s a e s0 b s', body s a e s0 = Val (Done b) s' -> b = fin a).
Lemma part_turns_grow s : forall fuel a s0 b s',
  part_turns fuel (body s) fin a s0 = Val b s' -> exists a', grows a a' /\ b = fin a'.
Proof.
  induction fuel as [|n IH]; intros a s0 b s'; cbn [part_turns]; destruct (rs_events s0) as [|e l] eqn:E.
  - intros X. injection X as <- _. eauto.
  - destruct e; try discriminate. intros X. injection X as <- _. eauto.
  - intros X. injection X as <- _. eauto.
  - assert (G : match body s a e {| rs_events := l; rs_para := rs_para s0 |} with
                | Val (Again a') s' => part_turns n (body s) fin a' s'
                | Val (Done b) s' => Val b s'
                | Err s' => Err s' | Panic => Panic | Hang => Hang | NoFuel => NoFuel end = Val b s' ->
                exists a', grows a a' /\ b = fin a').
    { destruct (body s a e _) as [[a'|b'] s1|s1| | |] eqn:Eb; try discriminate.
      - intros X. apply IH in X as (a2 & G2 & ->). exists a2. eauto.
      - intros X. injection X as <- _. apply grows_done in Eb. eauto. }
    destruct e; try exact G. intros X. injection X as <- _. eauto.
Qed.
(** Reading the first part of a stream: either the same outcome as for the whole, or
    a value with the contents found so far, or it never returns. *)
Lemma part_turns_prefix s s' : take_subs s -> take_subs s' -> rel_subs s s' ->
  forall fuel fuel' a s0 more,
  length (rs_events s0) <= fuel -> length (rs_events s0) + length more <= fuel' ->
  match part_turns fuel (body s) fin a s0 with
  | NoFuel => True
  | Hang => True
  | Val b s1 =>
      part_turns fuel' (body s') fin a (st (rs_events s0 ++ more) (rs_para s0)) = Val b (st (rs_events s1 ++ more) (rs_para s1)) \/
      exists a', b = fin a' /\ forall b2 s2,
        part_turns fuel' (body s') fin a (st (rs_events s0 ++ more) (rs_para s0)) = Val b2 s2 ->
        exists a2, grows a' a2 /\ b2 = fin a2
  | o => part_turns fuel' (body s') fin a (st (rs_events s0 ++ more) (rs_para s0)) = ext more o
  end.
Proof.
  intros Ts Ts' Rs. induction fuel as [|n IH]; intros fuel' a s0 more L L'; cbn [part_turns];
    destruct (rs_events s0) as [|e l] eqn:E; cbn [length] in *; try lia.
  - right. exists a. split; [reflexivity|]. intros b2 s2 X. now apply part_turns_grow in X.
  - right. exists a. split; [reflexivity|]. intros b2 s2 X. now apply part_turns_grow in X.
  - destruct fuel' as [|n']; [lia|].
    destruct e as [q atts|q|c|c| |]; cbn [part_turns st rs_events rs_para app];
      try (left; reflexivity);
      match goal with |- context [body s a ?ev _] =>
        assert (Rb := part_body_rel s s' a ev Ts Ts' Rs ltac:(discriminate) (st l (rs_para s0)) more);
        assert (Tb := part_body_takes s a ev Ts ltac:(discriminate) (st l (rs_para s0)));
        cbn [st rs_events rs_para] in Rb, Tb; unfold st in *;
        destruct (body s a ev {| rs_events := l; rs_para := rs_para s0 |}) as [[a'|b] s1|s1| | |]; cbn in Rb, Tb; trivial;
        rewrite ?Rb; auto;
        apply IH; apply suffix_length in Tb; lia
      end.
Qed.
(** After a first part that ends between two blocks the loop goes on with the rest. *)
Lemma part_turns_continue s s' : take_subs s -> take_subs s' -> rel_subs s s' ->
  (forall s a e s0 b s', body s a e s0 <> Val (Done b) s') ->
  forall fuel a s0 b s1, ~ In EDocEnd (rs_events s0) -> part_turns fuel (body s) fin a s0 = Val b s1 ->
  forall more fuel', length (rs_events s0) + length more <= fuel' ->
  exists (a' : A) (c' : N) (fuel'' : nat), length more <= fuel'' /\
    part_turns fuel' (body s') fin a (st (rs_events s0 ++ more) (rs_para s0)) = part_turns fuel'' (body s') fin a' (st more c').
Proof.
  intros Ts Ts' Rs Nd. induction fuel as [|n IH]; intros a s0 b s1 Hd; cbn [part_turns];
    destruct (rs_events s0) as [|e l] eqn:E; intros X more fuel' L.
  - cbn [app]. exists a, (rs_para s0), fuel'. cbn in L. auto.
  - exfalso. destruct e; try discriminate. apply Hd. now left.
  - cbn [app]. exists a, (rs_para s0), fuel'. cbn in L. auto.
  - destruct fuel' as [|n']; [cbn in L; lia|]. cbn [length] in L.
    destruct e as [q atts|q|c|c| |]; cbn [part_turns st rs_events rs_para app]; try (exfalso; apply Hd; now left);
      match type of X with context [body s a ?ev _] =>
        assert (Rb := part_body_rel s s' a ev Ts Ts' Rs ltac:(discriminate) (st l (rs_para s0)) more);
        assert (Tb := part_body_takes s a ev Ts ltac:(discriminate) (st l (rs_para s0)));
        assert (Nb := Nd s a ev (st l (rs_para s0)));
        cbn [st rs_events rs_para] in Rb, Tb; unfold st in *;
        destruct (body s a ev {| rs_events := l; rs_para := rs_para s0 |}) as [[a'|b'] s2|s2| | |]; cbn in Rb, Tb;
        try discriminate; try (exfalso; eapply Nb; reflexivity);
        rewrite Rb; apply (IH a' s2 b s1); auto;
        [ intros Hin; apply Hd; right; destruct Tb as [pre Tb]; rewrite Tb; apply in_or_app; now right
        | apply suffix_length in Tb; lia ]
      end.
Qed.
End Part.

(** ** The three parts *)
Definition document_body (s : subs) (d : list node * sectpr) (e : event) : R (turn (list node * sectpr) (list node * sectpr)) :=
  match e with
  | EStart q a =>
      let ch := fst d in
      let keep (m : R (list node)) := ch' <- m ;; ret (Again (ch', snd d)) in
      if q_local q =s "p" then keep (add_one (s_para s a) same ch)
      else if q_local q =s "tbl" then keep (add_one (s_table s) same ch)
      else if q_local q =s "bookmarkStart" then keep (add_one (read_bookmark_start a) same ch)
      else if q_local q =s "bookmarkEnd" then keep (add_one (read_bookmark_end a) same ch)
      else if q_local q =s "commentRangeStart" then keep (ret (ch ++ read_comment_start a))
      else if q_local q =s "commentRangeEnd" then keep (ret (ch ++ read_comment_end a))
      else if q_local q =s "sectPr" then sp <- read_sectpr ;; ret (Again (ch, sp))
      else if q_local q =s "sdt" then keep (add_if (s_sdt s) same ch)
      else ret (Again d)
  | EErr => fail
  | _ => ret (Again d)
  end.
Definition header_body (s : subs) (ch : list node) (e : event) : R (turn (list node) (list node)) :=
  match e with
  | EStart q a =>
      let keep (m : R (list node)) := ch' <- m ;; ret (Again ch') in
      if q_local q =s "p" then keep (add_if (s_para s a) same ch)
      else if q_local q =s "tbl" then keep (add_if (s_table s) same ch)
      else if q_local q =s "sdt" then keep (add_if (s_sdt s) same ch)
      else ret (Again ch)
  | EErr => fail
  | _ => ret (Again ch)
  end.
Definition comments_body (s : subs) (cs : list (comment_data * list node)) (e : event) :
  R (turn (list (comment_data * list node)) (list (comment_data * list node))) :=
  match e with
  | EStart q a =>
      if q_local q =s "comment" then c <- read_comment s a ;; ret (Again (cs ++ [c])) else ret (Again cs)
  | EEnd q => ret (if q_local q =s "comments" then Done cs else Again cs)
  | EErr => fail
  | _ => ret (Again cs)
  end.
Lemma document_unfold s : read_document_with s = part_loop (document_body s) (fun d => d) ([], sectpr_default).
Proof. reflexivity. Qed.
Lemma header_unfold s : read_header_with s = part_loop (header_body s) (fun d => d) [].
Proof. reflexivity. Qed.
Lemma comments_unfold s : read_comments_with s = part_loop (comments_body s) (fun d => d) [].
Proof. reflexivity. Qed.

Lemma bind_val A B (m : R A) (k : A -> R B) s v s' : bind m k s = Val v s' ->
  exists a s1, m s = Val a s1 /\ k a s1 = Val v s'.
Proof. unfold bind. destruct (m s) as [a s1|s1| | |]; try discriminate. eauto. Qed.
Ltac part_val :=
  repeat match goal with
  | |- context [if ?b then _ else _] => destruct b
  | |- bind _ _ _ = Val _ _ -> _ =>
      let X := fresh in let a := fresh in let s1 := fresh in intros X; apply bind_val in X as (a & s1 & ? & X); revert X
  end.
Lemma document_shape : part_shape document_body.
Proof.
  split.
  - intros d q a. unfold document_body. prog_tac.
  - intros s d q a s0 v s'. unfold document_body. part_val; unfold ret; intros X; injection X as <- _; eauto.
  - intros d q. now eexists.
  - reflexivity.
  - intros d c. now eexists.
  - intros d c. now eexists.
Qed.
Lemma header_shape : part_shape header_body.
Proof.
  split.
  - intros d q a. unfold header_body. prog_tac.
  - intros s d q a s0 v s'. unfold header_body. part_val; unfold ret; intros X; injection X as <- _; eauto.
  - intros d q. now eexists.
  - reflexivity.
  - intros d c. now eexists.
  - intros d c. now eexists.
Qed.
Lemma comments_shape : part_shape comments_body.
Proof.
  split.
  - intros d q a. unfold comments_body. prog_tac.
  - intros s d q a s0 v s'. unfold comments_body. part_val; unfold ret; intros X; injection X as <- _; eauto.
  - intros d q. now eexists.
  - reflexivity.
  - intros d c. now eexists.
  - intros d c. now eexists.
Qed.

(** ** Reading ends *)
Lemma part_fueled A B (f : subs -> R B) (body : subs -> A -> event -> R (turn A B)) fin a0 :
  (forall s, f s = part_loop (body s) fin a0) -> part_shape body -> forall s, with_depth f s <> NoFuel.
Proof.
  intros Hf Hb s. unfold with_depth. rewrite Hf. unfold part_loop.
  apply (part_turns_fueled body fin Hb _ (S (length (rs_events s)))).
  - apply readers_take.
  - apply readers_fueled.
  - lia.
  - lia.
Qed.
Lemma part_returns A B (f : subs -> R B) (body : subs -> A -> event -> R (turn A B)) fin a0 :
  (forall s, f s = part_loop (body s) fin a0) -> part_shape body ->
  forall s, closing [] (rs_events s) -> returns (with_depth f s).
Proof.
  intros Hf Hb s Hc. pose proof (part_fueled A B f body fin a0 Hf Hb s) as F.
  assert (N : with_depth f s <> Hang).
  { unfold with_depth. rewrite Hf. unfold part_loop. apply (part_turns_closing body fin Hb) with (open := []); auto.
    apply readers_close. }
  unfold returns. now destruct (with_depth f s).
Qed.
Lemma document_fueled s : read_document s <> NoFuel.
Proof. exact (part_fueled _ _ _ _ _ _ document_unfold document_shape s). Qed.
Lemma header_fueled s : read_header s <> NoFuel.
Proof. exact (part_fueled _ _ _ _ _ _ header_unfold header_shape s). Qed.
Lemma comments_fueled s : read_comments s <> NoFuel.
Proof. exact (part_fueled _ _ _ _ _ _ comments_unfold comments_shape s). Qed.
Lemma document_returns s : closing [] (rs_events s) -> returns (read_document s).
Proof. exact (part_returns _ _ _ _ _ _ document_unfold document_shape s). Qed.
Lemma header_returns s : closing [] (rs_events s) -> returns (read_header s).
Proof. exact (part_returns _ _ _ _ _ _ header_unfold header_shape s). Qed.
Lemma comments_returns s : closing [] (rs_events s) -> returns (read_comments s).
Proof. exact (part_returns _ _ _ _ _ _ comments_unfold comments_shape s). Qed.

(** ** A stream that stops early *)
Definition list_grows {A} (a b : list A) : Prop := exists more, b = a ++ more.
Lemma list_grows_refl {A} (a : list A) : list_grows a a.
Proof. exists []. now rewrite app_nil_r. Qed.
Lemma list_grows_trans {A} (a b c : list A) : list_grows a b -> list_grows b c -> list_grows a c.
Proof. intros [x ->] [y ->]. exists (x ++ y). now rewrite app_assoc. Qed.
Lemma add_one_grows A (m : R A) f ch s ch' s' : add_one m f ch s = Val ch' s' -> list_grows ch ch'.
Proof. unfold add_one. intros X. apply bind_val in X as (n & s1 & _ & X). injection X as <- _. now eexists. Qed.
Lemma add_if_grows A (m : R A) f ch s ch' s' : add_if m f ch s = Val ch' s' -> list_grows ch ch'.
Proof.
  unfold add_if. intros X. apply bind_val in X as ([n|] & s1 & _ & X); injection X as <- _; [now eexists | apply list_grows_refl].
Qed.
Lemma part_prefix A B (f : subs -> R B) (body : subs -> A -> event -> R (turn A B)) fin a0 (grows : A -> A -> Prop) :
  (forall s, f s = part_loop (body s) fin a0) -> part_shape body ->
  (forall a : A, grows a a) -> (forall a b c : A, grows a b -> grows b c -> grows a c) ->
  (forall s a e s0 a' s', body s a e s0 = Val (Again a') s' -> grows a a') ->
  (forall s a e s0 b s', body s a e s0 = Val (Done b) s' -> b = fin a) ->
  forall l more c b s', with_depth f (st (l ++ more) c) = Val b s' ->
  with_depth f (st l c) = Hang \/
  exists a' a2 s'', with_depth f (st l c) = Val (fin a') s'' /\ b = fin a2 /\ grows a' a2.
Proof.
  intros Hf Hb G1 G2 G3 G4 l more c b s' X. unfold with_depth in *. rewrite Hf in *. unfold part_loop in *.
  cbn [st rs_events] in *.
  pose proof (readers_rel (S (length l)) (S (length (l ++ more))) ltac:(rewrite app_length; lia)) as Rs.
  pose proof (readers_take (S (length l))) as Ts. pose proof (readers_take (S (length (l ++ more)))) as Ts'.
  pose proof (readers_fueled (S (length l))) as Fs.
  revert X Rs Ts Ts' Fs. generalize (readers (S (length l))) as s1. generalize (readers (S (length (l ++ more)))) as s2.
  intros s2 s1 X Rs Ts Ts' Fs.
  pose proof (part_turns_prefix body fin Hb grows G1 G2 G3 G4 s1 s2 Ts Ts' Rs (length l) (length (l ++ more)) a0 (st l c) more
    (le_n _) ltac:(cbn; rewrite app_length; lia)) as P.
  pose proof (part_turns_fueled body fin Hb s1 (S (length l)) Ts Fs (length l) a0 (st l c) (le_n _) ltac:(cbn; lia)) as N.
  cbn [st rs_events rs_para] in P. fold (st l c) in *. fold (st (l ++ more) c) in *.
  destruct (part_turns (length l) (body s1) fin a0 (st l c)) as [b1 s3|s3| | |] eqn:E1.
  - right. destruct P as [P|(a' & -> & P)].
    + rewrite X in P. injection P as -> _.
      destruct (part_turns_grow body fin grows G1 G2 G3 G4 _ _ _ _ _ _ E1) as (a2 & _ & ->). eauto 8.
    + destruct (P _ _ X) as (a2 & Ha & ->). eauto 8.
  - exfalso. rewrite X in P. discriminate.
  - exfalso. rewrite X in P. discriminate.
  - now left.
  - now destruct N.
Qed.
Lemma document_step s d e s0 d' s' : document_body s d e s0 = Val (Again d') s' -> list_grows (fst d) (fst d').
Proof.
  destruct e as [q a|q|c|c| |]; cbn; try (intros X; injection X as <- _; apply list_grows_refl); try discriminate.
  part_val; intros X; injection X as <- _; cbn; eauto using list_grows_refl, add_one_grows, add_if_grows.
  - match goal with H : ret _ _ = Val _ _ |- _ => injection H as <- _ end. now eexists.
  - match goal with H : ret _ _ = Val _ _ |- _ => injection H as <- _ end. now eexists.
Qed.
Lemma document_done s d e s0 b s' : document_body s d e s0 = Val (Done b) s' -> b = d.
Proof.
  destruct e as [q a|q|c|c| |]; cbn; try discriminate. part_val; discriminate.
Qed.
Lemma header_step s d e s0 d' s' : header_body s d e s0 = Val (Again d') s' -> list_grows d d'.
Proof.
  destruct e as [q a|q|c|c| |]; cbn; try (intros X; injection X as <- _; apply list_grows_refl); try discriminate.
  part_val; intros X; injection X as <- _; cbn; eauto using list_grows_refl, add_if_grows.
Qed.
Lemma header_done s d e s0 b s' : header_body s d e s0 = Val (Done b) s' -> b = d.
Proof.
  destruct e as [q a|q|c|c| |]; cbn; try discriminate. part_val; discriminate.
Qed.
Lemma comments_step s d e s0 d' s' : comments_body s d e s0 = Val (Again d') s' -> list_grows d d'.
Proof.
  destruct e as [q a|q|c|c| |]; cbn; try (intros X; injection X as <- _; apply list_grows_refl); try discriminate.
  - part_val; intros X; injection X as <- _; cbn; eauto using list_grows_refl. now eexists.
  - unfold ret. destruct (q_local q =s "comments"); [discriminate|]. intros X. injection X as <- _. apply list_grows_refl.
Qed.
Lemma comments_done s d e s0 b s' : comments_body s d e s0 = Val (Done b) s' -> b = d.
Proof.
  destruct e as [q a|q|c|c| |]; cbn; try discriminate.
  - part_val; discriminate.
  - unfold ret. destruct (q_local q =s "comments"); [|discriminate]. intros X. now injection X as <- _.
Qed.
Lemma document_prefix l more c d s' : read_document (st (l ++ more) c) = Val d s' ->
  read_document (st l c) = Hang \/
  exists ch sp s'', read_document (st l c) = Val (ch, sp) s'' /\ exists rest, fst d = ch ++ rest.
Proof.
  intros X.
  destruct (part_prefix _ _ _ _ _ _ (fun a b => list_grows (fst a) (fst b)) document_unfold document_shape
    (fun a => list_grows_refl _) (fun a b c => list_grows_trans _ _ _) document_step document_done l more c d s' X)
    as [Y|([ch sp] & d2 & s'' & Y & -> & G)]; [now left|]. right. exists ch, sp, s''. split; auto.
Qed.
Lemma header_prefix l more c d s' : read_header (st (l ++ more) c) = Val d s' ->
  read_header (st l c) = Hang \/
  exists ch s'', read_header (st l c) = Val ch s'' /\ exists rest, d = ch ++ rest.
Proof.
  intros X.
  destruct (part_prefix _ _ _ _ _ _ list_grows header_unfold header_shape
    list_grows_refl list_grows_trans header_step header_done l more c d s' X)
    as [Y|(ch & d2 & s'' & Y & -> & G)]; [now left|]. right. exists ch, s''. split; auto.
Qed.
Lemma comments_prefix l more c d s' : read_comments (st (l ++ more) c) = Val d s' ->
  read_comments (st l c) = Hang \/
  exists ch s'', read_comments (st l c) = Val ch s'' /\ exists rest, d = ch ++ rest.
Proof.
  intros X.
  destruct (part_prefix _ _ _ _ _ _ list_grows comments_unfold comments_shape
    list_grows_refl list_grows_trans comments_step comments_done l more c d s' X)
    as [Y|(ch & d2 & s'' & Y & -> & G)]; [now left|]. right. exists ch, s''. split; auto.
Qed.

(** Cut inside a paragraph or a table of the document: after a beginning that reads, an
    element starts that is not closed. *)
Lemma document_cut pre q atts rest c d s' : 
  ~ In EDocEnd pre -> read_document (st pre c) = Val d s' ->
  (q_local q = "p" \/ q_local q = "tbl")%string -> never_closed (q_local q) rest ->
  forall d2 s2, read_document (st (pre ++ EStart q atts :: rest) c) <> Val d2 s2.
Proof.
  intros Hd X Hq Hn d2 s2. unfold read_document, with_depth in *. rewrite document_unfold in *. unfold part_loop in *.
  cbn [st rs_events] in *.
  pose proof (readers_rel (S (length pre)) (S (length (pre ++ EStart q atts :: rest))) ltac:(rewrite app_length; lia)) as Rs.
  pose proof (readers_take (S (length pre))) as Ts. pose proof (readers_take (S (length (pre ++ EStart q atts :: rest)))) as Ts'.
  assert (Ps : forall a, sees_end "p" (s_para (readers (S (length (pre ++ EStart q atts :: rest)))) a)).
  { intros a. cbn [readers next_subs s_para]. apply (reader_sees_end _ _ _ (reader_para a)). apply readers_take. }
  assert (Pt : sees_end "tbl" (s_table (readers (S (length (pre ++ EStart q atts :: rest)))))).
  { cbn [readers next_subs s_table]. apply (reader_sees_end _ _ _ reader_table). apply readers_take. }
  revert X Rs Ts Ts' Ps Pt. generalize (readers (S (length pre))) as s3.
  generalize (readers (S (length (pre ++ EStart q atts :: rest)))) as s4. intros s4 s3 X Rs Ts Ts' Ps Pt.
  destruct (part_turns_continue document_body (fun d => d) document_shape s3 s4 Ts Ts' Rs) with
    (fuel := length pre) (a := ([], sectpr_default) : list node * sectpr) (s0 := st pre c) (b := d) (s1 := s')
    (more := EStart q atts :: rest) (fuel' := length (pre ++ EStart q atts :: rest)) as (a' & c' & f & Lf & Y); auto.
  { intros s a e s0 b s1 Z. destruct e as [q' a1|q'|t|t| |]; cbn in Z; try discriminate. revert Z. part_val; discriminate. }
  { cbn [st rs_events]. rewrite app_length. lia. }
  cbn [st rs_events rs_para] in Y. fold (st (pre ++ EStart q atts :: rest) c). rewrite Y. clear Y. destruct f as [|f]; [cbn in Lf; lia|].
  cbn [part_turns rs_events st rs_para].
  destruct (document_body s4 a' (EStart q atts) _) as [[a2|b2] s5|s5| | |] eqn:Eb; try discriminate.
  - exfalso. revert Eb. cbn [document_body]. destruct Hq as [Hq|Hq]; rewrite Hq; cbn [String.eqb Ascii.eqb Bool.eqb];
      intros Eb; apply bind_val in Eb as (ch & s6 & Eb & _); apply bind_val in Eb as (n & s7 & Eb & _).
    + apply Ps in Eb as (q' & Hin & Hq'). cbn in Hin. apply (Hn q' Hin). congruence.
    + apply Pt in Eb as (q' & Hin & Hq'). cbn in Hin. apply (Hn q' Hin). congruence.
  - exfalso. apply (ps_again document_shape) in Eb as [x Eb]. discriminate.
Qed.

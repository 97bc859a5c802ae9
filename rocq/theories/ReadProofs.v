(** General facts about reading, proved for every reader by induction on its shape
    (ReadProg): readers only take events off the front; the bound on the recursion is
    never met; what a reader did does not change when more events follow; and a reader
    given an element that is closed later never runs off the end. *)
From Verif Require Import Str Props Ast XmlParser XmlTree ReadBase ReadProps ReadModel ReadProg.
Open Scope nat_scope.

(** A property of each reader in a record [subs], named by its element. *)
Definition all_subs (P : forall A, string -> R A -> Prop) (s : subs) : Prop :=
  P _ "rPr" (s_rpr s) /\ P _ "pPr" (s_ppr s) /\ (forall a, P _ "pPrChange" (s_change s a)) /\
  P _ "r" (s_run s) /\ (forall a, P _ "ins" (s_ins s a)) /\ (forall a, P _ "del" (s_del s a)) /\
  (forall a, P _ "moveFrom" (s_from s a)) /\ (forall a, P _ "moveTo" (s_to s a)) /\
  (forall a, P _ "hyperlink" (s_link s a)) /\ P _ "sdt" (s_sdt s) /\ (forall a, P _ "p" (s_para s a)) /\
  P _ "tbl" (s_table s) /\ P _ "tr" (s_row s) /\ P _ "tc" (s_cell s) /\ P _ "drawing" (s_drawing s).
Ltac use_subs H := unfold all_subs in H; decompose [and] H; clear H; eauto.
Lemma all_subs_none (P : forall A, string -> R A -> Prop) : (forall A n, P A n no_fuel) -> all_subs P no_subs.
Proof. intros H. unfold all_subs. cbn. auto 20. Qed.
Lemma all_subs_next (P : forall A, string -> R A -> Prop) s :
  (forall A own (m : subs -> R A), Reader own m -> P A own (m s)) -> all_subs P (next_subs s).
Proof.
  intros H. unfold all_subs. cbn [next_subs s_rpr s_ppr s_change s_run s_ins s_del s_from s_to s_link s_sdt s_para
    s_table s_row s_cell s_drawing].
  repeat split; intros.
  - apply H, reader_rpr.
  - apply H, reader_ppr.
  - apply (H _ _ (fun s => read_change s a)), reader_change.
  - apply H, reader_run.
  - apply (H _ _ (fun s => read_ins_like "ins" s a)), reader_ins_like.
  - apply (H _ _ (fun s => read_del s a)), reader_del.
  - apply (H _ _ (fun s => read_from s a)), reader_from.
  - apply (H _ _ (fun s => read_ins_like "moveTo" s a)), reader_ins_like.
  - apply (H _ _ (fun s => read_link s a)), reader_link.
  - apply H, reader_sdt.
  - apply (H _ _ (fun s => read_para s a)), reader_para.
  - apply H, reader_table.
  - apply H, reader_row.
  - apply H, reader_cell.
  - apply H, reader_drawing.
Qed.

(** ** Readers take events off the front *)
Definition suffix (l' l : list event) : Prop := exists pre, l = pre ++ l'.
Lemma suffix_refl l : suffix l l.
Proof. now exists []. Qed.
Lemma suffix_trans a b c : suffix a b -> suffix b c -> suffix a c.
Proof. intros [p ->] [q ->]. exists (q ++ p). now rewrite app_assoc. Qed.
Lemma suffix_cons e l : suffix l (e :: l).
Proof. now exists [e]. Qed.
Lemma suffix_length l' l : suffix l' l -> length l' <= length l.
Proof. intros [p ->]. rewrite app_length. lia. Qed.

Definition left_by {A} (o : out A) (l : list event) : Prop :=
  match o with Val _ s' | Err s' => suffix (rs_events s') l | _ => True end.
Definition takes {A} (m : R A) : Prop := forall s, left_by (m s) (rs_events s).
Lemma takes_pure A (m : R A) : pure m -> takes m.
Proof.
  intros H s. rewrite (st_eta s). destruct (H (rs_para s)) as [[a c|c|] E]; rewrite E; cbn; auto using suffix_refl.
Qed.
Lemma takes_bind A B (m : R A) (k : A -> R B) : takes m -> (forall a, takes (k a)) -> takes (bind m k).
Proof.
  intros Hm Hk s. unfold bind. specialize (Hm s). destruct (m s) as [a s'|s'| | |]; cbn in *; auto.
  specialize (Hk a s'). destruct (k a s') as [b s''|s''| | |]; cbn in *; auto; eapply suffix_trans; eauto.
Qed.
Lemma takes_attempt A (m : R A) : takes m -> takes (attempt m).
Proof. intros Hm s. unfold attempt. specialize (Hm s). now destruct (m s). Qed.
Lemma takes_turns A B (body : A -> event -> R (turn A B)) :
  (forall a e, takes (body a e)) -> forall fuel a s, left_by (turns fuel body a s) (rs_events s).
Proof.
  intros H fuel. induction fuel as [|n IH]; intros a s; cbn [turns]; destruct (rs_events s) as [|e l] eqn:E; cbn; auto.
  specialize (H a e (st l (rs_para s))). unfold st in H.
  destruct (body a e {| rs_events := l; rs_para := rs_para s |}) as [[a'|b] s'|s'| | |]; cbn in *; auto.
  - specialize (IH a' s'). destruct (turns n body a' s') as [b s''|s''| | |]; cbn in *; auto;
      eapply suffix_trans; eauto; eapply suffix_trans; eauto using suffix_cons.
  - eapply suffix_trans; eauto using suffix_cons.
  - eapply suffix_trans; eauto using suffix_cons.
Qed.
Lemma takes_loop A B (body : A -> event -> R (turn A B)) a : (forall a e, takes (body a e)) -> takes (loop body a).
Proof. intros H s. apply takes_turns, H. Qed.
Lemma takes_instr : takes read_instr_text.
Proof. apply takes_loop. intros _ []; apply takes_pure; pure_auto. Qed.

Theorem shape_takes :
  (forall here A m, Prog here (A := A) m -> forall s, all_subs (fun A _ m => takes m) s -> takes (m s)) /\
  (forall own A m, Reader own (A := A) m -> forall s, all_subs (fun A _ m => takes m) s -> takes (m s)).
Proof.
  apply (shape_ind (fun here A m _ => forall s, all_subs (fun A _ m => takes m) s -> takes (m s))
                   (fun here A m _ => forall s, all_subs (fun A _ m => takes m) s -> takes (m s)));
    try (intros; match goal with H : all_subs _ _ |- _ => use_subs H end; fail).
  - intros. now apply takes_pure.
  - intros. apply takes_bind; [now apply takes_pure | intros; auto].
  - intros. apply takes_bind; [auto | intros; now apply takes_pure].
  - intros. apply takes_attempt. auto.
  - auto.
  - intros. apply takes_bind; [now apply takes_pure | intros; auto].
  - intros own A B body a0 start instr fin skip strict Hp IH Hs Hi He Hr Hc Hw Hd s Ss.
    apply takes_loop. intros a [q atts|q|c|c| |].
    + rewrite Hs. destruct (instr a q atts) as [[f b]|].
      * apply takes_bind; [apply takes_instr | intros; apply takes_pure; pure_auto].
      * apply takes_bind; [apply IH, Ss | intros; apply takes_pure; pure_auto].
    + rewrite He. apply takes_pure; pure_auto.
    + rewrite Hc. apply takes_pure; pure_auto.
    + rewrite Hw. apply takes_pure; pure_auto.
    + rewrite Hd. apply takes_pure; pure_auto.
    + rewrite Hr. destruct strict; apply takes_pure; pure_auto.
Qed.
Lemma takes_no_fuel A : takes (@no_fuel A).
Proof. intros s. exact I. Qed.
Lemma readers_take d : all_subs (fun A _ m => takes m) (readers d).
Proof.
  induction d as [|d IH]; cbn [readers]; [apply all_subs_none; intros; apply takes_no_fuel|].
  apply (all_subs_next (fun A _ m => takes m)). intros A own m Hm. now apply (proj2 shape_takes own).
Qed.

(** ** The bound on the recursion is never met *)
Definition fueled {A} (k : nat) (m : R A) : Prop := forall s, length (rs_events s) < k -> m s <> NoFuel.
Lemma fueled_pure A k (m : R A) : pure m -> fueled k m.
Proof.
  intros H s _. rewrite (st_eta s). destruct (H (rs_para s)) as [[a c|c|] E]; rewrite E; discriminate.
Qed.
Lemma fueled_bind A B k (m : R A) (f : A -> R B) :
  takes m -> fueled k m -> (forall a, fueled k (f a)) -> fueled k (bind m f).
Proof.
  intros Ht Hm Hk s L. unfold bind. specialize (Hm s L). specialize (Ht s).
  destruct (m s) as [a s'|s'| | |]; try discriminate; [|now destruct Hm].
  apply Hk. cbn in Ht. apply suffix_length in Ht. lia.
Qed.
Lemma fueled_attempt A k (m : R A) : fueled k m -> fueled k (attempt m).
Proof. intros Hm s L. unfold attempt. specialize (Hm s L). destruct (m s); congruence. Qed.
Lemma fueled_turns A B k (body : A -> event -> R (turn A B)) :
  (forall a e, takes (body a e)) -> (forall a e, fueled k (body a e)) ->
  forall fuel a s, length (rs_events s) <= fuel -> length (rs_events s) < S k -> turns fuel body a s <> NoFuel.
Proof.
  intros Ht H fuel. induction fuel as [|n IH]; intros a s F L; cbn [turns]; destruct (rs_events s) as [|e l] eqn:E;
    try discriminate; cbn [length] in *; [lia|].
  assert (Lb : length (rs_events (st l (rs_para s))) < k) by (cbn; lia).
  specialize (H a e _ Lb). specialize (Ht a e (st l (rs_para s))). unfold st in *.
  destruct (body a e {| rs_events := l; rs_para := rs_para s |}) as [[a'|b] s'|s'| | |]; try discriminate;
    [|now destruct H].
  cbn in Ht. apply suffix_length in Ht. apply IH; lia.
Qed.
Lemma fueled_loop A B k (body : A -> event -> R (turn A B)) a :
  (forall a e, takes (body a e)) -> (forall a e, fueled k (body a e)) -> fueled (S k) (loop body a).
Proof. intros Ht H s L. now apply (fueled_turns A B k). Qed.
Lemma fueled_le A k k' (m : R A) : k <= k' -> fueled k' m -> fueled k m.
Proof. intros L H s Ls. apply H. lia. Qed.
Lemma fueled_instr k : fueled k read_instr_text.
Proof.
  apply (fueled_le _ k (S k)); [lia|]. apply fueled_loop; intros _ []; (apply takes_pure || apply fueled_pure); pure_auto.
Qed.
Theorem shape_fueled :
  (forall here A m, Prog here (A := A) m -> forall s k, all_subs (fun A _ m => takes m) s ->
     all_subs (fun A _ m => fueled k m) s -> fueled k (m s)) /\
  (forall own A m, Reader own (A := A) m -> forall s k, all_subs (fun A _ m => takes m) s ->
     all_subs (fun A _ m => fueled k m) s -> fueled (S k) (m s)).
Proof.
  pose proof shape_takes as [Tp Tr].
  apply (shape_ind (fun here A m _ => forall s k, all_subs (fun A _ m => takes m) s ->
                      all_subs (fun A _ m => fueled k m) s -> fueled k (m s))
                   (fun here A m _ => forall s k, all_subs (fun A _ m => takes m) s ->
                      all_subs (fun A _ m => fueled k m) s -> fueled (S k) (m s)));
    try (intros; match goal with H : all_subs (fun A _ m => fueled _ m) _ |- _ => use_subs H end; fail).
  - intros. now apply fueled_pure.
  - intros. apply fueled_bind; [now apply takes_pure | now apply fueled_pure | intros; auto].
  - intros. apply fueled_bind; [eapply Tp; eauto | auto | intros; now apply fueled_pure].
  - intros. apply fueled_attempt. auto.
  - intros here A m Hm IH s k Ht Hf. apply (fueled_le _ k (S k)); auto.
  - intros. apply fueled_bind; [now apply takes_pure | now apply fueled_pure | intros; auto].
  - intros own A B body a0 start instr fin skip strict Hp IH Hs Hi He Hr Hc Hw Hd s k Ht Hf.
    apply fueled_loop; intros a [q atts|q|c|c| |].
    + rewrite Hs. destruct (instr a q atts) as [[f b]|].
      * apply takes_bind; [apply takes_instr | intros; apply takes_pure; pure_auto].
      * apply takes_bind; [eapply Tp; eauto | intros; apply takes_pure; pure_auto].
    + rewrite He. apply takes_pure; pure_auto.
    + rewrite Hc. apply takes_pure; pure_auto.
    + rewrite Hw. apply takes_pure; pure_auto.
    + rewrite Hd. apply takes_pure; pure_auto.
    + rewrite Hr. destruct strict; apply takes_pure; pure_auto.
    + rewrite Hs. destruct (instr a q atts) as [[f b]|].
      * apply fueled_bind; [apply takes_instr | apply fueled_instr | intros; apply fueled_pure; pure_auto].
      * apply fueled_bind; [eapply Tp; eauto | apply IH; auto | intros; apply fueled_pure; pure_auto].
    + rewrite He. apply fueled_pure; pure_auto.
    + rewrite Hc. apply fueled_pure; pure_auto.
    + rewrite Hw. apply fueled_pure; pure_auto.
    + rewrite Hd. apply fueled_pure; pure_auto.
    + rewrite Hr. destruct strict; apply fueled_pure; pure_auto.
Qed.
Lemma readers_fueled d : all_subs (fun A _ m => fueled d m) (readers d).
Proof.
  induction d as [|d IH]; cbn [readers].
  - apply (all_subs_none (fun A _ m => fueled 0 m)). intros A n s L. lia.
  - apply (all_subs_next (fun A _ m => fueled (S d) m)). intros A own m Hm. apply (proj2 shape_fueled own); auto.
    apply readers_take.
Qed.

(** ** What a reader did does not change when more events follow, or when more levels
       of recursion are allowed *)
Definition ext {A} (b : list event) (o : out A) : out A :=
  match o with
  | Val a s => Val a (st (rs_events s ++ b) (rs_para s))
  | Err s => Err (st (rs_events s ++ b) (rs_para s))
  | Panic => Panic | Hang => Hang | NoFuel => NoFuel
  end.
Definition agrees {A} (b : list event) (o o' : out A) : Prop :=
  match o with
  | NoFuel => True
  | Hang => b = [] -> o' = Hang
  | _ => o' = ext b o
  end.
Definition rel {A} (m m' : R A) : Prop := forall s b, agrees b (m s) (m' (st (rs_events s ++ b) (rs_para s))).
Lemma rel_pure A (m : R A) : pure m -> rel m m.
Proof.
  intros H s b. rewrite (st_eta s). cbn [st rs_events rs_para].
  destruct (H (rs_para s)) as [o E]. rewrite !E. now destruct o.
Qed.
Lemma rel_bind A B (m m' : R A) (k k' : A -> R B) :
  rel m m' -> (forall a, rel (k a) (k' a)) -> rel (bind m k) (bind m' k').
Proof.
  intros Hm Hk s b. unfold bind. specialize (Hm s b). destruct (m s) as [a s'|s'| | |]; cbn in *.
  - rewrite Hm. apply Hk.
  - now rewrite Hm.
  - now rewrite Hm.
  - intros ->. now rewrite (Hm eq_refl).
  - exact I.
Qed.
Lemma rel_attempt A (m m' : R A) : rel m m' -> rel (attempt m) (attempt m').
Proof.
  intros Hm s b. unfold attempt. specialize (Hm s b). destruct (m s) as [a s'|s'| | |]; cbn in *.
  - now rewrite Hm.
  - now rewrite Hm.
  - now rewrite Hm.
  - intros ->. now rewrite (Hm eq_refl).
  - exact I.
Qed.
(** Enough turns are as good as any larger number. *)
Lemma turns_enough A B (body : A -> event -> R (turn A B)) :
  (forall a e, takes (body a e)) ->
  forall fuel fuel' a s, length (rs_events s) <= fuel -> length (rs_events s) <= fuel' ->
  turns fuel body a s = turns fuel' body a s.
Proof.
  intros Ht. induction fuel as [|n IH]; intros [|n'] a s L L'; cbn [turns]; destruct (rs_events s) as [|e l] eqn:E;
    cbn [length] in *; try lia; try reflexivity.
  specialize (Ht a e (st l (rs_para s))). unfold st in *.
  destruct (body a e {| rs_events := l; rs_para := rs_para s |}) as [[a'|b] s'|s'| | |]; try reflexivity.
  cbn in Ht. apply suffix_length in Ht. apply IH; lia.
Qed.
Lemma rel_turns A B (body body' : A -> event -> R (turn A B)) :
  (forall a e, takes (body a e)) -> (forall a e, takes (body' a e)) ->
  (forall a e, rel (body a e) (body' a e)) ->
  forall fuel fuel' a s b, length (rs_events s) + length b <= fuel' ->
  agrees b (turns fuel body a s) (turns fuel' body' a (st (rs_events s ++ b) (rs_para s))).
Proof.
  intros Ht Ht' H. induction fuel as [|n IH]; intros fuel' a s b L; cbn [turns];
    destruct (rs_events s) as [|e l] eqn:E; try exact I.
  - cbn. intros ->. now destruct fuel'.
  - cbn. intros ->. now destruct fuel'.
  - destruct fuel' as [|n']; cbn [length] in L; [lia|]. cbn [turns st rs_events rs_para app].
    specialize (H a e (st l (rs_para s)) b). specialize (Ht a e (st l (rs_para s))). cbn [st rs_events rs_para] in H, Ht.
    unfold st in *.
    destruct (body a e {| rs_events := l; rs_para := rs_para s |}) as [[a'|b'] s'|s'| | |]; cbn in H, Ht.
    + rewrite H. apply IH. apply suffix_length in Ht. lia.
    + now rewrite H.
    + now rewrite H.
    + now rewrite H.
    + cbn. intros ->. now rewrite (H eq_refl).
    + exact I.
Qed.
Lemma rel_loop A B (body body' : A -> event -> R (turn A B)) a :
  (forall a e, takes (body a e)) -> (forall a e, takes (body' a e)) ->
  (forall a e, rel (body a e) (body' a e)) -> rel (loop body a) (loop body' a).
Proof.
  intros Ht Ht' H s b. unfold loop. apply rel_turns; auto. cbn [st rs_events]. rewrite app_length. lia.
Qed.
Lemma rel_instr : rel read_instr_text read_instr_text.
Proof. apply rel_loop; intros _ []; (apply takes_pure || apply rel_pure); pure_auto. Qed.

Definition rel_subs (s s' : subs) : Prop :=
  rel (s_rpr s) (s_rpr s') /\ rel (s_ppr s) (s_ppr s') /\ (forall a, rel (s_change s a) (s_change s' a)) /\
  rel (s_run s) (s_run s') /\ (forall a, rel (s_ins s a) (s_ins s' a)) /\ (forall a, rel (s_del s a) (s_del s' a)) /\
  (forall a, rel (s_from s a) (s_from s' a)) /\ (forall a, rel (s_to s a) (s_to s' a)) /\
  (forall a, rel (s_link s a) (s_link s' a)) /\ rel (s_sdt s) (s_sdt s') /\ (forall a, rel (s_para s a) (s_para s' a)) /\
  rel (s_table s) (s_table s') /\ rel (s_row s) (s_row s') /\ rel (s_cell s) (s_cell s') /\
  rel (s_drawing s) (s_drawing s').
Notation take_subs := (all_subs (fun A _ m => takes m)).
Lemma body_takes A B own (body : subs -> A -> event -> R (turn A B)) start instr fin skip (strict : bool) :
  (forall a q atts, Prog (q_local q) (start a q atts)) ->
  (forall s a q atts, body s a (EStart q atts) =
     match instr a q atts with
     | None => bind (start a q atts s) (fun a' => ret (Again a'))
     | Some (f, b) => bind read_instr_text (fun o => ret (match o with Some c => Again (f c) | None => Done b end))
     end) ->
  (forall s a q, body s a (EEnd q) = ret (if q_local q =s own then Done (fin a) else Again (skip a (EEnd q)))) ->
  (forall s a, body s a EErr = if strict then fail else ret (Again (skip a EErr))) ->
  (forall s a c, body s a (EChars c) = ret (Again (skip a (EChars c)))) ->
  (forall s a c, body s a (EWs c) = ret (Again (skip a (EWs c)))) ->
  (forall s a, body s a EDocEnd = ret (Again (skip a EDocEnd))) ->
  forall s, take_subs s -> forall a e, takes (body s a e).
Proof.
  intros Hp Hs He Hr Hc Hw Hd s Ts a [q atts|q|c|c| |].
  - rewrite Hs. destruct (instr a q atts) as [[f b]|].
    + apply takes_bind; [apply takes_instr | intros; apply takes_pure; pure_auto].
    + apply takes_bind; [eapply (proj1 shape_takes); eauto | intros; apply takes_pure; pure_auto].
  - rewrite He. apply takes_pure; pure_auto.
  - rewrite Hc. apply takes_pure; pure_auto.
  - rewrite Hw. apply takes_pure; pure_auto.
  - rewrite Hd. apply takes_pure; pure_auto.
  - rewrite Hr. destruct strict; apply takes_pure; pure_auto.
Qed.
Theorem shape_rel :
  (forall here A m, Prog here (A := A) m -> forall s s', take_subs s -> take_subs s' -> rel_subs s s' -> rel (m s) (m s')) /\
  (forall own A m, Reader own (A := A) m -> forall s s', take_subs s -> take_subs s' -> rel_subs s s' -> rel (m s) (m s')).
Proof.
  pose proof shape_takes as [Tp Tr].
  apply (shape_ind
    (fun here A m _ => forall s s', take_subs s -> take_subs s' -> rel_subs s s' -> rel (m s) (m s'))
    (fun here A m _ => forall s s', take_subs s -> take_subs s' -> rel_subs s s' -> rel (m s) (m s')));
    try (intros; match goal with H : rel_subs _ _ |- _ => unfold rel_subs in H; decompose [and] H; eauto end; fail).
  - intros. now apply rel_pure.
  - intros. apply rel_bind; [now apply rel_pure | intros; auto].
  - intros. apply rel_bind; [auto | intros; now apply rel_pure].
  - intros. apply rel_attempt. auto.
  - intros. apply rel_bind; [now apply rel_pure | intros; auto].
  - intros own A B body a0 start instr fin skip strict Hp IH Hs Hi He Hr Hc Hw Hd s s' Ts Ts' Rs.
    apply rel_loop.
    + eapply body_takes; eauto.
    + eapply body_takes; eauto.
    + intros a [q atts|q|c|c| |].
      * rewrite !Hs. destruct (instr a q atts) as [[f b]|].
        -- apply rel_bind; [apply rel_instr | intros; apply rel_pure; pure_auto].
        -- apply rel_bind; [apply IH; auto | intros; apply rel_pure; pure_auto].
      * rewrite !He. apply rel_pure; pure_auto.
      * rewrite !Hc. apply rel_pure; pure_auto.
      * rewrite !Hw. apply rel_pure; pure_auto.
      * rewrite !Hd. apply rel_pure; pure_auto.
      * rewrite !Hr. destruct strict; apply rel_pure; pure_auto.
Qed.
Lemma readers_rel d : forall d', d <= d' -> rel_subs (readers d) (readers d').
Proof.
  induction d as [|d IH]; intros d' L.
  - unfold rel_subs, rel. cbn. auto 20.
  - destruct d' as [|d']; [lia|]. specialize (IH d' ltac:(lia)).
    pose proof (readers_take d) as T. pose proof (readers_take d') as T'. cbn [readers].
    pose proof (fun own A (m : subs -> R A) Hm => proj2 shape_rel own A m Hm _ _ T T' IH) as H.
    unfold rel_subs. cbn [next_subs s_rpr s_ppr s_change s_run s_ins s_del s_from s_to s_link s_sdt s_para
      s_table s_row s_cell s_drawing].
    repeat split; intros.
    + eapply H, reader_rpr.
    + eapply H, reader_ppr.
    + eapply (H _ _ (fun s => read_change s a)), reader_change.
    + eapply H, reader_run.
    + eapply (H _ _ (fun s => read_ins_like "ins" s a)), reader_ins_like.
    + eapply (H _ _ (fun s => read_del s a)), reader_del.
    + eapply (H _ _ (fun s => read_from s a)), reader_from.
    + eapply (H _ _ (fun s => read_ins_like "moveTo" s a)), reader_ins_like.
    + eapply (H _ _ (fun s => read_link s a)), reader_link.
    + eapply H, reader_sdt.
    + eapply (H _ _ (fun s => read_para s a)), reader_para.
    + eapply H, reader_table.
    + eapply H, reader_row.
    + eapply H, reader_cell.
    + eapply H, reader_drawing.
Qed.

(** ** A reader given an element that is closed later does not run off the end *)
Definition no_error (l : list event) : Prop := ~ In EErr l.
(** [l] closes exactly the open elements [open], innermost first. *)
Definition closing (open : list qname) (l : list event) : Prop := still_open open l = Some [] /\ no_error l.
Definition ends_above {A} (o : list qname) (x : out A) : Prop :=
  match x with
  | Val _ s' | Err s' => exists inner, closing (inner ++ o) (rs_events s')
  | Panic | NoFuel => True
  | Hang => False
  end.
Definition closes {A} (own : string) (m : R A) : Prop :=
  forall s q o, q_local q = own -> closing (q :: o) (rs_events s) -> ends_above o (m s).
Lemma no_error_cons e l : no_error (e :: l) -> no_error l.
Proof. unfold no_error. cbn. tauto. Qed.
Lemma closes_pure A own (m : R A) : pure m -> closes own m.
Proof.
  intros H s q o Hq Hc. rewrite (st_eta s). destruct (H (rs_para s)) as [[a c|c|] E]; rewrite E; cbn; auto;
    now exists [q].
Qed.
Lemma closes_pure_then A B own (m : R A) (k : A -> R B) :
  pure m -> (forall a, closes own (k a)) -> closes own (bind m k).
Proof.
  intros H Hk s q o Hq Hc. unfold bind. rewrite (st_eta s). destruct (H (rs_para s)) as [[a c|c|] E]; rewrite E; cbn; auto.
  - eapply Hk; eauto.
  - now exists [q].
Qed.
Lemma ends_above_then A B o (x : out A) (k : A -> R B) :
  (forall a, pure (k a)) -> ends_above o x ->
  ends_above o (match x with Val a s => k a s | Err s => Err s | Panic => Panic | Hang => Hang | NoFuel => NoFuel end).
Proof.
  intros Hk. destruct x as [a s|s| | |]; cbn; auto. intros He.
  rewrite (st_eta s). destruct (Hk a (rs_para s)) as [[b c|c|] E]; rewrite E; cbn; auto.
Qed.
Lemma closes_then A B own (m : R A) (k : A -> R B) :
  closes own m -> (forall a, pure (k a)) -> closes own (bind m k).
Proof. intros Hm Hk s q o Hq Hc. unfold bind. apply ends_above_then; auto. now apply (Hm s q). Qed.
Lemma closes_attempt A own (m : R A) : closes own m -> closes own (attempt m).
Proof. intros Hm s q o Hq Hc. specialize (Hm s q o Hq Hc). unfold attempt. now destruct (m s). Qed.

(** One turn: the element [q] itself stays open until the loop is done. *)
Definition turn_above {A B} (q : qname) (o : list qname) (x : out (turn A B)) : Prop :=
  match x with
  | Val (Again _) s' => exists inner, closing (inner ++ q :: o) (rs_events s')
  | Val (Done _) s' | Err s' => exists inner, closing (inner ++ o) (rs_events s')
  | Panic | NoFuel => True
  | Hang => False
  end.
Lemma closing_nil inner q o : ~ closing (inner ++ q :: o) [].
Proof. intros [H _]. cbn in H. injection H as H. now destruct inner. Qed.
Lemma closing_tail q o l : closing (q :: o) l -> closing ([q] ++ o) l.
Proof. trivial. Qed.
Lemma turns_above A B (body : A -> event -> R (turn A B)) q o :
  (forall a e l c inner, closing (inner ++ q :: o) (e :: l) -> turn_above q o (body a e (st l c))) ->
  forall fuel a s inner, closing (inner ++ q :: o) (rs_events s) -> ends_above o (turns fuel body a s).
Proof.
  intros H. induction fuel as [|n IH]; intros a s inner Hc; cbn [turns]; destruct (rs_events s) as [|e l] eqn:E.
  - now apply closing_nil in Hc.
  - exact I.
  - now apply closing_nil in Hc.
  - specialize (H a e l (rs_para s) inner Hc). unfold st in H.
    destruct (body a e {| rs_events := l; rs_para := rs_para s |}) as [[a'|b] s'|s'| | |]; cbn in *; auto.
    destruct H as [inner' H']. now apply (IH a' s' inner').
Qed.
(** The open elements after one event. *)
Lemma qname_eqb_eq a b : qname_eqb a b = true -> a = b.
Proof.
  destruct a as [pa la], b as [pb lb]. unfold qname_eqb. cbn. intros H. apply andb_true_iff in H as [H1 H2].
  destruct pa, pb; try discriminate; repeat match goal with H : (_ =s _) = true |- _ => apply String.eqb_eq in H; subst end;
    reflexivity.
Qed.
Lemma closing_end inner q o n l : closing (inner ++ q :: o) (EEnd n :: l) ->
  (inner = [] /\ n = q /\ closing o l) \/ exists inner', closing (inner' ++ q :: o) l.
Proof.
  intros [H Hn]. apply no_error_cons in Hn. cbn in H. destruct inner as [|m inner]; cbn in H.
  - destruct (qname_eqb n q) eqn:Q; [|discriminate]. left. apply qname_eqb_eq in Q. repeat split; auto.
  - destruct (qname_eqb n m); [|discriminate]. right. exists inner. split; auto.
Qed.
Lemma closing_other open e l : (match e with EStart _ _ | EEnd _ => False | _ => True end) ->
  closing open (e :: l) -> closing open l.
Proof. intros He [H Hn]. apply no_error_cons in Hn. now destruct e; cbn in H. Qed.
Lemma ret_turn A B q o (t : turn A B) l c inner :
  match t with Again _ => closing (inner ++ q :: o) l | Done _ => closing (inner ++ o) l end ->
  turn_above q o (ret t (st l c)).
Proof. destruct t; cbn; eauto. Qed.
Lemma above_weaken q o l : (exists inner, closing (inner ++ q :: o) l) -> exists inner, closing (inner ++ o) l.
Proof. intros [inner H]. exists (inner ++ [q]). now rewrite <- app_assoc. Qed.

(** [read_instr_text] may run into the end of the run. *)
Definition instr_above (q : qname) (o : list qname) (x : out (option string)) : Prop :=
  match x with
  | Val (Some _) s' => exists inner, closing (inner ++ q :: o) (rs_events s')
  | Val None s' | Err s' => exists inner, closing (inner ++ o) (rs_events s')
  | Panic | NoFuel => True
  | Hang => False
  end.
Lemma instr_turns q o : q_local q = "r"%string ->
  forall fuel a s inner, closing (inner ++ q :: o) (rs_events s) ->
  instr_above q o
    (turns fuel (fun (_ : unit) e =>
       match e with
       | EChars c => ret (Done (Some c))
       | EEnd q => ret (if q_local q =s "r" then Done None else Again tt)
       | EErr => fail
       | _ => ret (Again tt)
       end) a s).
Proof.
  intros Hq. induction fuel as [|n IH]; intros a s inner Hc; cbn [turns]; destruct (rs_events s) as [|e l] eqn:E.
  - now apply closing_nil in Hc.
  - exact I.
  - now apply closing_nil in Hc.
  - destruct e as [q' atts|q'|c|c| |]; cbn [ret].
    + apply (IH tt _ (q' :: inner)). destruct Hc as [Hc Hn]. cbn in Hc. apply no_error_cons in Hn. now split.
    + unfold ret. cbn. apply closing_end in Hc as [(-> & -> & Hc)|[inner' Hc]].
      * rewrite Hq, String.eqb_refl. now exists [].
      * destruct (q_local q' =s "r"); [|now apply (IH tt _ inner')]. cbn.
        apply (above_weaken q). now exists inner'.
    + cbn. exists inner. now apply (closing_other _ (EChars c)).
    + apply (IH tt _ inner). now apply (closing_other _ (EWs c)).
    + apply (IH tt _ inner). now apply (closing_other _ EDocEnd).
    + destruct Hc as [_ Hn]. exfalso. apply Hn. now left.
Qed.
Theorem shape_closes :
  (forall here A m, Prog here (A := A) m -> forall s, all_subs (@closes) s -> closes here (m s)) /\
  (forall own A m, Reader own (A := A) m -> forall s, all_subs (@closes) s -> closes own (m s)).
Proof.
  apply (shape_ind (fun here A m _ => forall s, all_subs (@closes) s -> closes here (m s))
                   (fun here A m _ => forall s, all_subs (@closes) s -> closes here (m s)));
    try (intros; match goal with H : all_subs _ _ |- _ => use_subs H end; fail).
  - intros. now apply closes_pure.
  - intros. apply closes_pure_then; auto.
  - intros. apply closes_then; auto.
  - intros. apply closes_attempt. auto.
  - auto.
  - intros. apply closes_pure_then; auto.
  - intros own A B body a0 start instr fin skip strict Hp IH Hs Hi He Hr Hc Hw Hd s Ss s0 q o Hq Hcl.
    unfold loop. apply (turns_above A B (body s) q o) with (inner := []); [|exact Hcl].
    clear s0 Hcl. intros a e l c inner Hcl. destruct e as [q' atts|q'|c'|c'| |].
    + rewrite Hs. destruct (instr a q' atts) as [[f b]|] eqn:Ei.
      * assert (Ho : own = "r"%string) by (eapply Hi; rewrite Ei; discriminate).
        assert (Hc' : closing ((q' :: inner) ++ q :: o) l).
        { destruct Hcl as [Hl Hn]. cbn in Hl. apply no_error_cons in Hn. now split. }
        assert (Hq' : q_local q = "r"%string) by congruence.
        pose proof (instr_turns q o Hq' (length l) tt (st l c) (q' :: inner) Hc') as H.
        unfold bind, read_instr_text, loop. cbn [st rs_events] in *. unfold st in H.
        destruct (turns _ _ _ _) as [[x|] s'|s'| | |]; cbn in *; auto.
      * assert (Hc' : closing (q' :: inner ++ q :: o) l).
        { destruct Hcl as [Hl Hn]. cbn in Hl. apply no_error_cons in Hn. now split. }
        pose proof (IH a q' atts s Ss (st l c) q' (inner ++ q :: o) eq_refl Hc') as H. unfold bind.
        destruct (start a q' atts s (st l c)) as [a' s'|s'| | |]; cbn in *; auto.
        -- destruct H as [i H]. exists (i ++ inner). now rewrite <- app_assoc.
        -- destruct H as [i H]. exists (i ++ inner ++ [q]). now rewrite <- !app_assoc.
    + rewrite He. apply closing_end in Hcl as [(-> & -> & Hcl)|[inner' Hcl]].
      * rewrite Hq, String.eqb_refl. now exists [].
      * destruct (q_local q' =s own); cbn.
        -- apply (above_weaken q). now exists inner'.
        -- now exists inner'.
    + rewrite Hc. exists inner. now apply (closing_other _ (EChars c')).
    + rewrite Hw. exists inner. now apply (closing_other _ (EWs c')).
    + rewrite Hd. exists inner. now apply (closing_other _ EDocEnd).
    + destruct Hcl as [_ Hn]. exfalso. apply Hn. now left.
Qed.
Lemma readers_close d : all_subs (@closes) (readers d).
Proof.
  induction d as [|d IH]; cbn [readers].
  - apply all_subs_none. intros A n s q o _ _. exact I.
  - apply all_subs_next. intros A own m Hm. now apply (proj2 shape_closes own).
Qed.

(** ** A reader that returns has seen the end of its element *)
Definition sees_end {A} (own : string) (m : R A) : Prop :=
  forall s v s', m s = Val v s' -> exists q, In (EEnd q) (rs_events s) /\ q_local q = own.
Lemma instr_sees A s s' fuel (a : unit) (body : unit -> event -> R (turn unit (option A))) :
  (forall a e s v s', body a e s = Val v s' -> rs_events s' = rs_events s) ->
  (forall a e s s', body a e s = Val (Done None) s' -> exists q, e = EEnd q /\ q_local q = "r"%string) ->
  turns fuel body a s = Val None s' -> exists q, In (EEnd q) (rs_events s) /\ q_local q = "r"%string.
Proof.
  intros Hk Hd. revert a s. induction fuel as [|n IH]; intros a s; cbn [turns]; destruct (rs_events s) as [|e l] eqn:E;
    try discriminate.
  destruct (body a e {| rs_events := l; rs_para := rs_para s |}) as [[a'|b] s1|s1| | |] eqn:Eb; try discriminate.
  - intros H. apply IH in H as (q & Hi & Hq). apply Hk in Eb. rewrite Eb in Hi. cbn in Hi. exists q. cbn. auto.
  - intros H. injection H as Hb _. subst b. apply Hd in Eb as (q & -> & Hq). exists q. cbn. auto.
Qed.
Lemma read_instr_sees s s' : read_instr_text s = Val None s' ->
  exists q, In (EEnd q) (rs_events s) /\ q_local q = "r"%string.
Proof.
  apply instr_sees.
  - intros a e s0 v s1 H. destruct e; cbn in H; try (injection H as _ <-; reflexivity). discriminate.
  - intros a e s0 s1 H. destruct e as [q atts|q|c|c| |]; try discriminate H. exists q. split; [reflexivity|].
    unfold ret in H. destruct (q_local q =s "r") eqn:Q; [now apply String.eqb_eq in Q | discriminate].
Qed.
Theorem reader_sees_end own A m : Reader own (A := A) m -> forall s, take_subs s -> sees_end own (m s).
Proof.
  intros H. induction H as [own A B m k Hp Hk IH|own A B body a0 start instr fin skip strict Hp Hs Hi He Hr Hc Hw Hd];
    intros s Ts s0 v s'.
  - unfold bind. rewrite (st_eta s0). destruct (Hp (rs_para s0)) as [[a c|c|] E]; rewrite E; cbn; try discriminate.
    intros H. apply (IH a s Ts) in H. exact H.
  - assert (Tb : forall a e, takes (body s a e)) by (eapply body_takes; eauto).
    unfold loop. generalize (length (rs_events s0)) as fuel. intros fuel. revert a0 s0.
    induction fuel as [|n IH]; intros a0 s0; cbn [turns]; destruct (rs_events s0) as [|e l] eqn:E; try discriminate.
    specialize (Tb a0 e (st l (rs_para s0))). cbn [st rs_events] in Tb. unfold st in Tb.
    destruct (body s a0 e {| rs_events := l; rs_para := rs_para s0 |}) as [[a'|b] s1|s1| | |] eqn:Eb; try discriminate.
    + intros H. apply IH in H as (q & Hin & Hq). exists q. split; [|exact Hq]. destruct Tb as [pre Tb]. rewrite Tb.
      right. apply in_or_app. now right.
    + intros _. destruct e as [q atts|q|c|c| |].
      * rewrite Hs in Eb. destruct (instr a0 q atts) as [[f b']|] eqn:Ei.
        -- assert (Ho : own = "r"%string) by (eapply Hi; rewrite Ei; discriminate).
           unfold bind in Eb. destruct (read_instr_text _) as [[x|] s2|s2| | |] eqn:Er; try discriminate Eb.
           apply read_instr_sees in Er as (q' & Hin & Hq'). cbn in Hin. exists q'. split; [now right | congruence].
        -- unfold bind in Eb. destruct (start a0 q atts s _) as [a' s2|s2| | |]; discriminate Eb.
      * rewrite He in Eb. exists q. split; [now left|]. unfold ret in Eb.
        destruct (q_local q =s own) eqn:Q; [now apply String.eqb_eq in Q | discriminate].
      * rewrite Hc in Eb. discriminate.
      * rewrite Hw in Eb. discriminate.
      * rewrite Hd in Eb. discriminate.
      * rewrite Hr in Eb. destruct strict; discriminate.
Qed.

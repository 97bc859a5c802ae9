From Verif Require Import Str StrFacts WriterModel WriterSpec.

Lemma substring_0_app a b : String.substring 0 (String.length a) (a +++ b) = a.
Proof. induction a as [|c a IH]; cbn; [destruct b; reflexivity|now rewrite IH]. Qed.

Lemma substring_app a b : forall k, String.substring (String.length a) k (a +++ b) = String.substring 0 k b.
Proof. induction a as [|c a IH]; intros k; cbn; [destruct b; reflexivity|apply IH]. Qed.

Lemma substring_0_full a : String.substring 0 (String.length a) a = a.
Proof. rewrite <- (append_nil_r a) at 2. apply substring_0_app. Qed.

Lemma encode_attrs_map a : encode_attrs a = concat_str (map attr_bytes a).
Proof. induction a as [|kv a IH]; cbn; [reflexivity|]. now rewrite IH. Qed.

Lemma encode_start_tag n a : encode_start n a = tag_bytes n a.
Proof. unfold encode_start, tag_bytes. now rewrite encode_attrs_map. Qed.

(** ** Simulation of the flat name buffer by a stack of names *)
Fixpoint all_names (open : list string) : string :=
  match open with [] => "" | n :: r => all_names r +++ n end.

Fixpoint stack_ok (open : list string) (st : list elem_state) : Prop :=
  match open, st with
  | [], [] => True
  | n :: open', e :: st' =>
      name_start e = String.length (all_names open') /\ name_len e = String.length n
      /\ pending e = false /\ stack_ok open' st'
  | _, _ => False
  end.

Definition sim (w : wstate) (open : list string) (pend : option (list (string * string))) : Prop :=
  names w = all_names open /\
  match open, stack w with
  | [], [] => pend = None
  | n :: open', e :: st' =>
      name_start e = String.length (all_names open') /\ name_len e = String.length n
      /\ stack_ok open' st'
      /\ match pend with
         | Some a => pending e = true /\ pending_start w = tag_bytes n a
         | None => pending e = false
         end
  | _, _ => False
  end.

Lemma sim_init : sim w_init [] None.
Proof. split; reflexivity. Qed.

Lemma flush_sim w open pend :
  sim w open pend ->
  sim (flush_pending w) open None /\ out (flush_pending w) = out w +++ before_content open pend.
Proof.
  intros [Hn H]. unfold flush_pending. destruct open as [|n open]; destruct (stack w) as [|e st] eqn:Es; try contradiction.
  - subst pend. split; [split; [exact Hn|now rewrite Es]|]. cbn. now rewrite append_nil_r.
  - destruct H as (H1 & H2 & H3 & H4). destruct pend as [a|].
    + destruct H4 as [H4 H5]. rewrite H4. cbn [out names stack pending_start]. split.
      * split; [exact Hn|]. cbn. repeat split; assumption.
      * cbn [before_content]. rewrite H5. reflexivity.
    + rewrite H4. split; [split; [exact Hn|rewrite Es; repeat split; assumption]|]. cbn. now rewrite append_nil_r.
Qed.

Lemma sim_stack_ok w open : sim w open None -> stack_ok open (stack w).
Proof.
  intros [_ H]. destruct open as [|n open]; destruct (stack w) as [|e st]; cbn in *; tauto.
Qed.

Lemma sim_of_stack_ok w open : names w = all_names open -> stack_ok open (stack w) -> sim w open None.
Proof.
  intros Hn H. split; [exact Hn|]. destruct open as [|n open]; destruct (stack w) as [|e st]; cbn in *; tauto.
Qed.

Lemma run_written cs : forall w open pend, sim w open pend ->
  match w_run w cs with
  | WOk w' => exists b, written open pend cs = Some b /\ out w' = out w +++ b
  | WFail w' rest => written open pend cs = None
  end.
Proof.
  induction cs as [|c cs IH]; intros w open pend Hs; cbn [w_run written].
  { exists "". split; [reflexivity|now rewrite append_nil_r]. }
  destruct c as [v e s|n a| |t]; cbn [w_step].
  - (* declaration *)
    set (w' := {| out := _; stack := _; names := _; pending_start := _ |}).
    assert (Hs' : sim w' open pend) by exact Hs.
    specialize (IH w' open pend Hs'). destruct (w_run w' cs) as [w2|w2 rest].
    + destruct IH as (b & -> & Ho). eexists; split; [reflexivity|]. rewrite Ho. cbn [out w']. now rewrite append_assoc.
    + now rewrite IH.
  - (* start *)
    destruct (flush_sim _ _ _ Hs) as [Hf Ho].
    set (w1 := flush_pending w) in *.
    set (w' := {| out := _; stack := _; names := _; pending_start := _ |}).
    assert (Hs' : sim w' (n :: open) (Some a)).
    { destruct Hf as [Hn Hst]. split.
      - cbn [names w' all_names]. rewrite Hn. f_equal. unfold encode_start. cbn [String.append String.substring].
        apply substring_0_app.
      - cbn [stack w' name_start name_len pending pending_start]. rewrite Hn. repeat split.
        + apply sim_stack_ok. split; assumption.
        + apply encode_start_tag. }
    specialize (IH w' _ _ Hs'). destruct (w_run w' cs) as [w2|w2 rest].
    + destruct IH as (b & -> & Ho2). eexists; split; [reflexivity|]. rewrite Ho2. cbn [out w']. rewrite Ho. now rewrite append_assoc.
    + now rewrite IH.
  - (* end *)
    destruct Hs as [Hn H]. destruct open as [|n open]; destruct (stack w) as [|e st]; try contradiction; [reflexivity|].
    destruct H as (H1 & H2 & H3 & H4).
    assert (Hnames : String.substring 0 (name_start e) (names w) = all_names open).
    { rewrite Hn, H1. cbn [all_names]. apply substring_0_app. }
    destruct pend as [a|].
    + destruct H4 as [-> H5].
      set (w' := {| out := _; stack := _; names := _; pending_start := _ |}).
      assert (Hs' : sim w' open None) by (apply sim_of_stack_ok; assumption).
      specialize (IH w' _ _ Hs'). destruct (w_run w' cs) as [w2|w2 rest].
      * destruct IH as (b & -> & Ho2). eexists; split; [reflexivity|]. rewrite Ho2. cbn [out w']. rewrite H5. now rewrite !append_assoc.
      * now rewrite IH.
    + rewrite H4.
      set (w' := {| out := _; stack := _; names := _; pending_start := _ |}).
      assert (Hs' : sim w' open None) by (apply sim_of_stack_ok; assumption).
      specialize (IH w' _ _ Hs'). destruct (w_run w' cs) as [w2|w2 rest].
      * destruct IH as (b & -> & Ho2). eexists; split; [reflexivity|]. rewrite Ho2. cbn [out w'].
        assert (Hnm : String.substring (name_start e) (name_len e) (names w) = n).
        { rewrite Hn, H1, H2. cbn [all_names]. rewrite substring_app. apply substring_0_full. }
        rewrite Hnm. now rewrite !append_assoc.
      * now rewrite IH.
  - (* text *)
    destruct (flush_sim _ _ _ Hs) as [Hf Ho].
    set (w1 := flush_pending w) in *.
    set (w' := {| out := _; stack := _; names := _; pending_start := _ |}).
    assert (Hs' : sim w' open None) by exact Hf.
    specialize (IH w' _ _ Hs'). destruct (w_run w' cs) as [w2|w2 rest].
    + destruct IH as (b & -> & Ho2). eexists; split; [reflexivity|]. rewrite Ho2. cbn [out w']. rewrite Ho. now rewrite !append_assoc.
    + now rewrite IH.
Qed.

(** C06 *)
Lemma run_init_written cs w : w_run w_init cs = WOk w -> written [] None cs = Some (out w).
Proof.
  intros H. pose proof (run_written cs _ _ _ sim_init) as R. rewrite H in R.
  destruct R as (b & E & Ho). rewrite E, Ho. reflexivity.
Qed.

(** ** Balance, C05 *)
Lemma flush_length w : length (stack (flush_pending w)) = length (stack w).
Proof. unfold flush_pending. destruct (stack w) as [|e st] eqn:E; [now rewrite E|]. destruct (pending e); [reflexivity|now rewrite E]. Qed.

Lemma step_length w c w' : w_step w c = Some w' ->
  length (stack w') + closes [c] = length (stack w) + opens [c].
Proof.
  destruct c as [v e s|n a| |t]; cbn [w_step]; intros H.
  - injection H as <-. cbn. lia.
  - injection H as <-. cbn. rewrite flush_length. lia.
  - destruct (stack w) as [|e st] eqn:E; [discriminate|]. destruct (pending e); injection H as <-; cbn; lia.
  - injection H as <-. cbn. rewrite flush_length. lia.
Qed.

Lemma step_fail w c : w_step w c = None <-> c = CEnd /\ stack w = [].
Proof.
  destruct c as [v e s|n a| |t]; cbn [w_step]; split; try discriminate; try (intros [? ?]; discriminate).
  - destruct (stack w) as [|e st]; [now split|]. destruct (pending e); discriminate.
  - intros [_ ->]. reflexivity.
Qed.

Lemma opens_app a b : opens (a ++ b) = opens a + opens b.
Proof. unfold opens. now rewrite filter_app, app_length. Qed.
Lemma closes_app a b : closes (a ++ b) = closes a + closes b.
Proof. unfold closes. now rewrite filter_app, app_length. Qed.
Lemma opens_cons c b : opens (c :: b) = opens [c] + opens b.
Proof. apply (opens_app [c] b). Qed.
Lemma closes_cons c b : closes (c :: b) = closes [c] + closes b.
Proof. apply (closes_app [c] b). Qed.

Lemma run_ok_length cs : forall w w', w_run w cs = WOk w' ->
  length (stack w') + closes cs = length (stack w) + opens cs /\
  (forall p q, cs = p ++ q -> closes p <= length (stack w) + opens p).
Proof.
  induction cs as [|c cs IH]; intros w w' H; cbn [w_run] in H.
  - injection H as <-. split; [cbn; lia|]. intros p q Hp. symmetry in Hp. apply app_eq_nil in Hp as [-> ->]. cbn. lia.
  - destruct (w_step w c) as [w1|] eqn:E; [|discriminate]. pose proof (step_length _ _ _ E) as L.
    destruct (IH _ _ H) as [IH1 IH2]. rewrite opens_cons, closes_cons. split; [lia|].
    intros [|x p] q Hp; [cbn; lia|]. cbn in Hp. injection Hp as <- Hp.
    specialize (IH2 _ _ Hp). rewrite (opens_cons c p), (closes_cons c p). lia.
Qed.

Lemma run_app a b : forall w, w_run w (a ++ b) =
  match w_run w a with WOk w' => w_run w' b | WFail w' r => WFail w' (r ++ b) end.
Proof.
  induction a as [|c a IH]; intros w; cbn [w_run app]; [reflexivity|].
  destruct (w_step w c); [apply IH|reflexivity].
Qed.

Lemma run_fail_split cs : forall w w' rest, w_run w cs = WFail w' rest ->
  exists p rest', cs = p ++ rest /\ rest = CEnd :: rest' /\ w_run w p = WOk w' /\ stack w' = [].
Proof.
  induction cs as [|c cs IH]; intros w w' rest H; cbn [w_run] in H; [discriminate|].
  destruct (w_step w c) as [w1|] eqn:E.
  - destruct (IH _ _ _ H) as (p & r & -> & -> & Hr & Hst). exists (c :: p), r. cbn [w_run]. rewrite E. auto.
  - injection H as <- <-. apply step_fail in E as [-> Hst]. exists [], cs. auto.
Qed.

Lemma run_never_overclosed cs : (exists w, w_run w_init cs = WOk w) <-> never_overclosed cs.
Proof.
  split.
  - intros [w H] p q E. destruct (run_ok_length _ _ _ H) as [_ H2]. specialize (H2 _ _ E). cbn in H2. lia.
  - intros H. destruct (w_run w_init cs) as [w|w rest] eqn:E; [now exists w|exfalso].
    destruct (run_fail_split _ _ _ _ E) as (p & r & -> & -> & Hr & Hst).
    destruct (run_ok_length _ _ _ Hr) as [L _]. rewrite Hst in L. cbn in L.
    specialize (H (p ++ [CEnd]) r). rewrite <- app_assoc in H. specialize (H eq_refl).
    rewrite opens_app, closes_app in H. cbn in H. lia.
Qed.

Lemma run_fail_iff cs w rest : w_run w_init cs = WFail w rest <->
  exists p r, cs = p ++ CEnd :: r /\ rest = CEnd :: r /\ never_overclosed p /\ opens p = closes p /\ w_run w_init p = WOk w.
Proof.
  split.
  - intros E. destruct (run_fail_split _ _ _ _ E) as (p & r & -> & -> & Hr & Hst).
    exists p, r. repeat split; auto.
    + apply run_never_overclosed. now exists w.
    + destruct (run_ok_length _ _ _ Hr) as [L _]. rewrite Hst in L. cbn in L. lia.
  - intros (p & r & -> & -> & _ & Hb & Hr).
    rewrite run_app, Hr. destruct (run_ok_length _ _ _ Hr) as [L _]. cbn in L.
    cbn [w_run]. destruct (w_step w CEnd) eqn:E; [|reflexivity]. exfalso.
    assert (length (stack w) = 0) by lia. destruct (stack w) eqn:Es; [|discriminate].
    cbn [w_step] in E. rewrite Es in E. discriminate.
Qed.

(** Output only grows, so what a failed or unfinished history has written is a
    prefix of what any longer history writes. *)
Lemma step_grows w c w' : w_step w c = Some w' -> exists b, out w' = out w +++ b.
Proof.
  assert (F : exists b, out (flush_pending w) = out w +++ b).
  { unfold flush_pending. destruct (stack w) as [|e st]; [exists ""; now rewrite append_nil_r|].
    destruct (pending e); [eexists; reflexivity|exists ""; now rewrite append_nil_r]. }
  destruct F as [b Hb].
  destruct c as [v e s|n a| |t]; cbn [w_step]; intros H.
  - injection H as <-. eexists; reflexivity.
  - injection H as <-. exists b. exact Hb.
  - destruct (stack w) as [|e st] eqn:E; [discriminate|]. destruct (pending e); injection H as <-; eexists; reflexivity.
  - injection H as <-. exists (b +++ t). cbn [out]. rewrite Hb. apply append_assoc.
Qed.

Lemma run_grows cs : forall w w', w_run w cs = WOk w' -> exists b, out w' = out w +++ b.
Proof.
  induction cs as [|c cs IH]; intros w w' H; cbn [w_run] in H.
  - injection H as <-. exists "". now rewrite append_nil_r.
  - destruct (w_step w c) as [w1|] eqn:E; [|discriminate].
    destruct (step_grows _ _ _ E) as [b1 H1], (IH _ _ H) as [b2 H2].
    exists (b1 +++ b2). rewrite H2, H1. apply append_assoc.
Qed.

Lemma run_prefix p q w w' : w_run w_init p = WOk w -> w_run w_init (p ++ q) = WOk w' -> exists b, out w' = out w +++ b.
Proof. intros Hp H. rewrite run_app, Hp in H. eapply run_grows; eauto. Qed.

From Verif Require Import Str StrFacts ListFacts IdsModel IdsSpec.

(** A generator that prints the counter injectively and steps it. *)
Definition stepping (g : generator) (pr : N -> string) (nx : N -> N) (ok : N -> bool) : Prop :=
  forall c, g c = if ok c then Some (pr c, nx c) else None.

(** counters stay below the limit: no wrap *)
Lemma requests_stepping g pr limit :
  (forall c, (c + 1 < limit)%N -> g c = Some (pr c, c + 1)%N) ->
  (forall a b, pr a = pr b -> a = b) ->
  forall n c, (c + N.of_nat n < limit)%N ->
  exists l, requests g n c = Some (l, (c + N.of_nat n)%N) /\ length l = n /\ NoDup l
    /\ forall x, In x l -> exists k, x = pr k /\ (c <= k)%N.
Proof.
  intros Hg Hinj. induction n as [|n IH]; intros c Hc.
  - exists []. cbn. rewrite N.add_0_r. repeat split; [constructor|]. intros x [].
  - destruct (IH (c + 1)%N) as (l & Hr & Hl & Hnd & Hin); [lia|].
    cbn [requests]. rewrite Hg by lia. rewrite Hr. exists (pr c :: l). split.
    + do 2 f_equal. lia.
    + repeat split; [cbn; lia| |].
      * constructor; [|exact Hnd]. intros Hx. destruct (Hin _ Hx) as (k & Hk & Hle). apply Hinj in Hk. lia.
      * intros x [<-|Hx]; [exists c; split; [reflexivity|lia]|]. destruct (Hin _ Hx) as (k & -> & Hle). exists k. split; [reflexivity|lia].
Qed.

Lemma fresh_of_stepping g pr limit n c :
  (forall c, (c + 1 < limit)%N -> g c = Some (pr c, c + 1)%N) ->
  (forall a b, pr a = pr b -> a = b) -> (c + N.of_nat n < limit)%N -> all_fresh g n c.
Proof.
  intros Hg Hi Hc. destruct (requests_stepping g pr limit Hg Hi n c Hc) as (l & Hr & Hl & Hnd & _).
  exists l, (c + N.of_nat n)%N. auto.
Qed.

Lemma show_inj_prefix p a b : p +++ show_N a = p +++ show_N b -> a = b.
Proof. intros H. apply append_inj_l in H. now apply show_N_inj. Qed.

Lemma succ_small c : (c + 1 < two64)%N -> wrapping_succ c = (c + 1)%N.
Proof. intros H. unfold wrapping_succ. now apply N.mod_small. Qed.

(** with wrapping: [k]-th identifier *)
Lemma requests_wrapping pr : forall n c, (c < two64)%N ->
  requests (fun c => Some (pr c, wrapping_succ c)) n c
  = Some (map (fun k => pr ((c + N.of_nat k) mod two64)%N) (seq 0 n), ((c + N.of_nat n) mod two64)%N).
Proof.
  induction n as [|n IH]; intros c Hc.
  - cbn. rewrite N.add_0_r, N.mod_small by exact Hc. reflexivity.
  - cbn [requests]. assert (Hw : (wrapping_succ c < two64)%N) by (apply N.mod_lt; discriminate).
    rewrite IH by exact Hw. do 2 f_equal.
    + cbn [seq map]. f_equal.
      * f_equal. rewrite N.add_0_r, N.mod_small by exact Hc. reflexivity.
      * rewrite <- seq_shift, map_map. apply map_ext. intros k. f_equal. unfold wrapping_succ.
        rewrite N.add_mod_idemp_l by discriminate. f_equal. lia.
    + unfold wrapping_succ. rewrite N.add_mod_idemp_l by discriminate. f_equal. lia.
Qed.

Lemma mod_distinct c i j : (c < two64)%N -> (N.of_nat i < two64)%N -> (N.of_nat j < two64)%N ->
  ((c + N.of_nat i) mod two64 = (c + N.of_nat j) mod two64)%N -> i = j.
Proof.
  intros Hc Hi Hj E.
  assert (G : forall x, (x < two64)%N -> ((c + x) mod two64 = if (c + x <? two64) then c + x else c + x - two64)%N).
  { intros x Hx. destruct (N.ltb_spec (c + x) two64); [now apply N.mod_small|].
    rewrite <- (N.mod_add _ 1) at 1 by discriminate.
    replace (c + x + 1 * two64)%N with ((c + x - two64) + 2 * two64)%N by lia.
    rewrite N.mod_add by discriminate. apply N.mod_small. lia. }
  rewrite !G in E by assumption.
  destruct (N.ltb_spec (c + N.of_nat i) two64), (N.ltb_spec (c + N.of_nat j) two64); lia.
Qed.

Lemma wrapping_fresh pr n c : (forall a b, pr a = pr b -> a = b) -> (c < two64)%N -> (N.of_nat n <= two64)%N ->
  all_fresh (fun c => Some (pr c, wrapping_succ c)) n c.
Proof.
  intros Hi Hc Hn. unfold all_fresh. rewrite requests_wrapping by exact Hc. do 2 eexists. split; [reflexivity|].
  split; [now rewrite map_length, seq_length|].
  apply NoDup_map_in.
  - intros x y Hx Hy E. apply in_seq in Hx, Hy. apply Hi in E. apply (mod_distinct c) in E; try lia; exact E.
  - apply seq_NoDup.
Qed.

Lemma append_show_inj p : forall a b, p +++ show_N a = p +++ show_N b -> a = b.
Proof. intros a b H. apply append_inj_l in H. now apply show_N_inj. Qed.

Lemma wrapping_generators_fresh g n c :
  In g [gen_bookmark; gen_footnote; gen_hyperlink; gen_pic] -> (c < two64)%N -> (N.of_nat n <= two64)%N -> all_fresh g n c.
Proof.
  intros Hg Hc Hn. cbn [In] in Hg.
  destruct Hg as [<-|[<-|[<-|[<-|[]]]]]; apply wrapping_fresh; try assumption; try exact show_N_inj; exact (append_show_inj _).
Qed.

Lemma checked_generators_fresh g limit n c :
  In (g, limit) [(gen_history, two64); (gen_paragraph_property_change, two64); (gen_toc_key, two64); (gen_para, two32)] ->
  (c + N.of_nat n < limit)%N -> all_fresh g n c.
Proof.
  intros Hg Hc. cbn [In] in Hg.
  assert (H : forall (pr : N -> string) lim, (forall a b, pr a = pr b -> a = b) ->
    (c + N.of_nat n < lim)%N -> all_fresh (fun c => if (c + 1 <? lim)%N then Some (pr c, c + 1)%N else None) n c).
  { intros pr lim Hi Hl. apply (fresh_of_stepping _ pr lim); auto.
    intros k Hk. apply N.ltb_lt in Hk. now rewrite Hk. }
  destruct Hg as [E|[E|[E|[E|[]]]]]; injection E as <- <-; apply H; auto using show_N_inj.
  - intros a b E. apply append_inj_l in E. now apply pad0_dec_inj in E.
  - intros a b E. now apply pad0_hex_inj in E.
Qed.

(** The paragraph id generator answers exactly until its range is exhausted. *)
Lemma para_requests_limit n c : (c < two32)%N ->
  ((exists r, requests gen_para n c = Some r) <-> (c + N.of_nat n < two32)%N).
Proof.
  revert c. induction n as [|n IH]; intros c Hc.
  - cbn. split; [lia|eauto].
  - cbn [requests gen_para]. unfold gen_para. destruct (N.ltb_spec (c + 1) two32) as [H|H].
    + fold gen_para. specialize (IH (c + 1)%N H). destruct (requests gen_para n (c + 1)) as [[l c']|].
      * split; [intros _|eauto]. assert (c + 1 + N.of_nat n < two32)%N by (apply IH; eauto). lia.
      * split; [intros [r E]; discriminate|]. intros Hx. destruct (proj2 IH) as [r E]; [lia|discriminate].
    + split; [intros [r E]; discriminate|]. lia.
Qed.

Lemma reset_repeats : exists l1 c1 l2 c2,
  requests gen_para 3 start_one = Some (l1, c1) /\ requests gen_para 2 (reset_id c1) = Some (l2, c2) /\ ~ NoDup (l1 ++ l2).
Proof.
  do 4 eexists. split; [reflexivity|]. split; [reflexivity|].
  intros H. inversion H as [|? ? Hx _]. apply Hx. right. right. left. reflexivity.
Qed.

(** ** Concurrency *)
Lemma upd_same f t v : upd f t v t = v.
Proof. unfold upd. now rewrite Nat.eqb_refl. Qed.

Lemma run_pairs : forall n sched s, length sched <= n -> (counter s < two64)%N -> (forall u, loaded s u = None) -> no_overlap sched = true ->
  exists ts, handed (fold_left sh_step sched s)
    = handed s ++ combine ts (map (fun k => ((counter s + N.of_nat k) mod two64)%N) (seq 0 (length ts)))
    /\ 2 * length ts <= length sched.
Proof.
  induction n as [|n IH]; intros sched s Hn Hc Hs Ho.
  - destruct sched; [|cbn in Hn; lia]. exists []. cbn. split; [now rewrite app_nil_r|lia].
  - destruct sched as [|t [|u r]].
    + exists []. cbn. split; [now rewrite app_nil_r|lia].
    + exists []. cbn [fold_left]. unfold sh_step. rewrite Hs. cbn. split; [now rewrite app_nil_r|lia].
    + cbn [no_overlap] in Ho. apply andb_true_iff in Ho as [Ht Ho]. apply Nat.eqb_eq in Ht as <-.
      cbn [fold_left]. set (s1 := sh_step s t). set (s2 := sh_step s1 t).
      assert (E1 : s1 = {| counter := counter s; loaded := upd (loaded s) t (Some (counter s)); handed := handed s |}).
      { unfold s1, sh_step. now rewrite Hs. }
      assert (E2 : s2 = {| counter := wrapping_succ (counter s); loaded := upd (loaded s1) t None; handed := handed s ++ [(t, counter s)] |}).
      { unfold s2, sh_step. rewrite E1. cbn [loaded]. now rewrite upd_same. }
      destruct (IH r s2) as (ts & Hts & Hlen).
      * cbn in Hn. lia.
      * rewrite E2. apply N.mod_lt. discriminate.
      * intros u. rewrite E2. cbn [loaded]. unfold upd. destruct (Nat.eqb_spec u t); [reflexivity|]. rewrite E1. cbn [loaded]. unfold upd. apply Nat.eqb_neq in n0. rewrite n0. apply Hs.
      * exact Ho.
      * exists (t :: ts). split; [|cbn; lia]. rewrite Hts, E2. cbn [handed counter]. rewrite <- app_assoc. f_equal.
        cbn [length seq map combine app]. f_equal.
        -- f_equal. rewrite N.add_0_r, N.mod_small by exact Hc. reflexivity.
        -- f_equal. rewrite <- seq_shift, map_map. apply map_ext. intros k. unfold wrapping_succ.
           rewrite N.add_mod_idemp_l by discriminate. f_equal. lia.
Qed.

Lemma no_overlap_fresh c sched : (c < two64)%N -> (N.of_nat (length sched) <= two64)%N -> no_overlap sched = true ->
  NoDup (map snd (handed (sh_run c sched))).
Proof.
  intros Hc Hn Ho. destruct (run_pairs (length sched) sched (sh_init c)) as (ts & Hts & Hlen); auto.
  unfold sh_run. rewrite Hts. cbn [handed sh_init counter app].
  rewrite snd_combine by (now rewrite map_length, seq_length).
  apply NoDup_map_in; [|apply seq_NoDup].
  intros x y Hx Hy E. apply in_seq in Hx, Hy. apply (mod_distinct c) in E; try lia; exact E.
Qed.

Lemma racy_schedule : exists sched, ~ NoDup (handed_to 2 (handed (sh_run start_one sched))).
Proof.
  exists [1; 2; 2; 2; 2; 1; 2; 2]. vm_compute. intros H. inversion H as [|? ? _ H']. inversion H' as [|? ? Hx _].
  apply Hx. left. reflexivity.
Qed.

Lemma racy_two_threads : exists sched, ~ NoDup (map snd (handed (sh_run start_one sched))) /\ length sched = 4.
Proof.
  exists [1; 2; 1; 2]. split; [|reflexivity]. vm_compute. intros H. inversion H as [|? ? Hx _]. apply Hx. left. reflexivity.
Qed.

(** thread-local paragraph ids *)
Lemma loc_run_none sched : fold_left loc_step sched None = None.
Proof. induction sched; [reflexivity|exact IHsched]. Qed.

Definition loc_inv (s : local) : Prop :=
  forall t, NoDup (handed_to t (given s)) /\
    forall x, In x (handed_to t (given s)) -> exists k, x = pad0 8 (show_hex k) /\ (k < counters s t)%N.

Lemma handed_to_app {A} t (l m : list (nat * A)) : handed_to t (l ++ m) = handed_to t l ++ handed_to t m.
Proof. unfold handed_to. now rewrite filter_app, map_app. Qed.

Lemma loc_step_inv s t s' : loc_inv s -> loc_step (Some s) t = Some s' -> loc_inv s'.
Proof.
  intros I H. cbn [loc_step] in H. unfold gen_para in H.
  destruct (counters s t + 1 <? two32)%N eqn:E; [|discriminate]. injection H as <-.
  intros u. cbn [given counters]. rewrite handed_to_app. destruct (I u) as [Hnd Hin].
  destruct (Nat.eqb_spec u t) as [->|Hne].
  - unfold handed_to at 2 4. cbn [filter fst]. rewrite Nat.eqb_refl. cbn [map snd]. split.
    + apply NoDup_snoc; [exact Hnd|]. intros Hx. destruct (Hin _ Hx) as (k & Hk & Hlt). apply pad0_hex_inj in Hk. lia.
    + intros x Hx. apply in_app_or in Hx as [Hx|[<-|[]]].
      * destruct (Hin _ Hx) as (k & -> & Hk). exists k. split; [reflexivity|lia].
      * exists (counters s t). split; [reflexivity|lia].
  - unfold handed_to at 2 4. cbn [filter fst]. assert (Nat.eqb t u = false) as -> by (apply Nat.eqb_neq; congruence). cbn [map]. rewrite app_nil_r. split; assumption.
Qed.

Lemma para_ids_per_thread sched s t : loc_run sched = Some s -> NoDup (handed_to t (given s)).
Proof.
  unfold loc_run. intros H.
  assert (G : forall sched s0 s, loc_inv s0 -> fold_left loc_step sched (Some s0) = Some s -> loc_inv s).
  { induction sched0 as [|u r IH]; intros s0 s1 I E; cbn [fold_left] in E; [injection E as <-; exact I|].
    destruct (loc_step (Some s0) u) as [s2|] eqn:E2; [|rewrite loc_run_none in E; discriminate].
    apply (IH s2 s1); [eapply loc_step_inv; eauto|exact E]. }
  assert (I : loc_inv s).
  { apply (G sched loc_init s); [|exact H]. intros u. cbn. split; [constructor|]. intros x []. }
  apply I.
Qed.

Lemma para_ids_across_threads : exists sched s, loc_run sched = Some s /\ ~ NoDup (map snd (given s)).
Proof.
  exists [1; 2]. eexists. split; [reflexivity|]. cbn. intros H. inversion H as [|? ? Hx _]. apply Hx. left. reflexivity.
Qed.

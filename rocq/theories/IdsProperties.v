(** Properties C16, C17. *)
From Verif Require Import Str IdsModel IdsSpec IdsProofs.

(** C16: sequential requests.  The wrapping generators answer with different
    identifiers for as many requests as there are counter values ... *)
Theorem ids_fresh_wrapping : forall g n c,
  In g [gen_bookmark; gen_footnote; gen_hyperlink; gen_pic] ->
  (c < two64)%N -> (N.of_nat n <= two64)%N -> all_fresh g n c.
Proof. exact wrapping_generators_fresh. Qed.
Print Assumptions ids_fresh_wrapping.

(** ... the others as long as the counter stays within its range. *)
Theorem ids_fresh_checked : forall g limit n c,
  In (g, limit) [(gen_history, two64); (gen_paragraph_property_change, two64); (gen_toc_key, two64); (gen_para, two32)] ->
  (c + N.of_nat n < limit)%N -> all_fresh g n c.
Proof. exact checked_generators_fresh. Qed.
Print Assumptions ids_fresh_checked.

(** The paragraph id generator panics exactly when its range is exhausted. *)
Theorem para_ids_limit : forall n c, (c < two32)%N ->
  ((exists r, requests gen_para n c = Some r) <-> (c + N.of_nat n < two32)%N).
Proof. exact para_requests_limit. Qed.
Print Assumptions para_ids_limit.

(** A reset makes identifiers come again. *)
Theorem ids_fresh_across_reset_refuted : exists l1 c1 l2 c2,
  requests gen_para 3 start_one = Some (l1, c1) /\ requests gen_para 2 (reset_id c1) = Some (l2, c2) /\ ~ NoDup (l1 ++ l2).
Proof. exact reset_repeats. Qed.
Print Assumptions ids_fresh_across_reset_refuted.

Example requests_case :
  requests gen_para 3 start_one = Some (["00000001"; "00000002"; "00000003"], 4%N)
  /\ requests gen_toc_key 2 start_zero = Some (["_Toc00000000"; "_Toc00000001"], 2%N)
  /\ requests gen_pic 2 18446744073709551615 = Some (["rIdImage18446744073709551615"; "rIdImage0"], 1%N)
  /\ (start_one + N.of_nat 1000 < two32)%N.
Proof. repeat split. Qed.

(** C17: non-overlapping requests by any threads get different identifiers ... *)
Theorem concurrent_ids_fresh_without_overlap : forall c sched,
  (c < two64)%N -> (N.of_nat (length sched) <= two64)%N -> no_overlap sched = true ->
  NoDup (map snd (handed (sh_run c sched))).
Proof. exact no_overlap_fresh. Qed.
Print Assumptions concurrent_ids_fresh_without_overlap.

(** ... overlapping ones do not, and even a single thread can be handed the same
    identifier twice. *)
Theorem concurrent_ids_fresh_refuted : exists sched, ~ NoDup (map snd (handed (sh_run start_one sched))) /\ length sched = 4.
Proof. exact racy_two_threads. Qed.
Print Assumptions concurrent_ids_fresh_refuted.

Theorem concurrent_ids_same_thread_refuted : exists sched, ~ NoDup (handed_to 2 (handed (sh_run start_one sched))).
Proof. exact racy_schedule. Qed.
Print Assumptions concurrent_ids_same_thread_refuted.

(** Paragraph ids are per thread: fresh within a thread under every schedule ... *)
Theorem para_ids_fresh_per_thread : forall sched s t, loc_run sched = Some s -> NoDup (handed_to t (given s)).
Proof. exact para_ids_per_thread. Qed.
Print Assumptions para_ids_fresh_per_thread.

(** ... but not across threads. *)
Theorem para_ids_fresh_across_threads_refuted : exists sched s, loc_run sched = Some s /\ ~ NoDup (map snd (given s)).
Proof. exact para_ids_across_threads. Qed.
Print Assumptions para_ids_fresh_across_threads_refuted.

Example schedules_case :
  no_overlap [1; 1; 2; 2; 1; 1; 3] = true
  /\ handed (sh_run start_one [1; 1; 2; 2; 1; 1; 3]) = [(1, 1%N); (2, 2%N); (1, 3%N)]
  /\ handed (sh_run start_one [1; 2; 2; 2; 2; 1; 2; 2]) = [(2, 1%N); (2, 2%N); (1, 1%N); (2, 2%N)].
Proof. repeat split. Qed.

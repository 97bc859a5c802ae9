(** Properties C32, C43, C44. *)
From Coq Require Import NArith List Bool.
From Verif Require Import Str Props Ast DepsModel DepsSpec DepsProofs.
Import ListNotations.

(** C32: if all comments of the body stand where the collector looks and have one
    paragraph each, the comments part holds exactly the comments of the body,
    each once, in document order. *)
Theorem comments_collected_once : forall body old,
  forallb doc_child body = true -> Forall well_formed body -> comments_plain body ->
  Forall single (all_of comment_at body) -> all_of comment_at body <> [] ->
  dp_comments (update_dependencies body old) = all_of comment_at body /\
  dp_has_comments (update_dependencies body old) = true.
Proof.
  intros body old H1 H2 H3. rewrite <- (seen_comments_all body H1 H2 H3). intros H4 H5.
  destruct (comments_collected body old H4 H5) as (A & B & _). auto.
Qed.
Print Assumptions comments_collected_once.

(** Without these conditions: a comment is seen or not depending on its place, and
    is written once per paragraph. *)
Theorem comments_collected_exactly : forall body old,
  (flat_map paras_of_comment (seen_comments body) <> [] ->
     dp_comments (update_dependencies body old) =
       flat_map (fun c => repeat c (List.length (paras_of_comment c))) (seen_comments body) /\
     dp_has_comments (update_dependencies body old) = true) /\
  (flat_map paras_of_comment (seen_comments body) = [] ->
     dp_comments (update_dependencies body old) = dp_comments old /\
     dp_ext (update_dependencies body old) = dp_ext old /\
     dp_has_comments (update_dependencies body old) = dp_has_comments old).
Proof.
  intros body old. destruct (collected_exactly body old) as (H1 & H2 & H3 & _).
  split; intros H; destruct (flat_map paras_of_comment (seen_comments body)); try congruence; auto.
Qed.
Print Assumptions comments_collected_exactly.

(** The mark of a comment: none for its parent if it is no reply, the paragraph of
    the parent if it is one; a reply to a comment that is not seen has no mark. *)
Theorem reply_marks : forall body old l, l = seen_comments body -> l <> [] -> Forall single l -> NoDup (comment_ids l) ->
  exists mark, dp_ext (update_dependencies body old) = flat_map mark l /\
    forall c, In c l ->
      (cd_parent (fst c) = None -> mark c = [{| ce_para := para_id c; ce_done := false; ce_parent := None |}]) /\
      (forall p, In p l -> cd_parent (fst c) = Some (cd_id (fst p)) ->
         mark c = [{| ce_para := para_id c; ce_done := false; ce_parent := Some (para_id p) |}]) /\
      (forall q, cd_parent (fst c) = Some q -> ~ In q (comment_ids l) -> mark c = []).
Proof.
  intros body old l -> Hne Hs Hn. exists (ext_spec (seen_comments body)).
  split; [apply (comments_collected body old Hs Hne)|]. intros c Hc. now apply ext_single.
Qed.
Print Assumptions reply_marks.

Ltac each := cbn; repeat (apply Forall_cons || apply Forall_nil);
  try reflexivity; try (left; reflexivity); try (right; reflexivity); try exact I.
Definition text_para (id : string) : node := NPara id ppr_empty false [NRun rpr_empty [NText "x"]].
Definition note_ (i : N) (parent : option N) (paras : list string) : comment :=
  ({| cd_id := i; cd_author := "a"; cd_date := "d"; cd_parent := parent |}, map text_para paras).
Definition start_ (c : comment) : node := NCommentStart (fst c) (snd c).
Definition para_ (ch : list node) : node := NPara "p" ppr_empty false ch.
Definition sample_comment_body : list node :=
  [para_ [start_ (note_ 1 None ["c1"]); NRun rpr_empty [NText "t"]; NCommentEnd 1];
   NTable tblpr_default [] false [NRow trpr_empty false [NCell tcpr_empty false
     [para_ [NLink (Anchor "k") None [start_ (note_ 2 (Some 1%N) ["c2"])]]]]]].
Definition no_deps : deps := {| dp_comments := []; dp_ext := []; dp_has_comments := false; dp_links := [] |}.
Example comments_case :
  forallb doc_child sample_comment_body = true /\ Forall well_formed sample_comment_body /\ comments_plain sample_comment_body /\
  Forall single (all_of comment_at sample_comment_body) /\ NoDup (comment_ids (seen_comments sample_comment_body)) /\
  dp_comments (update_dependencies sample_comment_body no_deps) = [note_ 1 None ["c1"]; note_ 2 (Some 1%N) ["c2"]] /\
  dp_ext (update_dependencies sample_comment_body no_deps) =
    [{| ce_para := "c1"; ce_done := false; ce_parent := None |}; {| ce_para := "c2"; ce_done := false; ce_parent := Some "c1" |}].
Proof.
  split; [reflexivity|]. split. { each. }
  split. { split; each; each. }
  split. { cbn. repeat constructor; do 4 eexists; reflexivity. }
  split. { cbn. repeat constructor; cbn; intuition discriminate. }
  split; reflexivity.
Qed.

(** A comment inside a tracked insertion or a section is lost. *)
Theorem comment_in_insertion_lost_refuted : exists body c,
  forallb doc_child body = true /\ Forall well_formed body /\ all_of comment_at body = [c] /\ single c /\
  dp_comments (update_dependencies body no_deps) = [].
Proof.
  exists [para_ [NIns {| m_author := "a"; m_date := "d" |} [start_ (note_ 1 None ["c1"])]]], (note_ 1 None ["c1"]).
  split; [reflexivity|]. split; [each|]. split; [reflexivity|]. split; [do 4 eexists; reflexivity|reflexivity].
Qed.
Print Assumptions comment_in_insertion_lost_refuted.
Theorem comment_in_section_lost_refuted : exists body c,
  forallb doc_child body = true /\ Forall well_formed body /\ all_of comment_at body = [c] /\ single c /\
  dp_comments (update_dependencies body no_deps) = [].
Proof.
  exists [NSection sectpr_default [] false [para_ [start_ (note_ 1 None ["c1"])]]], (note_ 1 None ["c1"]).
  split; [reflexivity|]. split; [each|]. split; [reflexivity|]. split; [do 4 eexists; reflexivity|reflexivity].
Qed.
Print Assumptions comment_in_section_lost_refuted.
(** A comment with two paragraphs is written twice, with the same comment id. *)
Theorem long_comment_doubled_refuted : exists body c,
  all_of comment_at body = [c] /\ dp_comments (update_dependencies body no_deps) = [c; c].
Proof. exists [para_ [start_ (note_ 1 None ["c1"; "c2"])]], (note_ 1 None ["c1"; "c2"]). split; reflexivity. Qed.
Print Assumptions long_comment_doubled_refuted.

(** C44: every external hyperlink that stands directly in a paragraph the collector
    looks at gets one relationship with its path (provided no other link has its
    id), no two relationships share an id, and nothing else is added. *)
Theorem hyperlinks_collected : forall body old,
  forallb doc_child body = true -> Forall well_formed body -> links_plain body ->
  exists links, dp_links (update_dependencies body old) = dp_links old ++ map (fun kv => (fst kv, snd kv, "External")) links /\
    NoDup (map fst links) /\
    incl links (all_of link_at body) /\
    (forall rid path, In (rid, path) (all_of link_at body) -> exists path', In (rid, path') links) /\
    (NoDup (map fst (all_of link_at body)) -> forall l, In l (all_of link_at body) -> In l links).
Proof.
  intros body old H1 H2 H3. destruct (collected_exactly body old) as (_ & _ & _ & links & A & B & C & D).
  rewrite (seen_links_all body H1 H2 H3) in *. exists links. repeat split; auto.
  - intros rid path H. apply (in_map fst) in H. apply D in H. apply in_map_iff in H as ((k, v) & E & H). cbn in E. subst. eauto.
  - intros Hn (rid, path) H. pose proof (in_map fst _ _ H) as Hk. apply D in Hk. apply in_map_iff in Hk as ((k, v) & E & Hk). cbn in E. subst k.
    pose proof (C _ Hk) as Hv. clear -Hn H Hv Hk. induction (all_of link_at body) as [|(a, b) r IH]; [contradiction|].
    cbn in Hn. inversion Hn; subst. destruct H as [H|H], Hv as [Hv|Hv].
    + congruence.
    + injection H as -> ->. exfalso. apply H2. apply (in_map fst) in Hv. exact Hv.
    + injection Hv as -> ->. exfalso. apply H2. apply (in_map fst) in H. exact H.
    + now apply IH.
Qed.
Print Assumptions hyperlinks_collected.
Example hyperlinks_case :
  let body := [para_ [NLink (External "rIdHyperlink1" "http://a") None [NRun rpr_empty []]];
               para_ [NLink (External "rIdHyperlink2" "http://b") None []]] in
  forallb doc_child body = true /\ Forall well_formed body /\ links_plain body /\
  dp_links (update_dependencies body no_deps) = [("rIdHyperlink1", "http://a", "External"); ("rIdHyperlink2", "http://b", "External")].
Proof.
  cbn zeta. split; [reflexivity|]. split; [each|]. split; [|reflexivity]. each.
Qed.
(** A link inside a tracked insertion's run group, a section or a nested content
    control gets none, although its id is written into the document. *)
Theorem hyperlink_in_section_lost_refuted : exists body,
  forallb doc_child body = true /\ Forall well_formed body /\ all_of link_at body = [("rIdHyperlink1", "http://a")] /\
  dp_links (update_dependencies body no_deps) = [].
Proof.
  exists [NSection sectpr_default [] false [para_ [NLink (External "rIdHyperlink1" "http://a") None []]]].
  split; [reflexivity|]. split; [each|]. split; reflexivity.
Qed.
Print Assumptions hyperlink_in_section_lost_refuted.

(** C43: the parent of a comment that was read is a comment one of its paragraphs
    replies to; it has none only if it replies to none; nothing else changes. *)
Theorem comment_threads_read : forall ext l,
  ext <> [] -> NoDup (flat_map paras_of_comment l) -> NoDup (map ce_para ext) ->
  Forall2 (fun c c' => apart_from_parent c' = apart_from_parent c /\
     match cd_parent (fst c') with
     | Some q => replies_to (map (fun e => (ce_para e, ce_parent e)) ext) l c q
     | None => forall q, ~ replies_to (map (fun e => (ce_para e, ce_parent e)) ext) l c q
     end) l (thread_comments ext l).
Proof. exact threads_read. Qed.
Print Assumptions comment_threads_read.
Theorem no_marks_no_threads : forall l, thread_comments [] l = l.
Proof. reflexivity. Qed.
Print Assumptions no_marks_no_threads.

(** For comments of one paragraph, a flat XML package gives the same threads. *)
Theorem comment_threads_flat : forall ext l,
  Forall single l -> NoDup (flat_map paras_of_comment l) -> NoDup (map ce_para ext) ->
  Forall (fun c => cd_parent (fst c) = None) l -> thread_flat ext l = thread_comments ext l.
Proof. exact flat_threads_agree. Qed.
Print Assumptions comment_threads_flat.
(** For longer comments the two readers differ. *)
Theorem comment_threads_flat_refuted : exists ext l,
  NoDup (flat_map paras_of_comment l) /\ NoDup (map ce_para ext) /\ Forall (fun c => cd_parent (fst c) = None) l /\
  thread_flat ext l <> thread_comments ext l.
Proof.
  exists [{| ce_para := "x"; ce_done := false; ce_parent := None |}; {| ce_para := "y"; ce_done := false; ce_parent := Some "z" |}],
    [note_ 1 None ["z"]; note_ 2 None ["x"; "y"]].
  split; [repeat constructor; cbn; intuition discriminate|]. split; [repeat constructor; cbn; intuition discriminate|].
  split; [repeat constructor|]. discriminate.
Qed.
Print Assumptions comment_threads_flat_refuted.

(** Threads written by a build are read back. *)
Theorem comment_threads_survive : forall body old l, l = seen_comments body -> l <> [] ->
  Forall single l -> NoDup (comment_ids l) -> NoDup (flat_map paras_of_comment l) ->
  Forall (fun c => match cd_parent (fst c) with None => True | Some q => In q (comment_ids l) end) l ->
  thread_comments (dp_ext (update_dependencies body old)) (map (set_parent None) l) = l.
Proof.
  intros body old l -> Hne Hs Hn Hd Hp. destruct (comments_collected body old Hs Hne) as (_ & _ & ->). now apply threads_survive.
Qed.
Print Assumptions comment_threads_survive.
Example threads_case :
  let l := seen_comments sample_comment_body in
  l <> [] /\ Forall single l /\ NoDup (comment_ids l) /\ NoDup (flat_map paras_of_comment l) /\
  Forall (fun c => match cd_parent (fst c) with None => True | Some q => In q (comment_ids l) end) l /\
  thread_comments (dp_ext (update_dependencies sample_comment_body no_deps)) (map (set_parent None) l) = l.
Proof.
  cbn zeta. split; [discriminate|]. split; [cbn; repeat constructor; do 4 eexists; reflexivity|].
  split; [cbn; repeat constructor; cbn; intuition discriminate|]. split; [cbn; repeat constructor; cbn; intuition discriminate|].
  split; [cbn; repeat constructor; cbn; tauto|reflexivity].
Qed.

(** Reading puts the text of each comment into its range start ... *)
Theorem comment_texts_stored : forall l body, NoDup (comment_ids l) -> stored_plain body ->
  seen_comments (store_comments l body) = map (text_for l) (seen_comments body).
Proof. exact stored_comments. Qed.
Print Assumptions comment_texts_stored.
Example comment_texts_case :
  let body := [para_ [start_ (note_ 1 None [])]; NTable tblpr_default [] false [NRow trpr_empty false [NCell tcpr_empty false
     [para_ [start_ (note_ 2 None [])]]]]] in
  let l := [note_ 2 (Some 1%N) ["b"]; note_ 1 None ["a"]] in
  NoDup (comment_ids l) /\ stored_plain body /\
  seen_comments (store_comments l body) = [note_ 1 None ["a"]; note_ 2 (Some 1%N) ["b"]].
Proof.
  cbn zeta. split; [repeat constructor; cbn; intuition discriminate|]. split; [split; repeat constructor|reflexivity].
Qed.
(** ... but not if the range starts inside a hyperlink: such a comment is empty
    after reading and disappears when the document is built again. *)
Theorem comment_in_hyperlink_emptied_refuted : exists l body,
  NoDup (comment_ids l) /\ comment_ids (seen_comments body) = comment_ids l /\
  seen_comments (store_comments l body) = seen_comments body /\
  dp_comments (update_dependencies (store_comments l body) no_deps) = [].
Proof.
  exists [note_ 1 None ["a"]], [para_ [NLink (Anchor "k") None [start_ (note_ 1 None [])]]].
  split; [repeat constructor; cbn; intuition discriminate|]. repeat split.
Qed.
Print Assumptions comment_in_hyperlink_emptied_refuted.

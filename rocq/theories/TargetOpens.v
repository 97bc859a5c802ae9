(** Whatever archive opens, each part of the document is what the file says that its
    relationships lead to. *)
From Coq Require Import NArith ZArith List Bool.
From Verif Require Import Str Props Ast XmlParser XmlProofs ZipNameModel PathModel TreeModel DepsModel PackModel ReadBase ReadModel OpenModel ReadSpec StyleModel StyleRead RenderModel ArchiveSpec ArchiveProofs.
Import ListNotations.
Open Scope list_scope.

(** The file [name] is there, and the reader [m] makes [v] of it (its paragraphs may have
    been numbered from any point on). *)
Definition file_says {A} (a : archive) (name : string) (m : R A) (v : A) : Prop :=
  exists t c s, read_zip a name = Some t /\ m {| rs_events := events_of t; rs_para := c |} = Val v s.
(** The same of the first file that is related by the type [ty], if there is one. *)
Definition first_says {A} (a : archive) (ty : string) (m : R A) (default v : A) : Prop :=
  match first_of (rels_of a (main_of a)) ty with p :: _ => file_says a p m v | [] => v = default end.

Lemma on_text_says A a n (m : R A) t s v s' : read_zip a n = Some t -> on_text m t s = Val v s' -> file_says a n m v.
Proof.
  intros H1 H2. unfold on_text in H2. destruct (m _) as [x s1| | | |] eqn:Q; try discriminate. injection H2 as -> _. exists t, (rs_para s), s1. auto.
Qed.
Lemma get_says A a n (m : R A) s v s' : bind (get a n) (fun d => on_text m d) s = Val v s' -> file_says a n m v.
Proof.
  unfold get. destruct (read_zip a n) as [t|] eqn:Q; [|discriminate]. cbn [or_fail bind ret]. now apply on_text_says.
Qed.
Lemma first_paths rels ty : first_of rels ty = match first_path rels ty with Some p => [p] | None => [] end.
Proof. unfold first_of, paths, first_path. now destruct (targets rels ty) as [|[[i p] md] l]. Qed.
Lemma named_says A a rels ty (m : R A) d s v s' : rels = rels_of a (main_of a) -> named_part a rels ty m d s = Val v s' -> first_says a ty m d v.
Proof.
  intros -> H. unfold first_says. rewrite first_paths. unfold named_part in H. destruct (first_path _ ty) as [p|]; [now apply get_says in H|]. now injection H as -> _.
Qed.
Lemma assign_keeps k parts s : d_body (k_doc (fst (assign k parts s))) = d_body (k_doc (fst s)) /\ d_comments (k_doc (fst (assign k parts s))) = d_comments (k_doc (fst s)).
Proof.
  destruct s as [p media]. unfold assign. destruct (slot_ref _ _) as [r|]; [|now split]. destruct (part_by_id _ _) as [[ch rels]|]; now split.
Qed.
Ltac split_bind H x s1 Q := unfold bind at 1 in H; match type of H with match ?m with _ => _ end = _ => destruct m as [x s1|s1| | |] eqn:Q; try discriminate H end.
Theorem opened_says png preview a c op s' : read_docx png preview a c = Val op s' ->
  let d := k_doc (op_pkg op) in
  (exists body sect, file_says a (main_of a) read_document (body, sect) /\ d_body d = match d_comments d with [] => body | l => store_comments l body end) /\
  first_says a (office_rel "styles") read_styles styles_new (o_styles (op_rest op)) /\
  first_says a (office_rel "numbering") read_numberings {| ns_abstracts := []; ns_nums := [] |} (o_numberings (op_rest op)) /\
  first_says a (office_rel "settings") read_settings settings_default (o_settings (op_rest op)) /\
  first_says a (office_rel "webSettings") read_web_settings [] (op_web op) /\
  match custom_files a with p :: _ => file_says a p read_custom (o_custom (op_rest op)) \/ o_custom (op_rest op) = [] | [] => o_custom (op_rest op) = [] end /\
  op_links op = flat_map (fun t => match snd t with Some mode => [(fst (fst t), snd (fst t), mode)] | None => [] end) (targets (rels_of a (main_of a)) (office_rel "hyperlink")).
Proof.
  unfold read_docx, open_docx. intros H.
  split_bind H t0 s0 Q0. split_bind H u1 s1 Q1. split_bind H t1 s2 Q2. split_bind H pk s3 Q3. cbn zeta in H.
  assert (Zt : read_zip a "_rels/.rels" = Some t1).
  { unfold get in Q2. destruct (read_zip a "_rels/.rels"); [|discriminate]. now injection Q2 as -> _. }
  destruct (package_of_val _ _ _ _ _ Zt Q3) as [Pk Es]. subst pk.
  change (match find_target (office_rel "officeDocument") (package_of a) with Some r => rel_target r | None => "word/document.xml"%string end) with (main_of a) in H.
  split_bind H cu s4 Q4. split_bind H rels s5 Q5. destruct (rels_of_val _ _ _ _ _ Q5) as [Rl _]. symmetry in Rl.
  split_bind H hds s6 Q6. split_bind H fts s7 Q7. split_bind H thm s8 Q8. split_bind H xt s9 Q9. split_bind H cms s10 Q10.
  split_bind H t2 s11 Q11. split_bind H dc s12 Q12.
  match type of H with (let (k, media) := ?x in _) _ = _ => remember x as km eqn:Ek end.
  assert (Kb : d_body (k_doc (fst km)) = fst dc /\ d_comments (k_doc (fst km)) = []).
  { subst km. repeat match goal with |- context [assign ?k ?p ?s] => destruct (assign_keeps k p s) as [-> ->] end. now split. }
  destruct km as [k media]. cbn [fst] in Kb. destruct Kb as [Kb Kc].
  split_bind H sty s13 Q13. split_bind H nms s14 Q14. split_bind H sets s15 Q15. split_bind H wb s16 Q16. injection H as <- _.
  cbn [op_pkg op_rest op_web op_links o_styles o_numberings o_settings o_custom]. cbn zeta.
  split. { exists (fst dc), (snd dc). split.
    - rewrite <- surjective_pairing. eapply on_text_says; [|exact Q12]. unfold get in Q11. destruct (read_zip a (main_of a)); [|discriminate]. now injection Q11 as -> _.
    - destruct cms as [|x l]; [now rewrite Kc|]. cbn [set_doc k_doc d_body d_comments]. now rewrite Kb. }
  split; [now apply (named_says _ _ _ _ _ _ _ _ _ Rl Q13)|]. split; [now apply (named_says _ _ _ _ _ _ _ _ _ Rl Q14)|].
  split; [now apply (named_says _ _ _ _ _ _ _ _ _ Rl Q15)|]. split; [now apply (named_says _ _ _ _ _ _ _ _ _ Rl Q16)|].
  split; [|now rewrite Rl].
  unfold custom_files. destruct (find_target (office_rel "custom-properties") (package_of a)) as [r|]; [|now injection Q4 as <- _].
  split_bind Q4 o s17 Q17. injection Q4 as <- _. unfold attempt in Q17. match type of Q17 with match ?m with _ => _ end = _ => destruct m as [x sx|sx| | |] eqn:Qx; try discriminate Q17 end.
  - injection Q17 as <- _. left. now apply get_says in Qx.
  - injection Q17 as <- _. now right.
Qed.

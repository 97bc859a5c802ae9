(** C43, on any file: which mark of an extended comment counts. *)
From Coq Require Import NArith ZArith List Bool Lia.
From Verif Require Import Str StrFacts TypesModel Ast DepsModel XmlParser XmlProofs XmlSpec ReadBase ReadProps ReadProg ReadProofs OpenModel OpenText.
Import ListNotations.
Open Scope list_scope.

(** ** Extended comments *)
(** The marks in a text, up to the end of the list. *)
Definition mark_at (e : event) : list comment_ext :=
  match e with
  | EStart q atts =>
      if q_local q =s "commentEx"%string then
        match attr_get "paraId" atts with
        | Some p => [{| ce_para := p; ce_done := match attr_get "done" atts with Some v => negb (is_false v) | None => false end; ce_parent := attr_get "paraIdParent" atts |}]
        | None => []
        end
      else []
  | _ => []
  end.
Fixpoint marks (l : list event) : list comment_ext :=
  match l with
  | [] => []
  | e :: r => match e with
              | EEnd q => if q_local q =s "commentsEx"%string then [] else marks r
              | EDocEnd => []
              | _ => mark_at e ++ marks r
              end
  end.
Definition about (p : string) (x : comment_ext) : bool := ce_para x =s p.
Lemma ext_read : forall l a c r s', part_loop ext_body (fun l => l) a (st l c) = Val r s' -> r = fold_left (fun acc x => put_ext x acc) (marks l) a.
Proof.
  induction l as [|e l IH]; intros a c r s' H; [now injection H as <- _|].
  assert (D : e = EDocEnd \/ e <> EDocEnd) by (destruct e; auto; right; discriminate). destruct D as [->|D]; [now injection H as <- _|].
  rewrite part_loop_step in H by (apply ext_takes || exact D).
  destruct e as [q atts|q|x|x| |]; cbn [ext_body marks mark_at] in *; [| |exact (IH _ _ _ _ H)|exact (IH _ _ _ _ H)|contradiction|discriminate].
  - destruct (q_local q =s "commentEx"%string); [|exact (IH _ _ _ _ H)]. unfold read_comment_ext in H. destruct (attr_get "paraId" atts) as [p|]; [|discriminate].
    cbn [or_crash bind ret] in H. cbn [app fold_left]. eapply IH; eauto.
  - destruct (q_local q =s "commentsEx"%string); cbn [ret] in H; [now injection H as <- _|]. eapply IH; eauto.
Qed.
Lemma put_about x p l : List.find (about p) (put_ext x l) = if about p x then Some x else List.find (about p) l.
Proof.
  induction l as [|y l IH]; cbn [put_ext List.find]; [reflexivity|]. unfold about in *.
  destruct (String.eqb_spec (ce_para y) (ce_para x)) as [E1|E1]; cbn [List.find].
  - rewrite E1. now destruct (ce_para x =s p).
  - rewrite IH. destruct (String.eqb_spec (ce_para y) p) as [E2|E2]; [|reflexivity]. destruct (String.eqb_spec (ce_para x) p); [congruence|reflexivity].
Qed.
Lemma put_paras x l p : In p (map ce_para (put_ext x l)) <-> p = ce_para x \/ In p (map ce_para l).
Proof.
  induction l as [|y l IH]; cbn [put_ext map In]; [intuition congruence|]. destruct (String.eqb_spec (ce_para y) (ce_para x)) as [E1|E1]; cbn [map In]; [intuition congruence|].
  rewrite IH. intuition congruence.
Qed.
Lemma put_nodup x l : NoDup (map ce_para l) -> NoDup (map ce_para (put_ext x l)).
Proof.
  induction l as [|y l IH]; cbn [put_ext map]; intros H; [repeat constructor; intros []|]. inversion H as [|? ? H1 H2]; subst.
  destruct (String.eqb_spec (ce_para y) (ce_para x)) as [E1|E1]; cbn [map]; constructor; try (now rewrite <- E1); auto. rewrite put_paras. intuition congruence.
Qed.
Lemma puts_about p es : forall a, List.find (about p) (fold_left (fun acc x => put_ext x acc) es a) = match List.find (about p) (rev es) with Some x => Some x | None => List.find (about p) a end.
Proof.
  induction es as [|x es IH] using rev_ind; intros a; [reflexivity|]. rewrite fold_left_app, rev_app_distr. cbn [fold_left rev app List.find]. rewrite put_about, IH.
  now destruct (about p x).
Qed.
Lemma puts_nodup es : forall a, NoDup (map ce_para a) -> NoDup (map ce_para (fold_left (fun acc x => put_ext x acc) es a)).
Proof. induction es as [|x es IH]; intros a H; [exact H|]. cbn [fold_left]. apply IH, put_nodup, H. Qed.
(** Whatever the file says: what is read has one mark for a paragraph, the last in the
    file. *)
Theorem last_mark_counts : forall t s ext s', on_text read_comments_ext t s = Val ext s' ->
  NoDup (map ce_para ext) /\ forall p, List.find (about p) ext = List.find (about p) (rev (marks (events_of t))).
Proof.
  intros t s ext s' H. unfold on_text in H. change read_comments_ext with (part_loop ext_body (fun l => l) []) in H.
  destruct (part_loop ext_body _ [] _) as [r s1|s1| | |] eqn:X; try discriminate. injection H as <- _.
  change {| rs_events := events_of t; rs_para := rs_para s |} with (st (events_of t) (rs_para s)) in X. apply ext_read in X. subst r.
  split; [apply puts_nodup; constructor|]. intros p. rewrite puts_about. now destruct (List.find _ (rev _)).
Qed.
Example two_marks : exists ext s', on_text read_comments_ext
  "<w15:commentsEx><w15:commentEx w15:paraId='A' w15:done='0'/><w15:commentEx w15:paraId='B' w15:paraIdParent='A'/><w15:commentEx w15:paraId='A' w15:done='1'/></w15:commentsEx>"
  {| rs_events := []; rs_para := 1 |} = Val ext s' /\ map (fun x => (ce_para x, ce_done x, ce_parent x)) ext = [("A", true, None); ("B", false, Some "A")]%string.
Proof. do 2 eexists. split; vm_compute; reflexivity. Qed.
Print Assumptions last_mark_counts.

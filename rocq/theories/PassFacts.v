From Coq Require Import List.
From Verif Require Import Pass.
Import ListNotations.

Lemma pass_app {A S} (f : A -> S -> option (A * S)) l m s :
  pass f (l ++ m) s = match pass f l s with
                      | None => None
                      | Some (l', s1) => match pass f m s1 with None => None | Some (m', s2) => Some (l' ++ m', s2) end
                      end.
Proof.
  revert s. induction l as [|x l IH]; intros s; cbn [pass app].
  - destruct (pass f m s) as [(? & ?)|]; reflexivity.
  - destruct (f x s) as [(x' & s1)|]; [|reflexivity]. rewrite IH.
    destruct (pass f l s1) as [(l' & s2)|]; [|reflexivity]. destruct (pass f m s2) as [(? & ?)|]; reflexivity.
Qed.

Section Tracks.
  Context {I St : Type} (h : I -> St -> option (I * St)).
  (** [f] transforms [x] as the pass [h] transforms the items [g x], and keeps [w x]. *)
  Definition tracks {A W} (f : A -> St -> option (A * St)) (g : A -> list I) (w : A -> W) (x : A) : Prop :=
    forall s, match f x s with
              | Some (x', s') => pass h (g x) s = Some (g x', s') /\ w x' = w x
              | None => pass h (g x) s = None
              end.
  Lemma tracks_list {A W} f g (w : A -> W) l : Forall (tracks f g w) l -> tracks (pass f) (flat_map g) (map w) l.
  Proof.
    intros H. induction H as [|x l Hx Hl IH]; intros s; cbn [pass flat_map map]; [split; reflexivity|].
    specialize (Hx s). destruct (f x s) as [(x' & s1)|]; rewrite pass_app.
    - destruct Hx as [-> Hw]. specialize (IH s1). destruct (pass f l s1) as [(l' & s2)|].
      + destruct IH as [-> Hw']. split; [reflexivity|]. cbn. congruence.
      + now rewrite IH.
    - now rewrite Hx.
  Qed.
  Lemma tracks_then {A B W V} f g (w : A -> W) (k : A -> B) (f' : B -> St -> option (B * St)) g' (w' : B -> V) y x :
    (forall s, f' y s = then_ (f x s) k) -> g' y = g x -> (forall z, g' (k z) = g z) ->
    (forall z, w z = w x -> w' (k z) = w' y) ->
    tracks f g w x -> tracks f' g' w' y.
  Proof.
    intros Hf Hg Hk Hw H s. rewrite Hf, Hg. specialize (H s). unfold then_.
    destruct (f x s) as [(x' & s')|]; [|exact H]. destruct H as [H1 H2]. rewrite Hk. split; [exact H1|now apply Hw].
  Qed.
  Lemma tracks_visit {A W} (f : A -> St -> option (A * St)) g (w : A -> W) (vc vr : A -> bool) n :
    (forall c, vc c = vr c) -> (forall c c', w c' = w c -> vc c' = vc c) -> tracks f g w n ->
    tracks (fun c s => if vr c then f c s else Some (c, s)) (fun c => if vc c then g c else []) w n.
  Proof.
    intros Hv Hw H s. rewrite <- Hv. destruct (vc n) eqn:E.
    - specialize (H s). destruct (f n s) as [(n' & s')|]; [|exact H].
      destruct H as [H1 H2]. rewrite (Hw n n' H2), E. auto.
    - rewrite E. split; reflexivity.
  Qed.
  Lemma tracks_children {A W} (f : A -> St -> option (A * St)) g (w : A -> W) (vc vr : A -> bool) l :
    (forall c, vc c = vr c) -> (forall c c', w c' = w c -> vc c' = vc c) -> Forall (tracks f g w) l ->
    tracks (pass (fun c s => if vr c then f c s else Some (c, s))) (flat_map (fun c => if vc c then g c else [])) (map w) l.
  Proof.
    intros Hv Hw H. apply tracks_list. eapply Forall_impl; [|exact H]. intros n Hn. now apply tracks_visit.
  Qed.
  Lemma tracks_pair {A B W V} f (g : A -> list I) (w : A -> W) f2 (g2 : B -> list I) (w2 : B -> V) x y :
    tracks f g w x -> tracks f2 g2 w2 y ->
    tracks (fun (p : A * B) s => match f (fst p) s with None => None | Some (a, s1) => then_ (f2 (snd p) s1) (fun b : B => (a, b)) end)
           (fun p => g (fst p) ++ g2 (snd p)) (fun p => (w (fst p), w2 (snd p))) (x, y).
  Proof.
    intros H1 H2 s. cbn [fst snd]. rewrite pass_app. specialize (H1 s). destruct (f x s) as [(a & s1)|]; [|now rewrite H1].
    destruct H1 as [-> Hw]. specialize (H2 s1). unfold then_. destruct (f2 y s1) as [(b & s2)|]; [|now rewrite H2].
    destruct H2 as [-> Hw2]. cbn. split; [reflexivity|congruence].
  Qed.
End Tracks.

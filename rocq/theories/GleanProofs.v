(** Proofs for [GleanProperties]. *)
From Coq Require Import NArith ZArith List Bool Ascii Lia.
From Verif Require Import Str StrFacts JsonModel TsSpec CallSpec OpenModel GleanModel GleanSpec.
Import ListNotations.
Open Scope list_scope.

(** ** base64 *)
Lemma value_digit n : (n < 64)%N -> value64 (digit64 n) = Some n.
Proof.
  intros H. assert (forall k, (k < 64)%nat -> value64 (digit64 (N.of_nat k)) = Some (N.of_nat k)) as G.
  { intros k Hk. do 64 (destruct k as [|k]; [reflexivity|]). lia. }
  rewrite <- (N2Nat.id n). apply G. lia.
Qed.
Lemma byte_below a : (N_of_ascii a < 256)%N.
Proof. apply N_ascii_bounded. Qed.
Ltac Zify.zify_post_hook ::= Z.to_euclidean_division_equations.
Lemma bytes3 a b c : let a' := N_of_ascii a in let b' := N_of_ascii b in let c' := N_of_ascii c in
  bytes 3 (a' / 4 * 262144 + (a' mod 4 * 16 + b' / 16) * 4096 + (b' mod 16 * 4 + c' / 64) * 64 + c' mod 64) = String a (String b (String c "")).
Proof.
  intros a' b' c'. assert (Ha := byte_below a). assert (Hb := byte_below b). assert (Hc := byte_below c). fold a' in Ha. fold b' in Hb. fold c' in Hc.
  replace (_ + c' mod 64)%N with (a' * 65536 + b' * 256 + c')%N by lia. unfold bytes. cbn [substring].
  replace ((a' * 65536 + b' * 256 + c') / 65536)%N with a' by lia. replace ((a' * 65536 + b' * 256 + c') / 256 mod 256)%N with b' by lia.
  replace ((a' * 65536 + b' * 256 + c') mod 256)%N with c' by lia. unfold a', b', c'. now rewrite !ascii_N_embedding.
Qed.
Lemma bytes2 a b : let a' := N_of_ascii a in let b' := N_of_ascii b in
  bytes 2 (a' / 4 * 262144 + (a' mod 4 * 16 + b' / 16) * 4096 + b' mod 16 * 4 * 64) = String a (String b "").
Proof.
  intros a' b'. assert (Ha := byte_below a). assert (Hb := byte_below b). fold a' in Ha. fold b' in Hb.
  replace (_ + b' mod 16 * 4 * 64)%N with (a' * 65536 + b' * 256)%N by lia. unfold bytes. cbn [substring].
  replace ((a' * 65536 + b' * 256) / 65536)%N with a' by lia. replace ((a' * 65536 + b' * 256) / 256 mod 256)%N with b' by lia.
  unfold a', b'. now rewrite !ascii_N_embedding.
Qed.
Lemma bytes1 a : let a' := N_of_ascii a in bytes 1 (a' / 4 * 262144 + a' mod 4 * 16 * 4096) = String a "".
Proof.
  intros a'. assert (Ha := byte_below a). fold a' in Ha.
  replace (_ + a' mod 4 * 16 * 4096)%N with (a' * 65536)%N by lia. unfold bytes. cbn [substring].
  replace (a' * 65536 / 65536)%N with a' by lia. unfold a'. now rewrite !ascii_N_embedding.
Qed.
Lemma decode_encode_upto n : forall s, (String.length s <= n)%nat -> decode64 (encode64 s) = Some s.
Proof.
  induction n as [|n IH]; intros s H; [destruct s; [reflexivity | cbn in H; lia]|].
  destruct s as [|a [|b [|c r]]]; [reflexivity| | |]; cbn [encode64 decode64]; assert (Ha := byte_below a).
  - rewrite !value_digit by lia. cbn -[bytes]. f_equal. apply bytes1.
  - assert (Hb := byte_below b). rewrite !value_digit by lia. cbn -[bytes]. f_equal. apply bytes2.
  - assert (Hb := byte_below b). assert (Hc := byte_below c). rewrite !value_digit by lia. rewrite IH by (cbn in H; lia). cbn [option_map]. now rewrite bytes3.
Qed.
Lemma decode_encode s : decode64 (encode64 s) = Some s.
Proof. exact (decode_encode_upto _ s (le_n _)). Qed.

(** ** JSON *)
Fixpoint div_size (d : div) : nat := match d with Div _ _ _ _ _ ch => S (list_sum (map div_size ch)) end.
Lemma div_in d ch : In d ch -> (div_size d <= list_sum (map div_size ch))%nat.
Proof. unfold list_sum. induction ch as [|c ch IH]; [easy|]. cbn. intros [->|I]; [lia | specialize (IH I); lia]. Qed.
Lemma each_told {A} (told : json -> A -> Prop) (j : A -> json) l : (forall x, In x l -> told (j x) x) -> Forall2 told (map j l) l.
Proof. induction l as [|x l IH]; intros H; constructor; [apply H; now left | apply IH; intros y I; apply H; now right]. Qed.
Lemma div_tells_upto n : forall d, (div_size d <= n)%nat -> div_told (j_div d) d.
Proof.
  induction n as [|n IH]; intros [i l r t b ch] H; cbn [div_size] in H; [lia|].
  apply told_div with (vs := map j_div ch); try reflexivity. apply each_told. intros x I. apply IH. apply div_in in I. lia.
Qed.
Lemma div_tells d : div_told (j_div d) d.
Proof. exact (div_tells_upto _ d (le_n _)). Qed.
Lemma theme_tells t : theme_told (j_theme t) t.
Proof. split; (repeat split; eexists; split; [reflexivity|]; apply each_told; intros x _; split; reflexivity). Qed.
Lemma image_tells i : image_told (j_image i) i.
Proof. do 2 eexists. split; [reflexivity|]. split; apply decode_encode. Qed.
Lemma link_tells l : link_told (j_link l) l.
Proof. destruct l as [[? ?] ?]. reflexivity. Qed.
Lemma opened_tells others op : opened_told (j_opened others op) op.
Proof.
  split; eexists; (split; [reflexivity|]); apply each_told; intros x _; [apply div_tells | apply theme_tells | apply image_tells | apply link_tells].
Qed.

(** ** Only one thing is told. *)
Lemma each_one {A} (told : json -> A -> Prop) vs : forall l m, (forall v x y, In x l -> told v x -> told v y -> x = y) ->
  Forall2 told vs l -> Forall2 told vs m -> l = m.
Proof.
  induction vs as [|v vs IH]; intros l m U L M; inversion L; subst; inversion M; subst; [reflexivity|].
  f_equal; [eapply U; [now left | eassumption | eassumption] | apply IH; try assumption; intros; eapply U; [right | |]; eassumption].
Qed.
Lemma each_one_at {A} (told : json -> A -> Prop) path v l m : (forall v x y, In x l -> told v x -> told v y -> x = y) ->
  tells_each told path v l -> tells_each told path v m -> l = m.
Proof. intros U (vs & A1 & L) (vs' & A2 & M). assert (vs = vs') as <- by congruence. exact (each_one told vs l m U L M). Qed.
Lemma word_one p v a b : tells_word p v a -> tells_word p v b -> a = b.
Proof. unfold tells_word. congruence. Qed.
Lemma number_one p v a b : tells_number p v a -> tells_number p v b -> a = b.
Proof. unfold tells_number. intros A B. assert (Z.of_N a = Z.of_N b) by congruence. lia. Qed.
Lemma div_one_upto n : forall d v e, (div_size d <= n)%nat -> div_told v d -> div_told v e -> d = e.
Proof.
  induction n as [|n IH]; intros d v e H D E; [destruct d; cbn in H; lia|]. inversion D; subst. inversion E; subst. cbn [div_size] in H.
  f_equal; try (eapply word_one; eassumption); try (eapply number_one; eassumption).
  match goal with A : at_ _ v = Some (JArr ?x), B : at_ _ v = Some (JArr ?y) |- _ => assert (x = y) as -> by congruence end.
  eapply each_one; [|eassumption|eassumption]. intros w x y I. apply IH. apply div_in in I. lia.
Qed.
Lemma group_one p v f g : group_told p v f -> group_told p v g -> f = g.
Proof.
  destruct f as [a b c l], g as [a' b' c' l']. intros (A & B & C & L) (A' & B' & C' & L'). cbn in *.
  f_equal; try (eapply word_one; eassumption). eapply each_one_at; [|eassumption|eassumption].
  intros w [x y] [x' y'] _ [X Y] [X' Y']. cbn in *. f_equal; eapply word_one; eassumption.
Qed.
Lemma theme_one v t u : theme_told v t -> theme_told v u -> t = u.
Proof. destruct t, u. intros [A B] [A' B']. f_equal; eapply group_one; eassumption. Qed.
Lemma image_one v i j : image_told v i -> image_told v j -> i = j.
Proof. destruct i as [a b c d], j as [a' b' c' d']. intros (x & y & -> & X & Y) (x' & y' & E & X' & Y'). cbn in *. injection E as <- <- <- <-. f_equal; congruence. Qed.
Lemma link_one v l m : link_told v l -> link_told v m -> l = m.
Proof. destruct l as [[a b] c], m as [[a' b'] c']. cbn. congruence. Qed.
Lemma opened_one v a b : opened_told v a -> opened_told v b ->
  op_web a = op_web b /\ op_themes a = op_themes b /\ op_images a = op_images b /\ op_links a = op_links b.
Proof.
  intros [A1 A2 A3 A4] [B1 B2 B3 B4].
  repeat split; (eapply each_one_at; [|eassumption|eassumption]); intros w x y _; [apply div_one_upto with (n := div_size x), le_n | apply theme_one | apply image_one | apply link_one].
Qed.

(** Built styles, numberings and settings are well-formed XML just when the stored
    strings are legal. *)
From Coq Require Import NArith ZArith List Bool Lia.
From Verif Require RoundStyle.
From Verif Require Import Str StrFacts TypesModel Props Ast IdsModel EscapeModel WriterModel XmlParser XmlSpec
  BuildModel BuildSpec BuildProofs BuildPartProofs VocabSpec VocabProofs WellSpec WellProofs WellPartProofs StyleModel StyleSpec.
Import ListNotations.

Section Spelling.
Variable P : piece -> Prop.
Hypothesis plain_value : forall s, plain s = true -> P (Value s).
Notation means := (means P). Notation values := (values P). Notation yields := (yields P).
Ltac str :=
  cbn [fst snd]; first [reflexivity | apply plain_N | apply plain_Z
    | match goal with |- plain (_ ?v) = true => destruct v; reflexivity end ].
Ltac vals1 :=
  first
  [ apply values_nil
  | apply values_cons; [reflexivity|]
  | apply values_skip1; [exact plain_value | reflexivity | str |] ].
Ltac vals := solve [repeat vals1].
Lemma still n a : elem_name_ok n = true -> values a [] -> means [leaf n a] [].
Proof. apply means_none. Qed.
Lemma number n v : elem_name_ok n = true -> means [valued_n n v] [].
Proof. intros H. apply still; [exact H | vals]. Qed.
Lemma optional n o : elem_name_ok n = true -> means (opt (valued n) o) (value_of o).
Proof. intros H. apply (means_opt P _ _ (fun s => [Value s])). intros a. now apply means_valued. Qed.
Lemma flag b n : elem_name_ok n = true -> means (on b [leaf n []]) [].
Proof. intros H. apply means_on. apply still; [exact H | vals]. Qed.
Lemma means_perm l m m' : (Forall P m <-> Forall P m') -> means l m -> means l m'.
Proof. intros H X. unfold WellProofs.means in *. tauto. Qed.
Lemma yields_style y : yields (b_style y) (in_style y).
Proof.
  intros s a s' H. unfold b_style in H. apply bind_inv in H as (r & s1 & Hr & H). apply bind_inv in H as (p & s2 & Hp & H). injection H as <- <-.
  pose proof (yields_rpr P plain_value _ _ _ _ Hr) as M1. pose proof (yields_ppr P plain_value _ _ _ _ Hp) as M2.
  apply means_perm with (m := [Value (sty_id y)] ++ [Value (sty_name y)] ++ in_rpr (sty_rpr y) ++ in_ppr (sty_ppr y) ++
    (if is_table (sty_type y) then in_tcpr (sty_tcpr y) ++ in_tblpr (sty_tblpr y) else []) ++
    value_of (sty_next y) ++ value_of (sty_link y) ++ value_of (sty_based_on y)); [reflexivity|].
  apply means_E; [reflexivity | vals |].
  apply means_cons; [now apply means_valued|]. apply means_app; [exact M1|]. apply means_app; [exact M2|]. apply means_app.
  { destruct (sty_type y); cbn [is_table]; try apply means_nil. apply means_cons; [now apply means_tcpr | now apply means_tblpr]. }
  apply means_app; [now apply optional|]. apply means_app; [now apply optional|].
  apply means_skip; [now apply flag|]. apply means_skip; [apply means_opt0; intros; now apply number|].
  apply means_skip; [now apply flag|]. apply means_skip; [now apply flag|]. now apply optional.
Qed.
Lemma in_normal : Forall P (in_style style_normal).
Proof. unfold in_style, style_normal. cbn. repeat constructor; now apply plain_value. Qed.
Lemma spelled_styles t s x s' : b_styles t s = Some (x, s') -> (spelled P x <-> Forall P (in_styles t)).
Proof.
  intros H. unfold b_styles in H. apply bind_inv in H as (d & s1 & Hd & H). apply bind_inv in H as (n & s2 & Hn & H).
  apply bind_inv in H as (l & s3 & Hl & H). injection H as <- <-.
  unfold b_doc_defaults in Hd. apply bind_inv in Hd as (r & s4 & Hr & Hd). apply bind_inv in Hd as (p & s5 & Hp & Hd). injection Hd as <- <-.
  assert (M : means [E "w:styles" styles_attrs ([E "w:docDefaults" [] [E "w:rPrDefault" [] r; E "w:pPrDefault" [] p]] ++ n ++ l)]
    ([] ++ (in_rpr (ss_rpr t) ++ in_ppr (ss_ppr t)) ++ in_style style_normal ++ flat_map in_style (ss_list t))).
  { apply means_E; [reflexivity | vals |]. apply means_app.
    - apply means_E0; [reflexivity|]. apply means_cons; (apply means_E0; [reflexivity|]);
        [exact (yields_rpr P plain_value _ _ _ _ Hr) | exact (yields_ppr P plain_value _ _ _ _ Hp)].
    - apply means_app; [exact (yields_style _ _ _ _ Hn)|]. revert Hl. apply yields_each. apply Forall_forall. intros y _. apply yields_style. }
  unfold WellProofs.means in M. cbn [all_spelled fold_right app] in M. unfold in_styles. rewrite !Forall_app in *. pose proof in_normal. tauto.
Qed.
Lemma yields_level l : yields (b_level l) (in_level l).
Proof.
  intros s a s' H. unfold b_level in H. apply bind_inv in H as (p & s1 & Hp & H). apply bind_inv in H as (r & s2 & Hr & H). injection H as <- <-.
  pose proof (yields_rpr P plain_value _ _ _ _ Hr) as M1. pose proof (yields_ppr P plain_value _ _ _ _ Hp) as M2.
  apply means_perm with (m := [] ++ [Value (lv_format l)] ++ [Value (lv_text l)] ++ [Value (lv_jc l)] ++ in_ppr (lv_ppr l) ++ in_rpr (lv_rpr l) ++ value_of (lv_pstyle l)); [reflexivity|].
  apply means_E; [reflexivity | vals |].
  apply means_skip1; [now apply number|]. do 3 (apply means_cons; [now apply means_valued|]). apply means_app; [exact M2|]. apply means_app; [exact M1|].
  apply means_then; [now apply optional|]. apply means_skip; [apply means_opt0; intros; now apply number|]. apply means_skip; [now apply flag|].
  destruct (lv_suffix l); try apply means_nil; (apply still; [reflexivity | vals]).
Qed.
Lemma yields_abstract a : yields (b_abstract a) (in_abstract a).
Proof.
  intros s x s' H. unfold b_abstract in H. apply bind_inv in H as (l & s1 & Hl & H). injection H as <- <-.
  apply (means_E P _ _ _ [] (in_abstract a)); [reflexivity | vals |]. apply means_app; [now apply optional|].
  revert Hl. apply yields_each. apply Forall_forall. intros y _. apply yields_level.
Qed.
Lemma yields_num n : yields (b_num n) (in_num n).
Proof.
  intros s x s' H. unfold b_num in H. apply bind_inv in H as (l & s1 & Hl & H). injection H as <- <-.
  apply (means_E P _ _ _ [] (in_num n)); [reflexivity | vals |]. apply means_skip1; [now apply number|].
  revert Hl. apply yields_each. apply Forall_forall. intros o _ t y t' Ho. unfold b_override in Ho. apply bind_inv in Ho as (z & s2 & Hz & Ho). injection Ho as <- <-.
  apply (means_E P _ _ _ [] _); [reflexivity | vals |]. apply means_then; [|apply means_opt0; intros; now apply number].
  destruct (ov_replace o) as [v|]; [exact (yields_level v _ _ _ Hz) | injection Hz as <- <-; apply means_nil].
Qed.
Lemma in_default : Forall P (in_abstract default_abstract).
Proof. unfold in_abstract, default_abstract. cbn. repeat constructor; now apply plain_value. Qed.
Lemma spelled_numberings t s x s' : b_numberings t s = Some (x, s') -> (spelled P x <-> Forall P (in_numberings t)).
Proof.
  intros H. unfold b_numberings in H. apply bind_inv in H as (d & s1 & Hd & H). apply bind_inv in H as (a & s2 & Ha & H).
  apply bind_inv in H as (e & s3 & He & H). apply bind_inv in H as (n & s4 & Hn & H). injection H as <- <-.
  assert (M : means [E "w:numbering" numbering_attrs (d ++ a ++ e ++ n)]
    ([] ++ in_abstract default_abstract ++ flat_map in_abstract (ns_abstracts t) ++ in_num default_num ++ flat_map in_num (ns_nums t))).
  { apply means_E; [reflexivity | vals |]. apply means_app; [exact (yields_abstract _ _ _ _ Hd)|]. apply means_app.
    - revert Ha. apply yields_each. apply Forall_forall. intros y _. apply yields_abstract.
    - apply means_app; [exact (yields_num _ _ _ _ He)|]. revert Hn. apply yields_each. apply Forall_forall. intros y _. apply yields_num. }
  unfold WellProofs.means in M. cbn [all_spelled fold_right app] in M. unfold in_numberings. rewrite !Forall_app in *. pose proof in_default.
  assert (Forall P (in_num default_num)) by constructor. tauto.
Qed.
Definition in_settings0 (c : settings) : list piece :=
  if_set (fun i => [Value ("{" +++ i +++ "}")]) (cfg_doc_id c) ++ flat_map (fun v => [Value (fst v); Value (snd v)]) (cfg_vars c).
Lemma spelled_settings c : spelled P (x_settings c) <-> Forall P (in_settings0 c).
Proof.
  assert (M : means [x_settings c] ([] ++ in_settings0 c)).
  { unfold x_settings. apply means_E; [reflexivity | vals |]. unfold in_settings0.
    apply means_skip; [now apply number|]. apply means_skip; [apply still; [reflexivity | vals]|]. apply means_skip.
    { apply means_E0; [reflexivity|]. apply means_skip; [repeat (apply means_skip1; [apply still; [reflexivity | vals]|]); apply means_nil|].
      apply means_skip; [apply means_opt0; intros v; apply still; [reflexivity | vals]|]. apply means_skip; [now apply flag|].
      repeat (apply means_skip1; [apply still; [reflexivity | vals]|]); apply means_nil. }
    apply means_app; [apply means_opt; intros i; apply means_leaf; [reflexivity | vals]|]. apply means_then; [|now apply flag].
    destruct (cfg_vars c) as [|v l]; [apply means_nil|]. apply means_E0; [reflexivity|]. generalize (v :: l). clear v l. intros l.
    induction l as [|v l IH]; [apply means_nil|]. cbn [map flat_map]. apply means_cons; [apply means_leaf; [reflexivity | vals] | exact IH]. }
  unfold WellProofs.means in M. cbn [all_spelled fold_right app] in M. tauto.
Qed.
End Spelling.

(** ** No attribute twice *)
Ltac new1 := unfold once; apply distinct_NoDup; vm_compute; reflexivity.
Lemma once_rpr r : always once (b_rpr r).
Proof. apply always_rpr; auto using known_once. Qed.
Lemma once_ppr r : always once (b_ppr r).
Proof. apply always_ppr; auto using known_once. Qed.
Lemma once_opt n o : every once (opt (valued n) o).
Proof. apply every_opt. intros a. apply every_leaf. new1. Qed.
Lemma once_optn n o : every once (opt (valued_n n) o).
Proof. apply every_opt. intros a. apply every_leaf. new1. Qed.
Lemma once_flag b n : every once (on b [leaf n []]).
Proof. apply every_on, every_leaf. new1. Qed.
Ltac both := apply every_app; split.
Lemma once_style y : always once (b_style y).
Proof.
  intros s a s' H. unfold b_style in H. apply bind_inv in H as (r & s1 & Hr & H). apply bind_inv in H as (p & s2 & Hp & H). injection H as <- <-.
  apply every_E; [new1|]. apply every_cons. split; [apply every_leaf; new1|]. both; [exact (once_rpr _ _ _ _ Hr)|]. both; [exact (once_ppr _ _ _ _ Hp)|].
  both. { destruct (sty_type y); try apply every_nil. apply every_cons. split; [apply every_tcpr | apply every_tblpr]; auto using known_once. }
  both; [apply once_opt|]. both; [apply once_opt|]. both; [apply once_flag|]. both; [apply once_optn|]. both; [apply once_flag|]. both; [apply once_flag|]. apply once_opt.
Qed.
Lemma styles_once t s x s' : b_styles t s = Some (x, s') -> Forall once (elements x).
Proof.
  intros H. unfold b_styles in H. apply bind_inv in H as (d & s1 & Hd & H). apply bind_inv in H as (n & s2 & Hn & H).
  apply bind_inv in H as (l & s3 & Hl & H). injection H as <- <-.
  unfold b_doc_defaults in Hd. apply bind_inv in Hd as (r & s4 & Hr & Hd). apply bind_inv in Hd as (p & s5 & Hp & Hd). injection Hd as <- <-.
  cbn [elements]. constructor; [new1|]. fold (every once ([E "w:docDefaults" [] [E "w:rPrDefault" [] r; E "w:pPrDefault" [] p]] ++ n ++ l)). both.
  - apply every_E; [new1|]. apply every_cons. split; (apply every_E; [new1|]); [exact (once_rpr _ _ _ _ Hr) | exact (once_ppr _ _ _ _ Hp)].
  - both; [exact (once_style _ _ _ _ Hn)|]. revert Hl. apply each_once. apply once_style.
Qed.
Lemma once_level y : always once (b_level y).
Proof.
  intros s a s' H. unfold b_level in H. apply bind_inv in H as (p & s1 & Hp & H). apply bind_inv in H as (r & s2 & Hr & H). injection H as <- <-.
  apply every_E; [new1|]. do 4 (apply every_cons; split; [apply every_leaf; new1|]). both; [exact (once_ppr _ _ _ _ Hp)|]. both; [exact (once_rpr _ _ _ _ Hr)|].
  both; [apply once_opt|]. both; [apply once_optn|]. both; [apply once_flag|]. destruct (lv_suffix y); try apply every_nil; apply every_leaf; new1.
Qed.
Lemma once_abstract y : always once (b_abstract y).
Proof.
  intros s a s' H. unfold b_abstract in H. apply bind_inv in H as (l & s1 & Hl & H). injection H as <- <-. apply every_E; [new1|].
  both; [apply once_opt|]. revert Hl. apply each_once, once_level.
Qed.
Lemma once_num y : always once (b_num y).
Proof.
  intros s a s' H. unfold b_num in H. apply bind_inv in H as (l & s1 & Hl & H). injection H as <- <-. apply every_E; [new1|].
  apply every_cons. split; [apply every_leaf; new1|]. revert Hl. apply each_once. intros o t z t' Ho.
  unfold b_override in Ho. apply bind_inv in Ho as (v & s2 & Hv & Ho). injection Ho as <- <-. apply every_E; [new1|].
  both; [|apply once_optn]. destruct (ov_replace o) as [u|]; [exact (once_level _ _ _ _ Hv) | injection Hv as <- <-; apply every_nil].
Qed.
Lemma numberings_once t s x s' : b_numberings t s = Some (x, s') -> Forall once (elements x).
Proof.
  intros H. unfold b_numberings in H. apply bind_inv in H as (d & s1 & Hd & H). apply bind_inv in H as (a & s2 & Ha & H).
  apply bind_inv in H as (e & s3 & He & H). apply bind_inv in H as (n & s4 & Hn & H). injection H as <- <-.
  cbn [elements]. constructor; [new1|]. fold (every once (d ++ a ++ e ++ n)). both; [exact (once_abstract _ _ _ _ Hd)|].
  both; [revert Ha; apply each_once, once_abstract|]. both; [exact (once_num _ _ _ _ He)|]. revert Hn. apply each_once, once_num.
Qed.
Lemma settings_once c : Forall once (elements (x_settings c)).
Proof.
  unfold x_settings. cbn [elements]. constructor; [new1|].
  match goal with |- Forall once (flat_map elements ?l) => change (every once l) end.
  both; [apply every_leaf; new1|]. both; [apply every_leaf; new1|]. both.
  { apply every_E; [new1|]. both; [repeat (apply every_cons; split; [apply every_leaf; new1|]); apply every_nil|].
    both; [apply every_opt; intros v; apply every_leaf; new1|]. both; [apply once_flag|].
    repeat (apply every_cons; split; [apply every_leaf; new1|]); apply every_nil. }
  both; [apply every_opt; intros i; apply every_leaf; new1|]. both; [|apply once_flag].
  destruct (cfg_vars c) as [|v l]; [apply every_nil|]. apply every_E; [new1|]. apply every_map. intros w. apply every_leaf. new1.
Qed.

(** ** The parts *)
Lemma bare_readable x : (exists evs, doc_reported (xcalls x) = Some evs) <-> spelled readable x.
Proof.
  assert (X : doc_reported (xcalls x) = reported [] "" (xcalls x ++ [])) by (rewrite app_nil_r; now destruct x).
  rewrite X. fold (def (reported [] "" (xcalls x ++ []))). rewrite def_reported.
  cbn [reported]. rewrite def_report. assert (readable (Content "")) by (now apply readable_content). tauto.
Qed.
Lemma styles_well t s x s' : b_styles t s = Some (x, s') ->
  ((exists evs, doc_reported (xcalls x) = Some evs) <-> Forall readable (in_styles t)) /\
  (well_formed_xml x <-> Forall legal (in_styles t)).
Proof.
  intros H. rewrite bare_readable. split; [exact (spelled_styles readable readable_value t s x s' H)|].
  rewrite <- (spelled_styles legal legal_value t s x s' H). apply well_formed_spelled; [exact (styles_once _ _ _ _ H)|].
  apply (spelled_styles (fun _ => True) (fun _ _ => I) t s x s' H). apply Forall_I.
Qed.
Lemma numberings_well t s x s' : b_numberings t s = Some (x, s') ->
  ((exists evs, doc_reported (part_calls x) = Some evs) <-> Forall readable (in_numberings t)) /\
  (well_formed_xml x <-> Forall legal (in_numberings t)).
Proof.
  intros H. apply well_by_pieces; [|exact (numberings_once _ _ _ _ H)]. intros P (H1 & _). exact (spelled_numberings P H1 t s x s' H).
Qed.
Lemma text_closed s : forall ref, text_meaning ref (s +++ "}") = option_map (fun t => t +++ "}") (text_meaning ref s).
Proof.
  induction s as [|c s IH]; intros [ref|]; try reflexivity.
  - cbn [append text_meaning]. destruct (c =c ";"%char).
    + rewrite IH. destruct (resolve_ref ref) as [t|]; [|reflexivity]. destruct (text_meaning None s) as [u|]; [|reflexivity].
      cbn [option_map]. now rewrite append_assoc.
    + destruct ((c =c ch_amp) || (c =c ch_lt)); [reflexivity | apply IH].
  - cbn [append text_meaning]. destruct (c =c ch_lt); [reflexivity|]. destruct (c =c ch_amp); [apply IH|]. destruct (c =c ch_cr).
    + destruct s as [|e s]; [reflexivity|]. cbn [append]. cbn [append] in IH.
      destruct (e =c ch_nl); rewrite IH; [reflexivity|]. destruct (text_meaning None (String e s)); reflexivity.
    + rewrite IH. destruct (text_meaning None s); reflexivity.
Qed.
Lemma quote_braces i : has_char ch_quot ("{" +++ i +++ "}") = has_char ch_quot i.
Proof.
  change (has_char ch_quot (i +++ "}") = has_char ch_quot i). induction i as [|c i IH]; [reflexivity|]. cbn [append has_char]. now rewrite IH.
Qed.
Lemma def_map_iff A B (f : A -> B) o : (exists b, option_map f o = Some b) <-> exists a, o = Some a.
Proof. apply (def_map A B f o). Qed.
Lemma legal_braces i : legal (Value ("{" +++ i +++ "}")) <-> legal (Value i).
Proof.
  cbn [legal]. rewrite quote_braces. change (text_meaning None ("{" +++ i +++ "}")) with (option_map (String "{"%char) (text_meaning None (i +++ "}"))).
  now rewrite def_map_iff, text_closed, def_map_iff.
Qed.
Lemma readable_braces i : readable (Value ("{" +++ i +++ "}")) <-> readable (Value i).
Proof.
  cbn [readable]. rewrite quote_braces. change (decode_attr None ("{" +++ i +++ "}")) with (option_map (String "{"%char) (decode_attr None (i +++ "}"))).
  now rewrite def_map_iff, RoundStyle.decode_closed, def_map_iff.
Qed.
Lemma settings_pieces (P : piece -> Prop) c : (forall i, P (Value ("{" +++ i +++ "}")) <-> P (Value i)) ->
  (Forall P (in_settings0 c) <-> Forall P (in_settings c)).
Proof.
  intros H. unfold in_settings0, in_settings. rewrite !Forall_app. destruct (cfg_doc_id c) as [i|]; [|reflexivity].
  cbn [if_set value_of]. rewrite !Forall_cons_iff, H. reflexivity.
Qed.
Lemma settings_well c :
  ((exists evs, doc_reported (part_calls (x_settings c)) = Some evs) <-> Forall readable (in_settings c)) /\
  (well_formed_xml (x_settings c) <-> Forall legal (in_settings c)).
Proof.
  rewrite <- (settings_pieces readable c readable_braces), <- (settings_pieces legal c legal_braces).
  apply well_by_pieces; [|exact (settings_once c)]. intros P (H1 & _). exact (spelled_settings P H1 c).
Qed.

(** The remaining parts are well-formed XML just when their strings are legal. *)
From Coq Require Import NArith ZArith List Bool Lia.
From Verif Require RoundStyle WellStyle.
From Verif Require Import Str StrFacts TypesModel Props Ast IdsModel EscapeModel WriterModel XmlParser XmlSpec
  BuildModel BuildSpec BuildProofs BuildPartProofs VocabSpec VocabProofs WellSpec WellProofs WellPartProofs DepsModel PackModel RenderModel RestSpec.
Import ListNotations.
Import WellStyle (still).

Section Spelling.
Variable P : piece -> Prop.
Hypothesis plain_value : forall s, plain s = true -> P (Value s).
Hypothesis plain_content : forall s, plain s = true -> P (Content s).
Notation means := (means P). Notation values := (values P).
Ltac str := cbn [fst snd]; first [reflexivity | apply plain_N | match goal with |- plain (_ ?v) = true => destruct v; reflexivity end ].
Ltac vals1 :=
  first
  [ apply values_nil
  | apply values_skip1; [exact plain_value | reflexivity | solve [str] |]
  | apply values_cons; [reflexivity|] ].
Ltac vals := solve [repeat vals1].
Lemma means_map A (f : A -> xml) g l : (forall a, means [f a] (g a)) -> means (map f l) (flat_map g l).
Proof. intros H. induction l; [apply means_nil | apply means_cons; auto]. Qed.
Lemma means_one x m : means [x] m -> (spelled P x <-> Forall P m).
Proof. unfold WellProofs.means. cbn [all_spelled fold_right]. tauto. Qed.
Lemma still_map A (f : A -> xml) l : (forall a, means [f a] []) -> means (map f l) [].
Proof. apply means_map0. Qed.
Lemma means_text n s : elem_name_ok n = true -> means [x_text n s] [Content s].
Proof. intros H. apply means_L; [exact H | constructor | rewrite Forall_cons_iff; intuition]. Qed.
Lemma means_plain n s : elem_name_ok n = true -> plain s = true -> means [x_text n s] [].
Proof. intros H Hs. apply means_L; [exact H | constructor |]. split; auto. Qed.

Lemma spelled_types t : spelled P (x_types t) <-> Forall P (in_types t).
Proof.
  apply means_one. apply (means_E P _ _ _ []); [reflexivity | vals |]. apply means_skip.
  - repeat (apply means_skip1; [apply still; [reflexivity | vals]|]). apply means_nil.
  - apply means_map. intros [p c]. apply means_leaf; [reflexivity | vals].
Qed.
Lemma means_rel i t g : means [x_rel i t g] [Value i; Value t; Value g].
Proof. apply means_leaf; [reflexivity | vals]. Qed.
Lemma spelled_rels l m : means l m -> (spelled P (x_rels l) <-> Forall P m).
Proof. intros H. apply means_one. apply (means_E P _ _ _ []); [reflexivity | vals | exact H]. Qed.
Lemma spelled_package_rels l : spelled P (x_package_rels l) <-> Forall P (in_package_rels l).
Proof. apply spelled_rels, means_map. intros r. apply means_rel. Qed.
Lemma plain_rel i t g : plain i = true -> plain t = true -> plain g = true -> means [x_rel i t g] [].
Proof.
  intros H1 H2 H3. apply still; [reflexivity|]. apply values_skip1; [exact plain_value | reflexivity | exact H1 |].
  apply values_skip1; [exact plain_value | reflexivity | exact H2 |]. apply values_skip1; [exact plain_value | reflexivity | exact H3 |]. apply values_nil.
Qed.
Lemma means_image i g : means [x_rel i (office_rel "image") g] [Value i; Value g].
Proof. apply means_leaf; [reflexivity|]. apply values_cons; [reflexivity|]. apply values_skip1; [exact plain_value | reflexivity | reflexivity |]. vals. Qed.
Lemma spelled_part_rels l : spelled P (x_part_rels l) <-> Forall P (in_part_rels l).
Proof. apply spelled_rels. apply (means_map _ (fun im : string * string => x_rel (fst im) (office_rel "image") (snd im))). intros r. apply means_image. Qed.
Lemma plain_numbered a n b : plain a = true -> plain b = true -> plain (a +++ show_N n +++ b) = true.
Proof. intros Ha Hb. now rewrite !plain_app, Ha, Hb, plain_N. Qed.
Lemma spelled_doc_rels r : spelled P (x_doc_rels r) <-> Forall P (in_doc_rels r).
Proof.
  apply spelled_rels. apply means_app.
  - unfold written_rels, unlinked. rewrite !map_app. cbn [r_comments r_numberings r_footnotes r_images r_links r_custom r_headers r_footers map].
    apply means_skip; [repeat (apply means_skip1; [apply plain_rel; reflexivity|]); apply means_nil|].
    apply means_skip; [destruct (r_comments r); [apply plain_rel; reflexivity | apply means_nil]|].
    apply means_skip; [destruct (r_numberings r); [apply plain_rel; reflexivity | apply means_nil]|].
    apply means_skip; [destruct (r_footnotes r); [apply plain_rel; reflexivity | apply means_nil]|].
    rewrite !map_map. cbn [rel_id rel_kind rel_target mk_rel].
    apply means_skip; [apply still_map; intros i; apply plain_rel; [unfold header_rid; rewrite plain_app; apply plain_N | reflexivity | now apply plain_numbered]|].
    apply means_skip; [apply still_map; intros i; apply plain_rel; [unfold footer_rid; rewrite plain_app; apply plain_N | reflexivity | now apply plain_numbered]|].
    apply means_skip; [apply still_map; intros i; apply plain_rel; [rewrite plain_app; apply plain_N | reflexivity | now apply plain_numbered]|].
    rewrite app_nil_r. apply (means_map _ (fun im : string * string => x_rel (fst im) (doc_rel_type "image") (snd im))). intros a. apply means_image.
  - apply means_map. intros l. apply means_leaf; [reflexivity|]. apply values_cons; [reflexivity|].
    apply values_skip1; [exact plain_value | reflexivity | reflexivity |]. vals.
Qed.
Lemma spelled_core c : spelled P (x_core c) <-> Forall P (in_core c).
Proof.
  apply means_one. apply (means_E P _ _ _ []); [reflexivity | vals |].
  assert (W : forall n s, elem_name_ok n = true -> means [L n [("xsi:type", "dcterms:W3CDTF")]%string [s]] [Content s]).
  { intros n s H. apply means_L; [exact H | constructor; [split; [reflexivity | now apply plain_value] | constructor] | rewrite Forall_cons_iff; intuition]. }
  assert (C : forall o d n, elem_name_ok n = true -> plain d = true -> means [x_text n (or_else d o)] (content_of o)).
  { intros [s|] d n Hn Hd; [now apply means_text | now apply means_plain]. }
  assert (D : forall o d n, elem_name_ok n = true -> plain d = true -> means [L n [("xsi:type", "dcterms:W3CDTF")]%string [or_else d o]] (content_of o)).
  { intros [s|] d n Hn Hd; [now apply W|]. cbn [or_else content_of if_set]. apply means_L; [exact Hn | constructor; [split; [reflexivity | now apply plain_value] | constructor] |]. split; auto. }
  assert (O : forall o n, elem_name_ok n = true -> means (opt (x_text n) o) (content_of o)) by (intros [s|] n Hn; [now apply means_text | apply means_nil]).
  unfold in_core. cbn [app].
  apply means_cons; [now apply D|]. apply means_cons; [now apply C|]. apply means_cons; [now apply C|]. apply means_cons; [now apply D|].
  apply means_skip1; [apply means_plain; [reflexivity | apply plain_N]|].
  apply means_app; [now apply O|]. apply means_app; [now apply O|]. apply means_app; now apply O.
Qed.
Lemma spelled_custom l : spelled P (x_custom l) <-> Forall P (in_custom l).
Proof.
  apply means_one. apply (means_E P _ _ _ []); [reflexivity | vals |]. generalize 2%N as i. induction l as [|e l IH]; intros i; [apply means_nil|].
  cbn [x_custom_from]. unfold in_custom. cbn [flat_map]. apply means_cons; [|apply IH]. apply (means_E P _ _ _ [Value (fst e)]); [reflexivity | | now apply means_text].
  apply values_skip1; [exact plain_value | reflexivity | reflexivity |]. apply values_skip1; [exact plain_value | reflexivity | apply plain_N |]. vals.
Qed.
Lemma spelled_ext l : spelled P (x_comments_ext l) <-> Forall P (in_ext l).
Proof.
  apply means_one. apply (means_E P _ _ _ []); [reflexivity | vals |]. apply means_map. intros [p d o]. unfold x_comment_ext. cbn [ce_para ce_done ce_parent].
  apply means_leaf; [reflexivity|]. destruct o as [q|]; destruct d; cbn [opt app value_of if_set]; vals.
Qed.
Lemma spelled_web0 w : spelled P (x_web w) <-> Forall P (Value ("{" +++ we_id w +++ "}") :: tl (in_web w)).
Proof.
  apply means_one. unfold in_web. cbn [tl app].
  change (Value ("{" +++ we_id w +++ "}") :: ?l) with ([Value ("{" +++ we_id w +++ "}")] ++ l).
  apply means_E; [reflexivity | |].
  - apply values_skip1; [exact plain_value | reflexivity | reflexivity |]. apply values_cons; [reflexivity | apply values_nil].
  - change (Value (we_reference w) :: ?a :: ?b :: ?c :: ?l) with ([Value (we_reference w); a; b; c] ++ l).
    apply means_cons; [apply means_leaf; [reflexivity | vals]|]. apply means_skip1; [apply still; [reflexivity | vals]|].
    apply means_then1; [|apply means_skip1; [apply still; [reflexivity | vals]|]; apply still; [reflexivity | vals]].
    apply means_E0; [reflexivity|]. apply means_map. intros p. apply means_leaf; [reflexivity | vals].
Qed.
Lemma spelled_item_prop0 i : spelled P (x_item_prop i) <-> Forall P [Value ("{" +++ i +++ "}")].
Proof.
  apply means_one. apply (means_E P _ _ _ [Value ("{" +++ i +++ "}")] []); [reflexivity | |].
  - apply values_skip1; [exact plain_value | reflexivity | reflexivity |]. apply values_cons; [reflexivity | apply values_nil].
  - apply means_E0; [reflexivity | apply means_nil].
Qed.
(** The parts that are always the same. *)
Lemma spelled_app : spelled P x_app <-> Forall P [].
Proof. apply means_one. apply (means_E P _ _ _ []); [reflexivity | vals | apply means_nil]. Qed.
Lemma means_font n c f : plain n = true -> plain c = true -> plain f = true -> means [x_font n c f] [].
Proof.
  intros Hn Hc Hf. apply (means_E P _ _ _ []); [reflexivity | apply values_skip1; [exact plain_value | reflexivity | exact Hn | apply values_nil] |].
  apply means_skip1; [apply still; [reflexivity | apply values_skip1; [exact plain_value | reflexivity | exact Hc | apply values_nil]]|].
  apply means_skip1; [apply still; [reflexivity | apply values_skip1; [exact plain_value | reflexivity | exact Hf | apply values_nil]]|].
  apply means_skip1; [apply still; [reflexivity | vals]|]. apply means_nil.
Qed.
Lemma spelled_fonts : spelled P RenderModel.x_fonts <-> Forall P [].
Proof.
  apply means_one. apply (means_E P _ _ _ []); [reflexivity | vals |]. repeat (apply means_skip1; [apply means_font; reflexivity|]). apply means_nil.
Qed.
Lemma spelled_panes : spelled P x_taskpanes_ <-> Forall P [].
Proof.
  apply means_one. apply (means_E P _ _ _ []); [reflexivity | vals |]. apply means_skip1; [|apply means_nil]. apply (means_E P _ _ _ []); [reflexivity | vals |].
  apply means_skip1; [apply still; [reflexivity | vals]|]. apply means_nil.
Qed.
Lemma spelled_item_rels : spelled P x_item_rels_ <-> Forall P [].
Proof. apply spelled_rels. apply means_skip1; [apply plain_rel; reflexivity | apply means_nil]. Qed.
End Spelling.

Ltac new1 := unfold once; apply distinct_NoDup; vm_compute; reflexivity.
Ltac both := apply every_app; split.
Lemma once_text n s : every once [x_text n s].
Proof. apply every_L. new1. Qed.
Lemma once_text_opt n o : every once (opt (x_text n) o).
Proof. apply every_opt. intros a. apply once_text. Qed.
Lemma once_rel i t g : every once [x_rel i t g].
Proof. apply every_leaf. new1. Qed.
Lemma once_one x : every once [x] -> Forall once (elements x).
Proof. unfold every. cbn [flat_map]. now rewrite app_nil_r. Qed.
Lemma types_once t : Forall once (elements (x_types t)).
Proof. apply once_one, every_E; [new1|]. both; apply every_map; intros e; apply every_leaf; new1. Qed.
Lemma rels_once l : every once l -> Forall once (elements (x_rels l)).
Proof. intros H. apply once_one, every_E; [new1 | exact H]. Qed.
Lemma package_rels_once l : Forall once (elements (x_package_rels l)).
Proof. apply rels_once, every_map. intros e. apply once_rel. Qed.
Lemma part_rels_once l : Forall once (elements (x_part_rels l)).
Proof. apply rels_once, every_map. intros e. apply once_rel. Qed.
Lemma doc_rels_once r : Forall once (elements (x_doc_rels r)).
Proof. apply rels_once. both; apply every_map; intros e; apply every_leaf; new1. Qed.
Lemma core_once c : Forall once (elements (x_core c)).
Proof.
  apply once_one, every_E; [new1|]. both.
  - repeat (apply every_cons; split; [apply every_L; new1|]). apply every_nil.
  - both; [apply once_text_opt|]. both; [apply once_text_opt|]. both; apply once_text_opt.
Qed.
Lemma custom_once l : Forall once (elements (x_custom l)).
Proof.
  apply once_one, every_E; [new1|]. generalize 2%N as i. induction l as [|e l IH]; intros i; [apply every_nil|]. cbn [x_custom_from].
  apply every_cons. split; [|apply IH]. apply every_E; [new1 | apply once_text].
Qed.
Lemma ext_once l : Forall once (elements (x_comments_ext l)).
Proof. apply once_one, every_E; [new1|]. apply every_map. intros [p d [q|]]; apply every_leaf; new1. Qed.
Lemma web_once w : Forall once (elements (x_web w)).
Proof.
  apply once_one, every_E; [new1|]. apply every_cons. split; [apply every_leaf; new1|]. apply every_cons. split; [apply every_leaf; new1|].
  apply every_cons. split; [apply every_E; [new1|]; apply every_map; intros e; apply every_leaf; new1|].
  apply every_cons. split; apply every_leaf; new1.
Qed.
Lemma item_prop_once i : Forall once (elements (x_item_prop i)).
Proof. apply once_one, every_E; [new1|]. apply every_E; [new1 | apply every_nil]. Qed.

(** ** The parts *)
Lemma bare_pieces x ps : (forall P, holds_plain P -> (spelled P x <-> Forall P ps)) -> Forall once (elements x) ->
  (spelled readable x <-> Forall readable ps) /\ (well_formed_xml x <-> Forall legal ps).
Proof.
  intros H Ho. destruct (well_by_pieces x ps H Ho) as [_ H2]. split; [|exact H2]. apply H.
  repeat split; first [now apply readable_value | now apply readable_content | apply readable_escaped | apply readable_escaped_value | idtac].
Qed.
Lemma types_well t : (spelled readable (x_types t) <-> Forall readable (in_types t)) /\ (well_formed_xml (x_types t) <-> Forall legal (in_types t)).
Proof. apply bare_pieces; [|apply types_once]. intros P (H1 & H2 & _). now apply spelled_types. Qed.
Lemma package_rels_well l : (spelled readable (x_package_rels l) <-> Forall readable (in_package_rels l)) /\ (well_formed_xml (x_package_rels l) <-> Forall legal (in_package_rels l)).
Proof. apply bare_pieces; [|apply package_rels_once]. intros P (H1 & H2 & _). now apply spelled_package_rels. Qed.
Lemma part_rels_well l : (spelled readable (x_part_rels l) <-> Forall readable (in_part_rels l)) /\ (well_formed_xml (x_part_rels l) <-> Forall legal (in_part_rels l)).
Proof. apply bare_pieces; [|apply part_rels_once]. intros P (H1 & H2 & _). now apply spelled_part_rels. Qed.
Lemma doc_rels_well r : (spelled readable (x_doc_rels r) <-> Forall readable (in_doc_rels r)) /\ (well_formed_xml (x_doc_rels r) <-> Forall legal (in_doc_rels r)).
Proof. apply bare_pieces; [|apply doc_rels_once]. intros P (H1 & H2 & _). now apply spelled_doc_rels. Qed.
Lemma core_well c : (spelled readable (x_core c) <-> Forall readable (in_core c)) /\ (well_formed_xml (x_core c) <-> Forall legal (in_core c)).
Proof. apply bare_pieces; [|apply core_once]. intros P (H1 & H2 & _). now apply spelled_core. Qed.
Lemma custom_well l : (spelled readable (x_custom l) <-> Forall readable (in_custom l)) /\ (well_formed_xml (x_custom l) <-> Forall legal (in_custom l)).
Proof. apply bare_pieces; [|apply custom_once]. intros P (H1 & H2 & _). now apply spelled_custom. Qed.
Lemma ext_well l : (spelled readable (x_comments_ext l) <-> Forall readable (in_ext l)) /\ (well_formed_xml (x_comments_ext l) <-> Forall legal (in_ext l)).
Proof. apply bare_pieces; [|apply ext_once]. intros P (H1 & H2 & _). now apply spelled_ext. Qed.
Lemma braced (P : piece -> Prop) i m : (P (Value ("{" +++ i +++ "}")) <-> P (Value i)) -> (Forall P (Value ("{" +++ i +++ "}") :: m) <-> Forall P (Value i :: m)).
Proof. intros H. rewrite !Forall_cons_iff, H. reflexivity. Qed.
Lemma web_well w : (spelled readable (x_web w) <-> Forall readable (in_web w)) /\ (well_formed_xml (x_web w) <-> Forall legal (in_web w)).
Proof.
  destruct (bare_pieces (x_web w) (Value ("{" +++ we_id w +++ "}") :: tl (in_web w))) as [A B]; [|apply web_once|].
  - intros P (H1 & H2 & _). now apply spelled_web0.
  - rewrite A, B. split; apply braced; [apply WellStyle.readable_braces | apply WellStyle.legal_braces].
Qed.
Lemma item_prop_well i : (spelled readable (x_item_prop i) <-> Forall readable [Value i]) /\ (well_formed_xml (x_item_prop i) <-> Forall legal [Value i]).
Proof.
  destruct (bare_pieces (x_item_prop i) [Value ("{" +++ i +++ "}")]) as [A B]; [|apply item_prop_once|].
  - intros P (H1 & H2 & _). now apply spelled_item_prop0.
  - rewrite A, B. split; apply braced; [apply WellStyle.readable_braces | apply WellStyle.legal_braces].
Qed.
Lemma app_well : (spelled readable x_app <-> Forall readable []) /\ (well_formed_xml x_app <-> Forall legal []).
Proof. apply bare_pieces; [intros P (H1 & _); exact (spelled_app P H1) | apply once_one, every_E; [new1 | apply every_nil]]. Qed.
Lemma fonts_well : (spelled readable RenderModel.x_fonts <-> Forall readable []) /\ (well_formed_xml RenderModel.x_fonts <-> Forall legal []).
Proof.
  apply bare_pieces; [intros P (H1 & _); exact (spelled_fonts P H1) | apply once_one, every_E; [new1|]].
  repeat (apply every_cons; split; [apply every_E; [new1|]; repeat (apply every_cons; split; [apply every_leaf; new1|]); apply every_nil|]). apply every_nil.
Qed.
Lemma panes_well : (spelled readable x_taskpanes_ <-> Forall readable []) /\ (well_formed_xml x_taskpanes_ <-> Forall legal []).
Proof.
  apply bare_pieces; [intros P (H1 & _); exact (spelled_panes P H1) | apply once_one, every_E; [new1|]].
  apply every_E; [new1|]. apply every_leaf. new1.
Qed.
Lemma item_rels_well : (spelled readable x_item_rels_ <-> Forall readable []) /\ (well_formed_xml x_item_rels_ <-> Forall legal []).
Proof. apply bare_pieces; [intros P (H1 & _); exact (spelled_item_rels P H1) | apply rels_once; apply once_rel]. Qed.

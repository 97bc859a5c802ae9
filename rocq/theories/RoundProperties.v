(** Theorems about building a part, writing it, and reading it again (C07, C08, C37, C38, C39). *)
From Coq Require Import NArith ZArith List Bool Lia.
From Verif Require Import Str StrFacts StrFind TypesModel Props Ast IdsModel EscapeModel EscapeSpec EscapeProofs XmlParser XmlSpec WriterModel
  ReadBase ReadProps ReadModel ReadSpec RoundSpec RoundParts SurviveSpec SurviveProofs WellSpec WellPartProofs SetterModel RoundTextProofs.
From Verif Require BuildModel BuildProperties ReadProperties XmlTreeProofs.
Import ListNotations.
Import BuildModel (b_document, b_part, b_comments, part_calls).

(** ** C39: documents *)
(** The calls [x] gives are written as [w]; [text_of x] is the part as a text. *)
Definition written_as (x : BuildModel.xml) (t : string) : Prop := exists w, w_run w_init (part_calls x) = WOk w /\ WriterModel.out w = t.
(** The reader still has [k] paragraph ids to give. *)
Definition ids_left (r : rst) (k : N) : Prop := (rs_para r + k < 4294967296)%N.

(** A document whose nodes stand where they can be read back, whose numbers are in
    range and whose strings are readable is read back as [reread] says. *)
Theorem document_read_back : forall body sp s x s',
  b_document body sp s = Some (x, s') ->
  Forall readable (in_document body sp) -> forallb (kept InDocument) body = true -> Forall fits body -> fits_sectpr sp ->
  exists t, written_as x t /\
    forall r, reads_from t r -> ids_left r (sumN paras body) ->
    exists r', read_document r = Val (flat_map (reread InDocument) body, reread_sectpr sp) r'.
Proof.
  intros body sp s x s' H Hr Hk Hf Hs. apply (proj1 (document_well _ _ _ _ _ H)) in Hr as (evs & He).
  destruct (document_reads_back _ _ _ _ _ _ H He Hk Hf Hs) as (w & Hw & Hd). exists (WriterModel.out w). split; [now exists w | intros r H1 H2; destruct (Hd r H1 H2) as (r' & Hr' & _); now exists r'].
Qed.
Print Assumptions document_read_back.
Theorem header_read_back : forall ch sl rid nb s x s',
  b_part (NPart sl rid nb ch) s = Some (x, s') ->
  Forall readable (in_body ch) -> forallb (kept InPart) ch = true -> Forall fits ch ->
  exists t, written_as x t /\
    forall r, reads_from t r -> ids_left r (sumN paras ch) -> exists r', read_header r = Val (flat_map (reread InPart) ch) r'.
Proof.
  intros ch sl rid nb s x s' H Hr Hk Hf. apply (proj1 (part_well _ _ _ _ _ _ _ H)) in Hr as (evs & He).
  destruct (header_reads_back _ _ _ _ _ _ _ _ H He Hk Hf) as (w & Hw & Hd). exists (WriterModel.out w). split; [now exists w | intros r H1 H2; destruct (Hd r H1 H2) as (r' & Hr' & _); now exists r'].
Qed.
Print Assumptions header_read_back.
Theorem comments_read_back : forall cs s x s',
  b_comments cs s = Some (x, s') ->
  Forall readable (in_comments cs) -> forallb kept_comment cs = true -> Forall fits_comment cs ->
  exists t, written_as x t /\
    forall r, reads_from t r -> ids_left r (paras_in cs) -> exists r', read_comments r = Val (map reread_comment cs) r'.
Proof.
  intros cs s x s' H Hr Hk Hf. apply (proj1 (comments_well _ _ _ _ H)) in Hr as (evs & He).
  destruct (RoundParts.comments_read_back _ _ _ _ _ H He Hk Hf) as (w & Hw & Hd). exists (WriterModel.out w). split; [now exists w | intros r H1 H2; destruct (Hd r H1 H2) as (r' & Hr' & _); now exists r'].
Qed.
Print Assumptions comments_read_back.
(** A document of which everything survives comes back as it was. *)
Theorem document_comes_back : forall body sp s x s',
  b_document body sp s = Some (x, s') ->
  Forall readable (in_document body sp) -> forallb (kept InDocument) body = true -> Forall fits body -> fits_sectpr sp ->
  Forall (survives InDocument) body -> sectpr_survives sp ->
  exists t, written_as x t /\
    forall r, reads_from t r -> ids_left r (sumN paras body) -> exists r', read_document r = Val (body, sp) r'.
Proof.
  intros body sp s x s' H Hr Hk Hf Hs Hb Hp. destruct (document_read_back _ _ _ _ _ H Hr Hk Hf Hs) as (t & Ht & Hd). exists t. split; [exact Ht|].
  rewrite (survives_nodes _ _ Hb), (proj2 (survives_sectpr sp) Hp) in Hd. exact Hd.
Qed.
Print Assumptions document_comes_back.

(** ** C37, C38: formatting *)
(** Whatever stands somewhere in a document stands at the same place in what is read,
    as [reread] says. *)
Theorem everything_read_back : forall body sp s x s' q m,
  b_document body sp s = Some (x, s') ->
  Forall readable (in_document body sp) -> forallb (kept InDocument) body = true -> Forall fits body -> fits_sectpr sp ->
  stands InDocument body q m ->
  exists t, written_as x t /\
    forall r, reads_from t r -> ids_left r (sumN paras body) ->
    exists body' sp' r', read_document r = Val (body', sp') r' /\ forall m', In m' (reread q m) -> stands InDocument body' q m'.
Proof.
  intros body sp s x s' q m H Hr Hk Hf Hs Hm. destruct (document_read_back _ _ _ _ _ H Hr Hk Hf Hs) as (t & Ht & Hd). exists t. split; [exact Ht|].
  intros r H1 H2. destruct (Hd r H1 H2) as [r' Hr']. eexists _, _, r'. split; [exact Hr'|]. intros m' Hm'. eapply stands_back; eassumption.
Qed.
Print Assumptions everything_read_back.
(** The formatting of a run anywhere in a document is read as [reread_rpr] says ... *)
Theorem run_formatting_read_back : forall body sp s x s' q rp ch,
  b_document body sp s = Some (x, s') ->
  Forall readable (in_document body sp) -> forallb (kept InDocument) body = true -> Forall fits body -> fits_sectpr sp ->
  stands InDocument body q (NRun rp ch) ->
  exists t, written_as x t /\
    forall r, reads_from t r -> ids_left r (sumN paras body) ->
    exists body' sp' r', read_document r = Val (body', sp') r' /\ stands InDocument body' q (NRun (reread_rpr rp) (flat_map reread_in_run ch)).
Proof.
  intros body sp s x s' q rp ch H Hr Hk Hf Hs Hm. destruct (everything_read_back _ _ _ _ _ _ _ H Hr Hk Hf Hs Hm) as (t & Ht & Hd). exists t. split; [exact Ht|].
  intros r H1 H2. destruct (Hd r H1 H2) as (b' & sp' & r' & E & In'). exists b', sp', r'. split; [exact E|]. apply In'. left. reflexivity.
Qed.
Print Assumptions run_formatting_read_back.
(** ... which is the formatting that was built exactly if [rpr_survives]. *)
Theorem run_formatting_survives_iff : forall rp, reread_rpr rp = rp <-> rpr_survives rp.
Proof. exact survives_rpr. Qed.
Print Assumptions run_formatting_survives_iff.
Theorem paragraph_formatting_read_back : forall body sp s x s' q id pp nb ch,
  b_document body sp s = Some (x, s') ->
  Forall readable (in_document body sp) -> forallb (kept InDocument) body = true -> Forall fits body -> fits_sectpr sp ->
  stands InDocument body q (NPara id pp nb ch) ->
  exists t, written_as x t /\
    forall r, reads_from t r -> ids_left r (sumN paras body) ->
    exists body' sp' r' id' nb' ch', read_document r = Val (body', sp') r' /\ stands InDocument body' q (NPara id' (reread_ppr pp) nb' ch').
Proof.
  intros body sp s x s' q id pp nb ch H Hr Hk Hf Hs Hm. destruct (everything_read_back _ _ _ _ _ _ _ H Hr Hk Hf Hs Hm) as (t & Ht & Hd). exists t. split; [exact Ht|].
  intros r H1 H2. destruct (Hd r H1 H2) as (b' & sp' & r' & E & In'). eexists b', sp', r', _, _, _. split; [exact E|]. apply In'. left. reflexivity.
Qed.
Print Assumptions paragraph_formatting_read_back.
Theorem paragraph_formatting_survives_iff : forall pp, reread_ppr pp = pp <-> ppr_survives pp.
Proof. exact survives_ppr. Qed.
Print Assumptions paragraph_formatting_survives_iff.

(** ** C07: texts *)
(** [Run::add_text] stores its argument as [as_stored] says. *)
Theorem add_text_stores : forall u rp ch p, texts p (add_text u (NRun rp ch)) = texts p (NRun rp ch) ++ [as_stored u].
Proof. intros u rp ch p. cbn [add_text texts]. rewrite flat_map_app. cbn. unfold as_stored. now rewrite escape_owned_escape. Qed.
Print Assumptions add_text_stores.
(** The texts of a document, all of which were given, are read as [as_read] says, in
    the same order ... *)
Theorem given_texts_read_back : forall body sp s x s' us,
  b_document body sp s = Some (x, s') ->
  Forall readable (in_document body sp) -> forallb (kept InDocument) body = true -> Forall fits body -> fits_sectpr sp ->
  flat_map (texts InDocument) body = map as_stored us ->
  exists t, written_as x t /\
    forall r, reads_from t r -> ids_left r (sumN paras body) ->
    exists body' sp' r', read_document r = Val (body', sp') r' /\ flat_map (texts InDocument) body' = flat_map as_read us.
Proof.
  intros body sp s x s' us H Hr Hk Hf Hs Hu. destruct (document_read_back _ _ _ _ _ H Hr Hk Hf Hs) as (t & Ht & Hd). exists t. split; [exact Ht|].
  intros r H1 H2. destruct (Hd r H1 H2) as [r' Hr']. eexists _, _, r'. split; [exact Hr'|].
  rewrite texts_back_all, Hu, flat_map_concat_map, map_map, <- flat_map_concat_map. apply flat_map_ext. intros u. apply back_stored.
Qed.
Print Assumptions given_texts_read_back.
(** ... so a text comes back exactly if it is not empty, has no line ends and nothing in
    it looks like one of the seven entities. *)
Theorem given_text_comes_back_iff : forall u, as_read u = [u] <-> comes_back u.
Proof. exact as_read_iff. Qed.
Print Assumptions given_text_comes_back_iff.

(** ** C08: texts that were read *)
(** A text that was read is stored as it is, and written as it is: that is XML exactly if
    there is no [<] and every [&] begins a reference. *)
Theorem rebuilt_text_legal_iff : forall t, legal (Content t) <-> has_char ch_lt t = false /\ references_ok t.
Proof. exact legal_text_iff. Qed.
Print Assumptions rebuilt_text_legal_iff.
(** If it is XML, it means the same text exactly if there is no [&] in it either, and no
    line end. *)
Theorem rebuilt_text_same_iff : forall t, legal (Content t) ->
  (back t = [t] <-> t <> ""%string /\ has_char ch_amp t = false /\ has_char ch_cr t = false /\ has_char ch_nl t = false).
Proof. exact back_same. Qed.
Print Assumptions rebuilt_text_same_iff.
(** [back] is what is read of the stored texts of a document. *)
Theorem stored_texts_read_back : forall body sp s x s',
  b_document body sp s = Some (x, s') ->
  Forall readable (in_document body sp) -> forallb (kept InDocument) body = true -> Forall fits body -> fits_sectpr sp ->
  exists t, written_as x t /\
    forall r, reads_from t r -> ids_left r (sumN paras body) ->
    exists body' sp' r', read_document r = Val (body', sp') r' /\
      flat_map (texts InDocument) body' = flat_map back (flat_map (texts InDocument) body).
Proof.
  intros body sp s x s' H Hr Hk Hf Hs. destruct (document_read_back _ _ _ _ _ H Hr Hk Hf Hs) as (t & Ht & Hd). exists t. split; [exact Ht|].
  intros r H1 H2. destruct (Hd r H1 H2) as [r' Hr']. eexists _, _, r'. split; [exact Hr'|]. apply texts_back_all.
Qed.
Print Assumptions stored_texts_read_back.

(** ** A document that meets the hypotheses *)
Import BuildProperties (start, me).
Definition rp0 : rpr :=
  PropsSet.set_r_bold (Some true) (PropsSet.set_r_bold_cs (Some true)
    (PropsSet.set_r_sz (Some 24%N) (PropsSet.set_r_sz_cs (Some 24%N) (PropsSet.set_r_style (Some (escape "R&D")) rpr_empty)))).
Definition run0 : node := add_delete_text "gone" (add_text "seen" (NRun rp0 [NTab])).
Definition tp0 : tblpr := PropsSet.set_tpr_borders tborders_empty tblpr_default.
Definition sample : list node :=
  [ NPara "0000000A" ppr_empty false
      [NIns me [run0; NDel me [run0]]; NLink (Anchor "top") (Some 1%N) [run0]; NBookmarkStart 1 "b"; run0; NBookmarkEnd 1];
    NSdt sdtpr_empty false
      [NTable tp0 [2000%N] false
        [NRow trpr_empty false [NCell tcpr_empty false [NPara "0000000B" ppr_empty false [run0]; NTable tp0 [] false []]]]];
    NCommentEnd 3 ].
Ltac in_range := repeat (apply Forall_cons || apply Forall_nil || split || (cbv; discriminate) || exact I || (cbv; trivial; fail)).
Example sample_builds : exists x s', b_document sample sectpr_default start = Some (x, s').
Proof. eexists _, _. vm_compute. reflexivity. Qed.
Example sample_readable : Forall readable (in_document sample sectpr_default).
Proof. apply all_readable. vm_compute. reflexivity. Qed.
Example sample_kept : forallb (kept InDocument) sample = true.
Proof. vm_compute. reflexivity. Qed.
Example sample_fits : Forall fits sample /\ fits_sectpr sectpr_default.
Proof. unfold sample, fits. cbn [all_nodes flat_map app run0 add_text add_delete_text]. in_range. Qed.
Ltac surviving :=
  repeat (let G := fresh in
          match goal with
          | |- Forall _ (_ :: _) => apply Forall_cons
          | |- Forall _ [] => apply Forall_nil
          | |- True => exact I
          | |- ?a = ?b => vm_compute; reflexivity
          | |- ?a <> ?b => discriminate
          | |- ?a -> _ => intros G; solve [discriminate G | reflexivity | contradiction G; reflexivity]
          | |- _ => hnf; match goal with |- _ /\ _ => split | |- ?a = ?b => idtac | |- True => idtac | |- ?a -> _ => idtac | |- Forall _ _ => idtac end
          end).
Example sample_survives : Forall (survives InDocument) sample /\ sectpr_survives sectpr_default.
Proof. split; [unfold sample, run0; cbn [add_text add_delete_text app]|]; surviving. Qed.
Example sample_texts : flat_map (texts InDocument) sample =
  map as_stored ["seen"; "gone"; "seen"; "gone"; "seen"; "gone"; "seen"; "gone"; "seen"; "gone"]%string.
Proof. vm_compute. reflexivity. Qed.
Example sample_run_stands : stands InDocument sample InDel run0.
Proof.
  eapply Below; [left; reflexivity | reflexivity|]. eapply Below; [left; reflexivity | reflexivity|].
  eapply Below; [right; left; reflexivity | reflexivity|]. apply Here. left. reflexivity.
Qed.
Example sample_paragraph_stands : exists q id pp nb ch, stands InDocument sample q (NPara id pp nb ch) /\ q = InPart /\ ppr_survives pp.
Proof.
  eexists _, _, _, _, _. split; [|split; [reflexivity|]].
  - eapply Below; [right; left; reflexivity | reflexivity|]. eapply Below; [left; reflexivity | reflexivity|].
    eapply Below; [left; reflexivity | reflexivity|]. eapply Below; [left; reflexivity | reflexivity|]. apply Here. left. reflexivity.
  - cbn [ppr_survives ppr_empty]. surviving.
Qed.

(** ** What does not come back *)
Definition saying (u : string) : list node := [NPara "00000001" ppr_empty false [add_text u (NRun rpr_empty [])]].
Lemma saying_pieces t : in_document [NPara "00000001" ppr_empty false [NRun rpr_empty [NText t]]] sectpr_default = [Value "00000001"; Content t; Value "lrTb"].
Proof. reflexivity. Qed.
Lemma saying_readable t : readable (Content t) -> Forall readable (in_document [NPara "00000001" ppr_empty false [NRun rpr_empty [NText t]]] sectpr_default).
Proof. intros H. rewrite saying_pieces. repeat apply Forall_cons; [apply readable_b_iff; reflexivity | exact H | apply readable_b_iff; reflexivity | apply Forall_nil]. Qed.
Lemma saying_legal t : Forall legal (in_document [NPara "00000001" ppr_empty false [NRun rpr_empty [NText t]]] sectpr_default) <-> legal (Content t).
Proof.
  rewrite saying_pieces. split; [intros H; now inversion_clear H as [|? ? _ K]; inversion_clear K|]. intros H.
  repeat apply Forall_cons; [apply legal_b_iff; reflexivity | exact H | apply legal_b_iff; reflexivity | apply Forall_nil].
Qed.
Lemma saying_builds t : exists x s', b_document [NPara "00000001" ppr_empty false [NRun rpr_empty [NText t]]] sectpr_default start = Some (x, s').
Proof. eexists _, _. vm_compute. reflexivity. Qed.
(** For every text that comes back when it is built and read: what was read can be built
    again as XML exactly if the text has no [<] and every [&] in it begins a reference. *)
Theorem rebuilding_what_was_read : forall u, comes_back u ->
  exists x s' t, b_document (saying u) sectpr_default start = Some (x, s') /\ well_formed_xml x /\ written_as x t /\
  forall r, reads_from t r -> ids_left r 1 ->
  exists body' sp' r' x2 s2, read_document r = Val (body', sp') r' /\ flat_map (texts InDocument) body' = [u] /\
    b_document body' sp' start = Some (x2, s2) /\ (well_formed_xml x2 <-> has_char ch_lt u = false /\ references_ok u).
Proof.
  intros u Hu. assert (A : as_read u = [u]) by (now apply as_read_iff).
  destruct (saying_builds (escape_owned (one_line u))) as (x & s' & Hb). exists x, s'.
  assert (R : readable (Content (escape_owned (one_line u)))) by (rewrite escape_owned_escape; apply WellProofs.readable_escaped).
  destruct (document_read_back _ _ _ _ _ Hb (saying_readable _ R) eq_refl) as (t & Ht & Hd);
    [unfold fits; cbn [all_nodes flat_map app]; in_range | in_range |].
  exists t. split; [exact Hb|]. split; [apply (proj2 (document_well _ _ _ _ _ Hb)), saying_legal; exact R|]. split; [exact Ht|].
  intros r H1 H2. destruct (Hd r H1 H2) as [r' Hr].
  assert (B : flat_map (reread InDocument) (saying u) = [NPara "00000001" ppr_empty false [NRun rpr_empty [NText u]]]).
  { unfold saying. cbn [flat_map reread add_text app reread_in_run text_new].
    pose proof (back_stored u) as K. unfold as_stored in K. rewrite <- escape_owned_escape, A in K.
    assert (T : reread_text NText (escape_owned (one_line u)) = [NText u]).
    { unfold back in K. unfold reread_text. destruct (escape_owned (one_line u)); [discriminate K|]. injection K as ->. reflexivity. }
    cbn [reread_in_run flat_map]. rewrite T. reflexivity. }
  destruct (saying_builds u) as (x2 & s2 & Hb2).
  exists [NPara "00000001" ppr_empty false [NRun rpr_empty [NText u]]], sectpr_default, r', x2, s2.
  split; [rewrite <- B; exact Hr|]. split; [reflexivity|]. split; [exact Hb2|].
  rewrite (proj2 (document_well _ _ _ _ _ Hb2)), saying_legal. apply legal_text_iff.
Qed.
Print Assumptions rebuilding_what_was_read.
Example breaking_text : comes_back "a < b & c"%string /\ ~ (has_char ch_lt "a < b & c" = false /\ references_ok "a < b & c").
Proof.
  split; [|intros [H _]; discriminate H]. apply as_read_iff. vm_compute. reflexivity.
Qed.
(** The claim that reading a document and building it again gives XML is false. *)
Theorem read_text_breaks_document_refuted : exists u x s' t body' sp' r' x2 s2,
  b_document (saying u) sectpr_default start = Some (x, s') /\ well_formed_xml x /\ written_as x t /\
  read_document (ReadProperties.from_text t) = Val (body', sp') r' /\ b_document body' sp' start = Some (x2, s2) /\ ~ well_formed_xml x2.
Proof.
  exists "a < b & c"%string. destruct breaking_text as [H1 H2]. destruct (rebuilding_what_was_read _ H1) as (x & s' & t & A1 & A2 & A3 & A4).
  destruct (A4 (ReadProperties.from_text t) (ReadProperties.from_text_reads t)) as (b' & sp' & r' & x2 & s2 & B1 & _ & B3 & B4); [reflexivity|].
  exists x, s', t, b', sp', r', x2, s2. tauto.
Qed.
Print Assumptions read_text_breaks_document_refuted.
(** The claim that every text without line ends comes back is false. *)
Theorem entity_text_changes_refuted : exists u x s' t body' sp' r',
  has_char ch_nl u = false /\ has_char ch_cr u = false /\ b_document (saying u) sectpr_default start = Some (x, s') /\ written_as x t /\
  read_document (ReadProperties.from_text t) = Val (body', sp') r' /\ flat_map (texts InDocument) body' <> [u].
Proof.
  exists "&lt;"%string. assert (H : exists x s' w, b_document (saying "&lt;") sectpr_default start = Some (x, s') /\ w_run w_init (part_calls x) = WOk w /\
    exists body' sp' r', read_document (ReadProperties.from_text (WriterModel.out w)) = Val (body', sp') r' /\ flat_map (texts InDocument) body' = ["<"%string]).
  { eexists _, _, _. split; [vm_compute; reflexivity|]. split; [vm_compute; reflexivity|]. eexists _, _, _. split; vm_compute; reflexivity. }
  destruct H as (x & s' & w & H1 & H2 & b' & sp' & r' & H3 & H4). exists x, s', (WriterModel.out w), b', sp', r'.
  split; [reflexivity|]. split; [reflexivity|]. split; [exact H1|]. split; [now exists w|]. split; [exact H3|]. rewrite H4. discriminate.
Qed.
Print Assumptions entity_text_changes_refuted.
(** The claim that run and paragraph formatting always come back is false. *)
Theorem run_formatting_lost_refuted : exists rp, fits_rpr rp /\ reread_rpr rp <> rp.
Proof. exists (PropsSet.set_r_stretch (Some 50%Z) rpr_empty). split; [in_range | discriminate]. Qed.
Print Assumptions run_formatting_lost_refuted.
Theorem paragraph_formatting_lost_refuted : exists pp, fits_ppr pp /\ reread_ppr pp <> pp.
Proof. exists (PPr (PropsSet.set_p_keep_next (Some false) ppr_base_empty) None). split; [cbn [fits_ppr]; in_range | discriminate]. Qed.
Print Assumptions paragraph_formatting_lost_refuted.

(** Theorems about the JSON of a document (C74). *)
From Coq Require Import NArith ZArith List Bool Lia.
From Verif Require Import Str StrFacts TypesModel Props Ast SetterModel ReadBase ReadModel ReadSpec RoundSpec SurviveSpec WellSpec JsonModel JsonSpec JsonText JsonProofs JsonTexts.
From Verif Require RoundTextProofs RoundProperties BuildModel BuildProperties ReadProperties PropsSet.
Import ListNotations.
Open Scope list_scope.

(** ** The text *)
(** Every value is written as a text that a reader of JSON reads as this value, whatever
    its strings hold and however deep it is. *)
Theorem json_text_reads_back : forall v, json_of (pretty 0 v) = Some v.
Proof. exact text_back. Qed.
(** So the text for a whole file has the document under its name. *)
Theorem json_text_has_document : forall before after body sp parts nb, member "document" before = None ->
  exists l, json_of (pretty 0 (JObj (before ++ ("document"%string, j_document body sp parts nb) :: after))) = Some (JObj l) /\
    member "document" l = Some (j_document body sp parts nb).
Proof.
  intros before after body sp parts nb H. eexists. split; [apply text_back|].
  induction before as [|[k v] before IH]; [reflexivity|]. cbn [member app] in *. destruct (k =s "document")%string; [discriminate H | now apply IH].
Qed.

(** ** What it tells apart *)
(** Two documents have the same JSON exactly if what it shows of them is the same: all of
    the tree and its properties, but for the themes of colors, the upper bits of sizes and
    the notes of references to footnotes. *)
Theorem document_json_same_iff : forall b1 s1 p1 n1 b2 s2 p2 n2,
  pretty 0 (j_document b1 s1 p1 n1) = pretty 0 (j_document b2 s2 p2 n2) <->
  map shown b1 = map shown b2 /\ s1 = s2 /\ shown_parts p1 = shown_parts p2 /\ n1 = n2.
Proof.
  intros. rewrite <- document_same. split; [|now intros ->].
  intros H. apply (f_equal json_of) in H. rewrite !text_back in H. now apply some_same in H.
Qed.
Theorem comments_json_same_iff : forall l m, forallb a_comment l = true -> forallb a_comment m = true ->
  (pretty 0 (j_comments l) = pretty 0 (j_comments m) <-> map shown l = map shown m).
Proof.
  intros l m Hl Hm. rewrite <- (comments_same l m Hl Hm). split; [|now intros ->].
  intros H. apply (f_equal json_of) in H. rewrite !text_back in H. now apply some_same in H.
Qed.
(** What is shown of a document is shown in full. *)
Theorem document_json_shows : forall body sp parts nb, 
  pretty 0 (j_document (map shown body) sp (shown_parts parts) nb) = pretty 0 (j_document body sp parts nb).
Proof.
  intros. f_equal. unfold j_document. rewrite (map_says body (all_say _)).
  rewrite (sectpr_ext _ (fun s => part_in s (parts_json parts)) sp); [reflexivity|]. intros s. exact (parts_say parts s (all_parts_say _)).
Qed.

(** ** The texts *)
(** Whoever walks through the JSON finds the texts of the document in their order. *)
Theorem document_json_texts : forall body sp parts nb,
  exists v, json_of (pretty 0 (j_document body sp parts nb)) = Some v /\ texts_found v = flat_map texts_of body ++ part_texts parts.
Proof. intros. eexists. split; [apply text_back|]. apply document_texts. Qed.
(** After a document has been saved and opened these are the texts that were given, as far
    as they are read. *)
Theorem opened_document_json_texts : forall body sp s x s' us,
  BuildModel.b_document body sp s = Some (x, s') ->
  Forall readable (in_document body sp) -> forallb (kept InDocument) body = true -> Forall fits body -> fits_sectpr sp ->
  flat_map (texts InDocument) body = map as_stored us ->
  exists t, RoundProperties.written_as x t /\
    forall r, reads_from t r -> RoundProperties.ids_left r (sumN paras body) ->
    exists body' sp' r', read_document r = Val (body', sp') r' /\
      forall parts nb, exists v, json_of (pretty 0 (j_document body' sp' parts nb)) = Some v /\ texts_found v = flat_map as_read us ++ part_texts parts.
Proof.
  intros body sp s x s' us H Hr Hk Hf Hs Hu. destruct (RoundProperties.document_read_back _ _ _ _ _ H Hr Hk Hf Hs) as (t & Ht & Hd). exists t. split; [exact Ht|].
  intros r H1 H2. destruct (Hd r H1 H2) as [r' Hr']. eexists _, _, r'. split; [exact Hr'|].
  intros parts nb. eexists. split; [apply text_back|]. rewrite document_texts, all_read_texts, Hu. f_equal.
  rewrite flat_map_concat_map, map_map, <- flat_map_concat_map. apply flat_map_ext. intros u. apply RoundTextProofs.back_stored.
Qed.

(** ** A document that meets the hypotheses *)
Definition headed : list node :=
  [ NPart FFirst "rId4" false [NPara "0000000C" ppr_empty false [NRun rpr_empty [NText "foot"]]];
    NPart HDefault "rId3" false [NPara "0000000B" ppr_empty false [NRun rpr_empty [NText "head"]]] ].
Example sample_texts_shown : exists v, json_of (pretty 0 (j_document RoundProperties.sample sectpr_default headed true)) = Some v /\
  texts_found v = ["seen"; "gone"; "seen"; "gone"; "seen"; "gone"; "seen"; "gone"; "seen"; "gone"; "head"; "foot"]%string.
Proof. destruct (document_json_texts RoundProperties.sample sectpr_default headed true) as (v & H & T). exists v. split; [exact H|]. rewrite T. vm_compute. reflexivity. Qed.
Example sample_opened_texts : exists x t, RoundProperties.written_as x t /\
  forall r, reads_from t r -> RoundProperties.ids_left r (sumN paras RoundProperties.sample) ->
  exists body' sp' r', read_document r = Val (body', sp') r' /\
    forall parts nb, exists v, json_of (pretty 0 (j_document body' sp' parts nb)) = Some v /\
      texts_found v = ["seen"; "gone"; "seen"; "gone"; "seen"; "gone"; "seen"; "gone"; "seen"; "gone"]%string ++ part_texts parts.
Proof.
  destruct RoundProperties.sample_builds as (x & s' & H). exists x. destruct RoundProperties.sample_fits as [F S].
  exact (opened_document_json_texts _ _ _ _ _ _ H RoundProperties.sample_readable RoundProperties.sample_kept F S RoundProperties.sample_texts).
Qed.
Definition q : string := str1 ch_quot.
(** A text, a whole number, a string with quotes, backslashes and a line end. *)
Example text_of_text : pretty 0 (j_node (NText ("a " +++ q +++ "b" +++ q +++ " \" +++ str1 ch_nl))) =
  ("{" +++ str1 ch_nl +++ "  " +++ q +++ "type" +++ q +++ ": " +++ q +++ "text" +++ q +++ "," +++ str1 ch_nl +++
   "  " +++ q +++ "data" +++ q +++ ": {" +++ str1 ch_nl +++
   "    " +++ q +++ "preserveSpace" +++ q +++ ": true," +++ str1 ch_nl +++
   "    " +++ q +++ "text" +++ q +++ ": " +++ q +++ "a \" +++ q +++ "b\" +++ q +++ " \\\n" +++ q +++ str1 ch_nl +++
   "  }" +++ str1 ch_nl +++ "}")%string.
Proof. vm_compute. reflexivity. Qed.
Example text_of_values : pretty 0 (obj [has "list" (JArr []); has "start" (JNum (-3)); may "x" jn None; has "y" (JWhole 20)]) =
  ("{" +++ str1 ch_nl +++ "  " +++ q +++ "list" +++ q +++ ": []," +++ str1 ch_nl +++ "  " +++ q +++ "start" +++ q +++ ": -3," +++ str1 ch_nl +++
   "  " +++ q +++ "y" +++ q +++ ": 20.0" +++ str1 ch_nl +++ "}")%string.
Proof. vm_compute. reflexivity. Qed.
Example comments_differ : pretty 0 (j_comments [NCommentStart {| cd_id := 1; cd_author := "a"; cd_date := "d"; cd_parent := None |} []]) <>
  pretty 0 (j_comments [NCommentStart {| cd_id := 1; cd_author := "a"; cd_date := "d"; cd_parent := Some 0%N |} []]).
Proof. intros H. apply comments_json_same_iff in H; [discriminate H | reflexivity | reflexivity]. Qed.
Example documents_differ : forall a b,
  pretty 0 (j_document (RoundProperties.saying a) sectpr_default headed false) = pretty 0 (j_document (RoundProperties.saying b) sectpr_default headed false) ->
  EscapeModel.escape_owned (one_line a) = EscapeModel.escape_owned (one_line b).
Proof. intros a b H. apply document_json_same_iff in H. destruct H as [H _]. now injection H. Qed.

(** ** What does not hold *)
(** That documents with the same JSON are the same. *)
Theorem json_tells_all_refuted : exists b1 b2, b1 <> b2 /\
  forall sp parts nb, pretty 0 (j_document b1 sp parts nb) = pretty 0 (j_document b2 sp parts nb).
Proof.
  exists [NPara "00000001" ppr_empty false [NRun (PropsSet.set_r_color (Some {| c_val := "FF0000"; c_theme := Some "accent1"; c_shade := None; c_tint := None |}) rpr_empty) []]],
         [NPara "00000001" ppr_empty false [NRun (PropsSet.set_r_color (Some {| c_val := "FF0000"; c_theme := None; c_shade := None; c_tint := None |}) rpr_empty) []]].
  split; [discriminate|]. intros sp parts nb. apply document_json_same_iff. now repeat split.
Qed.
(** That the notes are in it. *)
Theorem json_has_footnotes_refuted : exists note, texts_of note = ["a note"]%string /\
  forall sp parts nb, pretty 0 (j_document [NPara "00000001" ppr_empty false [NRun rpr_empty [NFootRef 1 "" [note]]]] sp parts nb) =
                      pretty 0 (j_document [NPara "00000001" ppr_empty false [NRun rpr_empty [NFootRef 1 "" []]]] sp parts nb).
Proof.
  exists (NPara "00000002" ppr_empty false [NRun rpr_empty [NText "a note"]]). split; [reflexivity|].
  intros sp parts nb. apply document_json_same_iff. now repeat split.
Qed.
(** That a document that has not been saved and opened shows the texts it was given: it
    shows them with the characters that XML escapes escaped. *)
Theorem json_texts_given_refuted : exists u, as_read u = [u] /\
  forall sp nb v, json_of (pretty 0 (j_document (RoundProperties.saying u) sp [] nb)) = Some v -> texts_found v = ["a &lt; b"]%string /\ texts_found v <> [u].
Proof.
  exists "a < b"%string. split; [vm_compute; reflexivity|]. intros sp nb v H.
  destruct (document_json_texts (RoundProperties.saying "a < b") sp [] nb) as (w & W & T). rewrite H in W. injection W as <-.
  assert (X : texts_found v = ["a &lt; b"]%string) by (rewrite T; vm_compute; reflexivity). split; [exact X|]. rewrite X. discriminate.
Qed.

Definition all_proved := conj json_text_reads_back (conj json_text_has_document (conj document_json_same_iff (conj comments_json_same_iff
  (conj document_json_shows (conj document_json_texts (conj opened_document_json_texts (conj json_tells_all_refuted
  (conj json_has_footnotes_refuted json_texts_given_refuted)))))))).
Print Assumptions all_proved.

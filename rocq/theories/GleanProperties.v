(** Theorems: the JSON of an opened document tells what only the reader fills (C82). *)
From Coq Require Import NArith ZArith List Bool Ascii.
From Verif Require Import Str JsonModel JsonSpec JsonProofs JsonProperties TsSpec CallSpec OpenModel GleanModel GleanSpec GleanProofs.
Import ListNotations.
Open Scope list_scope.

(** Any bytes come back from their base64. *)
Theorem base64_reads_back : forall s, decode64 (encode64 s) = Some s.
Proof. exact decode_encode. Qed.
(** The JSON text of an opened document, read as JSON, tells all of its web settings, themes, images
    (both their bytes and their previews) and hyperlinks, in order, whatever else the document has. *)
Theorem opened_json_tells : forall others op, exists v, json_of (pretty 0 (j_opened others op)) = Some v /\ opened_told v op.
Proof. intros others op. eexists. split; [apply json_text_reads_back | apply opened_tells]. Qed.
(** And it tells it of no other. *)
Theorem opened_json_tells_one : forall v a b, opened_told v a -> opened_told v b ->
  op_web a = op_web b /\ op_themes a = op_themes b /\ op_images a = op_images b /\ op_links a = op_links b.
Proof. exact opened_one. Qed.
Theorem opened_json_same_iff : forall others a b, pretty 0 (j_opened others a) = pretty 0 (j_opened others b) <->
  op_web a = op_web b /\ op_themes a = op_themes b /\ op_images a = op_images b /\ op_links a = op_links b.
Proof.
  intros others a b. split.
  - intros E. assert (j_opened others a = j_opened others b) as J
      by (assert (A := json_text_reads_back (j_opened others a)); rewrite E, json_text_reads_back in A; congruence).
    apply (opened_one (j_opened others a)); [apply opened_tells | rewrite J; apply opened_tells].
  - intros (A & B & C & D). unfold j_opened. now rewrite A, B, C, D.
Qed.
(** So for an image that is not shown by any preview, its own bytes are still told. *)
Theorem image_without_preview_told : forall others png id path d op, is_emf path d = true ->
  exists v w data, json_of (pretty 0 (j_opened others {| op_pkg := op_pkg op; op_rest := op_rest op; op_themes := op_themes op; op_web := op_web op;
      op_images := add_image png true id path d (op_images op); op_links := op_links op |})) = Some v /\
    at_ ["images"%string] v = Some (JArr (w ++ [JArr [JStr id; JStr path; JStr data; JStr ""]])) /\ decode64 data = Some d.
Proof.
  intros others png id path d op E. exists (j_opened others {| op_pkg := op_pkg op; op_rest := op_rest op; op_themes := op_themes op; op_web := op_web op;
      op_images := add_image png true id path d (op_images op); op_links := op_links op |}), (map j_image (op_images op)), (encode64 d).
  split; [apply json_text_reads_back|]. split; [|apply decode_encode]. unfold add_image. rewrite E. cbn [at_ j_opened op_images]. 
  transitivity (Some (JArr (map j_image (op_images op ++ [{| im_id := id; im_path := path; im_data := d; im_png := "" |}])))); [reflexivity|]. now rewrite map_app.
Qed.

(** Cases *)
Example man : encode64 "Man" = "TWFu"%string /\ encode64 "Ma" = "TWE="%string /\ encode64 "M" = "TQ=="%string /\ decode64 "T=Fu" = None.
Proof. repeat split. Qed.
Definition seen_op : opened := {| op_pkg := op_pkg opened_new; op_rest := op_rest opened_new;
  op_themes := [({| fg_latin := "Arial"; fg_ea := ""; fg_cs := ""; fg_fonts := [("Jpan", "MS Gothic")] |}, font_group_default)];
  op_web := [Div "1" 10 0 0 5 [Div "2" 0 0 0 0 []]];
  op_images := [{| im_id := "rId4"; im_path := "word/media/a.png"; im_data := String "255" (String "000" ""); im_png := "" |}];
  op_links := [("rId9", "https://x.y", "External")] |}%string.
Example seen_images : at_ ["images"%string] (j_opened (fun _ => JNull) seen_op) = Some (JArr [JArr [JStr "rId4"; JStr "word/media/a.png"; JStr "/wA="; JStr ""]]).
Proof. reflexivity. Qed.
Example seen_told : exists v, json_of (pretty 0 (j_opened (fun _ => JNull) seen_op)) = Some v /\ opened_told v seen_op.
Proof. apply opened_json_tells. Qed.
Definition all_proved := conj base64_reads_back (conj opened_json_tells (conj opened_json_tells_one (conj opened_json_same_iff image_without_preview_told))).
Print Assumptions all_proved.

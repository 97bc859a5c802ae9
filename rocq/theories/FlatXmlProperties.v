(** Property C36. *)
From Verif Require Import Str StrFind FlatXmlModel FlatXmlSpec FlatXmlProofs.

(** Extraction ends on every input: more rounds than bytes are never needed, and
    allowing more does not change the result. *)
Theorem extraction_terminates : forall s fuel, String.length s < fuel ->
  extract_loop fuel s = extract_parts s /\ extract_parts s <> ExtractOutOfFuel.
Proof.
  intros s fuel H. split; [exact (extract_fuel fuel s H)|]. apply extract_enough. auto.
Qed.
Print Assumptions extraction_terminates.

(** With ordinary quotes all parts are returned, in order, with the names, types
    and contents given. *)
Theorem parts_extracted : forall l tail, lacks "<pkg:part" tail ->
  Forall (fun bp => lacks "<pkg:part" (fst bp) /\ part_ok (snd bp)) l ->
  extract_parts (package_text quote l tail)
  = Parts (map (fun bp => XmlPart (s_name (snd bp)) (s_type (snd bp)) (content_data (s_content (snd bp)))) l).
Proof. exact extract_plain. Qed.
Print Assumptions parts_extracted.

(** With the doubled quotes the code takes care of, every name and type loses its
    first character ... *)
Theorem doubled_quotes_lose_first_character : forall l tail, lacks "<pkg:part" tail ->
  Forall (fun bp => lacks "<pkg:part" (fst bp) /\ part_ok (snd bp)
     /\ starts_at_char (tail_of (s_name (snd bp))) /\ starts_at_char (tail_of (s_type (snd bp)))) l ->
  extract_parts (package_text (quote +++ quote) l tail)
  = Parts (map (fun bp => XmlPart (decode_html_entities (tail_of (s_name (snd bp))))
                                  (decode_html_entities (tail_of (s_type (snd bp)))) (content_data (s_content (snd bp)))) l).
Proof. exact extract_doubled. Qed.
Print Assumptions doubled_quotes_lose_first_character.

Theorem doubled_quotes_refuted : exists p, part_ok p /\
  extract_parts (part_text (quote +++ quote) p) = Parts [XmlPart "rels/.rels" "ype" "<a/>"] /\ s_name p = "_rels/.rels" /\ s_type p = "type".
Proof.
  exists (SourcePart " " "_rels/.rels" " " "type" "" "" (XmlContent "<a/>") "").
  repeat split; try discriminate.
Qed.
Print Assumptions doubled_quotes_refuted.

(** ... and a name whose first character is not ASCII makes the extraction panic. *)
Theorem doubled_quotes_panic_refuted : forall p before rest c d v, lacks "<pkg:part" before -> part_ok p ->
  s_name p = String c (String d v) -> is_continuation d = true ->
  extract_parts (before +++ part_text (quote +++ quote) p +++ rest) = ExtractPanic.
Proof. exact extract_doubled_panics. Qed.
Print Assumptions doubled_quotes_panic_refuted.

(** On ASCII input the extraction never panics, whatever the input. *)
Theorem extraction_never_panics_on_ascii : forall s,
  all_char (fun c => negb (is_continuation c)) s = true -> extract_parts s <> ExtractPanic.
Proof. intros s H. exact (extract_loop_ascii _ s H). Qed.
Print Assumptions extraction_never_panics_on_ascii.

Definition sample_part (n t d : string) : source_part := SourcePart " " n " " t (" pkg:padding=" +++ quote +++ "512" +++ quote) "
" (XmlContent d) "
".
Example package_case :
  part_ok (sample_part "/_rels/.rels" "application/xml" "<Relationships/>")
  /\ part_ok (SourcePart " " "/word/media/a.png" " " "image/png" " " "" (BinaryContent " QUJD
 ") "")
  /\ extract_parts (package_text quote
       [("<?xml version='1.0'?><pkg:package>", sample_part "/_rels/.rels" "application/xml" "<Relationships/>");
        (" ", SourcePart " " "/word/media/a.png" " " "image/png" " " "" (BinaryContent " QUJD
 ") "")] "</pkg:package>")
     = Parts [XmlPart "/_rels/.rels" "application/xml" "<Relationships/>"; XmlPart "/word/media/a.png" "image/png" "QUJD"].
Proof.
  repeat split; try discriminate.
Qed.
Example panic_case : exists p, part_ok p /\ s_name p = String "195" (String "169" "") /\ is_continuation "169" = true.
Proof.
  exists (SourcePart " " (String "195" (String "169" "")) " " "type" "" "" (XmlContent "<a/>") "").
  repeat split; try discriminate.
Qed.

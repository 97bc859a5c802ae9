(** Properties C04, C09, C10. *)
From Verif Require Import Str EscapeModel EscapeSpec WriterModel WriterSpec XmlParser XmlSpec XmlTree XmlProofs XmlTreeProofs.

(** C04: whatever tree is written, reading gives back that tree. *)
Theorem written_tree_reads_back : forall t, legal t = true ->
  exists w, w_run w_init (calls_of t) = WOk w
    /\ forall n, nth_request n (reader_of (out w)) = nth n (events_for t) EDocEnd.
Proof. exact tree_roundtrip. Qed.
Print Assumptions written_tree_reads_back.

(** The same behind an XML declaration. *)
Theorem written_document_reads_back : forall v e s t,
  legal t = true -> has_char ch_gt v = false -> has_char ch_gt e = false ->
  exists w, w_run w_init (CDecl v (Some e) s :: calls_of t) = WOk w
    /\ forall n, nth_request n (reader_of (out w)) = nth n (events_for t) EDocEnd.
Proof. exact tree_roundtrip_decl. Qed.
Print Assumptions written_document_reads_back.

(** The same for any sequence of calls, with data already in escaped form. *)
Theorem written_calls_read_back : forall cs evs, doc_reported cs = Some evs ->
  exists w, w_run w_init cs = WOk w
    /\ forall n, nth_request n (reader_of (out w)) = nth n evs EDocEnd.
Proof. exact xml_roundtrip. Qed.
Print Assumptions written_calls_read_back.

Definition sample_tree : xtree :=
  XElem "w:p" [("w:id", "a<b" +++ str1 ch_quot +++ "c" +++ s_tab +++ s_nl)]
    [XElem "w:r" [] []; XText "x > y & z"; XElem "w:t" [("xml:space", "preserve")] [XText (" " +++ s_nl)]].
Example sample_tree_legal : legal sample_tree = true.
Proof. reflexivity. Qed.
Example sample_tree_events : events_for sample_tree =
  [EStart {| q_prefix := Some "w"; q_local := "p" |}
     [({| q_prefix := Some "w"; q_local := "id" |}, "a<b" +++ str1 ch_quot +++ "c " +++ s_nl)];
   EStart {| q_prefix := Some "w"; q_local := "r" |} []; EEnd {| q_prefix := Some "w"; q_local := "r" |};
   EChars "x > y & z";
   EStart {| q_prefix := Some "w"; q_local := "t" |} [({| q_prefix := Some "xml"; q_local := "space" |}, "preserve")];
   EWs (" " +++ s_nl); EEnd {| q_prefix := Some "w"; q_local := "t" |}; EEnd {| q_prefix := Some "w"; q_local := "p" |}].
Proof. reflexivity. Qed.
Example sample_calls_reported :
  doc_reported [CDecl "1.0" (Some "UTF-8") None; CStart "a" [("k", "&lt;1")]; CText "x&amp;"; CText "y"; CEnd]
  = Some [EStart {| q_prefix := None; q_local := "a" |} [({| q_prefix := None; q_local := "k" |}, "<1")];
          EChars "x&y"; EEnd {| q_prefix := None; q_local := "a" |}].
Proof. reflexivity. Qed.

(** C09: for every input, the answers before an error are well bracketed ... *)
Theorem answers_well_bracketed : forall n s,
  (forall k, k < n -> nth_request k (reader_of s) <> EErr) ->
  exists o, still_open [] (first_answers n s) = Some o.
Proof. exact answers_bracketed. Qed.
Print Assumptions answers_well_bracketed.

(** ... end of document is reached, on every input, after finitely many requests ... *)
Theorem end_of_document_reached : forall s,
  exists n, n <= 2 * String.length s /\ nth_request n (reader_of s) = EDocEnd.
Proof. exact docend_reached. Qed.
Print Assumptions end_of_document_reached.

(** ... and repeated for ever; the iterator stops instead. *)
Theorem end_of_document_forever : forall s n m,
  nth_request n (reader_of s) = EDocEnd -> n <= m -> nth_request m (reader_of s) = EDocEnd.
Proof. exact docend_forever. Qed.
Print Assumptions end_of_document_forever.

Theorem iterator_stops : forall st e st',
  iter_next st = (Some e, st') -> e = EDocEnd \/ e = EErr -> iter_next st' = (None, st').
Proof. exact iter_next_stops. Qed.
Print Assumptions iterator_stops.

Definition sample_input : string := "<?xml version='1.0'?><a k='v'>x<b/>&lt;</a>".
Example sample_input_answers : first_answers 7 sample_input =
  let q n := {| q_prefix := None; q_local := n |} in
  [EStart (q "a") [(q "k", "v")]; EChars "x"; EStart (q "b") []; EEnd (q "b"); EChars "<"; EEnd (q "a"); EDocEnd].
Proof. reflexivity. Qed.
Example sample_input_bracketed : still_open [] (first_answers 3 sample_input)
  = Some [{| q_prefix := None; q_local := "b" |}; {| q_prefix := None; q_local := "a" |}].
Proof. reflexivity. Qed.
Example mismatch_is_error : first_answers 2 "<a></b>" = [EStart {| q_prefix := None; q_local := "a" |} []; EErr].
Proof. reflexivity. Qed.

(** C10: character data between two tags is one event holding its meaning ... *)
Theorem character_data_is_one_event : forall n raw d,
  elem_name_ok n = true -> raw <> "" -> text_meaning None raw = Some d ->
  forall k, nth_request k (reader_of ("<" +++ n +++ ">" +++ raw +++ "</" +++ n +++ ">")) =
    nth k [EStart (split_qname n) []; (if all_char is_ws d then EWs d else EChars d); EEnd (split_qname n)] EDocEnd.
Proof. exact chars_one_event. Qed.
Print Assumptions character_data_is_one_event.

(** ... and, anywhere in any input without comments, CDATA sections and
    processing instructions, two character events never follow each other. *)
Theorem character_data_not_split : forall s n, ~ contains "<!" s -> ~ contains "<?" s ->
  adjacent_chars (first_answers n s) = false.
Proof. exact answers_not_adjacent. Qed.
Print Assumptions character_data_not_split.

(** A comment does split character data. *)
Theorem comment_splits_character_data_refuted : exists s n, adjacent_chars (first_answers n s) = true.
Proof. exists "<a>x<!-- -->y</a>", 4. reflexivity. Qed.
Print Assumptions comment_splits_character_data_refuted.

Example character_data_case :
  text_meaning None ("a&amp;&#x42;" +++ s_cr +++ s_nl +++ "c") = Some ("a&B" +++ s_nl +++ "c")
  /\ first_answers 4 "<t>a&amp;&#x42;c&quot;</t>" =
     [EStart {| q_prefix := None; q_local := "t" |} []; EChars ("a&Bc" +++ str1 ch_quot); EEnd {| q_prefix := None; q_local := "t" |}; EDocEnd].
Proof. split; reflexivity. Qed.

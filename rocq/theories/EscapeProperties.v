(** Properties C01, C02, C03. *)
From Verif Require Import Str EscapeModel EscapeSpec EscapeProofs.

(** C01 *)
Theorem unescape_escape : forall s, replace_escaped (escape s) = newline_as_reference s.
Proof. exact replace_escape. Qed.
Print Assumptions unescape_escape.

Theorem unescape_escape_iff : forall s,
  replace_escaped (escape s) = s <-> has_char ch_nl s = false /\ has_char ch_cr s = false.
Proof. exact replace_escape_iff. Qed.
Print Assumptions unescape_escape_iff.

Example unescape_escape_case :
  replace_escaped (escape "a<b & 'c' &amp; d") = "a<b & 'c' &amp; d"
  /\ replace_escaped (escape (s_nl +++ "x" +++ s_cr)) = "&#xA;x".
Proof. split; reflexivity. Qed.

Theorem unescape_fixpoint : forall s, replace_escaped s = s <-> entity_free s.
Proof. exact replace_escaped_fix. Qed.
Print Assumptions unescape_fixpoint.

Example unescape_fixpoint_case : replace_escaped "R&D; 1<2" = "R&D; 1<2" /\ replace_escaped "x&amp;lt;y" = "x&lt;y".
Proof. split; reflexivity. Qed.

(** C02 *)
Theorem escaped_text_decodes : forall s t, xml_text (escape s) t <-> t = without_cr s.
Proof.
  exact (fun s t => conj (fun H => xml_text_fun _ _ H _ (escape_xml_text s))
                         (fun H => eq_ind_r (fun t => xml_text (escape s) t) (escape_xml_text s) H)).
Qed.
Print Assumptions escaped_text_decodes.

Theorem escaped_text_no_markup : forall s c, markup_byte c = true -> has_char c (escape s) = false.
Proof. exact escape_no_markup. Qed.
Print Assumptions escaped_text_no_markup.

Example escaped_text_case : escape ("<a b='1'>&" +++ s_cr +++ s_nl) = "&lt;a b=&apos;1&apos;&gt;&amp;&#xA;" /\ markup_byte ch_lt = true.
Proof. split; reflexivity. Qed.

(** C03 *)
Theorem escape_owned_agrees : forall s, escape_owned s = escape s.
Proof. exact escape_owned_escape. Qed.
Print Assumptions escape_owned_agrees.

(** Specification vocabulary for escaping, independent of the model. *)
From Verif Require Import Str.

(** [xml_text raw txt]: an XML processor reads the character data [raw] as the
    text [txt] (XML 1.0, 2.4, 4.1 and 4.6; the only numeric reference needed
    here is the one for a newline).  Raw data holding a [<], or an [&] that does
    not begin a reference, is related to nothing. *)
Inductive xml_text : string -> string -> Prop :=
| xt_end : xml_text "" ""
| xt_char c raw txt :
    c <> ch_lt -> c <> ch_amp -> xml_text raw txt -> xml_text (String c raw) (String c txt)
| xt_amp raw txt : xml_text raw txt -> xml_text ("&amp;" +++ raw) ("&" +++ txt)
| xt_lt raw txt : xml_text raw txt -> xml_text ("&lt;" +++ raw) ("<" +++ txt)
| xt_gt raw txt : xml_text raw txt -> xml_text ("&gt;" +++ raw) (">" +++ txt)
| xt_quot raw txt : xml_text raw txt -> xml_text ("&quot;" +++ raw) (str1 ch_quot +++ txt)
| xt_apos raw txt : xml_text raw txt -> xml_text ("&apos;" +++ raw) ("'" +++ txt)
| xt_nl raw txt : xml_text raw txt -> xml_text ("&#xA;" +++ raw) (s_nl +++ txt).

(** Remove carriage returns / newlines. *)
Definition not_cr (c : ascii) : bool := negb (c =c ch_cr).
Definition not_nl (c : ascii) : bool := negb (c =c ch_nl).
Definition without_cr (s : string) : string := filter_str not_cr s.

(** What comes back of a text after escaping and the crate's own unescaping:
    newlines stay as the five bytes [&#xA;], carriage returns are gone. *)
Fixpoint newline_as_reference (s : string) : string :=
  match s with
  | EmptyString => EmptyString
  | String c r =>
      (if c =c ch_nl then "&#xA;" else if c =c ch_cr then "" else str1 c) +++ newline_as_reference r
  end.

(** The seven entity spellings that the crate's unescaping replaces. *)
Definition crate_entities : list (string * string) :=
  [("&lt;", "<"); ("&gt;", ">"); ("&amp;", "&"); ("&quot;", str1 ch_quot);
   ("&#39;", "'"); ("&apos;", "'"); ("&nbsp;", " ")].

(** [s] contains [sub] as a contiguous piece. *)
Definition contains (sub s : string) : Prop := exists a b, s = a +++ sub +++ b.

(** A text contains none of those spellings. *)
Definition entity_free (s : string) : Prop :=
  forall e v, In (e, v) crate_entities -> ~ contains e s.

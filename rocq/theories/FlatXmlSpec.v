(** Vocabulary for C36: how a flat XML package is written. *)
From Verif Require Import Str StrFind.

Definition quote : string := str1 """"%char.

Inductive content := XmlContent (d : string) | BinaryContent (d : string).

(** One part as it stands in the file.  [more] is whatever follows the content
    type inside the tag (other attributes). *)
Record source_part := SourcePart {
  s_gap1 : string; s_name : string; s_gap2 : string; s_type : string; s_more : string;
  s_gap3 : string; s_content : content; s_gap4 : string }.

Definition content_text (c : content) : string :=
  match c with
  | XmlContent d => "<pkg:xmlData>" +++ d +++ "</pkg:xmlData>"
  | BinaryContent d => "<pkg:binaryData>" +++ d +++ "</pkg:binaryData>"
  end.

(** The text of a part, the attribute values quoted by [q]. *)
Definition part_text (q : string) (p : source_part) : string :=
  "<pkg:part" +++ s_gap1 p +++ "pkg:name=" +++ q +++ s_name p +++ q +++ s_gap2 p
  +++ "pkg:contentType=" +++ q +++ s_type p +++ q +++ s_more p +++ ">"
  +++ s_gap3 p +++ content_text (s_content p) +++ s_gap4 p +++ "</pkg:part>".

(** A package: parts preceded by text, and text at the end. *)
Fixpoint package_text (q : string) (l : list (string * source_part)) (tail : string) : string :=
  match l with
  | [] => tail
  | (before, p) :: r => before +++ part_text q p +++ package_text q r tail
  end.

Definition blank (s : string) : Prop := all_char is_ws s = true.
Definition lacks (p s : string) : Prop := contains p s = false.

(** The value does not begin inside a multi-byte character (true of every Rust string). *)
Definition starts_at_char (s : string) : Prop :=
  match s with String c _ => is_continuation c = false | EmptyString => True end.

(** The content neither closes itself, nor its part, nor contains one of the
    texts that the extraction mistakes for attributes. *)
Definition content_ok (c : content) : Prop :=
  match c with
  | XmlContent d => starts_at_char d /\ lacks "</pkg:xmlData>" d /\ lacks "</pkg:part>" d
      /\ lacks ("pkg:name=" +++ quote +++ quote) d /\ lacks ("pkg:contentType=" +++ quote +++ quote) d
  | BinaryContent d => starts_at_char d /\ lacks "</pkg:binaryData>" d /\ lacks "</pkg:part>" d /\ lacks "<pkg:xmlData>" d
      /\ lacks ("pkg:name=" +++ quote +++ quote) d /\ lacks ("pkg:contentType=" +++ quote +++ quote) d
  end.

Definition value_ok (v : string) : Prop :=
  v <> "" /\ starts_at_char v /\ lacks quote v /\ lacks "<" v /\ lacks "pkg:contentType=" v.

Definition part_ok (p : source_part) : Prop :=
  blank (s_gap1 p) /\ blank (s_gap2 p) /\ blank (s_gap3 p) /\ blank (s_gap4 p)
  /\ value_ok (s_name p) /\ value_ok (s_type p)
  /\ lacks "<" (s_more p) /\ lacks (quote +++ quote) (quote +++ s_more p)
  /\ content_ok (s_content p).

Definition content_data (c : content) : string :=
  match c with XmlContent d => d | BinaryContent d => trim d end.

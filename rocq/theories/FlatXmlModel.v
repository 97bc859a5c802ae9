(** Extraction of the parts of a flat XML package. *)
From Verif Require Import Str StrFind.

Definition q1 : string := str1 ch_quot.
Definition q2 : string := q1 +++ q1.
Definition p_part : string := "<pkg:part".
Definition p_part_end : string := "</pkg:part>".
Definition p_name1 : string := "pkg:name=" +++ q1.
Definition p_name2 : string := "pkg:name=" +++ q2.
Definition p_type1 : string := "pkg:contentType=" +++ q1.
Definition p_type2 : string := "pkg:contentType=" +++ q2.
Definition p_xml : string := "<pkg:xmlData>".
Definition p_xml_end : string := "</pkg:xmlData>".
Definition p_bin : string := "<pkg:binaryData>".
Definition p_bin_end : string := "</pkg:binaryData>".

(** reader/read_xml.rs 197-212: [decode_html_entities]. *)
Definition decode_html_entities (s : string) : string :=
  let s := replace q2 q1 s in
  let s := replace "&quot;" q1 s in
  let s := replace "&amp;" "&" s in
  let s := replace "&lt;" "<" s in
  let s := replace "&gt;" ">" s in
  let s := replace "&apos;" "'" s in
  let s := replace "&#39;" "'" s in
  let s := replace "&#34;" q1 s in
  let s := replace "&#38;" "&" s in
  let s := replace "&#60;" "<" s in
  replace "&#62;" ">" s.

(** A piece of a part: found, part to be skipped, or a slicing panic. *)
Inductive piece := Got (s : string) | SkipPart | PiecePanic.

(** The shape shared by every branch of read_xml.rs 229-308: slice the part
    [n] bytes after the place where the opening was found and search the closing
    text there.  The second slice [part_xml[a..a + b]] ends where an ASCII byte
    was found and cannot panic. *)
Definition piece_at (part : string) (pos n : nat) (closing : string) : piece :=
  match slice_from (pos + n) part with
  | None => PiecePanic
  | Some r => match find closing r with Some k => Got (take_bytes k r) | None => SkipPart end
  end.
Definition map_piece (f : string -> string) (p : piece) : piece :=
  match p with Got s => Got (f s) | o => o end.

(** reader/read_xml.rs 229-253: the name, with the offsets 12 and 10 of lines 231 and 241. *)
Definition part_name (part : string) : piece :=
  match find p_name2 part with
  | Some i => map_piece decode_html_entities (piece_at part i 12 q2)
  | None =>
      match find p_name1 part with
      | Some i => piece_at part i 10 q1
      | None => SkipPart
      end
  end.

(** reader/read_xml.rs 256-280: the content type, offsets 19 and 17 of lines 258 and 268. *)
Definition part_type (part : string) : piece :=
  match find p_type2 part with
  | Some i => map_piece decode_html_entities (piece_at part i 19 q2)
  | None =>
      match find p_type1 part with
      | Some i => piece_at part i 17 q1
      | None => SkipPart
      end
  end.

(** reader/read_xml.rs 283-308: the content. *)
Definition part_data (part : string) : piece :=
  match find p_xml part with
  | Some i => piece_at part i 13 p_xml_end
  | None =>
      match find p_bin part with
      | Some i => map_piece trim (piece_at part i 16 p_bin_end)
      | None => SkipPart
      end
  end.

(** reader/read_xml.rs 190-194: [XmlPackagePart]. *)
Record xml_part := XmlPart { xp_name : string; xp_type : string; xp_data : string }.

Inductive extraction := Parts (l : list xml_part) | ExtractPanic | ExtractOutOfFuel.

Definition cons_part (p : xml_part) (e : extraction) : extraction :=
  match e with Parts l => Parts (p :: l) | o => o end.

(** reader/read_xml.rs 215-324: the [while let] loop of [extract_xml_package_parts],
    on the text from [start_idx] on.  Every slice taken at line 220, 224 and 226
    starts or ends next to an ASCII byte that was found. *)
Fixpoint extract_loop (fuel : nat) (s : string) : extraction :=
  match fuel with
  | O => ExtractOutOfFuel
  | S fuel =>
      match find p_part s with
      | None => Parts []
      | Some i =>
          match drop_bytes i s with
          | None => ExtractPanic
          | Some t =>
              match find p_part_end t with
              | None => match drop_bytes 1 t with None => ExtractPanic | Some t' => extract_loop fuel t' end
              | Some j =>
                  let part := take_bytes (j + 11) t in
                  match drop_bytes (j + 11) t with
                  | None => ExtractPanic
                  | Some rest =>
                      match part_name part with
                      | PiecePanic => ExtractPanic
                      | SkipPart => extract_loop fuel rest
                      | Got n =>
                          match part_type part with
                          | PiecePanic => ExtractPanic
                          | SkipPart => extract_loop fuel rest
                          | Got t =>
                              match part_data part with
                              | PiecePanic => ExtractPanic
                              | SkipPart => extract_loop fuel rest
                              | Got d => cons_part (XmlPart n t d) (extract_loop fuel rest)
                              end
                          end
                      end
                  end
              end
          end
      end
  end.

(** reader/read_xml.rs 215: [extract_xml_package_parts]; the loop ends after at
    most one round per byte (proved). *)
Definition extract_parts (s : string) : extraction := extract_loop (S (String.length s)) s.

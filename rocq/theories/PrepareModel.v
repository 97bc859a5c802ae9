(** The steps of [Docx::prepare_package], documents/mod.rs:835-897, one after the
    other. *)
From Coq Require Import NArith List Bool.
From Verif Require Import Str Props Ast IdsModel ParaIdModel TreeModel DepsModel TocModel PackModel.
Import ListNotations.

Definition with_body (d : docx) (body : list node) : docx :=
  {| d_body := body; d_sect := d_sect d; d_parts := d_parts d; d_comments := d_comments d; d_footnotes := d_footnotes d |}.
Definition with_comments (d : docx) (l : list comment) : docx :=
  {| d_body := d_body d; d_sect := d_sect d; d_parts := d_parts d; d_comments := l; d_footnotes := d_footnotes d |}.

(** [styles]: ids and names of the styles; [ext]: the extended comments; [n]: the
    counters of bookmark ids and keys.  The result is [None] if a counter runs out.
    Simplification: the styles added at 878-890 are not kept here; see PresetModel. *)
Definition prepare_package (crc : string -> N) (styles : list (string * string)) (ext : list comment_ext) (n : counters) (k : pkg)
  : option (pkg * collected * list comment_ext) :=
  match expand_auto_tocs styles (d_body (k_doc k)) n with
  | None => None
  | Some (body, _, _) =>
      match prepare_ids (with_body (k_doc k) body) with
      | None => None
      | Some d1 =>
          let dp := update_dependencies (d_body d1)
                      {| dp_comments := d_comments d1; dp_ext := ext; dp_has_comments := r_comments (k_doc_rels k); dp_links := [] |} in
          match collect_package crc (with_comments d1 (dp_comments dp)) with
          | None => None
          | Some (d2, c) => Some (prepared k d2 (dp_has_comments dp) (dp_links dp) c, c, dp_ext dp)
          end
      end
  end.

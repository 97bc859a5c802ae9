(** The calls that set the properties of a document: documents/mod.rs:600-613,
    doc_props/mod.rs:31-45, core.rs:33-41, custom.rs:18-21. *)
From Coq Require Import NArith List Bool.
From Verif Require Import Str DepsModel RenderModel.
Import ListNotations.

(** [created_at], [updated_at], [custom_property]; strings are stored as they are. *)
Inductive meta := Created (date : string) | Updated (date : string) | Property (name value : string).
Definition with_dates (created modified : option string) (c : core_props) : core_props :=
  {| co_created := created; co_creator := co_creator c; co_description := co_description c; co_language := co_language c;
     co_modified_by := co_modified_by c; co_modified := modified; co_revision := co_revision c; co_subject := co_subject c; co_title := co_title c |}.
(** The custom properties are a [HashMap]: [put_link] is [insert]; in which order the
    entries are kept does not matter. *)
Definition meta_call (s : core_props * list (string * string)) (x : meta) : core_props * list (string * string) :=
  match x with
  | Created d => (with_dates (Some d) (co_modified (fst s)) (fst s), snd s)
  | Updated d => (with_dates (co_created (fst s)) (Some d) (fst s), snd s)
  | Property n v => (fst s, put_link n v (snd s))
  end.
(** On [Docx::new]; no other public function sets them. *)
Definition metas (l : list meta) : core_props * list (string * string) := fold_left meta_call l (core_new, []).

(** Notions for the package: where headers and footers were asked for, what names
    lead to, which content type a part has. *)
From Coq Require Import NArith List Bool Sorting.Sorted.
From Verif Require Import Str Props Ast ParaIdSpec TreeSpec PackModel.
Import ListNotations.

Definition entry_name (e : entry) : string := match e with Dir n => n | File n _ => n end.
Definition step_name (s : step) : string := match s with SDir n | SXml n _ | SRaw n _ => n end.

(** ** Headers and footers *)
Definition all_slots : list slot := [HDefault; HFirst; HEven; FDefault; FFirst; FEven].
Definition is_head (x : slot) : bool := match x with HDefault | HFirst | HEven => true | _ => false end.
(** Headers and footers in the order the calls attach them: place (0: the document,
    i: its i-th section), slot, content. *)
Fixpoint attachments (sections : nat) (l : list api) : list (nat * slot * content) :=
  match l with
  | [] => []
  | APart x c :: r => (0, x, c) :: attachments sections r
  | ASection s :: r =>
      flat_map (fun x => match sa_pending s x with Some c => [(S sections, x, c)] | None => [] end) all_slots
      ++ attachments (S sections) r
  | _ :: r => attachments sections r
  end.
Definition slot_eqb (a b : slot) : bool :=
  match a, b with
  | HDefault, HDefault | HFirst, HFirst | HEven, HEven | FDefault, FDefault | FFirst, FFirst | FEven, FEven => true
  | _, _ => false
  end.
(** What the slot of a place should show: the last content asked for. *)
Definition intended (l : list api) (place : nat) (x : slot) : option content :=
  match filter (fun a => Nat.eqb (fst (fst a)) place && slot_eqb (snd (fst a)) x) (rev (attachments 0 l)) with
  | a :: _ => Some (snd a)
  | [] => None
  end.
(** Blocks are blocks (sections have their own call), and whole documents are not
    replaced. *)
Definition keeps_document (l : list api) : Prop :=
  Forall (fun a => match a with ADocument _ | ABlock (NSection _ _ _ _) => False | _ => True end) l.

Definition slot_order (x : slot) : nat :=
  match x with HDefault | FDefault => 0 | HFirst | FFirst => 1 | HEven | FEven => 2 end.
(** The document comes first, then its sections; default, first page, even pages. *)
Definition before (a b : nat * slot) : Prop :=
  fst a < fst b \/ fst a = fst b /\ slot_order (snd a) < slot_order (snd b).
(** The headers, and the footers, were attached in this order, none twice. *)
Definition in_order (l : list api) : Prop := forall head : bool,
  StronglySorted before (map fst (filter (fun a => eqb (is_head (snd (fst a))) head) (attachments 0 l))).
(** No slot of a place was filled twice. *)
Definition no_slot_twice (l : list api) : Prop := NoDup (map fst (attachments 0 l)).

(** The section property of a place, and the reference it holds for a slot. *)
Definition property_at (d : docx) (place : nat) : option sectpr :=
  match place with
  | O => Some (d_sect d)
  | S i => nth_error (flat_map (fun n => match n with NSection p _ _ _ => [p] | _ => [] end) (d_body d)) i
  end.
Definition ref_of (p : sectpr) (x : slot) : option part_ref :=
  match x with
  | HDefault => sp_header p | HFirst => sp_first_header p | HEven => sp_even_header p
  | FDefault => sp_footer p | FFirst => sp_first_footer p | FEven => sp_even_footer p
  end.
Definition type_of (x : slot) : string :=
  match x with HDefault | FDefault => "default" | HFirst | FFirst => "first" | HEven | FEven => "even" end.
(** A header (or footer) reference leads through the relationships of the main part,
    among those of its kind, to a file. *)
Definition leads_to (r : doc_rels) (x : slot) (rid name : string) : Prop :=
  exists e, In e (written_rels r) /\ rel_kind e = (if is_head x then "header" else "footer") /\
            rel_id e = rid /\ name = "word/" +++ rel_target e.
(** The file with this name is the rendering of [n]. *)
Definition file_of (steps : list step) (name : string) (n : node) : Prop := In (SXml name (PPart n)) steps.

(** The header or footer held for a slot of a place. *)
Definition sections_of (d : docx) : list (sectpr * list node) :=
  flat_map (fun n => match n with NSection p ps _ _ => [(p, ps)] | _ => [] end) (d_body d).
Definition parts_at (d : docx) (place : nat) : list node :=
  match place with
  | O => d_parts d
  | S i => match nth_error (sections_of d) i with Some s => snd s | None => [] end
  end.
Definition has_slot (x : slot) (n : node) : bool := match n with NPart y _ _ _ => slot_eqb y x | _ => false end.
Definition part_at (d : docx) (place : nat) (x : slot) : option node := List.find (has_slot x) (parts_at d place).
(** The reference of a slot leads to the file of its own header or footer. *)
Definition shown (d : docx) (r : doc_rels) (steps : list step) (place : nat) (x : slot) : Prop :=
  exists p rid name n,
    property_at d place = Some p /\ ref_of p x = Some {| pr_type := type_of x; pr_id := rid |} /\ leads_to r x rid name /\
    part_at d place x = Some n /\ file_of steps name n.
(** Where headers and footers are, without their contents. *)
Definition shape (n : node) : option (slot * string) := match n with NPart s rid _ _ => Some (s, rid) | _ => None end.
Definition layout (d : docx) : sectpr * list (option (slot * string)) * list (sectpr * list (option (slot * string))) :=
  (d_sect d, map shape (d_parts d), map (fun s => (fst s, map shape (snd s))) (sections_of d)).

(** A tree without its paragraph ids and the ids and bytes of its pictures. *)
Definition bare (n : node) : node := wipe (wipe_pics n).

(** ** Content types *)
(** Text after the last dot. *)
Fixpoint extension (s : string) : option string :=
  match s with
  | "" => None
  | String c r => match extension r with Some e => Some e | None => if c =c "."%char then Some r else None end
  end.
Fixpoint assoc (k : string) (l : list (string * string)) : option string :=
  match l with [] => None | (k', v) :: r => if k' =s k then Some v else assoc k r end.
(** The type a part has: by name, else by extension. *)
Definition type_in (t : types) (name : string) : option string :=
  match assoc ("/" +++ name) (t_map t) with
  | Some ty => Some ty
  | None => match extension name with Some e => assoc e default_extensions | None => None end
  end.
Definition relationships_type := "application/vnd.openxmlformats-package.relationships+xml".
(** The type the format prescribes; none for directories and for the list of types. *)
Definition right_type (s : step) : option string :=
  match s with
  | SDir _ => None
  | SRaw _ _ => Some "image/png"
  | SXml _ (PFixed f) =>
      match f with
      | XTypes => None
      | XRels | XDocRels | XPaneRels => Some relationships_type
      | XApp => Some "application/vnd.openxmlformats-officedocument.extended-properties+xml"
      | XCore => Some "application/vnd.openxmlformats-package.core-properties+xml"
      | XCustomProps => Some "application/vnd.openxmlformats-officedocument.custom-properties+xml"
      | XDocument => Some "application/vnd.openxmlformats-officedocument.wordprocessingml.document.main+xml"
      | XStyles => Some "application/vnd.openxmlformats-officedocument.wordprocessingml.styles+xml"
      | XSettings => Some "application/vnd.openxmlformats-officedocument.wordprocessingml.settings+xml"
      | XFonts => Some "application/vnd.openxmlformats-officedocument.wordprocessingml.fontTable+xml"
      | XComments => Some "application/vnd.openxmlformats-officedocument.wordprocessingml.comments+xml"
      | XNumbering => Some "application/vnd.openxmlformats-officedocument.wordprocessingml.numbering+xml"
      | XCommentsExt => Some "application/vnd.openxmlformats-officedocument.wordprocessingml.commentsExtended+xml"
      | XFootnotes => Some "application/vnd.openxmlformats-officedocument.wordprocessingml.footnotes+xml"
      | XTaskpanes => Some "application/vnd.ms-office.webextensiontaskpanes+xml"
      end
  | SXml _ (PPart (NPart x _ _ _)) =>
      Some (if is_head x then "application/vnd.openxmlformats-officedocument.wordprocessingml.header+xml"
            else "application/vnd.openxmlformats-officedocument.wordprocessingml.footer+xml")
  | SXml _ (PPart _) => None
  | SXml _ (PPartRels _) | SXml _ (PItemRels _) => Some relationships_type
  | SXml _ (PWeb _) => Some "application/vnd.ms-office.webextension+xml"
  | SXml _ (PItem _) => Some "application/xml"
  | SXml _ (PItemProps _) => Some "application/vnd.openxmlformats-officedocument.customXmlProperties+xml"
  end.
Definition is_item_props (s : step) : bool := match s with SXml _ (PItemProps _) => true | _ => false end.
Definition is_footnotes (s : step) : bool := match s with SXml _ (PFixed XFootnotes) => true | _ => false end.
(** How many web extensions the calls add. *)
Definition webs (l : list api) : nat := length (filter (fun a => match a with AWeb _ => true | _ => false end) l).

(** ** Rendering *)
(** The parts whose rendering may take ids. *)
Definition noisy (p : part) : bool :=
  match p with
  | PPart _ | PFixed XDocument | PFixed XStyles | PFixed XComments | PFixed XNumbering | PFixed XFootnotes => true
  | _ => false
  end.

(** ** Numbering *)
(** Paragraphs written into the same part, at any depth; texts of comments,
    footnotes and text boxes are not. *)
Fixpoint paras_of (n : node) : list node :=
  match n with
  | NPara _ _ _ ch => n :: flat_map paras_of ch
  | NTable _ _ _ ch | NRow _ _ ch | NCell _ _ ch | NSdt _ _ ch | NLink _ _ ch | NPart _ _ _ ch => flat_map paras_of ch
  | NToc _ b a => flat_map paras_of b ++ flat_map paras_of a
  | NSection _ parts _ ch => flat_map paras_of ch ++ flat_map paras_of parts
  | _ => []
  end.
Definition refers_to_numbering (n : node) : Prop :=
  match n with NPara _ p _ _ => p_numbering (base_of p) <> None | _ => False end.
Definition uses_numbering (l : list node) : Prop := Exists refers_to_numbering (flat_map paras_of l).
(** All the content a call hands over. *)
Definition handed_over (a : api) : list node :=
  match a with
  | ABlock n => [n]
  | ASection s => sa_children s ++ flat_map (fun x => match sa_pending s x with Some c => snd c | None => [] end) all_slots
  | APart _ c => snd c
  | _ => []
  end.

(** ** Typed calls *)
Definition typed_content (c : content) : Prop := forallb part_child (snd c) = true /\ Forall well_formed (snd c).
(** What is handed over is typed as in Rust; whole documents are not replaced. *)
Definition typed_call (a : api) : Prop :=
  match a with
  | ABlock n => section_child n = true /\ well_formed n
  | ASection s => forallb section_child (sa_children s) = true /\ Forall well_formed (sa_children s) /\
                  (forall x c, sa_pending s x = Some c -> typed_content c)
  | APart _ c => typed_content c
  | ADocument _ => False
  | _ => True
  end.
Definition typed_calls (l : list api) : Prop := Forall typed_call l.
Definition is_custom (a : api) : Prop := match a with ACustom _ _ => True | _ => False end.
(** The relationships of headers and footers, and whether the target of one exists. *)
Definition part_rels (r : doc_rels) : list rel :=
  filter (fun e => (rel_kind e =s "header") || (rel_kind e =s "footer")) (written_rels r).
Definition target_exists (steps : list step) (e : rel) : Prop := exists n, file_of steps ("word/" +++ rel_target e) n.

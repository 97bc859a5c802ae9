(** What "unique paragraph ids" means, without reference to the passes. *)
From Coq Require Import NArith List Bool.
From Verif Require Import Str Props Ast.
Import ListNotations.

(** The nodes below a node, except what is inside the footnote text of a footnote
    reference or inside a text box. *)
Fixpoint open_nodes (n : node) : list node :=
  n :: match n with
       | NTextBox _ | NFootRef _ _ _ => []
       | NRun _ ch | NCommentStart _ ch | NIns _ ch | NDel _ ch
       | NMoveFrom _ ch | NMoveTo _ ch | NLink _ _ ch | NSdt _ _ ch | NPara _ _ _ ch | NTable _ _ _ ch
       | NRow _ _ ch | NCell _ _ ch | NPart _ _ _ ch => flat_map open_nodes ch
       | NToc _ b a => flat_map open_nodes b ++ flat_map open_nodes a
       | NSection _ parts _ ch => flat_map open_nodes ch ++ flat_map open_nodes parts
       | _ => []
       end.

(** The ids of the paragraphs of a document: all of them, and those outside
    footnote references and text boxes. *)
Definition para_id (n : node) : list string := match n with NPara id _ _ _ => [id] | _ => [] end.
Definition all_para_ids (d : docx) : list string := flat_map para_id (flat_map all_nodes (doc_roots d)).
Definition open_para_ids (d : docx) : list string := flat_map para_id (flat_map open_nodes (doc_roots d)).

(** Every paragraph has an id and no two share one. *)
Definition ids_unique (l : list string) : Prop := NoDup l /\ ~ In "" l.

(** Nothing is inside a footnote reference or a text box. *)
Definition nothing_hidden (d : docx) : Prop :=
  Forall (fun m => match m with NFootRef _ _ ch | NTextBox ch => ch = [] | _ => True end)
         (flat_map all_nodes (doc_roots d)).

(** [new] renews the ids [old]: same length, unique, whoever carried a non-empty
    id first keeps it, and ids given afresh were not in use. *)
Definition renews (old new : list string) : Prop :=
  List.length new = List.length old /\ ids_unique new /\
  (forall i id, nth_error old i = Some id -> id <> "" ->
     (forall j, j < i -> nth_error old j <> Some id) -> nth_error new i = Some id) /\
  (forall i x, nth_error new i = Some x -> nth_error old i = Some x \/ ~ In x old).

(** How many ids have to be given afresh: the empty ones and the repetitions. *)
Definition to_renew (old : list string) : nat :=
  List.length old - List.length (nodup string_dec (filter (fun id => negb (id =s "")) old)).

(** The tree with the paragraph ids wiped, except inside footnote references and
    text boxes, which stay whole. *)
Fixpoint wipe (n : node) : node :=
  match n with
  | NPara _ p nb ch => NPara "" p nb (map wipe ch)
  | NRun p ch => NRun p (map wipe ch)
  | NCommentStart c ch => NCommentStart c (map wipe ch)
  | NIns a ch => NIns a (map wipe ch)
  | NDel a ch => NDel a (map wipe ch)
  | NMoveFrom a ch => NMoveFrom a (map wipe ch)
  | NMoveTo a ch => NMoveTo a (map wipe ch)
  | NLink l h ch => NLink l h (map wipe ch)
  | NSdt p nb ch => NSdt p nb (map wipe ch)
  | NTable p g nb ch => NTable p g nb (map wipe ch)
  | NRow p nb ch => NRow p nb (map wipe ch)
  | NCell p nb ch => NCell p nb (map wipe ch)
  | NToc d b a => NToc d (map wipe b) (map wipe a)
  | NSection p parts nb ch => NSection p (map wipe parts) nb (map wipe ch)
  | NPart k r nb ch => NPart k r nb (map wipe ch)
  | _ => n
  end.
Definition wipe_docx (d : docx) : docx :=
  {| d_body := map wipe (d_body d); d_sect := d_sect d; d_parts := map wipe (d_parts d);
     d_comments := map (fun c => (fst c, map wipe (snd c))) (d_comments d);
     d_footnotes := map (fun f => (fst f, map wipe (snd f))) (d_footnotes d) |}.

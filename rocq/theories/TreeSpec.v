(** Which pictures and footnotes belong to a part. *)
From Coq Require Import NArith List Bool.
From Verif Require Import Str Props Ast MediaSpec.
Import ListNotations.

(** The nodes written into the same XML part as [n]: the text of comments and of
    footnotes and the headers and footers of sections go to other parts.  Text
    boxes are left out because they cannot be built. *)
Fixpoint own_nodes (n : node) : list node :=
  n :: match n with
       | NTextBox _ | NFootRef _ _ _ | NCommentStart _ _ => []
       | NRun _ ch | NIns _ ch | NDel _ ch
       | NMoveFrom _ ch | NMoveTo _ ch | NLink _ _ ch | NSdt _ _ ch | NPara _ _ _ ch | NTable _ _ _ ch
       | NRow _ _ ch | NCell _ _ ch | NPart _ _ _ ch => flat_map own_nodes ch
       | NToc _ b a => flat_map own_nodes b ++ flat_map own_nodes a
       | NSection _ parts _ ch => flat_map own_nodes ch
       | _ => []
       end.
Definition pics_in (l : list node) : list pic :=
  flat_map (fun n => match n with NPic p => [p] | _ => [] end) (flat_map own_nodes l).
(** The footnotes referred to: id and text, in document order. *)
Definition footnotes_in (l : list node) : list (N * list node) :=
  flat_map (fun n => match n with NFootRef id _ content => [(id, content)] | _ => [] end) (flat_map own_nodes l).

(** The headers (footers) of the document: those of the last section, then those
    of the other sections in order. *)
Definition parts_of (header : bool) (l : list node) : list node :=
  filter (fun n => match n with
                   | NPart (HDefault | HFirst | HEven) _ _ _ => header
                   | NPart _ _ _ _ => negb header
                   | _ => false end) l.
Definition doc_parts (header : bool) (d : docx) : list node :=
  parts_of header (d_parts d) ++
  flat_map (fun n => match n with NSection _ parts _ _ => parts_of header parts | _ => [] end) (d_body d).

(** The pictures [new] of a part stand for the pictures [old]: each id leads through
    the relationships of the part and the media files to the bytes of the old
    picture, and no two relationships share an id. *)
Definition part_resolves (rels media : list (string * string)) (old new : list pic) : Prop :=
  NoDup (map fst rels) /\
  Forall2 (fun p p' => follow rels media (pic_id p') = Some (pic_image p)) old new.
Definition parts_resolve (rels : list (list (string * string))) (media : list (string * string)) (old new : list node) : Prop :=
  List.length new = List.length old /\
  Forall2 (fun n nr => part_resolves (snd nr) media (pics_in [n]) (pics_in [fst nr])) old (combine new rels) /\
  List.length rels = List.length old.

(** The tree with ids and bytes of pictures wiped. *)
Definition wipe_pic (p : pic) : pic :=
  {| pic_id := ""; pic_image := ""; pic_size := pic_size p; pic_anchor := pic_anchor p;
     pic_simple_pos := pic_simple_pos p; pic_simple_x := pic_simple_x p; pic_simple_y := pic_simple_y p;
     pic_layout_in_cell := pic_layout_in_cell p; pic_relative_height := pic_relative_height p;
     pic_overlap := pic_overlap p; pic_h := pic_h p; pic_v := pic_v p; pic_from_h := pic_from_h p;
     pic_from_v := pic_from_v p; pic_dist_t := pic_dist_t p; pic_dist_b := pic_dist_b p;
     pic_dist_l := pic_dist_l p; pic_dist_r := pic_dist_r p; pic_rot := pic_rot p |}.
Fixpoint wipe_pics (n : node) : node :=
  match n with
  | NPic p => NPic (wipe_pic p)
  | NPara i p nb ch => NPara i p nb (map wipe_pics ch)
  | NRun p ch => NRun p (map wipe_pics ch)
  | NIns a ch => NIns a (map wipe_pics ch)
  | NDel a ch => NDel a (map wipe_pics ch)
  | NMoveFrom a ch => NMoveFrom a (map wipe_pics ch)
  | NMoveTo a ch => NMoveTo a (map wipe_pics ch)
  | NLink l h ch => NLink l h (map wipe_pics ch)
  | NSdt p nb ch => NSdt p nb (map wipe_pics ch)
  | NTable p g nb ch => NTable p g nb (map wipe_pics ch)
  | NRow p nb ch => NRow p nb (map wipe_pics ch)
  | NCell p nb ch => NCell p nb (map wipe_pics ch)
  | NToc d b a => NToc d (map wipe_pics b) (map wipe_pics a)
  | NSection p parts nb ch => NSection p (map wipe_pics parts) nb (map wipe_pics ch)
  | NPart k r nb ch => NPart k r nb (map wipe_pics ch)
  | _ => n
  end.

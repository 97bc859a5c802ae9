(** The tree visitor (documents/document_tree.rs) with the collector of pictures
    and footnotes (documents/image_collector.rs) run by the build. *)
From Coq Require Import NArith List Bool.
From Verif Require Import Str Props Ast Pass MediaModel.
Import ListNotations.

Definition set_pic (p : pic) (id image : string) : pic :=
  {| pic_id := id; pic_image := image; pic_size := pic_size p; pic_anchor := pic_anchor p;
     pic_simple_pos := pic_simple_pos p; pic_simple_x := pic_simple_x p; pic_simple_y := pic_simple_y p;
     pic_layout_in_cell := pic_layout_in_cell p; pic_relative_height := pic_relative_height p;
     pic_overlap := pic_overlap p; pic_h := pic_h p; pic_v := pic_v p; pic_from_h := pic_from_h p;
     pic_from_v := pic_from_v p; pic_dist_t := pic_dist_t p; pic_dist_b := pic_dist_b p;
     pic_dist_l := pic_dist_l p; pic_dist_r := pic_dist_r p; pic_rot := pic_rot p |}.

(** State of a [PackagePartCollector], image_collector.rs:116-126, with the shared
    registry. *)
Record part_state := { ps_registry : registry; ps_collector : collector; ps_footnotes : list (N * list node) }.

(* document_tree.rs: which children are visited *)
Definition doc_visits (n : node) : bool :=       (* visit_document_child, 66-78 *)
  match n with NPara _ _ _ _ | NTable _ _ _ _ | NSdt _ _ _ | NToc _ _ _ | NSection _ _ _ _ => true | _ => false end.
Definition section_visits (n : node) : bool :=   (* visit_section, 80-93; cells in visit_table, 95-110 *)
  match n with NPara _ _ _ _ | NTable _ _ _ _ | NSdt _ _ _ | NToc _ _ _ => true | _ => false end.
Definition part_visits (n : node) : bool :=      (* visit_header / visit_footer, 45-64 *)
  match n with NPara _ _ _ _ | NTable _ _ _ _ | NSdt _ _ _ => true | _ => false end.
Definition block_visits (n : node) : bool :=     (* visit_table_of_contents, 112-123 *)
  match n with NPara _ _ _ _ | NTable _ _ _ _ => true | _ => false end.
Definition sdt_visits (n : node) : bool :=       (* visit_structured_data_tag, 125-140 *)
  match n with NRun _ _ | NPara _ _ _ _ | NTable _ _ _ _ | NSdt _ _ _ => true | _ => false end.
Definition para_visits (n : node) : bool :=      (* visit_paragraph_children, 147-168; visit_hyperlink, 170-172 *)
  match n with NRun _ _ | NIns _ _ | NDel _ _ | NMoveFrom _ _ | NMoveTo _ _ | NLink _ _ _ | NSdt _ _ _ => true | _ => false end.
Definition ins_visits (n : node) : bool :=       (* visit_insert, 174-182; visit_move_to, 200-208 *)
  match n with NRun _ _ | NDel _ _ => true | _ => false end.
Definition del_visits (n : node) : bool :=       (* visit_delete, 184-190; visit_move_from, 192-198 *)
  match n with NRun _ _ => true | _ => false end.
Definition run_visits (n : node) : bool :=       (* visit_run, 210-237 *)
  match n with NPic _ | NFootRef _ _ _ => true | _ => false end.

Section Visit.
  Variable crc : string -> N.
  Variable prefix : option string.

  (** [visit_picture], image_collector.rs:185-207: the picture's bytes are taken
      out of the tree and its id becomes the relationship id. *)
  Definition on_picture (p : pic) (s : part_state) : option (pic * part_state) :=
    match visit_picture crc prefix (ps_registry s) (ps_collector s) (pic_id p) (pic_image p) with
    | None => None
    | Some (id, r, c) =>
        Some (set_pic p id "", {| ps_registry := r; ps_collector := c; ps_footnotes := ps_footnotes s |})
    end.
  (** [visit_footnote_reference], 209-211, with footnote.rs:41-48 *)
  Definition on_footnote (id : N) (content : list node) (s : part_state) : part_state :=
    {| ps_registry := ps_registry s; ps_collector := ps_collector s; ps_footnotes := ps_footnotes s ++ [(id, content)] |}.

  Fixpoint visit (n : node) (s : part_state) {struct n} : option (node * part_state) :=
    match n with
    | NPic p => then_ (on_picture p s) NPic
    | NFootRef id st content => Some (NFootRef id st content, on_footnote id content s)
    | NRun p ch => then_ (pass (fun c s => if run_visits c then visit c s else Some (c, s)) ch s) (NRun p)
    | NPara id p nb ch => then_ (pass (fun c s => if para_visits c then visit c s else Some (c, s)) ch s) (NPara id p nb)
    | NLink l h ch => then_ (pass (fun c s => if para_visits c then visit c s else Some (c, s)) ch s) (NLink l h)
    | NIns a ch => then_ (pass (fun c s => if ins_visits c then visit c s else Some (c, s)) ch s) (NIns a)
    | NMoveTo a ch => then_ (pass (fun c s => if ins_visits c then visit c s else Some (c, s)) ch s) (NMoveTo a)
    | NDel a ch => then_ (pass (fun c s => if del_visits c then visit c s else Some (c, s)) ch s) (NDel a)
    | NMoveFrom a ch => then_ (pass (fun c s => if del_visits c then visit c s else Some (c, s)) ch s) (NMoveFrom a)
    | NSdt p nb ch => then_ (pass (fun c s => if sdt_visits c then visit c s else Some (c, s)) ch s) (NSdt p nb)
    | NTable p g nb rows => then_ (pass (fun c s => if is_row c then visit c s else Some (c, s)) rows s) (NTable p g nb)
    | NRow p nb cells => then_ (pass (fun c s => if is_cell c then visit c s else Some (c, s)) cells s) (NRow p nb)
    | NCell p nb ch => then_ (pass (fun c s => if section_visits c then visit c s else Some (c, s)) ch s) (NCell p nb)
    | NToc d b a =>
        match pass (fun c s => if block_visits c then visit c s else Some (c, s)) b s with
        | None => None
        | Some (b', s1) => then_ (pass (fun c s => if block_visits c then visit c s else Some (c, s)) a s1) (NToc d b')
        end
    | NSection p parts nb ch =>
        then_ (pass (fun c s => if section_visits c then visit c s else Some (c, s)) ch s) (NSection p parts nb)
    | NPart k rid nb ch => then_ (pass (fun c s => if part_visits c then visit c s else Some (c, s)) ch s) (NPart k rid nb)
    | _ => Some (n, s)
    end.
  (** [visit_document], 38-42 *)
  Definition visit_body (l : list node) (s : part_state) : option (list node * part_state) :=
    pass (fun c s => if doc_visits c then visit c s else Some (c, s)) l s.
End Visit.

Definition start_part (r : registry) : part_state := {| ps_registry := r; ps_collector := empty_collector; ps_footnotes := [] |}.

Definition is_header_slot (k : slot) : bool := match k with HDefault | HFirst | HEven => true | _ => false end.
Definition is_header (n : node) : bool := match n with NPart k _ _ _ => is_header_slot k | _ => false end.
Definition is_footer (n : node) : bool := match n with NPart k _ _ _ => negb (is_header_slot k) | _ => false end.

(** State of the loops over header and footer parts: the registry and the
    relationships of the parts met so far, in order. *)
Notation rels_list := (list (list (string * string))).
(** [collect_header_part] / [collect_footer_part], image_collector.rs:251-267,
    of which only the relationships are used (mod.rs:1230, 1248). *)
Definition collect_part (crc : string -> N) (prefix : string) (n : node) (s : registry * rels_list)
  : option (node * (registry * rels_list)) :=
  match visit crc (Some prefix) n (start_part (fst s)) with
  | None => None
  | Some (n', st) => Some (n', (ps_registry st, snd s ++ [rels (ps_collector st)]))
  end.
(** [Document::headers_mut] / [footers_mut], document.rs:273-283, 299-309: the
    parts of the final section property, then those of the sections. *)
Definition on_parts (which : node -> bool) (f : node -> registry * rels_list -> option (node * (registry * rels_list)))
    (d : docx) (s : registry * rels_list) : option (docx * (registry * rels_list)) :=
  let step c s := if which c then f c s else Some (c, s) in
  match pass step (d_parts d) s with
  | None => None
  | Some (parts, s1) =>
      then_ (pass (fun c s => match c with
                              | NSection p ps nb ch => then_ (pass step ps s) (fun ps' => NSection p ps' nb ch)
                              | _ => Some (c, s)
                              end) (d_body d) s1)
        (fun body => {| d_body := body; d_sect := d_sect d; d_parts := parts;
                        d_comments := d_comments d; d_footnotes := d_footnotes d |})
  end.

(** What [prepare_package], mod.rs:845-897, collects from the tree: relationships
    of the main part and of the headers and footers (in Rust kept sparse: only
    the non-empty ones, with their index), media, footnotes. *)
Record collected := {
  c_rels : list (string * string); c_header_rels : rels_list; c_footer_rels : rels_list;
  c_media : list (string * string); c_has_footnotes : bool }.
Definition collect_package (crc : string -> N) (d : docx) : option (docx * collected) :=
  match visit_body crc None (d_body d) (start_part empty_registry) with
  | None => None
  | Some (body, st) =>
      let d1 := {| d_body := body; d_sect := d_sect d; d_parts := d_parts d;
                   d_comments := d_comments d; d_footnotes := d_footnotes d |} in
      match on_parts is_header (collect_part crc "header") d1 (ps_registry st, []) with
      | None => None
      | Some (d2, (r2, hrels)) =>
          match on_parts is_footer (collect_part crc "footer") d2 (r2, []) with
          | None => None
          | Some (d3, (r3, frels)) =>
              Some ({| d_body := d_body d3; d_sect := d_sect d3; d_parts := d_parts d3; d_comments := d_comments d3;
                       d_footnotes := d_footnotes d3 ++ ps_footnotes st |},
                    {| c_rels := rels (ps_collector st); c_header_rels := hrels; c_footer_rels := frels;
                       c_media := media r3; c_has_footnotes := match ps_footnotes st with [] => false | _ => true end |})
          end
      end
  end.

(** [Docx::collect_footnotes], mod.rs:1260-1265, image_collector.rs:230-248.
    Simplification: its visitor, which ignores pictures, is replaced by the one
    above, whose changes to the tree are thrown away. *)
Definition collect_footnotes (d : docx) : option docx :=
  match visit_body (fun _ => 0%N) None (d_body d) (start_part empty_registry) with
  | None => None
  | Some (_, st) =>
      Some {| d_body := d_body d; d_sect := d_sect d; d_parts := d_parts d; d_comments := d_comments d;
              d_footnotes := d_footnotes d ++ ps_footnotes st |}
  end.

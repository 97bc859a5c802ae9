(** The setters of sections, pages, pictures, borders and other values that are given to the setters
    of runs, paragraphs, tables and documents.  Paths are below docx-core/src/documents/elements. *)
From Coq Require Import NArith ZArith List.
From Verif Require Import Str TypesModel Props PropsSet Ast JsonModel CallModel.
Import ListNotations.
Open Scope list_scope.

(** ** Pages: page_size.rs:33-54, page_margin.rs:27-53, doc_grid.rs:29-42, page_num_type.rs:22-34 *)
Inductive size_call := ZSize (w h : N) | ZWidth (w : N) | ZHeight (h : N) | ZOrient (o : PageOrientationType).
Definition on_size (c : size_call) (x : page_size) : page_size :=
  match c with
  | ZSize w h => {| pg_w := w; pg_h := h; pg_orient := pg_orient x |}
  | ZWidth w => set_pg_w w x | ZHeight h => set_pg_h h x | ZOrient o => set_pg_orient (Some o) x
  end.
Inductive margin_call := MTop (z : Z) | MLeft (z : Z) | MBottom (z : Z) | MRight (z : Z) | MHeader (z : Z) | MFooter (z : Z) | MGutter (z : Z).
Definition on_margin (c : margin_call) (x : page_margin) : page_margin :=
  match c with
  | MTop z => set_mg_top z x | MLeft z => set_mg_left z x | MBottom z => set_mg_bottom z x | MRight z => set_mg_right z x
  | MHeader z => set_mg_header z x | MFooter z => set_mg_footer z x | MGutter z => set_mg_gutter z x
  end.
Inductive grid_call := DType (t : DocGridType) | DLinePitch (n : N) | DCharSpace (z : Z).
Definition on_grid (c : grid_call) (x : doc_grid) : doc_grid :=
  match c with DType t => set_dg_type t x | DLinePitch n => set_dg_line_pitch (Some n) x | DCharSpace z => set_dg_char_space (Some z) x end.
Inductive page_num_call := QStart (n : N) | QChapStyle (s : string).
Definition on_page_num (c : page_num_call) (x : page_num_type) : page_num_type :=
  match c with QStart n => set_pn_start (Some n) x | QChapStyle s => set_pn_chap_style (Some s) x end.

(** ** Sections: section_property.rs *)
(** 12-49: the property with the headers and footers it carries.  Simplification: a header or footer
    is its JSON. *)
Record section_state := { ss_prop : sectpr; ss_parts : slot -> option (string * json) }.
(** A tuple of an id and a header or footer *)
Definition j_carried (p : string * json) : json := JArr [JStr (fst p); snd p].
Definition j_section_state (s : section_state) : json := j_sectpr (fun x => option_map j_carried (ss_parts s x)) (ss_prop s).
Definition slot_eqb (a b : slot) : bool :=
  match a, b with HDefault, HDefault | HFirst, HFirst | HEven, HEven | FDefault, FDefault | FFirst, FFirst | FEven, FEven => true | _, _ => false end.
(** HeaderReference::new, header_reference.rs:24-29, and FooterReference::new, footer_reference.rs:15-20,
    with the names of section_property.rs:87, 93, 106, 112, 118, 131 *)
Definition ref_to (x : slot) (rid : string) : part_ref :=
  {| pr_type := match x with HDefault | FDefault => "default" | HFirst | FFirst => "first" | HEven | FEven => "even" end; pr_id := rid |}.
Definition set_ref (x : slot) (r : part_ref) (p : sectpr) : sectpr :=
  match x with
  | HDefault => set_sp_header (Some r) p | HFirst => set_sp_first_header (Some r) p | HEven => set_sp_even_header (Some r) p
  | FDefault => set_sp_footer (Some r) p | FFirst => set_sp_first_footer (Some r) p | FEven => set_sp_even_footer (Some r) p
  end.
Inductive section_call :=
| KPageSize (v : page_size)                             (* 56-59 *)
| KPageMargin (v : page_margin)                         (* 61-64 *)
| KPageOrient (o : PageOrientationType)                 (* 66-69 *)
| KDocGrid (v : doc_grid)                               (* 71-74 *)
| KTextDirection (s : string)                           (* 76-79 *)
| KTitlePg                                              (* 81-84 *)
| KPart (x : slot) (part : json) (rid : string)         (* 86-90, 92-97, 105-109, 111-115, 117-122, 130-134 *)
| KFirstHeaderOnly (part : json) (rid : string)         (* 99-103 *)
| KFirstFooterOnly (part : json) (rid : string)         (* 124-128 *)
| KPageNumType (v : page_num_type).                     (* 184-187 *)
Definition with_part (x : slot) (part : json) (rid : string) (s : section_state) : section_state :=
  {| ss_prop := set_ref x (ref_to x rid) (ss_prop s); ss_parts := fun y => if slot_eqb x y then Some (rid, part) else ss_parts s y |}.
Definition with_prop (p : sectpr) (s : section_state) : section_state := {| ss_prop := p; ss_parts := ss_parts s |}.
Definition on_section (c : section_call) (s : section_state) : section_state :=
  let p := ss_prop s in
  match c with
  | KPageSize v => with_prop (set_sp_size v p) s
  | KPageMargin v => with_prop (set_sp_margin v p) s
  | KPageOrient o => with_prop (set_sp_size (on_size (ZOrient o) (sp_size p)) p) s
  | KDocGrid v => with_prop (set_sp_doc_grid (Some v) p) s
  | KTextDirection v => with_prop (set_sp_text_direction v p) s
  | KTitlePg => with_prop (set_sp_title_pg true p) s
  | KPart x h rid =>
      let s' := with_part x h rid s in
      match x with HFirst | FFirst => with_prop (set_sp_title_pg true (ss_prop s')) s' | _ => s' end
  | KFirstHeaderOnly h rid => with_part HFirst h rid s
  | KFirstFooterOnly h rid => with_part FFirst h rid s
  | KPageNumType v => with_prop (set_sp_page_num (Some v) p) s
  end.

(** ** Pictures: pic.rs *)
Inductive pic_call :=
| XId (s : string)                                      (* 128-131 *)
| XSize (w h : N)                                       (* 134-137 *)
| XRotate (n : N)                                       (* 140-143 *)
| XFloating | XOverlapping                              (* 145-148, 150-153 *)
| XOffsetX (z : Z) | XOffsetY (z : Z)                   (* 155-158, 160-163 *)
| XPositionH (d : drawing_position) | XPositionV (d : drawing_position) (* 165-168, 170-173 *)
| XFromH (t : RelativeFromHType) | XFromV (t : RelativeFromVType) (* 175-178, 180-183 *)
| XDistT (z : Z) | XDistB (z : Z) | XDistL (z : Z) | XDistR (z : Z) (* 185-188, 190-193, 195-198, 200-203 *)
| XSimplePos (v : bool)                                 (* 205-208 *)
| XRelativeHeight (n : N).                              (* 210-213 *)
Definition on_pic (c : pic_call) (p : pic) : pic :=
  match c with
  | XId s => set_pic_id s p | XSize w h => set_pic_size (w, h) p | XRotate n => set_pic_rot n p
  | XFloating => set_pic_anchor true p | XOverlapping => set_pic_overlap true p
  | XOffsetX z => set_pic_h (Offset z) p | XOffsetY z => set_pic_v (Offset z) p
  | XPositionH d => set_pic_h d p | XPositionV d => set_pic_v d p
  | XFromH t => set_pic_from_h t p | XFromV t => set_pic_from_v t p
  | XDistT z => set_pic_dist_t z p | XDistB z => set_pic_dist_b z p | XDistL z => set_pic_dist_l z p | XDistR z => set_pic_dist_r z p
  | XSimplePos v => set_pic_simple_pos v p | XRelativeHeight n => set_pic_relative_height n p
  end.

(** ** Other values *)
(** table_position_property.rs:35-73 *)
Inductive position_call :=
| OLeftFromText (z : Z) | ORightFromText (z : Z) | OVerticalAnchor (s : string) | OHorizontalAnchor (s : string)
| OXAlignment (s : string) | OYAlignment (s : string) | OX (z : Z) | OY (z : Z).
Definition on_position (c : position_call) (p : tposition) : tposition :=
  match c with
  | OLeftFromText z => set_tp_left (Some z) p | ORightFromText z => set_tp_right (Some z) p
  | OVerticalAnchor s => set_tp_vert_anchor (Some s) p | OHorizontalAnchor s => set_tp_horz_anchor (Some s) p
  | OXAlignment s => set_tp_x_spec (Some s) p | OYAlignment s => set_tp_y_spec (Some s) p | OX z => set_tp_x (Some z) p | OY z => set_tp_y (Some z) p
  end.
(** tab.rs:22-35 *)
Inductive tab_call := BVal (t : TabValueType) | BLeader (t : TabLeaderType) | BPos (n : N).
Definition on_tab (c : tab_call) (x : tab) : tab :=
  match c with BVal t => set_t_val (Some t) x | BLeader t => set_t_leader (Some t) x | BPos n => set_t_pos (Some n) x end.
(** positional_tab.rs:41-54 *)
Inductive ptab_call := JRelativeTo (t : PositionalTabRelativeTo) | JLeader (t : TabLeaderType) | JAlignment (t : PositionalTabAlignmentType).
Definition on_ptab (c : ptab_call) (x : ptab) : ptab :=
  match c with JRelativeTo t => set_pt_relative t x | JLeader t => set_pt_leader t x | JAlignment t => set_pt_alignment t x end.
(** shading.rs:32-45 *)
Inductive shading_call := HColor (s : string) | HFill (s : string) | HType (t : ShdType).
Definition on_shading (c : shading_call) (x : shading) : shading :=
  match c with HColor s => set_sh_color s x | HFill s => set_sh_fill s x | HType t => set_sh_type t x end.
(** Lines: text_border.rs:22-40; table_borders.rs:41-54 and table_cell_borders.rs:43-56, which have no
    setter of the space; paragraph_borders.rs:38-56 *)
Inductive line_call := EColor (s : string) | ESize (n : N) | EType (t : BorderType).
Inductive spaced_call := ELine (c : line_call) | ESpace (n : N).
Definition on_text_border (c : spaced_call) (x : text_border) : text_border :=
  match c with
  | ELine (EColor s) => set_tb_color s x | ELine (ESize n) => set_tb_size n x | ELine (EType t) => set_tb_type t x | ESpace n => set_tb_space n x
  end.
Definition on_border (c : line_call) (x : border) : border :=
  match c with
  | EColor s => {| b_type := b_type x; b_size := b_size x; b_color := s; b_space := b_space x |}
  | ESize n => {| b_type := b_type x; b_size := n; b_color := b_color x; b_space := b_space x |}
  | EType t => {| b_type := t; b_size := b_size x; b_color := b_color x; b_space := b_space x |}
  end.
Definition on_pborder (c : spaced_call) (x : pborder) : pborder :=
  match c with
  | ELine (EColor s) => {| pb_val := pb_val x; pb_size := pb_size x; pb_space := pb_space x; pb_color := s |}
  | ELine (ESize n) => {| pb_val := pb_val x; pb_size := n; pb_space := pb_space x; pb_color := pb_color x |}
  | ELine (EType t) => {| pb_val := t; pb_size := pb_size x; pb_space := pb_space x; pb_color := pb_color x |}
  | ESpace n => {| pb_val := pb_val x; pb_size := pb_size x; pb_space := n; pb_color := pb_color x |}
  end.
(** numbering_property.rs:20-23, 30-34 *)
Inductive numpr_call := NumId (n : N) | NumAdd (id level : N).
Definition on_numpr (c : numpr_call) (x : numpr) : numpr :=
  match c with NumId n => {| n_id := Some n; n_level := n_level x |} | NumAdd id level => {| n_id := Some id; n_level := Some level |} end.
(** data_binding.rs:19-32 *)
Inductive binding_call := BindXpath (s : string) | BindPrefix (s : string) | BindStore (s : string).
Definition on_binding (c : binding_call) (x : data_binding) : data_binding :=
  match c with
  | BindXpath s => {| db_xpath := Some s; db_prefix := db_prefix x; db_store := db_store x |}
  | BindPrefix s => {| db_xpath := db_xpath x; db_prefix := Some s; db_store := db_store x |}
  | BindStore s => {| db_xpath := db_xpath x; db_prefix := db_prefix x; db_store := Some s |}
  end.
(** structured_data_tag_property.rs:32-40, structured_data_tag.rs:145-153 *)
Inductive tag_call := TagBinding (d : data_binding) | TagAlias (s : string).
Definition on_tag (c : tag_call) (x : sdtpr) : sdtpr :=
  match c with
  | TagBinding d => {| sd_rpr := sd_rpr x; sd_binding := Some d; sd_alias := sd_alias x |}
  | TagAlias s => {| sd_rpr := sd_rpr x; sd_binding := sd_binding x; sd_alias := Some s |}
  end.

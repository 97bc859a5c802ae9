(** Which stored strings a built part consists of, and when they are legal XML.
    The library copies attribute values and texts into the part as they are stored,
    so whether a part is XML at all depends on them and on nothing else. *)
From Coq Require Import NArith ZArith List Bool.
From Verif Require Import Str TypesModel Props Ast EscapeModel InstrModel WriterModel XmlParser XmlSpec.
From Verif Require BuildModel BuildSpec.
Import ListNotations.
Import BuildModel (xml, E, L).
Import BuildSpec (elements, xname, xattrs).

(** A string that stands between the quotes of an attribute, or between tags. *)
Inductive piece := Value (s : string) | Content (s : string).
(** Every [&] begins a reference that can be resolved; a text has no [<] and a value no
    double quote. *)
Definition readable (p : piece) : Prop :=
  match p with
  | Value s => has_char ch_quot s = false /\ exists t, decode_attr None s = Some t
  | Content s => exists t, text_meaning None s = Some t
  end.
(** XML 1.0 also forbids [<] in a value (production 10); the reader accepts it. *)
Definition legal (p : piece) : Prop :=
  match p with
  | Value s => has_char ch_quot s = false /\ exists t, text_meaning None s = Some t
  | Content s => exists t, text_meaning None s = Some t
  end.


(** ** Well-formed elements *)
(** The values and texts of an element and all elements in it. *)
Fixpoint pieces_of (x : xml) : list piece :=
  match x with
  | E _ a ch => map (fun kv => Value (snd kv)) a ++ flat_map pieces_of ch
  | L _ a ts => map (fun kv => Value (snd kv)) a ++ [Content (concat_str ts)]
  end.
(** Names are names, no element has an attribute twice (XML 1.0, 3.1), and values and
    texts are legal. *)
Definition tag_ok (x : xml) : Prop :=
  elem_name_ok (xname x) = true /\ Forall (fun k => attr_name_ok k = true) (map fst (xattrs x)) /\ NoDup (map fst (xattrs x)).
Definition well_formed_xml (x : xml) : Prop := Forall tag_ok (elements x) /\ Forall legal (pieces_of x).

Definition if_set {A} (f : A -> list piece) (o : option A) : list piece := match o with Some a => f a | None => [] end.
Definition value_of (o : option string) : list piece := if_set (fun s => [Value s]) o.

(** ** The strings of the property records *)
Definition in_mark (m : mark) := [Value (m_author m); Value (m_date m)].
Definition in_color (c : color) := Value (c_val c) :: value_of (c_theme c) ++ value_of (c_shade c) ++ value_of (c_tint c).
Definition in_fonts (f : fonts) :=
  value_of (f_ascii f) ++ value_of (f_hi_ansi f) ++ value_of (f_cs f) ++ value_of (f_east_asia f) ++ value_of (f_ascii_theme f) ++
  value_of (f_hi_ansi_theme f) ++ value_of (f_cs_theme f) ++ value_of (f_east_asia_theme f) ++ value_of (f_hint f).
Definition in_shading (s : shading) := [Value (sh_color s); Value (sh_fill s)].
Definition in_rpr (r : rpr) : list piece :=
  if_set in_color (r_color r) ++ value_of (r_highlight r) ++ value_of (r_underline r) ++ if_set in_fonts (r_fonts r) ++
  if_set (fun b => [Value (tb_color b)]) (r_border r) ++ if_set in_mark (r_ins r) ++ if_set in_mark (r_del r) ++
  value_of (r_style r) ++ if_set in_shading (r_shading r).
Definition in_ref (r : part_ref) := [Value (pr_type r); Value (pr_id r)].
Definition in_sectpr (p : sectpr) : list piece :=
  if_set in_ref (sp_header p) ++ if_set in_ref (sp_first_header p) ++ if_set in_ref (sp_even_header p) ++
  if_set in_ref (sp_footer p) ++ if_set in_ref (sp_first_footer p) ++ if_set in_ref (sp_even_footer p) ++
  if_set (fun n => value_of (pn_chap_style n)) (sp_page_num p) ++ [Value (sp_text_direction p)].
Definition in_frame (f : framepr) :=
  value_of (fr_wrap f) ++ value_of (fr_h_rule f) ++ value_of (fr_h_anchor f) ++ value_of (fr_v_anchor f) ++ value_of (fr_x_align f) ++ value_of (fr_y_align f).
Definition in_pborders (b : pborders) :=
  let color := if_set (fun b => [Value (pb_color b)]) in
  color (pb_left b) ++ color (pb_right b) ++ color (pb_top b) ++ color (pb_bottom b) ++ color (pb_between b) ++ color (pb_bar b).
(** [p_div_id] is not written *)
Definition in_base (b : ppr_base) : list piece :=
  in_rpr (p_rpr b) ++ value_of (p_style b) ++ if_set in_frame (p_frame b) ++ value_of (p_alignment b) ++
  if_set in_pborders (p_borders b) ++ if_set in_shading (p_shading b) ++ if_set in_sectpr (p_section b).
Fixpoint in_ppr (p : ppr) : list piece :=
  match p with
  | PPr b None => in_base b
  | PPr b (Some (PChange author date q)) => in_base b ++ Value author :: Value date :: in_ppr q
  end.
Definition in_box (o : option border) : list piece := if_set (fun b => [Value (b_color b)]) o.
Definition in_tblpr (p : tblpr) : list piece :=
  Value (tpr_jc p) ::
  (let b := tpr_borders p in
   in_box (tbs_top b) ++ in_box (tbs_left b) ++ in_box (tbs_bottom b) ++ in_box (tbs_right b) ++ in_box (tbs_inside_h b) ++ in_box (tbs_inside_v b)) ++
  value_of (tpr_style p) ++
  if_set (fun q => value_of (tp_vert_anchor q) ++ value_of (tp_horz_anchor q) ++ value_of (tp_x_spec q) ++ value_of (tp_y_spec q)) (tpr_position p).
Definition in_trpr (p : trpr) : list piece := if_set in_mark (tr_del p) ++ if_set in_mark (tr_ins p).
Definition in_tcpr (p : tcpr) : list piece :=
  if_set (fun b => in_box (cb_top b) ++ in_box (cb_left b) ++ in_box (cb_bottom b) ++ in_box (cb_right b) ++
                   in_box (cb_inside_h b) ++ in_box (cb_inside_v b) ++ in_box (cb_tl2br b) ++ in_box (cb_tr2bl b)) (tc_borders p) ++
  if_set in_shading (tc_shading p).
Definition in_sdtpr (p : sdtpr) : list piece :=
  in_rpr (sd_rpr p) ++ if_set (fun b => value_of (db_xpath b) ++ value_of (db_prefix b) ++ value_of (db_store b)) (sd_binding p) ++
  value_of (sd_alias p).

(** ** The strings of a field instruction: its text *)
Definition in_instr (i : instr) : list piece :=
  match i with
  | ITOC t => [Content (print_toc t)]
  | ITC text omit level item => [Content (print_tc {| tc_text := text; tc_omit := omit; tc_level := level; tc_item := item |})]
  | IPAGEREF k h r => [Content (print_pageref k h r)]
  | IUnsupported s => [Content s]
  | _ => []
  end.
(** A table of contents writes the keys of its items, in a field and perhaps in a link;
    the texts are escaped while writing and need not be listed. *)
Definition in_item (d : toc_data) (t : toc_item) : list piece :=
  (if it_hyperlink (td_instr d) then [Value (ti_key t)] else []) ++ [Content (print_pageref (ti_key t) true false)].
Definition in_toc (d : toc_data) : list piece :=
  (if td_without_sdt d then [] else value_of (td_alias d)) ++
  match td_items d with
  | [] => if_set in_ppr (td_ppr d) ++ if_set in_mark (td_delete d) ++ [Content (print_toc (td_instr d))]
  | items => Content (print_toc (td_instr d)) :: flat_map (in_item d) items
  end.

(** ** The strings of a tree.  The contents of comments, footnotes, headers and footers are
    in parts of their own. *)
Fixpoint in_node (n : node) : list piece :=
  match n with
  | NText s | NDelText s => [Content s]
  | NSym f c => [Value f; Value c]
  | NPic p => [Value (pic_id p)]
  | NInstr i | NDelInstr i => in_instr i
  | NShading s => in_shading s
  | NBookmarkStart _ name => [Value name]
  | NRun p ch => in_rpr p ++ flat_map in_node ch
  | NIns m ch | NDel m ch | NMoveFrom m ch | NMoveTo m ch => in_mark m ++ flat_map in_node ch
  | NLink l _ ch => Value (match l with External rid _ => rid | Anchor a => a end) :: flat_map in_node ch
  | NSdt p _ ch => in_sdtpr p ++ flat_map in_node ch
  | NPara id p _ ch => Value id :: in_ppr p ++ flat_map in_node ch
  | NTable p _ _ ch => in_tblpr p ++ flat_map in_node ch
  | NRow p _ ch => in_trpr p ++ flat_map in_node ch
  | NCell p _ ch => in_tcpr p ++ flat_map in_node ch
  | NToc d b a => in_toc d ++ flat_map in_node b ++ flat_map in_node a
  | NSection p _ _ ch => flat_map in_node ch ++ in_sectpr p
  | _ => []
  end.
Definition in_body (l : list node) : list piece := flat_map in_node l.
Definition in_document (body : list node) (sp : sectpr) : list piece := in_body body ++ in_sectpr sp.
Definition in_comment (c : comment_data * list node) : list piece :=
  Value (cd_author (fst c)) :: Value (cd_date (fst c)) :: in_body (snd c).
Definition in_comments (l : list (comment_data * list node)) : list piece := flat_map in_comment l.
Definition in_footnotes (l : list (N * list node)) : list piece := flat_map (fun f => in_body (snd f)) l.

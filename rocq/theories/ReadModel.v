(** The readers of document content: runs, paragraphs, tables, tracked changes,
    links, structured data tags, drawings, and the parts made of them.

    The Rust readers call each other recursively and each call takes at least one
    event from the stream, so the recursion is bounded by the number of events.
    A level of the recursion is a record [subs] of readers to call;
    [readers d] may nest [d] deep.  Reading starts with more levels than there are
    events, and ReadProofs shows that the bound is never met. *)
From Verif Require Import Str TypesModel Props PropsSet Ast XmlParser FloatModel EscapeModel ReadBase ReadProps.

Record subs : Type := {
  s_rpr : R rpr;
  s_ppr : R ppr;
  s_change : list attribute -> R ppr_change;
  s_run : R node;
  s_ins : list attribute -> R (mark * list node);
  s_del : list attribute -> R (mark * list node);
  s_from : list attribute -> R (mark * list node);
  s_to : list attribute -> R (mark * list node);
  s_link : list attribute -> R node;
  s_sdt : R node;
  s_para : list attribute -> R node;
  s_table : R node;
  s_row : R node;
  s_cell : R node;
  s_drawing : R node }.

(** ** Small pieces *)
(** [Comment::new], elements/comment.rs:19-28. *)
Definition comment_new (id : N) : comment_data :=
  {| cd_id := id; cd_author := "unnamed"; cd_date := "1970-01-01T00:00:00Z"; cd_parent := None |}.
(** A comment range start or end below any element, e.g. paragraph.rs:66-82: added
    if its id is a number. *)
Definition read_comment_start (atts : list attribute) : list node :=
  match attr_get "id" atts with
  | Some v => match parse_usize v with Some id => [NCommentStart (comment_new id) []] | None => [] end
  | None => []
  end.
Definition read_comment_end (atts : list attribute) : list node :=
  match attr_get "id" atts with
  | Some v => match parse_usize v with Some id => [NCommentEnd id] | None => [] end
  | None => []
  end.
(** bookmark_start.rs:6-27 *)
Definition read_bookmark_start (atts : list attribute) : R node :=
  x <- each_attr_m (fun x name v =>
         if name =s "id" then id <- or_fail (parse_usize v) ;; ret (Some id, snd x)
         else if name =s "name" then ret (fst x, Some v)
         else ret x) atts (None, None) ;;
  match x with (Some id, Some name) => ret (NBookmarkStart id name) | _ => fail end.
(** bookmark_end.rs:6-24 *)
Definition read_bookmark_end (atts : list attribute) : R node :=
  x <- each_attr_m (fun x name v =>
         if name =s "id" then id <- or_fail (parse_usize v) ;; ret (Some id) else ret x) atts None ;;
  match x with Some id => ret (NBookmarkEnd id) | None => fail end.
(** Author and date from the attributes in their order (insert.rs:49-56; the author
    setter escapes, elements/insert.rs:96-99); defaults elements/insert.rs:50-57. *)
Definition read_mark (atts : list attribute) : mark :=
  each_attr (fun m name v =>
    if name =s "author" then {| m_author := escape_owned v; m_date := m_date m |}
    else if name =s "date" then {| m_author := m_author m; m_date := v |}
    else m) {| m_author := "unnamed"; m_date := "1970-01-01T00:00:00Z" |} atts.
(** [x = x.add(sub::read(..)?)] and [if let Ok(n) = sub::read(..) { x = x.add(n) }]. *)
Definition add_one {A} (sub : R A) (f : A -> node) (ch : list node) : R (list node) :=
  n <- sub ;; ret (ch ++ [f n]).
Definition add_if {A} (sub : R A) (f : A -> node) (ch : list node) : R (list node) :=
  o <- attempt sub ;; ret (upd o (fun n ch => ch ++ [f n]) ch).
Definition same (n : node) : node := n.
Definition as_ins (x : mark * list node) : node := NIns (fst x) (snd x).
Definition as_del (x : mark * list node) : node := NDel (fst x) (snd x).
Definition as_from (x : mark * list node) : node := NMoveFrom (fst x) (snd x).
Definition as_to (x : mark * list node) : node := NMoveTo (fst x) (snd x).

(** ** run_property.rs:69-206.  The name [i] also stands for [italic]
    (xml_element.rs:280).  A tracked change in it is read in full and only its
    author and date are kept in the model. *)
Definition read_rpr (s : subs) : R rpr :=
  element "rPr" (fun p q atts =>
    ignore_if (q_local q) "rPrChange" ;;
    if q_local q =s "rStyle" then ret (upd (attr_val atts) (fun v => set_r_style (Some (escape_owned v))) p)
    else if q_local q =s "b" then
      let b := Some (read_bool atts) in ret (set_r_bold_cs b (set_r_bold b p))
    else if q_local q =s "caps" then ret (set_r_caps (Some (read_bool atts)) p)
    else if q_local q =s "ptab" then
      o <- attempt (read_ptab atts) ;; ret (upd o (fun t => set_r_ptab (Some t)) p)
    else if q_local q =s "highlight" then v <- or_crash (attr_first atts) ;; ret (set_r_highlight (Some v) p)
    else if q_local q =s "strike" then
      ret (if read_bool atts then set_r_dstrike None (set_r_strike (Some true) p) else set_r_strike (Some false) p)
    else if q_local q =s "dstrike" then
      ret (if read_bool atts then set_r_strike None (set_r_dstrike (Some true) p) else set_r_dstrike (Some false) p)
    else if q_local q =s "vertAlign" then
      v <- or_crash (attr_first atts) ;; ret (upd (read_VertAlignType v) (fun t => set_r_vert (Some t)) p)
    else if q_local q =s "color" then ret (set_r_color (Some (read_color atts)) p)
    else if q_local q =s "sz" then
      v <- or_crash (attr_first atts) ;; x <- or_fail (parse_f64 v) ;;
      ret (set_r_sz_cs (Some (as_usizef x)) (set_r_sz (Some (as_usizef x)) p))
    else if q_local q =s "spacing" then
      ret (match attr_val atts with
           | Some v => upd (parse_f64 v) (fun x => set_r_spacing (Some (as_i32f x))) p
           | None => p
           end)
    else if q_local q =s "fitText" then
      ret (match attr_val atts with
           | Some v =>
               upd (parse_usize v) (fun n =>
                 set_r_fit (Some {| ft_val := n;
                                    ft_id := match attr_get "id" atts with Some i => parse_u32 i | None => None end |})) p
           | None => p
           end)
    else if q_local q =s "rFonts" then ret (set_r_fonts (Some (read_fonts atts)) p)
    else if q_local q =s "u" then v <- or_crash (attr_first atts) ;; ret (set_r_underline (Some v) p)
    else if (q_local q =s "i") || (q_local q =s "italic") then
      let b := Some (read_bool atts) in ret (set_r_italic_cs b (set_r_italic b p))
    else if q_local q =s "shd" then ret (set_r_shading (Some (read_shading atts)) p)
    else if q_local q =s "vanish" then ret (set_r_vanish true p)
    else if q_local q =s "specVanish" then ret (set_r_spec_vanish true p)
    else if q_local q =s "bdr" then
      o <- attempt (read_border atts) ;;
      ret (upd o (fun b => set_r_border (Some {| tb_type := ba_type b; tb_size := ba_size b; tb_color := ba_color b;
                                                 tb_space := 0 |})) p)
    else if q_local q =s "ins" then
      o <- attempt (s_ins s atts) ;; ret (upd o (fun m => set_r_ins (Some (fst m))) p)
    else if q_local q =s "del" then
      o <- attempt (s_del s atts) ;; ret (upd o (fun m => set_r_del (Some (fst m))) p)
    else ret p) (fun p => p) rpr_empty.

(** ** paragraph_property.rs:9-164 *)
Definition on_base (f : ppr_base -> ppr_base) (p : ppr) : ppr := match p with PPr b c => PPr (f b) c end.
Definition read_ppr (s : subs) : R ppr :=
  element "pPr" (fun p q atts =>
    let flag (set : option bool -> ppr_base -> ppr_base) :=
      ret (if read_bool atts then on_base (set (Some true)) p else p) in
    if q_local q =s "ind" then i <- read_indent atts ;; ret (on_base (set_p_indent (Some i)) p)
    else if q_local q =s "spacing" then
      o <- attempt (read_line_spacing atts) ;; ret (upd o (fun l => on_base (set_p_spacing (Some l))) p)
    else if q_local q =s "jc" then
      v <- or_crash (attr_first atts) ;;
      ret (upd (read_AlignmentType v) (fun a => on_base (set_p_alignment (Some (show_AlignmentType a)))) p)
    else if q_local q =s "textAlignment" then
      v <- or_crash (attr_first atts) ;;
      ret (upd (read_TextAlignmentType v) (fun a => on_base (set_p_text_alignment (Some a))) p)
    else if q_local q =s "adjustRightInd" then
      ret (match attr_val atts with
           | Some v => upd (parse_signed max_i64 v) (fun z => on_base (set_p_adjust_right_ind (Some z))) p
           | None => p
           end)
    else if q_local q =s "pStyle" then
      v <- or_crash (attr_first atts) ;; ret (on_base (set_p_style (Some (escape_owned v))) p)
    else if q_local q =s "rPr" then
      o <- attempt (s_rpr s) ;; ret (upd o (fun r => on_base (set_p_rpr r)) p)
    else if q_local q =s "divId" then ret (upd (attr_val atts) (fun v => on_base (set_p_div_id (Some v))) p)
    else if q_local q =s "numPr" then
      o <- attempt read_numpr ;; ret (upd o (fun n => on_base (set_p_numbering (Some n))) p)
    else if q_local q =s "outlineLvl" then
      ret (match attr_val atts with
           | Some v =>
               upd (parse_usize v) (fun n => on_base (set_p_outline (Some (if (10 <=? n)%N then 9%N else n)))) p
           | None => p
           end)
    else if q_local q =s "snapToGrid" then ret (on_base (set_p_snap_to_grid (Some (read_bool atts))) p)
    else if q_local q =s "keepNext" then flag set_p_keep_next
    else if q_local q =s "keepLines" then flag set_p_keep_lines
    else if q_local q =s "pageBreakBefore" then flag set_p_page_break_before
    else if q_local q =s "widowControl" then flag set_p_widow_control
    else if q_local q =s "pPrChange" then
      o <- attempt (s_change s atts) ;; ret (upd o (fun c p => PPr (base_of p) (Some c)) p)
    else if q_local q =s "sectPr" then
      o <- attempt read_sectpr ;; ret (upd o (fun sp => on_base (set_p_section (Some sp))) p)
    else if q_local q =s "framePr" then ret (on_base (set_p_frame (Some (read_frame atts))) p)
    else if q_local q =s "shd" then ret (on_base (set_p_shading (Some (read_shading atts))) p)
    else if q_local q =s "pBdr" then
      o <- attempt read_pborders ;; ret (upd o (fun b => on_base (set_p_borders (Some b))) p)
    else if q_local q =s "tabs" then
      o <- attempt read_tabs ;; ret (upd o (fun ts => on_base (fun b => set_p_tabs (p_tabs b ++ ts) b)) p)
    else ret p) (fun p => p) ppr_empty.
(** paragraph_property_change.rs:6-43; [ParagraphPropertyChange::default]
    (elements/paragraph_property_change.rs:16-25) has the defaults of [read_mark]. *)
Definition read_change (s : subs) (atts : list attribute) : R ppr_change :=
  element "pPrChange" (fun p q _ =>
    if q_local q =s "pPr" then o <- attempt (s_ppr s) ;; ret (upd o (fun p _ => p) p)
    else ret p)
  (fun p => PChange (m_author (read_mark atts)) (m_date (read_mark atts)) p) ppr_empty.

(** ** run.rs *)
(** [read_field_char], 19-46: the last valid type wins. *)
Definition read_field_char (atts : list attribute) : list node :=
  let td := each_attr (fun td name v =>
              if name =s "fldCharType" then (upd (read_FieldCharType v) (fun t _ => Some t) (fst td), snd td)
              else if name =s "dirty" then (fst td, negb (is_false v))
              else td) (None, false) atts in
  match fst td with Some t => [NFieldChar t (snd td)] | None => [] end.
(** The loop for [instrText], 110-129.  The text is the first [Characters] event,
    wherever it is; [None] when the run ends before one comes. *)
Definition read_instr_text : R (option string) :=
  loop (fun _ e =>
    match e with
    | EChars c => ret (Done (Some c))
    | EEnd q => ret (if q_local q =s "r" then Done None else Again tt)
    | EErr => fail
    | _ => ret (Again tt)
    end) tt.
(** [TextState], 12-17 *)
Inductive text_state := TIdle | TText | TDelete.
Record run_state := { rn_prop : rpr; rn_children : list node; rn_text : text_state }.
Definition rn_add (r : run_state) (l : list node) : run_state :=
  {| rn_prop := rn_prop r; rn_children := rn_children r ++ l; rn_text := rn_text r |}.
Definition rn_state (t : text_state) (r : run_state) : run_state :=
  {| rn_prop := rn_prop r; rn_children := rn_children r; rn_text := t |}.
Definition rn_node (r : run_state) : node := NRun (rn_prop r) (rn_children r).
(** [add_text_without_escape], [add_delete_text_without_escape] (elements/run.rs:172-177,
    186-192) of the text with its entities replaced, 157-174 *)
Definition rn_chars (c : string) (r : run_state) : run_state :=
  match rn_text r with
  | TDelete => rn_add r [NDelText (one_line (replace_escaped c))]
  | TText => rn_add r [NText (one_line (replace_escaped c))]
  | TIdle => r
  end.
(** One start event, 58-156, except [instrText].  [shape.rs:8-41] only follows its
    element to the end, since the contents of a shape are not modelled. *)
Definition run_start (s : subs) (r : run_state) (q : qname) (atts : list attribute) : R run_state :=
  let l := q_local q in
  match q_prefix q with
  | Some pre =>
      if pre =s "w" then
        ignore_if l "rPrChange" ;;
        if l =s "tab" then ret (rn_add r [NTab])
        else if l =s "ptab" then
          o <- attempt (read_ptab atts) ;; ret (upd o (fun t r => rn_add r [NPTab t]) r)
        else if l =s "sym" then
          ret (match attr_get "font" atts, attr_get "char" atts with
               | Some f, Some c => rn_add r [NSym f c]
               | _, _ => r
               end)
        else if l =s "rPr" then
          p <- s_rpr s ;;
          ret {| rn_prop := p; rn_children := rn_children r; rn_text := rn_text r |}
        else if l =s "t" then ret (rn_state TText r)
        else if l =s "delText" then ret (rn_state TDelete r)
        else if l =s "br" then
          match attr_first atts with
          | Some v => t <- or_fail (read_BreakType v) ;; ret (rn_add r [NBreak t])
          | None => ret (rn_add r [NBreak BreakType_TextWrapping])
          end
        else if l =s "cr" then ret (rn_add r [NCr])
        else if l =s "drawing" then
          o <- attempt (s_drawing s) ;; ret (upd o (fun d r => rn_add r [d]) r)
        else if l =s "fldChar" then ret (rn_add r (read_field_char atts))
        else ret r
      else if pre =s "mc" then
        if l =s "Fallback" then to_end "Fallback" tt ;; ret r else ret r
      else if pre =s "v" then
        if l =s "shape" then
          o <- attempt (to_end "shape" tt) ;; ret (upd o (fun _ r => rn_add r [NShape]) r)
        else ret r
      else ret r
  | None => ret r
  end.
Definition run_body (s : subs) (r : run_state) (e : event) : R (turn run_state node) :=
  match e with
  | EStart q atts =>
      if match q_prefix q with Some pre => pre =s "w" | None => false end && (q_local q =s "instrText") then
        o <- read_instr_text ;;
        ret (match o with Some c => Again (rn_add r [NInstrString c]) | None => Done (rn_node r) end)
      else r' <- run_start s r q atts ;; ret (Again r')
  | EChars c | EWs c => ret (Again (rn_chars c r))
  | EEnd q =>
      ret (if q_local q =s "r" then Done (rn_node r)
           else if (q_local q =s "delText") || (q_local q =s "t") then Again (rn_state TIdle r)
           else Again r)
  | EErr => fail
  | EDocEnd => ret (Again r)
  end.
Definition read_run (s : subs) : R node :=
  loop (run_body s) {| rn_prop := rpr_empty; rn_children := []; rn_text := TIdle |}.

(** ** Tracked changes *)
(** insert.rs:6-65 and move_to.rs:6-65, which differ in the name of the element. *)
Definition read_ins_like (own : string) (s : subs) (atts : list attribute) : R (mark * list node) :=
  element own (fun ch q a =>
    if q_local q =s "r" then add_one (s_run s) same ch
    else if q_local q =s "del" then add_one (s_del s a) as_del ch
    else if q_local q =s "commentRangeStart" then ret (ch ++ read_comment_start a)
    else if q_local q =s "commentRangeEnd" then ret (ch ++ read_comment_end a)
    else if q_local q =s "moveFrom" then ignore "moveFrom" ;; ret ch
    else ret ch) (fun ch => (read_mark atts, ch)) [].
(** delete.rs:6-64 *)
Definition read_del (s : subs) (atts : list attribute) : R (mark * list node) :=
  element "del" (fun ch q a =>
    if q_local q =s "r" then add_one (s_run s) same ch
    else if q_local q =s "commentRangeStart" then ret (ch ++ read_comment_start a)
    else if q_local q =s "commentRangeEnd" then ret (ch ++ read_comment_end a)
    else if q_local q =s "moveFrom" then ignore "moveFrom" ;; ret ch
    else ret ch) (fun ch => (read_mark atts, ch)) [].
(** move_from.rs:6-61 *)
Definition read_from (s : subs) (atts : list attribute) : R (mark * list node) :=
  element "moveFrom" (fun ch q a =>
    if q_local q =s "r" then add_one (s_run s) same ch
    else if q_local q =s "commentRangeStart" then ret (ch ++ read_comment_start a)
    else if q_local q =s "commentRangeEnd" then ret (ch ++ read_comment_end a)
    else ret ch) (fun ch => (read_mark atts, ch)) [].

(** ** hyperlink.rs:8-104 *)
Definition read_link (s : subs) (atts : list attribute) : R node :=
  element "hyperlink" (fun ch q a =>
    if q_local q =s "r" then add_if (s_run s) same ch
    else if q_local q =s "ins" then add_if (s_ins s a) as_ins ch
    else if q_local q =s "del" then add_if (s_del s a) as_del ch
    else if q_local q =s "bookmarkStart" then add_if (read_bookmark_start a) same ch
    else if q_local q =s "bookmarkEnd" then add_if (read_bookmark_end a) same ch
    else if q_local q =s "commentRangeStart" then ret (ch ++ read_comment_start a)
    else if q_local q =s "commentRangeEnd" then ret (ch ++ read_comment_end a)
    else if q_local q =s "moveFrom" then ignore "moveFrom" ;; ret ch
    else ret ch)
  (fun ch =>
    NLink (match attr_get "anchor" atts with
           | Some a => Anchor a
           | None => External (match attr_get "id" atts with Some i => i | None => "" end) ""
           end)
          (match attr_get "history" atts with
           | Some h => Some (match parse_usize h with Some n => n | None => 1%N end)
           | None => None
           end) ch) [].

(** ** structured_data_tag.rs:8-91; the properties are not read, and [children.push]
    leaves [has_numbering] false. *)
Definition read_sdt (s : subs) : R node :=
  element "sdt" (fun ch q a =>
    if q_local q =s "p" then add_if (s_para s a) same ch
    else if q_local q =s "tbl" then add_if (s_table s) same ch
    else if q_local q =s "bookmarkStart" then add_if (read_bookmark_start a) same ch
    else if q_local q =s "bookmarkEnd" then add_if (read_bookmark_end a) same ch
    else if q_local q =s "commentRangeStart" then ret (ch ++ read_comment_start a)
    else if q_local q =s "commentRangeEnd" then ret (ch ++ read_comment_end a)
    else if q_local q =s "r" then add_if (s_run s) same ch
    else ret ch) (fun ch => NSdt sdtpr_empty false ch) [].

(** ** paragraph.rs:8-105 *)
Record para_state := { pa_prop : ppr; pa_numbering : bool; pa_children : list node }.
Definition pa_set (p : para_state) (m : R (list node)) : R para_state :=
  ch <- m ;; ret {| pa_prop := pa_prop p; pa_numbering := pa_numbering p; pa_children := ch |}.
Definition read_para (s : subs) (atts : list attribute) : R node :=
  fresh <- fresh_para ;;
  element "p" (fun p q a =>
    let ch := pa_children p in
    if q_local q =s "r" then pa_set p (add_one (s_run s) same ch)
    else if q_local q =s "hyperlink" then pa_set p (add_one (s_link s a) same ch)
    else if q_local q =s "ins" then pa_set p (add_one (s_ins s a) as_ins ch)
    else if q_local q =s "del" then pa_set p (add_one (s_del s a) as_del ch)
    else if q_local q =s "moveFrom" then pa_set p (add_one (s_from s a) as_from ch)
    else if q_local q =s "moveTo" then pa_set p (add_one (s_to s a) as_to ch)
    else if q_local q =s "bookmarkStart" then pa_set p (add_one (read_bookmark_start a) same ch)
    else if q_local q =s "bookmarkEnd" then pa_set p (add_one (read_bookmark_end a) same ch)
    else if q_local q =s "commentRangeStart" then pa_set p (ret (ch ++ read_comment_start a))
    else if q_local q =s "commentRangeEnd" then pa_set p (ret (ch ++ read_comment_end a))
    else if q_local q =s "pPr" then
      o <- attempt (s_ppr s) ;;
      ret (upd o (fun pr p =>
             {| pa_prop := pr;
                pa_numbering := match p_numbering (base_of pr) with Some _ => true | None => false end;
                pa_children := pa_children p |}) p)
    else ret p)
  (fun p => NPara (match attr_get "paraId" atts with Some id => id | None => fresh end)
                  (pa_prop p) (pa_numbering p) (pa_children p))
  {| pa_prop := ppr_empty; pa_numbering := false; pa_children := [] |}.

(** ** Tables *)
(** [has_numbering] of the contents added to a cell (elements/table_cell.rs:68-94). *)
Definition node_numbering (n : node) : bool :=
  match n with NPara _ _ b _ | NTable _ _ b _ | NRow _ b _ | NCell _ b _ => b | _ => false end.
(** table_cell.rs:6-54 *)
Record cell_state := { ce_prop : tcpr; ce_numbering : bool; ce_children : list node }.
Definition ce_block (n : node) (c : cell_state) : cell_state :=
  {| ce_prop := ce_prop c; ce_numbering := ce_numbering c || node_numbering n; ce_children := ce_children c ++ [n] |}.
Definition read_cell (s : subs) : R node :=
  element "tc" (fun c q a =>
    if q_local q =s "p" then n <- s_para s a ;; ret (ce_block n c)
    else if q_local q =s "sdt" then
      o <- attempt (s_sdt s) ;;
      ret (upd o (fun n c => {| ce_prop := ce_prop c; ce_numbering := ce_numbering c;
                                ce_children := ce_children c ++ [n] |}) c)
    else if q_local q =s "tcPr" then
      o <- attempt read_tcpr ;;
      ret (upd o (fun p c => {| ce_prop := p; ce_numbering := ce_numbering c; ce_children := ce_children c |}) c)
    else if q_local q =s "tbl" then o <- attempt (s_table s) ;; ret (upd o ce_block c)
    else ret c)
  (fun c => NCell (ce_prop c) (ce_numbering c) (ce_children c))
  {| ce_prop := tcpr_empty; ce_numbering := false; ce_children := [] |}.
(** table_row.rs:9-127; [TableRow::new] computes [has_numbering] from the cells
    (elements/table_row.rs:30-39).  Simplification: the f32 fields keep whole numbers
    that are not negative, unrounded. *)
Record row_state := { ro_prop : trpr; ro_cells : list node }.
Definition ro_with (f : trpr -> trpr) (r : row_state) : row_state :=
  {| ro_prop := f (ro_prop r); ro_cells := ro_cells r |}.
Definition read_row (s : subs) : R node :=
  element "tr" (fun r q a =>
    ignore_if (q_local q) "trPrChange" ;;
    if q_local q =s "tc" then c <- s_cell s ;; ret {| ro_prop := ro_prop r; ro_cells := ro_cells r ++ [c] |}
    else if q_local q =s "gridAfter" then
      match attr_val a with
      | Some v => n <- or_fail (parse_u32 v) ;; ret (ro_with (set_tr_grid_after (Some n)) r)
      | None => ret r
      end
    else if q_local q =s "wAfter" then
      o <- attempt (read_width a) ;; ret (upd o (fun w => ro_with (set_tr_width_after (Some (Z.to_N (fst w))))) r)
    else if q_local q =s "gridBefore" then
      match attr_val a with
      | Some v => n <- or_fail (parse_u32 v) ;; ret (ro_with (set_tr_grid_before (Some n)) r)
      | None => ret r
      end
    else if q_local q =s "wBefore" then
      o <- attempt (read_width a) ;; ret (upd o (fun w => ro_with (set_tr_width_before (Some (Z.to_N (fst w))))) r)
    else if q_local q =s "trHeight" then
      let r := match attr_val a with
               | Some v => upd (parse_f32 v) (fun x => ro_with (set_tr_height (Some (as_usizef x)))) r
               | None => r
               end in
      ret (match attr_get "hRule" a with
           | Some v => upd (read_HeightRule v) (fun h => ro_with (set_tr_rule (Some h))) r
           | None => r
           end)
    else if q_local q =s "del" then
      o <- attempt (s_del s a) ;; ret (upd o (fun m => ro_with (set_tr_del (Some (fst m)))) r)
    else if q_local q =s "ins" then
      o <- attempt (s_ins s a) ;; ret (upd o (fun m => ro_with (set_tr_ins (Some (fst m)))) r)
    else ret r)
  (fun r => NRow (ro_prop r) (existsb node_numbering (ro_cells r)) (ro_cells r))
  {| ro_prop := trpr_empty; ro_cells := [] |}.
(** table.rs:7-79; [add_row] leaves [has_numbering] as [Table::without_borders] set
    it for no rows, false (elements/table.rs:44-63). *)
Record table_state := { ta_prop : tblpr; ta_grid : list N; ta_rows : list node }.
Definition ta_with (f : tblpr -> tblpr) (t : table_state) : table_state :=
  {| ta_prop := f (ta_prop t); ta_grid := ta_grid t; ta_rows := ta_rows t |}.
Definition read_table (s : subs) : R node :=
  element "tbl" (fun t q a =>
    ignore_if (q_local q) "tblPrChange" ;;
    ignore_if (q_local q) "tblGridChange" ;;
    if q_local q =s "tr" then
      r <- s_row s ;; ret {| ta_prop := ta_prop t; ta_grid := ta_grid t; ta_rows := ta_rows t ++ [r] |}
    else if q_local q =s "tblW" then w <- read_width a ;; ret (ta_with (set_tpr_width (width_of w)) t)
    else if q_local q =s "tblPr" then o <- attempt read_tblpr ;; ret (upd o (fun p => ta_with (fun _ => p)) t)
    else if q_local q =s "jc" then
      v <- or_crash (attr_first a) ;; x <- or_fail (read_TableAlignmentType v) ;;
      ret (ta_with (set_tpr_jc (show_TableAlignmentType x)) t)
    else if q_local q =s "tblInd" then
      w <- read_width a ;; ret (ta_with (set_tpr_indent (Some (wrap_i32 (fst w), WidthType_Dxa))) t)
    else if q_local q =s "tblBorders" then
      o <- attempt read_tborders ;; ret (upd o (fun b => ta_with (set_tpr_borders b)) t)
    else if q_local q =s "tblStyle" then ret (upd (attr_val a) (fun v => ta_with (set_tpr_style (Some v))) t)
    else if q_local q =s "tblCellMar" then
      o <- attempt read_tmargins ;; ret (upd o (fun m => ta_with (set_tpr_margins (Some m))) t)
    else if q_local q =s "gridCol" then
      w <- read_width a ;;
      ret {| ta_prop := ta_prop t; ta_grid := ta_grid t ++ [wrap_usize (fst w)]; ta_rows := ta_rows t |}
    else ret t)
  (fun t => NTable (ta_prop t) (ta_grid t) false (ta_rows t))
  {| ta_prop := set_tpr_borders tborders_empty tblpr_default; ta_grid := []; ta_rows := [] |}.

(** ** drawing.rs *)
(** An attribute read as f64 and cast to i32, when both succeed (e.g. 152-156). *)
Definition attr_i32f (name : string) (atts : list attribute) : option Z :=
  match attr_get name atts with
  | Some v => match parse_f64 v with Some x => Some (as_i32f x) | None => None end
  | None => None
  end.
(** [read_position_h], [read_position_v], 11-73: the last number among the texts. *)
Definition read_position {A} (own : string) (f : string -> option A) (default : A) (atts : list attribute) : R (A * Z) :=
  loop (fun off e =>
    match e with
    | EChars c => ret (Again (match parse_f64 c with Some x => as_i32f x | None => off end))
    | EEnd q =>
        ret (if q_local q =s own
             then Done (match attr_get "relativeFrom" atts with
                        | Some v => match f v with Some a => a | None => default end
                        | None => default
                        end, off)
             else Again off)
    | EErr => fail
    | _ => ret (Again off)
    end) 0%Z.
(** [read_textbox_content], 75-111 *)
Definition read_textbox (s : subs) : R (list node) :=
  element "txbx" (fun ch q a =>
    if q_local q =s "p" then add_one (s_para s a) same ch
    else if q_local q =s "tbl" then add_one (s_table s) same ch
    else ret ch) (fun ch => ch) [].
(** [Pic::with_empty] (elements/pic.rs:83-108) and pic.rs:8-72: the relationship id
    and the size; what else it holds is overwritten by the drawing (240-257). *)
Definition read_pic : R (string * (N * N)) :=
  element "pic" (fun x q a =>
    if q_local q =s "blip" then ret (upd (attr_get "embed" a) (fun v x => (v, snd x)) x)
    else if q_local q =s "ext" then
      let dim name := match attr_get name a with
                      | Some v => match parse_u32 v with Some n => n | None => 0%N end
                      | None => 0%N
                      end in
      ret (fst x, (dim "cx", dim "cy"))
    else ret x) (fun x => x) ("", (0%N, 0%N)).
(** The local variables of [Drawing::read], 118-134, as a [pic] without picture. *)
Definition drawing_start : pic :=
  {| pic_id := ""; pic_image := ""; pic_size := (0%N, 0%N); pic_anchor := false; pic_simple_pos := false;
     pic_simple_x := 0; pic_simple_y := 0; pic_layout_in_cell := true; pic_relative_height := 0;
     pic_overlap := true; pic_h := Offset 0; pic_v := Offset 0; pic_from_h := RelativeFromHType_Margin;
     pic_from_v := RelativeFromVType_Margin; pic_dist_t := 0; pic_dist_b := 0; pic_dist_l := 0; pic_dist_r := 0;
     pic_rot := 0 |}.
Definition attr_is_false (name : string) (atts : list attribute) : bool :=
  match attr_get name atts with Some v => is_false v | None => false end.
(** [Drawing::read], 113-297 *)
Record drawing_state := { dr_pos : pic; dr_node : node }.
Definition dr_with (f : pic -> pic) (d : drawing_state) : drawing_state :=
  {| dr_pos := f (dr_pos d); dr_node := dr_node d |}.
Definition dr_is (n : node) (d : drawing_state) : drawing_state := {| dr_pos := dr_pos d; dr_node := n |}.
Definition read_drawing (s : subs) : R node :=
  element "drawing" (fun d q a =>
    let dist name (set : Z -> pic -> pic) := upd (attr_i32f name a) set in
    let l := q_local q in
    if l =s "anchor" then
      ret (dr_with (fun p =>
        let p := set_pic_anchor true p in
        let p := match attr_get "simplePos" a with
                 | Some v => if is_false v then p else set_pic_simple_pos true p
                 | None => p
                 end in
        let p := dist "distR" set_pic_dist_r (dist "distL" set_pic_dist_l
                   (dist "distB" set_pic_dist_b (dist "distT" set_pic_dist_t p))) in
        let p := if attr_is_false "layoutInCell" a then set_pic_layout_in_cell false p else p in
        let p := match attr_get "relativeHeight" a with
                 | Some v => upd (parse_f64 v) (fun x => set_pic_relative_height (as_u32f x)) p
                 | None => p
                 end in
        if attr_is_false "allowOverlap" a then set_pic_overlap false p else p) d)
    else if l =s "inline" then
      ret (dr_with (fun p =>
        let p := dist "distL" set_pic_dist_l (dist "distB" set_pic_dist_b
                   (dist "distT" set_pic_dist_t (set_pic_anchor false p))) in
        match attr_get "distR" a with
        | Some v => upd (parse_i32 v) set_pic_dist_r p
        | None => p
        end) d)
    else if l =s "simplePos" then
      ret (dr_with (fun p => dist "y" set_pic_simple_y (dist "x" set_pic_simple_x p)) d)
    else if l =s "positionH" then
      o <- attempt (read_position "positionH" read_RelativeFromHType RelativeFromHType_Margin a) ;;
      ret (upd o (fun x => dr_with (fun p => set_pic_h (Offset (snd x)) (set_pic_from_h (fst x) p))) d)
    else if l =s "positionV" then
      o <- attempt (read_position "positionV" read_RelativeFromVType RelativeFromVType_Margin a) ;;
      ret (upd o (fun x => dr_with (fun p => set_pic_v (Offset (snd x)) (set_pic_from_v (fst x) p))) d)
    else if l =s "pic" then
      o <- attempt read_pic ;;
      ret (upd o (fun x d => dr_is (NPic (set_pic_size (snd x) (set_pic_id (fst x) (dr_pos d)))) d) d)
    else if l =s "txbx" then
      o <- attempt (read_textbox s) ;; ret (upd o (fun ch => dr_is (NTextBox ch)) d)
    else ret d) dr_node {| dr_pos := drawing_start; dr_node := NNoDrawing |}.

(** ** The recursion *)
Definition no_subs : subs :=
  {| s_rpr := no_fuel; s_ppr := no_fuel; s_change := fun _ => no_fuel; s_run := no_fuel;
     s_ins := fun _ => no_fuel; s_del := fun _ => no_fuel; s_from := fun _ => no_fuel; s_to := fun _ => no_fuel;
     s_link := fun _ => no_fuel; s_sdt := no_fuel; s_para := fun _ => no_fuel; s_table := no_fuel;
     s_row := no_fuel; s_cell := no_fuel; s_drawing := no_fuel |}.
Definition next_subs (s : subs) : subs :=
  {| s_rpr := read_rpr s; s_ppr := read_ppr s; s_change := read_change s; s_run := read_run s;
     s_ins := read_ins_like "ins" s; s_del := read_del s; s_from := read_from s; s_to := read_ins_like "moveTo" s;
     s_link := read_link s; s_sdt := read_sdt s; s_para := read_para s; s_table := read_table s;
     s_row := read_row s; s_cell := read_cell s; s_drawing := read_drawing s |}.
Fixpoint readers (depth : nat) : subs :=
  match depth with O => no_subs | S d => next_subs (readers d) end.

(** ** The parts *)
(** [Document::from_xml], document.rs:8-78.  The result is the children and the
    section property; [has_numbering] of the document is not modelled. *)
Definition read_document_with (s : subs) : R (list node * sectpr) :=
  part_loop (fun (d : list node * sectpr) e =>
    match e with
    | EStart q a =>
        let ch := fst d in
        let keep (m : R (list node)) := ch' <- m ;; ret (Again (ch', snd d)) in
        if q_local q =s "p" then keep (add_one (s_para s a) same ch)
        else if q_local q =s "tbl" then keep (add_one (s_table s) same ch)
        else if q_local q =s "bookmarkStart" then keep (add_one (read_bookmark_start a) same ch)
        else if q_local q =s "bookmarkEnd" then keep (add_one (read_bookmark_end a) same ch)
        else if q_local q =s "commentRangeStart" then keep (ret (ch ++ read_comment_start a))
        else if q_local q =s "commentRangeEnd" then keep (ret (ch ++ read_comment_end a))
        else if q_local q =s "sectPr" then sp <- read_sectpr ;; ret (Again (ch, sp))
        else if q_local q =s "sdt" then keep (add_if (s_sdt s) same ch)
        else ret (Again d)
    | EErr => fail
    | _ => ret (Again d)
    end) (fun d => d) ([], sectpr_default).
(** [Header::from_xml], header.rs:8-48; [Footer::from_xml], footer.rs:8-48. *)
Definition read_header_with (s : subs) : R (list node) :=
  part_loop (fun (ch : list node) e =>
    match e with
    | EStart q a =>
        let keep (m : R (list node)) := ch' <- m ;; ret (Again ch') in
        if q_local q =s "p" then keep (add_if (s_para s a) same ch)
        else if q_local q =s "tbl" then keep (add_if (s_table s) same ch)
        else if q_local q =s "sdt" then keep (add_if (s_sdt s) same ch)
        else ret (Again ch)
    | EErr => fail
    | _ => ret (Again ch)
    end) (fun ch => ch) [].
(** [Comment::read], comment.rs:7-44 *)
Definition read_comment (s : subs) (atts : list attribute) : R (comment_data * list node) :=
  v <- or_crash (attr_get "id" atts) ;; id <- or_fail (parse_usize v) ;;
  element "comment" (fun ch q a =>
    if q_local q =s "p" then add_one (s_para s a) same ch else ret ch)
  (fun ch =>
    let c := comment_new id in
    let c := upd (attr_get "author" atts)
               (fun v c => {| cd_id := cd_id c; cd_author := escape v; cd_date := cd_date c; cd_parent := cd_parent c |}) c in
    let c := upd (attr_get "date" atts)
               (fun v c => {| cd_id := cd_id c; cd_author := cd_author c; cd_date := v; cd_parent := cd_parent c |}) c in
    (c, ch)) [].
(** [Comments::from_xml], comments.rs:6-36 *)
Definition read_comments_with (s : subs) : R (list (comment_data * list node)) :=
  part_loop (fun (cs : list (comment_data * list node)) e =>
    match e with
    | EStart q a =>
        if q_local q =s "comment" then c <- read_comment s a ;; ret (Again (cs ++ [c])) else ret (Again cs)
    | EEnd q => ret (if q_local q =s "comments" then Done cs else Again cs)
    | EErr => fail
    | _ => ret (Again cs)
    end) (fun cs => cs) [].

(** The readers of the parts on their own: as many levels as events and one more. *)
Definition with_depth {A} (f : subs -> R A) : R A := fun s => f (readers (S (length (rs_events s)))) s.
Definition read_document : R (list node * sectpr) := with_depth read_document_with.
Definition read_header : R (list node) := with_depth read_header_with.
Definition read_comments : R (list (comment_data * list node)) := with_depth read_comments_with.

Example read_sample :
  let w l := {| q_prefix := Some "w"; q_local := l |} in
  let e := [EStart (w "document") []; EStart (w "body") []; EStart (w "p") [(w "paraId", "1A")];
            EStart (w "r") []; EStart (w "rPr") []; EStart (w "b") []; EEnd (w "b"); EEnd (w "rPr");
            EStart (w "t") []; EChars "Hello"; EEnd (w "t"); EEnd (w "r"); EEnd (w "p");
            EEnd (w "body"); EEnd (w "document"); EDocEnd] in
  match read_document {| rs_events := e; rs_para := 1 |} with
  | Val d _ => fst d = [NPara "1A" ppr_empty false
                          [NRun (set_r_bold_cs (Some true) (set_r_bold (Some true) rpr_empty)) [NText "Hello"]]]
  | _ => False
  end.
Proof. reflexivity. Qed.

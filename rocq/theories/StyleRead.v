(** The readers of styles, numberings and settings.
    reader/{style,styles,doc_defaults,level,level_override,numberings,settings}.rs *)
From Coq Require Import NArith ZArith List Bool.
From Verif Require Import Str StrFind TypesModel Props PropsSet XmlParser FloatModel EscapeModel ReadBase ReadProps ReadModel.
From Verif Require StyleModel.
Import StyleModel (style, Build_style, sty_id, sty_name, sty_type, sty_rpr, sty_ppr, sty_tblpr, sty_tcpr, sty_based_on, sty_next, sty_link,
  sty_q_format, sty_ui_priority, sty_semi_hidden, sty_unhide, style_new, style_named,
  styles, Build_styles, ss_rpr, ss_ppr, ss_list,
  level, Build_level, lv_level, lv_start, lv_format, lv_text, lv_jc, lv_ppr, lv_rpr, lv_suffix, lv_pstyle, lv_restart, lv_lgl, level_new,
  abstract_num, Build_abstract_num, an_id, an_style_link, an_num_style_link, an_levels, an_multi,
  level_override, Build_level_override, ov_level, ov_start, ov_replace,
  num, Build_num, nm_id, nm_abstract, nm_overrides, numberings, Build_numberings, ns_abstracts, ns_nums,
  settings, Build_settings, cfg_tab, cfg_doc_id, cfg_vars, cfg_even_odd, cfg_adjust, cfg_spacing, settings_default).
Import ListNotations.

(** ** Updates of the records *)
Definition sty_set_props (r : rpr) (p : ppr) (tp : tblpr) (tc : tcpr) (b l : option string) (s : style) : style := {|
  sty_id := sty_id s; sty_name := sty_name s; sty_type := sty_type s; sty_rpr := r; sty_ppr := p;
  sty_tblpr := tp; sty_tcpr := tc; sty_based_on := b; sty_next := sty_next s; sty_link := l;
  sty_q_format := sty_q_format s; sty_ui_priority := sty_ui_priority s; sty_semi_hidden := sty_semi_hidden s; sty_unhide := sty_unhide s |}.
Definition sty_set_rpr r s := sty_set_props r (sty_ppr s) (sty_tblpr s) (sty_tcpr s) (sty_based_on s) (sty_link s) s.
Definition sty_set_ppr p s := sty_set_props (sty_rpr s) p (sty_tblpr s) (sty_tcpr s) (sty_based_on s) (sty_link s) s.
Definition sty_set_tblpr t s := sty_set_props (sty_rpr s) (sty_ppr s) t (sty_tcpr s) (sty_based_on s) (sty_link s) s.
Definition sty_set_tcpr t s := sty_set_props (sty_rpr s) (sty_ppr s) (sty_tblpr s) t (sty_based_on s) (sty_link s) s.
(** [Style::based_on] and [Style::link], elements/style.rs:83-96 with based_on.rs:14-18, link.rs:14-18 *)
Definition sty_set_based_on v s := sty_set_props (sty_rpr s) (sty_ppr s) (sty_tblpr s) (sty_tcpr s) (Some (escape_owned v)) (sty_link s) s.
Definition sty_set_link v s := sty_set_props (sty_rpr s) (sty_ppr s) (sty_tblpr s) (sty_tcpr s) (sty_based_on s) (Some (escape_owned v)) s.

(** ** Styles *)
(** [Style::read], reader/style.rs:8-84.  The next style, the quick format, priority and
    hiding flags are not read. *)
Definition read_style (s : subs) (atts : list attribute) : R style :=
  h <- each_attr_m (fun h n v =>
         if n =s "styleId" then ret (v, snd h)
         else if n =s "type" then t <- or_fail (read_StyleType v) ;; ret (fst h, t)
         else ret h) atts (""%string, StyleType_Paragraph) ;;
  element "style" (fun y q a =>
    if q_local q =s "name" then v <- or_crash (attr_first a) ;; ret (style_named v y)
    else if q_local q =s "basedOn" then ret (upd (attr_val a) sty_set_based_on y)
    else if q_local q =s "link" then ret (upd (attr_val a) sty_set_link y)
    else if q_local q =s "pPr" then p <- attempt (s_ppr s) ;; ret (upd p sty_set_ppr y)
    else if q_local q =s "rPr" then r <- s_rpr s ;; ret (sty_set_rpr r y)
    else if q_local q =s "tblPr" then p <- attempt read_tblpr ;; ret (upd p sty_set_tblpr y)
    else if q_local q =s "tcPr" then p <- attempt read_tcpr ;; ret (upd p sty_set_tcpr y)
    else ret y)
  (fun y => y) (style_new (fst h) (snd h)).
(** [DocDefaults::read], reader/doc_defaults.rs:6-41 *)
Definition read_doc_defaults (s : subs) : R (rpr * ppr) :=
  element "docDefaults" (fun d q a =>
    if q_local q =s "rPr" then r <- s_rpr s ;; ret (r, snd d)
    else if q_local q =s "pPr" then p <- s_ppr s ;; ret (fst d, p)
    else ret d)
  (fun d => d) (rpr_empty, ppr_empty).
(** [Styles::from_xml], reader/styles.rs:7-46.  It does not stop at the end of the
    document: like the reader of an element. *)
Definition read_styles_with (s : subs) : R styles :=
  element "styles" (fun t q a =>
    if q_local q =s "style" then
      y <- attempt (read_style s a) ;;
      ret (upd y (fun y t => {| ss_rpr := ss_rpr t; ss_ppr := ss_ppr t; ss_list := ss_list t ++ [y] |}) t)
    else if q_local q =s "docDefaults" then
      d <- attempt (read_doc_defaults s) ;;
      ret (upd d (fun d t => {| ss_rpr := fst d; ss_ppr := snd d; ss_list := ss_list t |}) t)
    else ret t)
  (fun t => t) {| ss_rpr := rpr_empty; ss_ppr := ppr_empty; ss_list := [] |}.
Definition read_styles : R styles := with_depth read_styles_with.

(** ** Numberings *)
Definition lv_set (start : N) (format text jc : string) (p : ppr) (r : rpr) (sf : LevelSuffixType) (ps : option string) (rs : option N)
    (lgl : bool) (l : level) : level := {|
  lv_level := lv_level l; lv_start := start; lv_format := format; lv_text := text; lv_jc := jc; lv_ppr := p; lv_rpr := r;
  lv_suffix := sf; lv_pstyle := ps; lv_restart := rs; lv_lgl := lgl |}.
Definition lv_set_start v l := lv_set v (lv_format l) (lv_text l) (lv_jc l) (lv_ppr l) (lv_rpr l) (lv_suffix l) (lv_pstyle l) (lv_restart l) (lv_lgl l) l.
Definition lv_set_format v l := lv_set (lv_start l) v (lv_text l) (lv_jc l) (lv_ppr l) (lv_rpr l) (lv_suffix l) (lv_pstyle l) (lv_restart l) (lv_lgl l) l.
Definition lv_set_text v l := lv_set (lv_start l) (lv_format l) v (lv_jc l) (lv_ppr l) (lv_rpr l) (lv_suffix l) (lv_pstyle l) (lv_restart l) (lv_lgl l) l.
Definition lv_set_jc v l := lv_set (lv_start l) (lv_format l) (lv_text l) v (lv_ppr l) (lv_rpr l) (lv_suffix l) (lv_pstyle l) (lv_restart l) (lv_lgl l) l.
Definition lv_set_ppr v l := lv_set (lv_start l) (lv_format l) (lv_text l) (lv_jc l) v (lv_rpr l) (lv_suffix l) (lv_pstyle l) (lv_restart l) (lv_lgl l) l.
Definition lv_set_rpr v l := lv_set (lv_start l) (lv_format l) (lv_text l) (lv_jc l) (lv_ppr l) v (lv_suffix l) (lv_pstyle l) (lv_restart l) (lv_lgl l) l.
Definition lv_set_suffix v l := lv_set (lv_start l) (lv_format l) (lv_text l) (lv_jc l) (lv_ppr l) (lv_rpr l) v (lv_pstyle l) (lv_restart l) (lv_lgl l) l.
(** [Level::paragraph_style], elements/level.rs:61-64 with paragraph_style.rs *)
Definition lv_set_pstyle v l := lv_set (lv_start l) (lv_format l) (lv_text l) (lv_jc l) (lv_ppr l) (lv_rpr l) (lv_suffix l) (Some (escape_owned v)) (lv_restart l) (lv_lgl l) l.
Definition lv_set_restart v l := lv_set (lv_start l) (lv_format l) (lv_text l) (lv_jc l) (lv_ppr l) (lv_rpr l) (lv_suffix l) (lv_pstyle l) (Some v) (lv_lgl l) l.
Definition lv_set_lgl l := lv_set (lv_start l) (lv_format l) (lv_text l) (lv_jc l) (lv_ppr l) (lv_rpr l) (lv_suffix l) (lv_pstyle l) (lv_restart l) true l.

(** [read_indent_level], reader/attributes/indent_level.rs *)
Definition read_number_attr (name : string) (atts : list attribute) : R N :=
  each_attr_m (fun i n v => if n =s name then or_fail (parse_usize v) else ret i) atts 0%N.
(** [Level::read], reader/level.rs:7-111.  The indent read at lines 77-84 is overwritten at
    line 99; only that it can fail matters. *)
Definition read_level (s : subs) (atts : list attribute) : R level :=
  i <- read_number_attr "ilvl" atts ;;
  element "lvl" (fun l q a =>
    if q_local q =s "pStyle" then v <- or_crash (attr_first a) ;; ret (lv_set_pstyle v l)
    else if q_local q =s "pPr" then p <- attempt (s_ppr s) ;; ret (upd p lv_set_ppr l)
    else if q_local q =s "rPr" then r <- attempt (s_rpr s) ;; ret (upd r lv_set_rpr l)
    else if q_local q =s "start" then v <- or_crash (attr_first a) ;; n <- or_fail (parse_usize v) ;; ret (lv_set_start n l)
    else if q_local q =s "numFmt" then v <- or_crash (attr_first a) ;; ret (lv_set_format v l)
    else if q_local q =s "suff" then v <- or_crash (attr_first a) ;; t <- or_fail (read_LevelSuffixType v) ;; ret (lv_set_suffix t l)
    else if q_local q =s "isLgl" then ret (lv_set_lgl l)
    else if q_local q =s "lvlText" then v <- or_crash (attr_first a) ;; ret (lv_set_text v l)
    else if q_local q =s "lvlRestart" then v <- or_crash (attr_first a) ;; ret (upd (parse_u32 v) lv_set_restart l)
    else if q_local q =s "lvlJc" then v <- or_crash (attr_first a) ;; ret (lv_set_jc v l)
    else if q_local q =s "ind" then _ <- read_indent a ;; ret l
    else ret l)
  (fun l => l) (level_new i 0 "decimal" "" "left").
(** [LevelOverride::read], reader/level_override.rs:6-50 *)
Definition read_override (s : subs) (atts : list attribute) : R level_override :=
  v <- or_crash (attr_first atts) ;; i <- or_fail (parse_usize v) ;;
  element "lvlOverride" (fun o q a =>
    if q_local q =s "startOverride" then
      v <- or_crash (attr_first a) ;;
      ret (upd (parse_usize v) (fun n o => {| ov_level := ov_level o; ov_start := Some n; ov_replace := ov_replace o |}) o)
    else if q_local q =s "lvl" then
      l <- attempt (read_level s a) ;;
      ret (upd l (fun l o => {| ov_level := ov_level o; ov_start := ov_start o; ov_replace := Some l |}) o)
    else ret o)
  (fun o => o) {| ov_level := i; ov_start := None; ov_replace := None |}.
(** The two inner loops of [Numberings::from_xml]: as [element], but a parse error is
    skipped like any other event. *)
Definition element_lax {A B} (own : string) (start : A -> qname -> list attribute -> R A) (fin : A -> B) : A -> R B :=
  loop (fun a e =>
    match e with
    | EStart q atts => a' <- start a q atts ;; ret (Again a')
    | EEnd q => ret (if q_local q =s own then Done (fin a) else Again a)
    | _ => ret (Again a)
    end).
(** reader/numberings.rs:19-61 *)
Definition read_abstract (s : subs) (atts : list attribute) : R abstract_num :=
  i <- read_number_attr "abstractNumId" atts ;;
  element_lax "abstractNum" (fun t q a =>
    if q_local q =s "lvl" then
      l <- read_level s a ;;
      ret {| an_id := an_id t; an_style_link := an_style_link t; an_num_style_link := an_num_style_link t;
             an_levels := an_levels t ++ [l]; an_multi := an_multi t |}
    else if q_local q =s "styleLink" then
      v <- or_crash (attr_first a) ;;
      ret {| an_id := an_id t; an_style_link := Some v; an_num_style_link := an_num_style_link t;
             an_levels := an_levels t; an_multi := an_multi t |}
    else if q_local q =s "numStyleLink" then
      v <- or_crash (attr_first a) ;;
      ret {| an_id := an_id t; an_style_link := an_style_link t; an_num_style_link := Some v;
             an_levels := an_levels t; an_multi := an_multi t |}
    else ret t)
  (fun t => t) {| an_id := i; an_style_link := None; an_num_style_link := None; an_levels := []; an_multi := None |}.
(** reader/numberings.rs:62-107 *)
Definition read_num (s : subs) (atts : list attribute) : R num :=
  i <- read_number_attr "numId" atts ;;
  element_lax "num" (fun t q a =>
    if q_local q =s "abstractNumId" then
      v <- or_crash (attr_first a) ;; n <- or_fail (parse_usize v) ;;
      ret {| nm_id := nm_id t; nm_abstract := n; nm_overrides := nm_overrides t |}
    else if q_local q =s "lvlOverride" then
      o <- attempt (read_override s a) ;;
      ret (upd o (fun o t => {| nm_id := nm_id t; nm_abstract := nm_abstract t; nm_overrides := nm_overrides t ++ [o] |}) t)
    else ret t)
  (fun t => t) {| nm_id := i; nm_abstract := 0; nm_overrides := [] |}.
Definition numberings_start (s : subs) (t : numberings) (q : qname) (a : list attribute) : R numberings :=
  if q_local q =s "abstractNum" then
    n <- read_abstract s a ;; ret {| ns_abstracts := ns_abstracts t ++ [n]; ns_nums := ns_nums t |}
  else if q_local q =s "num" then
    n <- read_num s a ;; ret {| ns_abstracts := ns_abstracts t; ns_nums := ns_nums t ++ [n] |}
  else ret t.
(** [Numberings::from_xml], reader/numberings.rs:7-124 *)
Definition read_numberings_with (s : subs) : R numberings :=
  part_loop (fun (t : numberings) e =>
    match e with
    | EStart q a => t' <- numberings_start s t q a ;; ret (Again t')
    | EEnd q => ret (if q_local q =s "numbering" then Done t else Again t)
    | EErr => fail
    | _ => ret (Again t)
    end) (fun t => t) {| ns_abstracts := []; ns_nums := [] |}.
Definition read_numberings : R numberings := with_depth read_numberings_with.

(** ** Settings *)
Definition cfg_set (tab : N) (id : option string) (vars : list (string * string)) (even adj : bool) (sp : option CharacterSpacingValues) : settings :=
  {| cfg_tab := tab; cfg_doc_id := id; cfg_vars := vars; cfg_even_odd := even; cfg_adjust := adj; cfg_spacing := sp |}.
Definition cfg_set_tab v c := cfg_set v (cfg_doc_id c) (cfg_vars c) (cfg_even_odd c) (cfg_adjust c) (cfg_spacing c).
Definition cfg_set_doc_id v c := cfg_set (cfg_tab c) (Some v) (cfg_vars c) (cfg_even_odd c) (cfg_adjust c) (cfg_spacing c).
Definition cfg_add_var v c := cfg_set (cfg_tab c) (cfg_doc_id c) (cfg_vars c ++ [v]) (cfg_even_odd c) (cfg_adjust c) (cfg_spacing c).
Definition cfg_set_even_odd c := cfg_set (cfg_tab c) (cfg_doc_id c) (cfg_vars c) true (cfg_adjust c) (cfg_spacing c).
Definition cfg_set_adjust c := cfg_set (cfg_tab c) (cfg_doc_id c) (cfg_vars c) (cfg_even_odd c) true (cfg_spacing c).
Definition cfg_set_spacing v c := cfg_set (cfg_tab c) (cfg_doc_id c) (cfg_vars c) (cfg_even_odd c) (cfg_adjust c) (Some v).
(** [a.value.to_owned().replace(['{', '}'], "")], reader/settings.rs:27 *)
Fixpoint no_braces (s : string) : string :=
  match s with
  | EmptyString => EmptyString
  | String c r => if (c =c "{"%char) || (c =c "}"%char) then no_braces r else String c (no_braces r)
  end.
(** reader/settings.rs:20-31 *)
Definition read_doc_id (atts : list attribute) (c : settings) : settings :=
  fold_left (fun c qv =>
    match q_prefix (fst qv) with
    | Some p => if (q_local (fst qv) =s "val") && (p =s "w15") then cfg_set_doc_id (no_braces (snd qv)) c else c
    | None => c
    end) atts c.
Definition settings_start (c : settings) (q : qname) (a : list attribute) : settings :=
  if q_local q =s "docId" then read_doc_id a c
  else if q_local q =s "docVar" then
    match attr_get "name" a, attr_val a with Some n, Some v => cfg_add_var (n, v) c | _, _ => c end
  else if q_local q =s "defaultTabStop" then
    match attr_val a with Some v => upd (parse_f32 v) (fun f => cfg_set_tab (as_usizef f)) c | None => c end
  else if q_local q =s "evenAndOddHeaders" then if read_bool a then cfg_set_even_odd c else c
  else if q_local q =s "adjustLineHeightInTable" then cfg_set_adjust c
  else if q_local q =s "characterSpacingControl" then
    match attr_val a with Some v => upd (read_CharacterSpacingValues v) cfg_set_spacing c | None => c end
  else c.
(** [Settings::from_xml], reader/settings.rs:7-82 *)
Definition read_settings : R settings :=
  part_loop (fun (c : settings) e =>
    match e with
    | EStart q a => ret (Again (settings_start c q a))
    | EEnd q => ret (if q_local q =s "settings" then Done c else Again c)
    | EErr => fail
    | _ => ret (Again c)
    end) (fun c => c) settings_default.

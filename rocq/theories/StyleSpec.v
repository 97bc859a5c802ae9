(** What building and reading styles, numberings and settings gives, as a function of
    them, and when they come back as they were. *)
From Coq Require Import NArith ZArith List Bool.
From Verif Require Import Str TypesModel Props EscapeModel XmlParser XmlSpec RoundSpec SurviveSpec WellSpec ReadSpec StyleModel.
From Verif Require BuildModel.
Import ListNotations.

(** ** Styles *)
Definition is_table (t : StyleType) : bool := match t with StyleType_Table => true | _ => false end.
(** The next style, the priority and the hiding flags are lost; the quick format flag is
    always set; table formatting is kept for table styles only. *)
Definition reread_style (s : style) : style := {|
  sty_id := stored (sty_id s); sty_name := stored (sty_name s); sty_type := sty_type s;
  sty_rpr := reread_rpr (sty_rpr s); sty_ppr := reread_ppr (sty_ppr s);
  sty_tblpr := if is_table (sty_type s) then reread_tblpr (sty_tblpr s) else tblpr_default;
  sty_tcpr := if is_table (sty_type s) then reread_tcpr (sty_tcpr s) else tcpr_empty;
  sty_based_on := option_map stored (sty_based_on s); sty_next := None; sty_link := option_map stored (sty_link s);
  sty_q_format := true; sty_ui_priority := None; sty_semi_hidden := false; sty_unhide := false |}.
Definition fits_style (s : style) : Prop :=
  fits_rpr (sty_rpr s) /\ fits_ppr (sty_ppr s) /\ (sty_type s = StyleType_Table -> fits_tblpr (sty_tblpr s) /\ fits_tcpr (sty_tcpr s)).
Definition style_survives (s : style) : Prop :=
  stored_survives (sty_id s) /\ stored_survives (sty_name s) /\ rpr_survives (sty_rpr s) /\ ppr_survives (sty_ppr s) /\
  (if is_table (sty_type s) then tblpr_survives (sty_tblpr s) /\ tcpr_survives (sty_tcpr s)
   else sty_tblpr s = tblpr_default /\ sty_tcpr s = tcpr_empty) /\
  all_of stored_survives (sty_based_on s) /\ all_of stored_survives (sty_link s) /\
  sty_next s = None /\ sty_q_format s = true /\ sty_ui_priority s = None /\ sty_semi_hidden s = false /\ sty_unhide s = false.
(** A style [Normal] is written, and so read, before all others. *)
Definition reread_styles (t : styles) : styles := {|
  ss_rpr := reread_rpr (ss_rpr t); ss_ppr := reread_ppr (ss_ppr t); ss_list := style_normal :: map reread_style (ss_list t) |}.
Definition fits_styles (t : styles) : Prop := fits_rpr (ss_rpr t) /\ fits_ppr (ss_ppr t) /\ Forall fits_style (ss_list t).
Definition styles_survive (t : styles) : Prop := rpr_survives (ss_rpr t) /\ ppr_survives (ss_ppr t) /\ Forall style_survives (ss_list t).

(** ** Numberings *)
Definition reread_level (l : level) : level := {|
  lv_level := lv_level l; lv_start := lv_start l; lv_format := seen (lv_format l); lv_text := seen (lv_text l); lv_jc := seen (lv_jc l);
  lv_ppr := reread_ppr (lv_ppr l); lv_rpr := reread_rpr (lv_rpr l); lv_suffix := lv_suffix l;
  lv_pstyle := option_map stored (lv_pstyle l); lv_restart := lv_restart l; lv_lgl := lv_lgl l |}.
Definition fits_level (l : level) : Prop :=
  is_usize (lv_level l) /\ is_usize (lv_start l) /\ all_of is_u32 (lv_restart l) /\ fits_ppr (lv_ppr l) /\ fits_rpr (lv_rpr l).
Definition level_survives (l : level) : Prop :=
  value_survives (lv_format l) /\ value_survives (lv_text l) /\ value_survives (lv_jc l) /\ ppr_survives (lv_ppr l) /\
  rpr_survives (lv_rpr l) /\ all_of stored_survives (lv_pstyle l).
(** The links to styles are not written and the kind of numbering is not read. *)
Definition reread_abstract (a : abstract_num) : abstract_num := {|
  an_id := an_id a; an_style_link := None; an_num_style_link := None; an_levels := map reread_level (an_levels a); an_multi := None |}.
Definition fits_abstract (a : abstract_num) : Prop := is_usize (an_id a) /\ Forall fits_level (an_levels a).
Definition abstract_survives (a : abstract_num) : Prop :=
  an_style_link a = None /\ an_num_style_link a = None /\ an_multi a = None /\ Forall level_survives (an_levels a).
Definition reread_override (o : level_override) : level_override := {|
  ov_level := ov_level o; ov_start := ov_start o; ov_replace := option_map reread_level (ov_replace o) |}.
Definition fits_override (o : level_override) : Prop :=
  is_usize (ov_level o) /\ all_of is_usize (ov_start o) /\ all_of fits_level (ov_replace o).
Definition reread_num (n : num) : num := {|
  nm_id := nm_id n; nm_abstract := nm_abstract n; nm_overrides := map reread_override (nm_overrides n) |}.
Definition fits_num (n : num) : Prop := is_usize (nm_id n) /\ is_usize (nm_abstract n) /\ Forall fits_override (nm_overrides n).
Definition num_survives (n : num) : Prop := Forall (fun o => all_of level_survives (ov_replace o)) (nm_overrides n).
(** A default numbering is written, and so read, before all others. *)
Definition reread_numberings (t : numberings) : numberings := {|
  ns_abstracts := reread_abstract default_abstract :: map reread_abstract (ns_abstracts t);
  ns_nums := default_num :: map reread_num (ns_nums t) |}.
Definition fits_numberings (t : numberings) : Prop := Forall fits_abstract (ns_abstracts t) /\ Forall fits_num (ns_nums t).

(** ** Settings *)
(** Braces are dropped from the document id. *)
Fixpoint without_braces (s : string) : string :=
  match s with
  | EmptyString => EmptyString
  | String c r => if (c =c "{"%char) || (c =c "}"%char) then without_braces r else String c (without_braces r)
  end.
Definition reread_settings (c : settings) : settings := {|
  cfg_tab := cfg_tab c; cfg_doc_id := option_map (fun i => without_braces (seen i)) (cfg_doc_id c);
  cfg_vars := map (fun v => (seen (fst v), seen (snd v))) (cfg_vars c); cfg_even_odd := cfg_even_odd c; cfg_adjust := cfg_adjust c;
  cfg_spacing := match cfg_spacing c with Some CharacterSpacingValues_Unsupported => None | o => o end |}.
Definition fits_settings (c : settings) : Prop := exact32 (cfg_tab c).
Definition settings_survive (c : settings) : Prop :=
  all_of (fun i => without_braces (seen i) = i) (cfg_doc_id c) /\
  Forall (fun v => value_survives (fst v) /\ value_survives (snd v)) (cfg_vars c) /\
  cfg_spacing c <> Some CharacterSpacingValues_Unsupported.

(** ** The strings they are written with *)
Definition in_style (s : style) : list piece :=
  Value (sty_id s) :: Value (sty_name s) :: in_rpr (sty_rpr s) ++ in_ppr (sty_ppr s) ++
  (if is_table (sty_type s) then in_tcpr (sty_tcpr s) ++ in_tblpr (sty_tblpr s) else []) ++
  value_of (sty_next s) ++ value_of (sty_link s) ++ value_of (sty_based_on s).
Definition in_styles (t : styles) : list piece := in_rpr (ss_rpr t) ++ in_ppr (ss_ppr t) ++ flat_map in_style (ss_list t).
Definition in_level (l : level) : list piece :=
  Value (lv_format l) :: Value (lv_text l) :: Value (lv_jc l) :: in_ppr (lv_ppr l) ++ in_rpr (lv_rpr l) ++ value_of (lv_pstyle l).
Definition in_abstract (a : abstract_num) : list piece := value_of (an_multi a) ++ flat_map in_level (an_levels a).
Definition in_num (n : num) : list piece := flat_map (fun o => if_set in_level (ov_replace o)) (nm_overrides n).
Definition in_numberings (t : numberings) : list piece := flat_map in_abstract (ns_abstracts t) ++ flat_map in_num (ns_nums t).
Definition in_settings (c : settings) : list piece :=
  value_of (cfg_doc_id c) ++ flat_map (fun v => [Value (fst v); Value (snd v)]) (cfg_vars c).

(** ** Looking a style up: documents/styles.rs:51-53 [find_style_by_id] *)
Definition find_style (id : string) (t : styles) : option style := find (fun s => sty_id s =s id) (ss_list t).

(** ** Reading *)
(** The first attribute of these elements is taken without a look whether there is one:
    reader/style.rs:33, and reader/level.rs:55-75, level_override.rs:11, 22,
    numberings.rs:41-45, 82. *)
Definition style_needs : list string := ["name"]%string.
Definition numbering_needs : list string :=
  ["start"; "numFmt"; "suff"; "lvlText"; "lvlRestart"; "lvlJc"; "lvlOverride"; "startOverride"; "abstractNumId"; "styleLink";
   "numStyleLink"]%string.
(** A start tag that lacks nothing, the attributes of these elements included. *)
Definition sound_for (needs : list string) (e : event) : Prop :=
  sound_event e /\ match e with EStart q atts => In (q_local q) needs -> atts <> [] | _ => True end.
(** The first element of the text has that local name. *)
Definition root_named (name s : string) : Prop :=
  exists n q atts, nth_request n (reader_of s) = EStart q atts /\ q_local q = name /\
  forall m q' atts', (m < n)%nat -> nth_request m (reader_of s) <> EStart q' atts'.

(** ** The ids a part declares *)
(** The values of the attribute [a] of the children of the root with the name [name]. *)
Definition declared (name a : string) (x : BuildModel.xml) : list string :=
  match x with
  | BuildModel.E _ _ ch => flat_map (fun c =>
      match c with
      | BuildModel.E n atts _ | BuildModel.L n atts _ => if n =s name then map snd (filter (fun p => fst p =s a) atts) else []
      end) ch
  | BuildModel.L _ _ _ => []
  end.
(** The values of the attribute [a] of the children named [inner] of those children. *)
Definition referred (name inner a : string) (x : BuildModel.xml) : list string :=
  match x with
  | BuildModel.E _ _ ch => flat_map (fun c =>
      match c with BuildModel.E n _ _ => if n =s name then declared inner a c else [] | BuildModel.L _ _ _ => [] end) ch
  | BuildModel.L _ _ _ => []
  end.

(** Doing something [n] times. *)
Fixpoint times {A} (n : nat) (f : A -> A) (a : A) : A := match n with O => a | S n => f (times n f a) end.

(** Property C35. *)
From Coq Require Import Permutation.
From Verif Require Import Str StrFind IdsModel Props Ast Pass TocModel TocSpec TocProofs.

(** The level a style has as a heading: for styles with different ids, a style
    named "heading 7" (in any case) has level 7, and a style whose name does not
    start with "heading" has none. *)
Theorem heading_level : forall styles id name n, NoDup (map fst styles) -> In (id, name) styles ->
  lower name = "heading " +++ show_N n -> (n <= max_u64)%N -> last_get id (heading_map styles) = Some n.
Proof. exact heading_level_proof. Qed.
Print Assumptions heading_level.
Theorem no_heading_level : forall styles id,
  (forall name, In (id, name) styles -> starts_with "heading" (lower name) = false) ->
  last_get id (heading_map styles) = None.
Proof. exact no_heading_proof. Qed.
Print Assumptions no_heading_level.

(** C35: the body keeps its children; every automatic empty table of contents gets
    exactly the expected entries, in document order; a paragraph is put between
    bookmark marks; nothing else changes.  The names of the marks are pairwise
    different and are the keys of the entries, one mark for each entry, and the
    mark of an entry is around a paragraph with the text of the entry.  The ids
    of the marks are pairwise different as long as the counter does not wrap. *)
Theorem toc_expansion : forall styles body k body' k' has,
  expand_auto_tocs styles body k = Some (body', k', has) ->
  exists marks,
    Forall3 (changed (fun st => last_get st (heading_map styles)) body) body marks body' /\
    NoDup (map snd (concat marks)) /\
    Permutation (map ti_key (filled_items body body')) (map snd (concat marks)) /\
    (forall it, In it (filled_items body body') ->
       exists n ms, In (n, ms) (combine body marks) /\ In (ti_key it) (map snd ms) /\ visible_text n = ti_text it) /\
    ((k_bookmark k + N.of_nat (length (filled_items body body')) <= two64)%N -> NoDup (map fst (concat marks))).
Proof. exact toc_expansion_proof. Qed.
Print Assumptions toc_expansion.

(** The expansion succeeds unless the counter of keys runs out, and it reports
    whether there is a table of contents in the body. *)
Theorem toc_expansion_succeeds : forall styles body k,
  (k_toc k + N.of_nat (entry_count (fun st => last_get st (heading_map styles)) body) < two64)%N ->
  exists body' k', expand_auto_tocs styles body k =
    Some (body', k', existsb (fun n => match n with NToc _ _ _ => true | _ => false end) body).
Proof. exact toc_expansion_succeeds_proof. Qed.
Print Assumptions toc_expansion_succeeds.

Definition styled (st : string) : ppr :=
  PPr {| p_rpr := rpr_empty; p_style := Some st; p_numbering := None; p_alignment := None; p_indent := None;
  p_spacing := None; p_keep_next := None; p_keep_lines := None; p_bidi := None; p_page_break_before := None;
  p_widow_control := None; p_outline := None; p_section := None; p_tabs := []; p_borders := None;
  p_frame := None; p_text_alignment := None; p_adjust_right_ind := None; p_snap_to_grid := None;
  p_shading := None; p_div_id := None |} None.
Definition headed (st s : string) : node := NPara "x" (styled st) false [NRun rpr_empty [NText s]].
Definition plain (s : string) : node := NPara "x" ppr_empty false [NRun rpr_empty [NText s]].
Definition auto_toc (range : N * N) (sts : list (string * N)) : node :=
  NToc {| td_instr := {| it_heading := Some range; it_tc_level := None; it_omit_page := None; it_bookmark := None; it_styles := sts;
  it_entry_sep := None; it_seq_sep := None; it_caption := None; it_caption_numbers := None;
  it_seq_prefix := None; it_tc_id := None; it_hyperlink := false; it_preserve_tab := false;
  it_preserve_nl := false; it_line_level := false; it_hide_web := false |};
          td_items := []; td_auto := true; td_dirty := false; td_without_sdt := false;
          td_alias := None; td_page_placeholder := None; td_delete := None; td_ppr := None |} [] [].
Definition sample_styles := [("Normal", "Normal"); ("H1", "Heading 1"); ("H2", "heading 2")].
Definition sample_counters := {| k_toc := 5; k_bookmark := 1 |}.
(** Two tables of contents, with headings before, between and after them. *)
Definition sample_body := [headed "H1" "One"; auto_toc (1, 1)%N [("Own", 1%N)]; plain "text"; headed "H2" "Two"; auto_toc (1, 3)%N []; headed "Own" "Three"].
Example toc_expansion_case :
  option_map (fun r => map (fun it => (ti_text it, ti_key it, ti_level it)) (filled_items sample_body (fst (fst r))))
    (expand_auto_tocs sample_styles sample_body sample_counters) =
  Some [("One", "_Toc00000005", 1%N); ("Three", "_Toc00000006", 1%N); ("One", "_Toc00000007", 1%N); ("Two", "_Toc00000008", 2%N)].
Proof. vm_compute. reflexivity. Qed.
Example toc_expansion_marks : exists body' k' has, expand_auto_tocs sample_styles sample_body sample_counters = Some (body', k', has) /\
  nth_error body' 0 = Some (NPara "x" (styled "H1") false
    [NBookmarkStart 3 "_Toc00000007"; NBookmarkStart 1 "_Toc00000005"; NRun rpr_empty [NText "One"]; NBookmarkEnd 1; NBookmarkEnd 3]) /\
  nth_error body' 2 = Some (plain "text").
Proof. do 3 eexists. split; [vm_compute; reflexivity|]. split; reflexivity. Qed.

(** The heading of a section, table or content control is not listed: there is a
    body with a heading in range and yet no entry. *)
Theorem toc_nested_heading_refuted : exists body n body' k' has, let toc := auto_toc (1, 9)%N [] in
  In n (flat_map all_nodes body) /\ (exists st, style_of n = Some st /\ last_get st (heading_map sample_styles) = Some 1%N) /\
  expand_auto_tocs sample_styles (toc :: body) sample_counters = Some (body', k', has) /\
  filled_items (toc :: body) body' = [].
Proof.
  exists [NSection sectpr_default [] false [headed "H1" "One"]], (headed "H1" "One"). do 3 eexists. split; [cbn; tauto|].
  split; [exists "H1"; split; reflexivity|]. split; [vm_compute; reflexivity|reflexivity].
Qed.
Print Assumptions toc_nested_heading_refuted.

(** The bookmark name of an entry can already be in use in the document: keys are
    taken from a counter without looking at the bookmarks there are. *)
Theorem toc_key_fresh_refuted : exists body body' k' has key,
  In (NBookmarkStart 7 key) (flat_map all_nodes body) /\
  expand_auto_tocs sample_styles body {| k_toc := 0; k_bookmark := 1 |} = Some (body', k', has) /\
  In key (map ti_key (filled_items body body')).
Proof.
  exists [auto_toc (1, 9)%N []; NPara "x" ppr_empty false [NBookmarkStart 7 "_Toc00000000"; NBookmarkEnd 7]; headed "H1" "One"].
  do 3 eexists. exists "_Toc00000000". split; [cbn; tauto|]. split; [vm_compute; reflexivity|]. now left.
Qed.
Print Assumptions toc_key_fresh_refuted.

(** "One entry per paragraph" is false: a style that is a heading and is also named
    in the instruction is listed twice. *)
Theorem toc_single_entry_refuted : exists body body' k' has,
  expand_auto_tocs sample_styles body sample_counters = Some (body', k', has) /\
  map ti_text (filled_items body body') = ["One"; "One"] /\ length (flat_map (fun n => match n with NPara _ _ _ _ => [n] | _ => [] end) body) = 1.
Proof.
  exists [auto_toc (1, 9)%N [("H1", 2%N)]; headed "H1" "One"]. do 3 eexists. split; [vm_compute; reflexivity|]. split; reflexivity.
Qed.
Print Assumptions toc_single_entry_refuted.

(** An instruction that names styles without heading levels lists nothing, although
    a paragraph has one of these styles. *)
Theorem toc_own_styles_only_refuted : exists d body body' k' has, td_auto d = true /\ td_items d = [] /\
  it_styles (td_instr d) = [("Own", 1%N)] /\ In (headed "Own" "One") body /\
  expand_auto_tocs sample_styles (NToc d [] [] :: body) sample_counters = Some (body', k', has) /\
  filled_items (NToc d [] [] :: body) body' = [].
Proof.
  exists {| td_instr := {| it_heading := None; it_tc_level := None; it_omit_page := None; it_bookmark := None; it_styles := [("Own", 1%N)];
  it_entry_sep := None; it_seq_sep := None; it_caption := None; it_caption_numbers := None;
  it_seq_prefix := None; it_tc_id := None; it_hyperlink := false; it_preserve_tab := false;
  it_preserve_nl := false; it_line_level := false; it_hide_web := false |};
          td_items := []; td_auto := true; td_dirty := false; td_without_sdt := false;
          td_alias := None; td_page_placeholder := None; td_delete := None; td_ppr := None |}, [headed "Own" "One"].
  do 3 eexists. split; [reflexivity|]. split; [reflexivity|]. split; [reflexivity|]. split; [now left|].
  split; [vm_compute; reflexivity|reflexivity].
Qed.
Print Assumptions toc_own_styles_only_refuted.

(** Theorems: the JSON of a document and the XML written for it tell the same (C77). *)
From Coq Require Import NArith ZArith List Bool Lia.
From Verif Require Import Str StrFacts TypesModel Props Ast BuildModel BuildSpec JsonModel JsonSpec JsonText CallModel TellSpec TellProofs TellPlaces.
From Verif Require BuildProperties RoundProperties PropsSet.
Import ListNotations.
Import BuildProperties (start, me).
Open Scope list_scope.

(** ** The tree *)
(** Whoever walks through the XML of a document and through its JSON finds the same things
    in the same order and nesting: paragraphs with their ids, tables, tracked changes with
    author and date, links with their targets, texts, symbols, tabs, breaks, fields,
    pictures, footnotes, comments and bookmarks. *)
Theorem document_things_alike : forall body sp parts nb s x s',
  b_document body sp s = Some (x, s') -> forallb all_alike body = true ->
  exists v, json_of (pretty 0 (j_document body sp parts nb)) = Some v /\ things_in_json v = things_in_xml x.
Proof.
  intros body sp parts nb s x s' H A. eexists. split; [apply text_back|]. unfold b_document, b_nodes in H. steps H.
  assert (A' : forallb alike (flat_map written body) = true).
  { clear - A. induction body as [|n body IH]; [reflexivity|]. cbn [forallb flat_map] in *. apply andb_true_iff in A. destruct A as [A1 A2].
    rewrite forallb_app. unfold all_alike in A1. now rewrite A1, IH. }
  cbn. rewrite flat_map_app, (each_agree _ (all_agree body) A' _ _ _ S). cbn. rewrite !app_nil_r. reflexivity.
Qed.
(** The same for a header or footer and its place in the JSON. *)
Theorem part_things_alike : forall slot rid nb ch s x s',
  b_part (NPart slot rid nb ch) s = Some (x, s') -> forallb all_alike ch = true -> things_in_json (j_part rid nb (map j_node ch)) = things_in_xml x.
Proof.
  intros slot rid nb ch s x s' H A. unfold b_part, b_nodes in H. steps H.
  assert (A' : forallb alike (flat_map written ch) = true).
  { clear - A. induction ch as [|n ch IH]; [reflexivity|]. cbn [forallb flat_map] in *. apply andb_true_iff in A. destruct A as [A1 A2].
    rewrite forallb_app. unfold all_alike in A1. now rewrite A1, IH. }
  transitivity (flat_map things_in_xml a); [|destruct slot; reflexivity]. rewrite (each_agree _ (all_agree ch) A' _ _ _ S). cbn. rewrite !app_nil_r. reflexivity.
Qed.

(** ** Properties *)
(** For every property with a row in the table, what the JSON of a run, paragraph, table,
    row, cell or structured data tag says is what its XML says, and if one says nothing
    neither does the other. *)
Theorem properties_alike : forall depth n s l s', uncut n -> b_node n s = Some (l, s') -> Forall (tell_alike l (j_node n)) (places depth n).
Proof. exact node_told. Qed.
Theorem section_alike : forall parts p, Forall (tell_alike [x_sectpr p] (j_sectpr parts p)) (under [] ["w:sectPr"%string] section_places).
Proof. intros parts p. exact (under_found [] ["w:sectPr"%string] [x_sectpr p] _ _ _ _ eq_refl eq_refl section_inside (section_told parts p)). Qed.

(** ** A document that meets the hypotheses *)
Definition run1 : node := NRun (calls on_run [RStyle "S"; RSize 24; RBold; RNoItalic; RVanish; RColor "FF0000"; RDelete me] rpr_empty) [NText "a"; NSym "Wingdings" "F0"; NBreak BreakType_Page].
Definition body1 : list node :=
  [ NPara "0000000A" (PPr (PropsSet.set_p_style (Some "Title"%string) ppr_base_empty) (Some (PChange "me" "2020" ppr_empty))) false
      [NIns me [run1; NDel me [run1]]; NLink (Anchor "top") None [run1]; NBookmarkStart 1 "b"; NCommentEnd 3];
    NTable tblpr_default [2000%N] false [NRow trpr_empty false [NCell tcpr_empty false [NPara "0000000B" ppr_empty false [run1]]]] ].
Example body1_builds : exists x s', b_document body1 sectpr_default start = Some (x, s') /\ forallb all_alike body1 = true.
Proof. eexists _, _. split; vm_compute; reflexivity. Qed.
Definition in_run1 : list thing :=
  [Found "w:t" [Some "a"]; Found "w:sym" [Some "Wingdings"; Some "F0"]; Found "w:br" [Some "page"]]%string.
Example body1_things : forall parts nb, exists v, json_of (pretty 0 (j_document body1 sectpr_default parts nb)) = Some v /\ things_in_json v =
  ([Opened "w:p" [Some "0000000A"]; Opened "w:ins" [Some (m_author me); Some (m_date me)]] ++ in_run1 ++ [Opened "w:del" [Some (m_author me); Some (m_date me)]] ++ in_run1 ++
   [Closed "w:del"; Closed "w:ins"; Opened "w:hyperlink" [None; Some "top"]] ++ in_run1 ++
   [Closed "w:hyperlink"; Found "w:bookmarkStart" [Some "1"; Some "b"]; Found "w:commentRangeEnd" [Some "3"]; Closed "w:p";
    Opened "w:tbl" []; Opened "w:tr" []; Opened "w:tc" []; Opened "w:p" [Some "0000000B"]] ++ in_run1 ++
   [Closed "w:p"; Closed "w:tc"; Closed "w:tr"; Closed "w:tbl"])%list.
Proof.
  intros parts nb. destruct body1_builds as (x & s' & H & A). destruct (document_things_alike _ _ parts nb _ _ _ H A) as (v & V & T).
  exists v. split; [exact V|]. rewrite T. vm_compute in H. injection H as <- _. vm_compute. reflexivity.
Qed.
Example run1_uncut : uncut run1.
Proof. split; cbn; exact eq_refl. Qed.
Example run1_values : exists l s', b_node run1 start = Some (l, s') /\
  map (fun p => (jpath p, at_xml p l)) (firstn 16 (places 0 run1)) = map (fun p => (["data"; "runProperty"; fst p], snd p))
   [("style", Some "S"); ("sz", Some "24"); ("szCs", Some "24"); ("color", Some "FF0000"); ("highlight", None); ("vertAlign", None); ("underline", None);
    ("characterSpacing", None); ("stretch", None); ("bold", Some "true"); ("italic", Some "false"); ("caps", None); ("strike", None); ("dstrike", None);
    ("vanish", Some "true"); ("specVanish", None)]%string.
Proof. eexists _, _. split; vm_compute; reflexivity. Qed.

(** ** What one tells and the other does not *)
(** A cell without content is written with a paragraph that the JSON does not have. *)
Theorem empty_cell_alike_refuted : exists l s', b_node (NCell tcpr_empty false []) start = Some (l, s') /\
  (exists id, flat_map things_in_xml l = [Opened "w:tc" []; Opened "w:p" [Some id]; Closed "w:p"; Closed "w:tc"]%string) /\
  things_in_json (j_node (NCell tcpr_empty false [])) = [Opened "w:tc" []; Closed "w:tc"]%string.
Proof. eexists _, _. split; [vm_compute; reflexivity|]. split; [eexists|]; vm_compute; reflexivity. Qed.
(** A page number is written as a field with the text 1; the JSON has no text for it. *)
Theorem page_number_alike_refuted : exists l s', b_node NPageNum start = Some (l, s') /\
  In (Found "w:t" [Some "1"])%string (flat_map things_in_xml l) /\ things_in_json (j_node NPageNum) = [].
Proof. eexists _, _. split; [vm_compute; reflexivity|]. split; [|reflexivity]. vm_compute. auto. Qed.
(** Switching bold off says so for complex scripts in the JSON, but the XML switches bold
    on for them. *)
Definition not_bold : node := NRun (calls on_run [RNoBold] rpr_empty) [].
Theorem complex_script_bold_alike_refuted : exists l s', b_node not_bold start = Some (l, s') /\
  let p := {| jpath := ["data"; "runProperty"; "boldCs"]; xpath := ["w:r"; "w:rPr"; "w:bCs"]; value := "w:val"; is_switch := true |}%string in
  at_json (jpath p) (j_node not_bold) = Some "false"%string /\ at_xml p l = Some "true"%string.
Proof. eexists _, _. split; [vm_compute; reflexivity|]. split; vm_compute; reflexivity. Qed.
(** The distances of a frame are in the JSON, but not in the attributes that are for them. *)
Definition framed : node := NPara "A" (PPr (on_base (PFrame (FHSpace 5)) ppr_base_empty) None) false [].
Theorem frame_space_alike_refuted : exists l s', b_node framed start = Some (l, s') /\
  let p := at_ ["data"; "property"; "frameProperty"; "hSpace"]%string ["w:p"; "w:pPr"; "w:framePr"]%string "w:hSpace" in
  at_json (jpath p) (j_node framed) = Some "5"%string /\ at_xml p l = None.
Proof. eexists _, _. split; [vm_compute; reflexivity|]. split; vm_compute; reflexivity. Qed.
(** An indent on the right only is written with a left one of zero. *)
Definition indented : node :=
  NPara "A" (PPr (PropsSet.set_p_indent (Some {| i_start := None; i_start_chars := None; i_end := Some 7%Z; i_special := None; i_hanging_chars := None; i_first_line_chars := None |}) ppr_base_empty) None) false [].
Theorem indent_alike_refuted : exists l s', b_node indented start = Some (l, s') /\
  let p := at_ ["data"; "property"; "indent"; "start"]%string ["w:p"; "w:pPr"; "w:ind"]%string "w:left" in
  at_json (jpath p) (j_node indented) = None /\ at_xml p l = Some "0"%string.
Proof. eexists _, _. split; [vm_compute; reflexivity|]. split; vm_compute; reflexivity. Qed.
(** Sizes from 2^32 on lose their upper bits in the JSON only. *)
Definition huge : node := NRun (calls on_run [RSize 4294967297] rpr_empty) [].
Theorem size_alike_refuted : exists l s', b_node huge start = Some (l, s') /\
  let p := at_ ["data"; "runProperty"; "sz"]%string ["w:r"; "w:rPr"; "w:sz"]%string "w:val" in
  at_json (jpath p) (j_node huge) = Some "1"%string /\ at_xml p l = Some "4294967297"%string.
Proof. eexists _, _. split; [vm_compute; reflexivity|]. split; vm_compute; reflexivity. Qed.

Definition all_proved := conj document_things_alike (conj part_things_alike (conj properties_alike (conj section_alike (conj empty_cell_alike_refuted
  (conj page_number_alike_refuted (conj complex_script_bold_alike_refuted (conj frame_space_alike_refuted (conj indent_alike_refuted size_alike_refuted)))))))).
Print Assumptions all_proved.

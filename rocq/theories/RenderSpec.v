(** When two texts of a part are the same apart from ids taken from the counters, and
    how many ids each part takes. *)
From Coq Require Import NArith List Bool.
From Verif Require Import Str StrFacts TypesModel Props Ast IdsModel WriterModel BuildModel BuildSpec StyleModel PackModel RenderModel.
Import ListNotations.

(** ** The same, apart from ids *)
(** Two values of the attribute [a] of the element [n]: equal; or both ids that were
    taken, as the i-th after the counters stood at [b1] and [b2], of at most [k]. *)
Definition same_value (b1 b2 : ids) (k : spend) (n a v1 v2 : string) : Prop :=
  v1 = v2 \/
  (n = "w:p" /\ a = "w14:paraId" /\
   exists i, (i < k_para k)%N /\ v1 = pad0 8 (show_hex (id_para b1 + i)) /\ v2 = pad0 8 (show_hex (id_para b2 + i))) \/
  (In n ["w:ins"; "w:del"; "w:moveFrom"; "w:moveTo"] /\ a = "w:id" /\
   exists i, (i < k_hist k)%N /\ v1 = show_N (id_hist b1 + i) /\ v2 = show_N (id_hist b2 + i)) \/
  (n = "w:pPrChange" /\ a = "w:id" /\
   exists i, (i < k_change k)%N /\ v1 = show_N (id_change b1 + i) /\ v2 = show_N (id_change b2 + i)).
Definition same_attr (b1 b2 : ids) (k : spend) (n : string) (x y : string * string) : Prop :=
  fst x = fst y /\ same_value b1 b2 k n (fst x) (snd x) (snd y).
Inductive same_but_ids (b1 b2 : ids) (k : spend) : xml -> xml -> Prop :=
| same_E n a1 a2 c1 c2 : Forall2 (same_attr b1 b2 k n) a1 a2 -> Forall2 (same_but_ids b1 b2 k) c1 c2 ->
    same_but_ids b1 b2 k (E n a1 c1) (E n a2 c2)
| same_L n a1 a2 t : Forall2 (same_attr b1 b2 k n) a1 a2 -> same_but_ids b1 b2 k (L n a1 t) (L n a2 t).

(** [t] is the text of the element [x], perhaps after a declaration. *)
Definition is_text (pre : list WriterModel.call) (x : xml) (t : string) : Prop :=
  exists w, w_run w_init (pre ++ xcalls x) = WOk w /\ WriterModel.out w = t.
(** Two entries: both the same directory or file, or texts of one part that differ in
    ids taken after the counters stood at [s]. *)
Definition same_entry (s : ids) (x y : entry) : Prop :=
  x = y \/
  exists name t1 t2 pre x1 x2 j1 j2 k, x = File name t1 /\ y = File name t2 /\ is_text pre x1 t1 /\ is_text pre x2 t2 /\
    same_but_ids (after s j1) (after s j2) k x1 x2.

(** ** Ids taken for each part *)
Definition style_spend (s : style) : spend := plus (rpr_spend (sty_rpr s)) (ppr_spend (sty_ppr s)).
Definition styles_spend (t : styles) : spend :=
  total (rpr_spend (ss_rpr t) :: ppr_spend (ss_ppr t) :: map style_spend (ss_list t)).
Definition level_spend (l : level) : spend := plus (ppr_spend (lv_ppr l)) (rpr_spend (lv_rpr l)).
Definition replaced_levels (n : num) : list level := flat_map (fun o => opt (fun l => l) (ov_replace o)) (nm_overrides n).
Definition numberings_spend (t : numberings) : spend :=
  total (map level_spend (flat_map an_levels (ns_abstracts t) ++ flat_map replaced_levels (ns_nums t))).
Definition part_content (n : node) : list node := match n with NPart _ _ _ ch => ch | _ => [] end.
(** The document, the comments, the footnotes, the headers and footers. *)
Definition document_spend (k : pkg) : spend := nodes_spend (d_body (k_doc k)).
Definition comments_spend (k : pkg) : spend := nodes_spend (flat_map snd (d_comments (k_doc k))).
Definition notes_spend (k : pkg) : spend := footnotes_spend (d_footnotes (k_doc k)).
Definition parts_spend (l : list node) : spend := nodes_spend (flat_map part_content l).
Definition main_spend (k : pkg) (o : rest) : spend :=
  total [document_spend k; styles_spend (o_styles o); comments_spend k; numberings_spend (o_numberings o); notes_spend k].
Definition side_spend (k : pkg) : spend := plus (parts_spend (headers (k_doc k))) (parts_spend (footers (k_doc k))).
(** No kind of id is taken for both. *)
Definition apart (a b : spend) : Prop :=
  (k_para a = 0 \/ k_para b = 0)%N /\ (k_hist a = 0 \/ k_hist b = 0)%N /\ (k_change a = 0 \/ k_change b = 0)%N.

(** ** What is written at all: the content of the parts *)
Definition content_of (k : pkg) : list node :=
  d_body (k_doc k) ++ flat_map snd (d_comments (k_doc k)) ++ flat_map snd (d_footnotes (k_doc k)) ++
  flat_map part_content (headers (k_doc k)) ++ flat_map part_content (footers (k_doc k)).

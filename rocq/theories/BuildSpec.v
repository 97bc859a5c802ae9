(** What building writes, stated about the document and about the XML, without
    reference to the building functions. *)
From Coq Require Import NArith List Bool.
From Verif Require Import Str StrFacts TypesModel Props Ast IdsModel BuildModel.
Import ListNotations.

(** ** What is written below a node.  The text of a comment, the text of a footnote
    reference and the headers and footers of a section go into parts of their own. *)
Fixpoint written (n : node) : list node :=
  n :: match n with
       | NRun _ ch | NIns _ ch | NDel _ ch | NMoveFrom _ ch | NMoveTo _ ch | NLink _ _ ch | NSdt _ _ ch | NPara _ _ _ ch
       | NTable _ _ _ ch | NRow _ _ ch | NCell _ _ ch | NSection _ _ _ ch => flat_map written ch
       | NToc _ b a => flat_map written b ++ flat_map written a
       | _ => []
       end.
(** ** What cannot be written: shapes, text boxes, empty drawings and hyperlink fields. *)
Definition unwritable (n : node) : bool :=
  match n with
  | NShape | NTextBox _ | NNoDrawing | NInstr (IHYPERLINK _ _) | NDelInstr (IHYPERLINK _ _) => true
  | _ => false
  end.

(** ** Ids taken while writing: how many of each kind *)
Record spend := { k_para : N; k_hist : N; k_change : N }.
Definition nothing : spend := {| k_para := 0; k_hist := 0; k_change := 0 |}.
Definition plus (a b : spend) : spend :=
  {| k_para := k_para a + k_para b; k_hist := k_hist a + k_hist b; k_change := k_change a + k_change b |}.
Definition total (l : list spend) : spend := fold_right plus nothing l.
Definition a_para (n : N) : spend := {| k_para := n; k_hist := 0; k_change := 0 |}.
Definition a_hist (n : N) : spend := {| k_para := 0; k_hist := n; k_change := 0 |}.
Definition a_change (n : N) : spend := {| k_para := 0; k_hist := 0; k_change := n |}.
Definition given {A} (o : option A) : N := match o with Some _ => 1 | None => 0 end.
(** A tracked change of the formatting takes a change id ... *)
Definition rpr_spend (r : rpr) : spend := a_hist (given (r_ins r) + given (r_del r)).
(** ... and so does the record of the former formatting. *)
Fixpoint ppr_spend (p : ppr) : spend :=
  match p with
  | PPr b c => plus (rpr_spend (p_rpr b)) match c with Some (PChange _ _ q) => plus (a_change 1) (ppr_spend q) | None => nothing end
  end.
Definition is_table (n : node) : bool := match n with NTable _ _ _ _ => true | _ => false end.
Definition starts_with_table (l : list node) : bool := match l with n :: _ => is_table n | [] => false end.
Definition only_table (l : list node) : bool := match l with [n] => is_table n | _ => false end.
Definition count {A} (l : list A) : N := N.of_nat (List.length l).
(** Ids taken for a node itself, not for what is below it.  Paragraph ids are taken
    for the end of a section, for a cell without content or with a table only, and for
    the paragraphs of a table of contents. *)
Definition own_spend (n : node) : spend :=
  match n with
  | NRun p _ => rpr_spend p
  | NIns _ _ | NDel _ _ | NMoveFrom _ _ | NMoveTo _ _ => a_hist 1
  | NSdt p _ _ => rpr_spend (sd_rpr p)
  | NPara _ p _ _ => ppr_spend p
  | NRow p _ _ => a_hist (given (tr_del p) + given (tr_ins p))
  | NCell _ _ ch => a_para (if (match ch with [] => true | _ => false end) || only_table ch then 1 else 0)
  | NSection _ _ _ _ => a_para 1
  | NToc d _ after =>
      plus (a_para (if starts_with_table after then 1 else 0))
        match td_items d with
        | [] => plus (a_para 2) (plus (a_hist (given (td_delete d))) match td_ppr d with Some p => ppr_spend p | None => nothing end)
        | l => a_para (count l + 1)
        end
  | _ => nothing
  end.
Definition nodes_spend (l : list node) : spend := total (map own_spend (flat_map written l)).

(** The counters can give that many ids; and their values afterwards. *)
Definition enough (s : ids) (k : spend) : Prop :=
  (k_para k = 0 \/ id_para s + k_para k < two32)%N /\
  (k_hist k = 0 \/ id_hist s + k_hist k < two64)%N /\
  (k_change k = 0 \/ id_change s + k_change k < two64)%N.
Definition after (s : ids) (k : spend) : ids :=
  {| id_para := id_para s + k_para k; id_hist := id_hist s + k_hist k; id_change := id_change s + k_change k |}.

(** ** Elements of what is written *)
Fixpoint elements (x : xml) : list xml :=
  x :: match x with E _ _ ch => flat_map elements ch | L _ _ _ => [] end.
Definition xname (x : xml) : string := match x with E n _ _ => n | L n _ _ => n end.
Definition xattrs (x : xml) : list (string * string) := match x with E _ a _ => a | L _ a _ => a end.
Definition xchildren (x : xml) : list xml := match x with E _ _ ch => ch | L _ _ _ => [] end.
(** The ids of the paragraphs in it. *)
Definition id_attr (x : xml) : list string :=
  if xname x =s "w:p" then flat_map (fun a => if fst a =s "w14:paraId" then [snd a] else []) (xattrs x) else [].
Definition ids_in (l : list xml) : list string := flat_map id_attr (flat_map elements l).
(** The ids stored in the paragraphs that are written. *)
Definition stored_ids (l : list node) : list string :=
  flat_map (fun n => match n with NPara id _ _ _ => [id] | _ => [] end) (flat_map written l).
(** The next [k] paragraph ids from counter value [c]. *)
Definition next_ids (c k : N) : list string :=
  map (fun i => pad0 8 (show_hex (c + N.of_nat i))) (seq 0 (N.to_nat k)).

(** A table of contents that is to be made by the word processor, with content after it,
    takes an id for a paragraph that it then does not write. *)
Definition drops_id (n : node) : bool :=
  match n with
  | NToc d _ after => match td_items d, after with [], _ :: _ => true | _, _ => false end
  | _ => false
  end.

(** ** Cells *)
Definition is_block (x : xml) : bool := (xname x =s "w:p") || (xname x =s "w:tbl") || (xname x =s "w:sdt").
(** An element that is a paragraph, or a structured tag whose content ends in one. *)
Fixpoint closes (x : xml) : bool :=
  match x with
  | E n _ ch =>
      (n =s "w:p") ||
      (((n =s "w:sdt") || (n =s "w:sdtContent")) &&
       (fix last l := match l with [] => false | [x] => closes x | _ :: r => last r end) ch)
  | L _ _ _ => false
  end.
Definition last_is {A} (f : A -> bool) (l : list A) : bool := match rev l with x :: _ => f x | [] => false end.
(** The same for content before it is written: a paragraph, a table of contents that
    nothing or a paragraph follows, a structured tag that ends in such a block. *)
Fixpoint node_closes (n : node) : bool :=
  match n with
  | NPara _ _ _ _ => true
  | NSdt _ _ ch => (fix last l := match l with [] => false | [x] => node_closes x | _ :: r => last r end) ch
  | NToc _ _ [] => true
  | NToc _ _ a => (fix last l := match l with [] => false | [x] => node_closes x | _ :: r => last r end) a
  | _ => false
  end.
(** The content of a cell ends in a paragraph, or is given one: an empty cell and a
    cell with a single table are. *)
Definition cell_closes (ch : list node) : bool :=
  match ch with [] => true | _ => only_table ch || last_is node_closes ch end.
(** A cell: its properties, then one block or more. *)
Definition has_blocks (x : xml) : Prop :=
  exists pr rest, xchildren x = pr :: rest /\ xname pr = "w:tcPr" /\ rest <> [] /\ Forall (fun b => is_block b = true) rest.

(** ** Tracked changes *)
Definition attr_of (k : string) (x : xml) : list string := flat_map (fun a => if fst a =s k then [snd a] else []) (xattrs x).
Definition is_change (x : xml) : bool := existsb (fun n => xname x =s n) ["w:ins"; "w:del"; "w:moveFrom"; "w:moveTo"].
Definition is_former (x : xml) : bool := xname x =s "w:pPrChange".
(** The ids of insertions, deletions and moves, and those of recorded former properties,
    both in document order. *)
Definition change_ids (l : list xml) : list string := flat_map (fun x => if is_change x then attr_of "w:id" x else []) (flat_map elements l).
Definition former_ids (l : list xml) : list string := flat_map (fun x => if is_former x then attr_of "w:id" x else []) (flat_map elements l).
(** The numbers [c], ..., [c + k - 1]. *)
Definition numbers (c k : N) : list string := map (fun i => show_N (c + N.of_nat i)) (seq 0 (N.to_nat k)).

(** ** Ids for whole parts: an empty footnote is given a paragraph. *)
Definition footnotes_spend (l : list (N * list node)) : spend :=
  total (map (fun f => match snd f with [] => a_para 1 | ch => nodes_spend ch end) l).

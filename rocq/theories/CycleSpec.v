(** Opening and saving the document part over and over. *)
From Coq Require Import NArith ZArith List Bool.
From Verif Require Import Str TypesModel Props Ast IdsModel EscapeModel XmlParser XmlSpec WriterModel ReadBase ReadModel ReadSpec RoundSpec WellSpec.
From Verif Require BuildModel.
Import ListNotations.
Open Scope list_scope.

(** ** Plain strings *)
(** Values without the characters that XML writes as references, and without tabs and line
    ends; texts without [&], [<] and line ends. *)
Definition unmarked (c : ascii) : bool :=
  negb ((c =c ch_amp) || (c =c ch_lt) || (c =c ch_gt) || (c =c ch_quot) || (c =c ch_apos) || (c =c ch_tab) || (c =c ch_nl) || (c =c ch_cr)).
Definition plain_piece (p : piece) : Prop :=
  match p with
  | Value s => all_char unmarked s = true
  | Content s => has_char ch_amp s = false /\ has_char ch_lt s = false /\ has_char ch_cr s = false /\ has_char ch_nl s = false
  end.
(** The strings a node itself is written with, not those below it; the texts of field
    instructions are left out. *)
Definition own_strings (n : node) : list piece :=
  match n with
  | NText s | NDelText s => [Content s]
  | NSym f c => [Value f; Value c]
  | NPic p => [Value (pic_id p)]
  | NBookmarkStart _ name => [Value name]
  | NRun p _ => in_rpr p
  | NIns m _ | NDel m _ | NMoveFrom m _ | NMoveTo m _ => in_mark m
  | NLink l _ _ => [Value (match l with External rid _ => rid | Anchor a => a end)]
  | NSdt p _ _ => in_rpr (sd_rpr p)
  | NPara id p _ _ => Value id :: in_ppr p
  | NTable p _ _ _ => in_tblpr p
  | NRow p _ _ => in_trpr p
  | NCell p _ _ => in_tcpr p
  | _ => []
  end.
(** All strings of a tree are plain; the contents of comments do not stand in it. *)
Fixpoint plain (n : node) : Prop :=
  Forall plain_piece (own_strings n) /\
  match n with
  | NRun _ ch | NIns _ ch | NDel _ ch | NMoveFrom _ ch | NMoveTo _ ch | NLink _ _ ch | NSdt _ _ ch
  | NPara _ _ _ ch | NTable _ _ _ ch | NRow _ _ ch | NCell _ _ ch => fold_right (fun c q => plain c /\ q) True ch
  | _ => True
  end.

(** ** What is looked at *)
(** The tree without runs that hold nothing. *)
Fixpoint without_empty_runs (n : node) : list node :=
  match n with
  | NRun _ [] => []
  | NIns m ch => [NIns m (flat_map without_empty_runs ch)]
  | NDel m ch => [NDel m (flat_map without_empty_runs ch)]
  | NMoveFrom m ch => [NMoveFrom m (flat_map without_empty_runs ch)]
  | NMoveTo m ch => [NMoveTo m (flat_map without_empty_runs ch)]
  | NLink l h ch => [NLink l h (flat_map without_empty_runs ch)]
  | NSdt q b ch => [NSdt q b (flat_map without_empty_runs ch)]
  | NPara id q b ch => [NPara id q b (flat_map without_empty_runs ch)]
  | NTable q g b ch => [NTable q g b (flat_map without_empty_runs ch)]
  | NRow q b ch => [NRow q b (flat_map without_empty_runs ch)]
  | NCell q b ch => [NCell q b (flat_map without_empty_runs ch)]
  | _ => [n]
  end.
(** How many comments end inside a paragraph or a tag (not between paragraphs of the
    document).  What is moved away inside a hyperlink is not read. *)
Definition sum {A} (f : A -> nat) (l : list A) : nat := fold_right (fun a k => f a + k) 0 l.
Fixpoint ends_inside (p : place) (n : node) : nat :=
  match n with
  | NCommentEnd _ => match p with InDocument => 0 | _ => 1 end
  | NIns _ ch => sum (ends_inside InIns) ch
  | NDel _ ch => sum (ends_inside InDel) ch
  | NMoveFrom _ ch => match p with InLink => 0 | _ => sum (ends_inside InDel) ch end
  | NMoveTo _ ch => match p with InLink => sum (ends_inside InLink) ch | _ => sum (ends_inside InIns) ch end
  | NLink _ _ ch => sum (ends_inside InLink) ch
  | NSdt _ _ ch => match p with InPara | InLink => sum (ends_inside p) ch | _ => sum (ends_inside InSdt) ch end
  | NPara _ _ _ ch => sum (ends_inside InPara) ch
  | NTable _ _ _ ch => sum (ends_inside InTable) ch
  | NRow _ _ ch => sum (ends_inside InRow) ch
  | NCell _ _ ch => sum (ends_inside InPart) ch
  | _ => 0
  end.
(** How many nodes a tree has. *)
Definition size (l : list node) : nat := length (flat_map all_nodes l).
(** What takes two turns: an anchored picture with the mark for a simple position, and a
    field instruction with a carriage return written as a reference. *)
Definition slow (n : node) : bool :=
  match n with
  | NPic p => pic_anchor p && pic_simple_pos p
  | NInstr i => has_char ch_cr (text_seen (instr_written i))
  | _ => false
  end.
Definition quick (body : list node) : Prop := Forall (fun n => slow n = false) (flat_map all_nodes body).

(** ** Histories *)
(** The contents of a document and its last section. *)
Definition state : Type := list node * sectpr.
(** [a] is written as a part and the part is read, which gives [b].  The reader has enough
    paragraph ids. *)
Definition saved_and_opened (a b : state) : Prop :=
  exists s x s' w r r', BuildModel.b_document (fst a) (snd a) s = Some (x, s') /\ w_run w_init (BuildModel.part_calls x) = WOk w /\
    reads_from (WriterModel.out w) r /\ (rs_para r + sumN paras (fst a) < 4294967296)%N /\ read_document r = Val b r'.
Inductive times : nat -> state -> state -> Prop :=
| Never a : times 0 a a
| Again k a b c : times k a b -> saved_and_opened b c -> times (S k) a c.
(** The documents for which the claims are made. *)
Record steady (a : state) : Prop := {
  st_plain : Forall plain (fst a) /\ Forall plain_piece (in_sectpr (snd a));
  st_readable : Forall readable (in_document (fst a) (snd a));
  st_kept : forallb (kept InDocument) (fst a) = true;
  st_fits : Forall fits (fst a) /\ fits_sectpr (snd a) }.

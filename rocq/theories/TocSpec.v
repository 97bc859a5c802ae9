(** What a table of contents should list. *)
From Verif Require Import Str Props Ast.

(** The visible text of a paragraph: texts, tabs and line breaks of its runs, also
    those in tracked insertions; of moved-in runs only the texts. *)
Definition piece (n : node) : string :=
  match n with NText s => s | NTab | NPTab _ => s_tab | NBreak _ | NCr => s_nl | _ => "" end.
Definition moved_piece (n : node) : string := match n with NText s => s | _ => "" end.
Definition runs (l : list node) : list (list node) := flat_map (fun n => match n with NRun _ ch => [ch] | _ => [] end) l.
Definition visible_text (n : node) : string :=
  concat_str (flat_map (fun c => match c with
                                 | NRun _ ch => map piece ch
                                 | NIns _ ch => map piece (concat (runs ch))
                                 | NMoveTo _ ch => map moved_piece (concat (runs ch))
                                 | _ => []
                                 end) (children n)).

(** Levels at which a table of contents lists the paragraph [n]: that of its style
    as a heading, and that given to its style in the instruction itself; each only
    if in range. *)
Definition in_range (i : instr_toc) (l : N) : bool :=
  match it_heading i with
  | Some (min, max) => (min <=? l)%N && (l <=? max)%N
  | None => (l <=? 9)%N
  end.
Definition given_level (i : instr_toc) (st : string) : option N :=
  option_map snd (find (fun s => fst s =s st) (rev (it_styles i))).
Definition listed_levels (heading : string -> option N) (i : instr_toc) (n : node) : list N :=
  match n with
  | NPara _ p _ _ =>
      match p_style (base_of p) with
      | Some st =>
          filter (in_range i)
            (match heading st with Some l => [l] | None => [] end ++ match given_level i st with Some l => [l] | None => [] end)
      | None => []
      end
  | _ => []
  end.
(** The instruction lists own styles only, without heading levels. *)
Definition lists_nothing (i : instr_toc) : bool :=
  match it_heading i, it_styles i with None, _ :: _ => true | _, _ => false end.
(** Text and level of every entry, in document order. *)
Definition expected_entries (heading : string -> option N) (i : instr_toc) (body : list node) : list (string * N) :=
  if lists_nothing i then []
  else flat_map (fun n => map (fun l => (visible_text n, l)) (listed_levels heading i n)) body.

(** A table of contents to be filled: automatic, and empty so far. *)
Definition to_fill (n : node) : bool :=
  match n with NToc d _ _ => match td_items d with [] => td_auto d | _ => false end | _ => false end.

(** [ch] between matching bookmark marks, the last of [ms] outermost. *)
Definition between (ms : list (N * string)) (ch : list node) : list node :=
  map (fun m => NBookmarkStart (fst m) (snd m)) (rev ms) ++ ch ++ map (fun m => NBookmarkEnd (fst m)) ms.

Definition with_items (d : toc_data) (l : list toc_item) : toc_data :=
  {| td_instr := td_instr d; td_items := l; td_auto := td_auto d; td_dirty := td_dirty d;
     td_without_sdt := td_without_sdt d; td_alias := td_alias d; td_page_placeholder := td_page_placeholder d;
     td_delete := td_delete d; td_ppr := td_ppr d |}.

(** How a child [n] of [body] may change: paragraphs are put between bookmark
    marks [ms], tables of contents to be filled get their entries, all else stays. *)
Definition changed (heading : string -> option N) (body : list node) (n : node) (ms : list (N * string)) (n' : node) : Prop :=
  match n with
  | NPara id p nb ch => n' = NPara id p nb (between ms ch)
  | NToc d b a =>
      ms = [] /\
      if to_fill n then exists items, n' = NToc (with_items d items) b a /\
                          map (fun it => (ti_text it, ti_level it)) items = expected_entries heading (td_instr d) body
      else n' = n
  | _ => ms = [] /\ n' = n
  end.

(** Statement about three lists, position by position. *)
Inductive Forall3 {A B C} (R : A -> B -> C -> Prop) : list A -> list B -> list C -> Prop :=
| Forall3_nil : Forall3 R [] [] []
| Forall3_cons a b c l m r : R a b c -> Forall3 R l m r -> Forall3 R (a :: l) (b :: m) (c :: r).

(** The entries of the tables that were filled. *)
Definition filled_items (body body' : list node) : list toc_item :=
  flat_map (fun p => if to_fill (fst p) then match snd p with NToc d _ _ => td_items d | _ => [] end else []) (combine body body').
(** How many entries there will be. *)
Definition entry_count (heading : string -> option N) (body : list node) : nat :=
  length (flat_map (fun n => match n with
                             | NToc d _ _ => if to_fill n then expected_entries heading (td_instr d) body else []
                             | _ => []
                             end) body).

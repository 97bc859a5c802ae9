(** Collection and renewal of paragraph ids before a package is built
    (documents/mod.rs:899-918, 1568-2265). *)
From Coq Require Import NArith List Bool.
From Verif Require Import Str IdsModel Props Ast Pass.
Import ListNotations.

(** Which children the collecting and the renewing pass descend into.
    The tables of the two passes are the same, but they are two copies in Rust:
    [_c] is the collecting one, [_r] the renewing one. *)
(* collect_para_ids_in_document_child, 1585-1600 *)
Definition doc_visit_c (n : node) : bool :=
  match n with NPara _ _ _ _ | NTable _ _ _ _ | NSdt _ _ _ | NToc _ _ _ | NSection _ _ _ _ | NCommentStart _ _ => true | _ => false end.
(* collect_para_ids_in_section, 1602-1616 *)
Definition section_visit_c (n : node) : bool :=
  match n with NPara _ _ _ _ | NTable _ _ _ _ | NSdt _ _ _ | NToc _ _ _ | NCommentStart _ _ => true | _ => false end.
(* collect_para_ids_in_header/footer, 1642-1664 *)
Definition part_visit_c (n : node) : bool :=
  match n with NPara _ _ _ _ | NTable _ _ _ _ | NSdt _ _ _ => true | _ => false end.
(* collect_para_ids_in_toc, 1666-1679; in_comment, 1820-1827 *)
Definition block_visit_c (n : node) : bool :=
  match n with NPara _ _ _ _ | NTable _ _ _ _ => true | _ => false end.
(* cells in collect_para_ids_in_table, 1681-1698 *)
Definition cell_visit_c (n : node) : bool :=
  match n with NPara _ _ _ _ | NTable _ _ _ _ | NSdt _ _ _ | NToc _ _ _ => true | _ => false end.
(* collect_para_ids_in_paragraph, 1700-1723; in_hyperlink, 1725-1746 *)
Definition para_visit_c (n : node) : bool :=
  match n with NRun _ _ | NCommentStart _ _ | NIns _ _ | NDel _ _ | NMoveFrom _ _ | NMoveTo _ _ | NLink _ _ _ | NSdt _ _ _ => true | _ => false end.
(* collect_para_ids_in_insert, 1748-1757; in_move_to, 1779-1788 *)
Definition ins_visit_c (n : node) : bool :=
  match n with NRun _ _ | NDel _ _ | NCommentStart _ _ => true | _ => false end.
(* collect_para_ids_in_delete, 1759-1767; in_move_from, 1769-1777 *)
Definition del_visit_c (n : node) : bool :=
  match n with NRun _ _ | NCommentStart _ _ => true | _ => false end.
(* collect_para_ids_in_run, 1790-1796 *)
Definition run_visit_c (n : node) : bool :=
  match n with NCommentStart _ _ => true | _ => false end.
(* collect_para_ids_in_structured_data_tag, 1798-1818 *)
Definition sdt_visit_c (n : node) : bool :=
  match n with NRun _ _ | NPara _ _ _ _ | NTable _ _ _ _ | NCommentStart _ _ | NSdt _ _ _ => true | _ => false end.

(** The ids met, in order.  Rust only counts them ([counts], a hash map). *)
Fixpoint collect_ids (n : node) : list string :=
  match n with
  | NPara id _ _ ch => id :: flat_map (fun c => if para_visit_c c then collect_ids c else []) ch
  | NLink _ _ ch => flat_map (fun c => if para_visit_c c then collect_ids c else []) ch
  | NRun _ ch => flat_map (fun c => if run_visit_c c then collect_ids c else []) ch
  | NIns _ ch | NMoveTo _ ch => flat_map (fun c => if ins_visit_c c then collect_ids c else []) ch
  | NDel _ ch | NMoveFrom _ ch => flat_map (fun c => if del_visit_c c then collect_ids c else []) ch
  | NSdt _ _ ch => flat_map (fun c => if sdt_visit_c c then collect_ids c else []) ch
  | NCommentStart _ ch => flat_map (fun c => if block_visit_c c then collect_ids c else []) ch
  | NTable _ _ _ rows => flat_map (fun c => if is_row c then collect_ids c else []) rows
  | NRow _ _ cells => flat_map (fun c => if is_cell c then collect_ids c else []) cells
  | NCell _ _ ch => flat_map (fun c => if cell_visit_c c then collect_ids c else []) ch
  | NToc _ b a => flat_map (fun c => if block_visit_c c then collect_ids c else []) b ++
                  flat_map (fun c => if block_visit_c c then collect_ids c else []) a
  | NSection _ parts _ ch => flat_map (fun c => if section_visit_c c then collect_ids c else []) ch ++
                             flat_map (fun c => if is_part c then collect_ids c else []) parts
  | NPart _ _ _ ch => flat_map (fun c => if part_visit_c c then collect_ids c else []) ch
  | _ => []
  end.
(** [collect_para_ids_in_docx], 1568-1583 *)
Definition collect_docx (d : docx) : list string :=
  flat_map (fun c => if doc_visit_c c then collect_ids c else []) (d_body d) ++
  flat_map (fun c => if is_part c then collect_ids c else []) (d_parts d) ++
  flat_map (fun c => flat_map (fun x => if block_visit_c x then collect_ids x else []) (snd c)) (d_comments d) ++
  flat_map (fun f => flat_map (fun x => if is_para x then collect_ids x else []) (snd f)) (d_footnotes d).

(** State of the renewing pass: the hash sets [used] and [seen], as lists
    without repetition, and the thread's id counter. *)
Record ids_state := { used : list string; seen : list string; counter : N }.
Definition mem (s : string) (l : list string) : bool := existsb (String.eqb s) l.
Definition insert (s : string) (l : list string) : list string := if mem s l then l else s :: l.
Fixpoint keys (l : list string) : list string :=
  match l with [] => [] | s :: t => insert s (keys t) end.
Definition count (s : string) (l : list string) : nat := List.length (filter (String.eqb s) l).
(** membership in [duplicates], 903-907 *)
Definition is_duplicate (ids : list string) (s : string) : bool := Nat.ltb 1 (count s ids).

(** The fallback scan, mod.rs:2257-2264: the first candidate not in [used],
    trying at most [fuel] (proved never to run out).  Simplification: the
    candidates are unbounded, in Rust they are usize. *)
Fixpoint scan (fuel : nat) (v : N) (u : list string) : option string :=
  match fuel with
  | O => None
  | S k => if mem (pad0 8 (show_hex v)) u then scan k (v + 1) u else Some (pad0 8 (show_hex v))
  end.
(** [next_unique_paragraph_id], mod.rs:2251-2265; [None] is a panic, when the
    counter is exhausted. *)
Definition next_unique (u : list string) (c : N) : option (string * N) :=
  match gen_para c with
  | None => None
  | Some (id, c') =>
      if mem id u then
        match scan (S (List.length u)) (N.of_nat (List.length u) + 1) u with
        | None => None
        | Some id' => Some (id', c')
        end
      else Some (id, c')
  end.
(** [ensure_unique_paragraph_id], mod.rs:2227-2243, on the id alone *)
Definition ensure (dup : string -> bool) (id : string) (s : ids_state) : option (string * ids_state) :=
  if negb (id =s "") && negb (dup id) then Some (id, s)
  else if negb (id =s "") && negb (mem id (seen s)) then
    Some (id, {| used := used s; seen := insert id (seen s); counter := counter s |})
  else
    match next_unique (used s) (counter s) with
    | None => None
    | Some (id', c') => Some (id', {| used := insert id' (used s); seen := seen s; counter := c' |})
    end.

Definition doc_visit_r (n : node) : bool :=      (* 1856-1879 *)
  match n with NPara _ _ _ _ | NTable _ _ _ _ | NSdt _ _ _ | NToc _ _ _ | NSection _ _ _ _ | NCommentStart _ _ => true | _ => false end.
Definition section_visit_r (n : node) : bool :=  (* 1881-1906 *)
  match n with NPara _ _ _ _ | NTable _ _ _ _ | NSdt _ _ _ | NToc _ _ _ | NCommentStart _ _ => true | _ => false end.
Definition part_visit_r (n : node) : bool :=     (* 1934-1970 *)
  match n with NPara _ _ _ _ | NTable _ _ _ _ | NSdt _ _ _ => true | _ => false end.
Definition block_visit_r (n : node) : bool :=    (* 1972-1994, 2211-2225 *)
  match n with NPara _ _ _ _ | NTable _ _ _ _ => true | _ => false end.
Definition cell_visit_r (n : node) : bool :=     (* 1996-2022 *)
  match n with NPara _ _ _ _ | NTable _ _ _ _ | NSdt _ _ _ | NToc _ _ _ => true | _ => false end.
Definition para_visit_r (n : node) : bool :=     (* 2024-2094 *)
  match n with NRun _ _ | NCommentStart _ _ | NIns _ _ | NDel _ _ | NMoveFrom _ _ | NMoveTo _ _ | NLink _ _ _ | NSdt _ _ _ => true | _ => false end.
Definition ins_visit_r (n : node) : bool :=      (* 2096-2114, 2150-2168 *)
  match n with NRun _ _ | NDel _ _ | NCommentStart _ _ => true | _ => false end.
Definition del_visit_r (n : node) : bool :=      (* 2116-2148 *)
  match n with NRun _ _ | NCommentStart _ _ => true | _ => false end.
Definition run_visit_r (n : node) : bool :=      (* 2170-2181 *)
  match n with NCommentStart _ _ => true | _ => false end.
Definition sdt_visit_r (n : node) : bool :=      (* 2183-2209 *)
  match n with NRun _ _ | NPara _ _ _ _ | NTable _ _ _ _ | NCommentStart _ _ | NSdt _ _ _ => true | _ => false end.

(** The renewing pass over the tree. *)
Section Refresh.
  Variable dup : string -> bool.
  Fixpoint refresh (n : node) (s : ids_state) {struct n} : option (node * ids_state) :=
    match n with
    | NPara id p nb ch =>
        match ensure dup id s with
        | None => None
        | Some (id', s1) =>
            then_ (pass (fun c s => if para_visit_r c then refresh c s else Some (c, s)) ch s1) (NPara id' p nb)
        end
    | NLink l h ch => then_ (pass (fun c s => if para_visit_r c then refresh c s else Some (c, s)) ch s) (NLink l h)
    | NRun p ch => then_ (pass (fun c s => if run_visit_r c then refresh c s else Some (c, s)) ch s) (NRun p)
    | NIns a ch => then_ (pass (fun c s => if ins_visit_r c then refresh c s else Some (c, s)) ch s) (NIns a)
    | NMoveTo a ch => then_ (pass (fun c s => if ins_visit_r c then refresh c s else Some (c, s)) ch s) (NMoveTo a)
    | NDel a ch => then_ (pass (fun c s => if del_visit_r c then refresh c s else Some (c, s)) ch s) (NDel a)
    | NMoveFrom a ch => then_ (pass (fun c s => if del_visit_r c then refresh c s else Some (c, s)) ch s) (NMoveFrom a)
    | NSdt p nb ch => then_ (pass (fun c s => if sdt_visit_r c then refresh c s else Some (c, s)) ch s) (NSdt p nb)
    | NCommentStart c ch => then_ (pass (fun c s => if block_visit_r c then refresh c s else Some (c, s)) ch s) (NCommentStart c)
    | NTable p g nb rows => then_ (pass (fun c s => if is_row c then refresh c s else Some (c, s)) rows s) (NTable p g nb)
    | NRow p nb cells => then_ (pass (fun c s => if is_cell c then refresh c s else Some (c, s)) cells s) (NRow p nb)
    | NCell p nb ch => then_ (pass (fun c s => if cell_visit_r c then refresh c s else Some (c, s)) ch s) (NCell p nb)
    | NToc d b a =>
        match pass (fun c s => if block_visit_r c then refresh c s else Some (c, s)) b s with
        | None => None
        | Some (b', s1) => then_ (pass (fun c s => if block_visit_r c then refresh c s else Some (c, s)) a s1) (NToc d b')
        end
    | NSection p parts nb ch =>
        match pass (fun c s => if section_visit_r c then refresh c s else Some (c, s)) ch s with
        | None => None
        | Some (ch', s1) =>
            then_ (pass (fun c s => if is_part c then refresh c s else Some (c, s)) parts s1)
              (fun parts' => NSection p parts' nb ch')
        end
    | NPart k rid nb ch => then_ (pass (fun c s => if part_visit_r c then refresh c s else Some (c, s)) ch s) (NPart k rid nb)
    | _ => Some (n, s)
    end.

  (** [refresh_para_ids_in_docx], mod.rs:1829-1854 *)
  Definition refresh_docx (d : docx) (s : ids_state) : option (docx * ids_state) :=
    match pass (fun c s => if doc_visit_r c then refresh c s else Some (c, s)) (d_body d) s with
    | None => None
    | Some (body, s1) =>
    match pass (fun c s => if is_part c then refresh c s else Some (c, s)) (d_parts d) s1 with
    | None => None
    | Some (parts, s2) =>
    match pass (fun (c : comment_data * list node) s =>
                  then_ (pass (fun x s => if block_visit_r x then refresh x s else Some (x, s)) (snd c) s) (pair (fst c)))
               (d_comments d) s2 with
    | None => None
    | Some (comments, s3) =>
        then_ (pass (fun (f : N * list node) s =>
                  then_ (pass (fun x s => if is_para x then refresh x s else Some (x, s)) (snd f) s) (pair (fst f)))
               (d_footnotes d) s3)
          (fun footnotes => {| d_body := body; d_sect := d_sect d; d_parts := parts; d_comments := comments; d_footnotes := footnotes |})
    end end end.
End Refresh.

(** [Docx::refresh_duplicate_para_ids], mod.rs:900-918, with the value of the
    thread's id counter before and after; [None] is a panic. *)
Definition refresh_duplicate_ids (d : docx) (c : N) : option (docx * N) :=
  let ids := collect_docx d in
  if negb (existsb (is_duplicate ids) ids) && negb (mem "" ids) then Some (d, c)
  else
    match refresh_docx (is_duplicate ids) d {| used := keys ids; seen := []; counter := c |} with
    | None => None
    | Some (d', s) => Some (d', counter s)
    end.
(** The part of [prepare_for_build], mod.rs:835-841, that concerns ids: reset of
    the counter (838, 793-795) and renewal. *)
Definition prepare_ids (d : docx) : option docx :=
  match refresh_duplicate_ids d (reset_id 0) with None => None | Some (d', _) => Some d' end.

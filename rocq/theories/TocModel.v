(** Expansion of automatic tables of contents: [Docx::expand_auto_tocs] and
    [update_document_by_toc], documents/mod.rs:803-832 and 2297-2376. *)
From Verif Require Import Str StrFind IdsModel Props Ast Pass.

(** [str::to_lowercase].  Simplification: only ASCII letters are mapped.  No
    non-ASCII character lowers to a letter of "heading" alone or to a digit, so
    the two functions below give the same answers as with full Unicode. *)
Definition lower_char (c : ascii) : ascii :=
  let n := N_of_ascii c in if (65 <=? n)%N && (n <=? 90)%N then ascii_of_N (n + 32) else c.
Fixpoint lower (s : string) : string :=
  match s with EmptyString => EmptyString | String c r => String (lower_char c) (lower r) end.
(** [Name::is_heading], elements/name.rs:25-27 *)
Definition is_heading (name : string) : bool := starts_with "heading" (lower name).
(** [Name::get_heading_number], elements/name.rs:29-32 *)
Definition heading_number (name : string) : option N := parse_usize (replace "heading " "" (lower name)).
(** [Styles::create_heading_style_map], styles.rs:55-67; styles are pairs of id and
    name.  Collecting into a [HashMap] keeps the last entry for an id. *)
Definition heading_map (styles : list (string * string)) : list (string * N) :=
  flat_map (fun s => if is_heading (snd s) then match heading_number (snd s) with Some n => [(fst s, n)] | None => [] end else []) styles.
Fixpoint last_get (k : string) (m : list (string * N)) : option N :=
  match m with
  | [] => None
  | (k', v) :: r => match last_get k r with Some w => Some w | None => if k' =s k then Some v else None end
  end.

(** [Paragraph::raw_text], elements/paragraph.rs:396-468 *)
Definition run_child_text (n : node) : string :=
  match n with
  | NText s => s
  | NTab | NPTab _ => s_tab
  | NBreak _ | NCr => s_nl
  | _ => ""
  end.
Definition move_child_text (n : node) : string := match n with NText s => s | _ => "" end.
Definition para_child_text (n : node) : string :=
  match n with
  | NRun _ ch => concat_str (map run_child_text ch)
  | NIns _ ch => concat_str (map (fun c => match c with NRun _ r => concat_str (map run_child_text r) | _ => "" end) ch)
  | NMoveTo _ ch => concat_str (map (fun c => match c with NRun _ r => concat_str (map move_child_text r) | _ => "" end) ch)
  | _ => ""
  end.
Definition raw_text (ch : list node) : string := concat_str (map para_child_text ch).

(** [Paragraph::wrap_by_bookmark], elements/paragraph.rs:186-193 *)
Definition wrap_by_bookmark (id : N) (name : string) (ch : list node) : list node :=
  NBookmarkStart id name :: ch ++ [NBookmarkEnd id].

(** The counters of toc_key.rs and bookmark_id.rs. *)
Record counters := { k_toc : N; k_bookmark : N }.
(** [TableOfContentsItem::new().text().toc_key().level()], table_of_contents_item.rs:19-44 *)
Definition new_item (text key : string) (level : N) : toc_item :=
  {| ti_instr := instr_toc_empty; ti_text := text; ti_key := key; ti_level := level; ti_dirty := false; ti_page := None |}.
(** State of the loop: the items and the counters. *)
Definition toc_state : Type := list toc_item * counters.
(** One entry: mod.rs:2335-2343, and 2358-2367 for the \t option; [None] is the
    overflow panic of the key counter. *)
Definition add_entry (level : N) (ch : list node) (s : toc_state) : option (list node * toc_state) :=
  match gen_toc_key (k_toc (snd s)) with
  | None => None
  | Some (key, t') =>
      let id := k_bookmark (snd s) in
      Some (wrap_by_bookmark id key ch,
            (fst s ++ [new_item (raw_text ch) key level], {| k_toc := t'; k_bookmark := wrapping_succ id |}))
  end.
(** [if let Some(level) = ... { if min <= level && max >= level ...] *)
Definition entry_if (min max : N) (level : option N) (ch : list node) (s : toc_state) : option (list node * toc_state) :=
  match level with
  | Some l => if (min <=? l)%N && (l <=? max)%N then add_entry l ch s else Some (ch, s)
  | None => Some (ch, s)
  end.
Definition style_of (n : node) : option string :=
  match n with NPara _ p _ _ => p_style (base_of p) | _ => None end.
(** Body of the loop, mod.rs:2324-2371 *)
Definition toc_visit (heads customs : list (string * N)) (min max : N) (n : node) (s : toc_state) : option (node * toc_state) :=
  match n with
  | NPara id p nb ch =>
      let level m := match style_of n with Some st => last_get st m | None => None end in
      match entry_if min max (level heads) ch s with
      | None => None
      | Some (ch1, s1) => then_ (entry_if min max (level customs) ch1 s1) (NPara id p nb)
      end
  | _ => Some (n, s)
  end.

Definition set_items (d : toc_data) (l : list toc_item) : toc_data :=
  {| td_instr := td_instr d; td_items := l; td_auto := td_auto d; td_dirty := td_dirty d;
     td_without_sdt := td_without_sdt d; td_alias := td_alias d; td_page_placeholder := td_page_placeholder d;
     td_delete := td_delete d; td_ppr := td_ppr d |}.
(** The vector with the table of contents put back at its index, mod.rs:2310-2312, 2374-2375. *)
Fixpoint put_at (i : nat) (n : node) (l : list node) : list node :=
  match l, i with
  | [], _ => []
  | _ :: r, O => n :: r
  | x :: r, S k => x :: put_at k n r
  end.
(** [TableOfContents::default()], the placeholder put at the index meanwhile. *)
Definition toc_default : node :=
  NToc {| td_instr := instr_toc_empty; td_items := []; td_auto := false; td_dirty := false; td_without_sdt := false;
          td_alias := None; td_page_placeholder := None; td_delete := None; td_ppr := None |} [] [].
(** [update_document_by_toc], mod.rs:2297-2376 *)
Definition update_by_toc (styles : list (string * string)) (d : toc_data) (before after : list node) (i : nat)
    (body : list node) (k : counters) : option (list node * counters) :=
  let it := td_instr d in
  match it_heading it, it_styles it with
  | None, _ :: _ => Some (put_at i (NToc d before after) body, k)
  | _, _ =>
      let (min, max) := match it_heading it with Some r => r | None => (0, 9)%N end in
      match pass (toc_visit (heading_map styles) (it_styles it) min max) body ([], k) with
      | None => None
      | Some (body', (items, k')) => Some (put_at i (NToc (set_items d items) before after) body', k')
      end
  end.
(** Indexes of the eligible tables of contents, mod.rs:805-819. *)
Definition eligible (n : node) : bool :=
  match n with NToc d _ _ => match td_items d with [] => td_auto d | _ => false end | _ => false end.
Fixpoint eligible_indexes (i : nat) (l : list node) : list nat :=
  match l with
  | [] => []
  | n :: r => if eligible n then i :: eligible_indexes (S i) r else eligible_indexes (S i) r
  end.
(** One round of the second loop, mod.rs:821-830; [None]: the [unreachable!] or a panic. *)
Definition expand_at (styles : list (string * string)) (i : nat) (s : list node * counters) : option (list node * counters) :=
  match nth_error (fst s) i with
  | Some (NToc d b a) => update_by_toc styles d b a i (put_at i toc_default (fst s)) (snd s)
  | _ => None
  end.
Fixpoint expand_all (styles : list (string * string)) (l : list nat) (s : list node * counters) : option (list node * counters) :=
  match l with
  | [] => Some s
  | i :: r => match expand_at styles i s with None => None | Some s' => expand_all styles r s' end
  end.
(** [expand_auto_tocs], mod.rs:803-832; the boolean is [has_toc]. *)
Definition expand_auto_tocs (styles : list (string * string)) (body : list node) (k : counters) : option (list node * counters * bool) :=
  option_map (fun s => (s, existsb (fun n => match n with NToc _ _ _ => true | _ => false end) body))
             (expand_all styles (eligible_indexes 0 body) (body, k)).

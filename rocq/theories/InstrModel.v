(** Field instructions: printing and parsing of TOC, PAGEREF and TC
    (docx-core/src/documents/elements/instr_toc.rs, instr_pageref.rs, instr_tc.rs). *)
From Verif Require Import Str StrFind EscapeModel Props.

(** [s.split(c)]: the pieces between the occurrences of [c], at least one. *)
Fixpoint split (c : ascii) (s : string) : list string :=
  match s with
  | EmptyString => [""]
  | String a r =>
      if a =c c then "" :: split c r
      else match split c r with
           | w :: ws => String a w :: ws
           | [] => [str1 a]
           end
  end.

(** [.join(",")] of instr_toc.rs:226-231 *)
Fixpoint join (sep : string) (l : list string) : string :=
  match l with
  | [] => ""
  | [x] => x
  | x :: r => x +++ sep +++ join sep r
  end.

(** ** Printing.  [q] is the quotation mark, written [&quot;]. *)
Definition quoted (q s : string) : string := q +++ s +++ q.
(** one [write!] of a switch with an argument, e.g. instr_toc.rs:175-177 *)
Definition print_name (q sw : string) (o : option string) : string :=
  match o with Some t => sw +++ quoted q t | None => "" end.
Definition print_range (q sw : string) (o : option (N * N)) : string :=
  match o with Some (s, e) => sw +++ quoted q (show_N s +++ "-" +++ show_N e) | None => "" end.
Definition print_flag (sw : string) (b : bool) : string := if b then sw else "".
Definition print_styles (q : string) (l : list (string * N)) : string :=
  match l with
  | [] => ""
  | _ => " \t " +++ quoted q (join "," (map (fun s => fst s +++ "," +++ show_N (snd s)) l))
  end.
Definition print_tc_id (q : string) (o : option (option string)) : string :=
  match o with
  | Some (Some t) => " \f " +++ quoted q t
  | Some None => " \f"
  | None => ""
  end.
(** [InstrToC::build_to], instr_toc.rs:163-265 *)
Definition print_toc_with (q : string) (t : instr_toc) : string :=
  "TOC" +++
  print_name q " \a " (it_caption t) +++
  print_name q " \b " (it_bookmark t) +++
  print_name q " \c " (it_caption_numbers t) +++
  print_name q " \d " (it_seq_sep t) +++
  print_tc_id q (it_tc_id t) +++
  print_range q " \l " (it_tc_level t) +++
  print_range q " \n " (it_omit_page t) +++
  print_range q " \o " (it_heading t) +++
  print_name q " \p " (it_entry_sep t) +++
  print_name q " \s " (it_seq_prefix t) +++
  print_styles q (it_styles t) +++
  print_flag " \h" (it_hyperlink t) +++
  print_flag " \u" (it_line_level t) +++
  print_flag " \w" (it_preserve_tab t) +++
  print_flag " \x" (it_preserve_nl t) +++
  print_flag " \z" (it_hide_web t).
Definition print_toc (t : instr_toc) : string := print_toc_with "&quot;" t.

(** ** Parsing *)
(** Two calls of [replace], removing [&quot;] and the quotation mark, e.g. instr_toc.rs:293 *)
Definition unquote (s : string) : string := replace (str1 ch_quot) "" (replace "&quot;" "" s).
(** [parse_level_range], instr_toc.rs:267-280 *)
Definition parse_level_range (s : string) : option (N * N) :=
  match split "-" (unquote s) with
  | a :: b :: _ =>
      match parse_usize a, parse_usize b with
      | Some x, Some y => Some (x, y)
      | _, _ => None
      end
  | _ => None
  end.
(** the loop over [split(',')], instr_toc.rs:368-383 *)
Fixpoint parse_styles (l : list string) : list (string * N) :=
  match l with
  | style :: level :: r =>
      match parse_usize level with
      | Some n => (style, n) :: parse_styles r
      | None => []
      end
  | _ => []
  end.

(** The setters, instr_toc.rs:82-158. *)
Definition set_heading v t := {| it_heading := v; it_tc_level := it_tc_level t; it_omit_page := it_omit_page t; it_bookmark := it_bookmark t; it_styles := it_styles t; it_entry_sep := it_entry_sep t; it_seq_sep := it_seq_sep t; it_caption := it_caption t; it_caption_numbers := it_caption_numbers t; it_seq_prefix := it_seq_prefix t; it_tc_id := it_tc_id t; it_hyperlink := it_hyperlink t; it_preserve_tab := it_preserve_tab t; it_preserve_nl := it_preserve_nl t; it_line_level := it_line_level t; it_hide_web := it_hide_web t |}.
Definition set_tc_level v t := {| it_heading := it_heading t; it_tc_level := v; it_omit_page := it_omit_page t; it_bookmark := it_bookmark t; it_styles := it_styles t; it_entry_sep := it_entry_sep t; it_seq_sep := it_seq_sep t; it_caption := it_caption t; it_caption_numbers := it_caption_numbers t; it_seq_prefix := it_seq_prefix t; it_tc_id := it_tc_id t; it_hyperlink := it_hyperlink t; it_preserve_tab := it_preserve_tab t; it_preserve_nl := it_preserve_nl t; it_line_level := it_line_level t; it_hide_web := it_hide_web t |}.
Definition set_omit_page v t := {| it_heading := it_heading t; it_tc_level := it_tc_level t; it_omit_page := v; it_bookmark := it_bookmark t; it_styles := it_styles t; it_entry_sep := it_entry_sep t; it_seq_sep := it_seq_sep t; it_caption := it_caption t; it_caption_numbers := it_caption_numbers t; it_seq_prefix := it_seq_prefix t; it_tc_id := it_tc_id t; it_hyperlink := it_hyperlink t; it_preserve_tab := it_preserve_tab t; it_preserve_nl := it_preserve_nl t; it_line_level := it_line_level t; it_hide_web := it_hide_web t |}.
Definition set_bookmark v t := {| it_heading := it_heading t; it_tc_level := it_tc_level t; it_omit_page := it_omit_page t; it_bookmark := v; it_styles := it_styles t; it_entry_sep := it_entry_sep t; it_seq_sep := it_seq_sep t; it_caption := it_caption t; it_caption_numbers := it_caption_numbers t; it_seq_prefix := it_seq_prefix t; it_tc_id := it_tc_id t; it_hyperlink := it_hyperlink t; it_preserve_tab := it_preserve_tab t; it_preserve_nl := it_preserve_nl t; it_line_level := it_line_level t; it_hide_web := it_hide_web t |}.
Definition set_styles v t := {| it_heading := it_heading t; it_tc_level := it_tc_level t; it_omit_page := it_omit_page t; it_bookmark := it_bookmark t; it_styles := v; it_entry_sep := it_entry_sep t; it_seq_sep := it_seq_sep t; it_caption := it_caption t; it_caption_numbers := it_caption_numbers t; it_seq_prefix := it_seq_prefix t; it_tc_id := it_tc_id t; it_hyperlink := it_hyperlink t; it_preserve_tab := it_preserve_tab t; it_preserve_nl := it_preserve_nl t; it_line_level := it_line_level t; it_hide_web := it_hide_web t |}.
Definition set_entry_sep v t := {| it_heading := it_heading t; it_tc_level := it_tc_level t; it_omit_page := it_omit_page t; it_bookmark := it_bookmark t; it_styles := it_styles t; it_entry_sep := v; it_seq_sep := it_seq_sep t; it_caption := it_caption t; it_caption_numbers := it_caption_numbers t; it_seq_prefix := it_seq_prefix t; it_tc_id := it_tc_id t; it_hyperlink := it_hyperlink t; it_preserve_tab := it_preserve_tab t; it_preserve_nl := it_preserve_nl t; it_line_level := it_line_level t; it_hide_web := it_hide_web t |}.
Definition set_seq_sep v t := {| it_heading := it_heading t; it_tc_level := it_tc_level t; it_omit_page := it_omit_page t; it_bookmark := it_bookmark t; it_styles := it_styles t; it_entry_sep := it_entry_sep t; it_seq_sep := v; it_caption := it_caption t; it_caption_numbers := it_caption_numbers t; it_seq_prefix := it_seq_prefix t; it_tc_id := it_tc_id t; it_hyperlink := it_hyperlink t; it_preserve_tab := it_preserve_tab t; it_preserve_nl := it_preserve_nl t; it_line_level := it_line_level t; it_hide_web := it_hide_web t |}.
Definition set_caption v t := {| it_heading := it_heading t; it_tc_level := it_tc_level t; it_omit_page := it_omit_page t; it_bookmark := it_bookmark t; it_styles := it_styles t; it_entry_sep := it_entry_sep t; it_seq_sep := it_seq_sep t; it_caption := v; it_caption_numbers := it_caption_numbers t; it_seq_prefix := it_seq_prefix t; it_tc_id := it_tc_id t; it_hyperlink := it_hyperlink t; it_preserve_tab := it_preserve_tab t; it_preserve_nl := it_preserve_nl t; it_line_level := it_line_level t; it_hide_web := it_hide_web t |}.
Definition set_caption_numbers v t := {| it_heading := it_heading t; it_tc_level := it_tc_level t; it_omit_page := it_omit_page t; it_bookmark := it_bookmark t; it_styles := it_styles t; it_entry_sep := it_entry_sep t; it_seq_sep := it_seq_sep t; it_caption := it_caption t; it_caption_numbers := v; it_seq_prefix := it_seq_prefix t; it_tc_id := it_tc_id t; it_hyperlink := it_hyperlink t; it_preserve_tab := it_preserve_tab t; it_preserve_nl := it_preserve_nl t; it_line_level := it_line_level t; it_hide_web := it_hide_web t |}.
Definition set_seq_prefix v t := {| it_heading := it_heading t; it_tc_level := it_tc_level t; it_omit_page := it_omit_page t; it_bookmark := it_bookmark t; it_styles := it_styles t; it_entry_sep := it_entry_sep t; it_seq_sep := it_seq_sep t; it_caption := it_caption t; it_caption_numbers := it_caption_numbers t; it_seq_prefix := v; it_tc_id := it_tc_id t; it_hyperlink := it_hyperlink t; it_preserve_tab := it_preserve_tab t; it_preserve_nl := it_preserve_nl t; it_line_level := it_line_level t; it_hide_web := it_hide_web t |}.
Definition set_tc_id v t := {| it_heading := it_heading t; it_tc_level := it_tc_level t; it_omit_page := it_omit_page t; it_bookmark := it_bookmark t; it_styles := it_styles t; it_entry_sep := it_entry_sep t; it_seq_sep := it_seq_sep t; it_caption := it_caption t; it_caption_numbers := it_caption_numbers t; it_seq_prefix := it_seq_prefix t; it_tc_id := v; it_hyperlink := it_hyperlink t; it_preserve_tab := it_preserve_tab t; it_preserve_nl := it_preserve_nl t; it_line_level := it_line_level t; it_hide_web := it_hide_web t |}.
Definition set_hyperlink v t := {| it_heading := it_heading t; it_tc_level := it_tc_level t; it_omit_page := it_omit_page t; it_bookmark := it_bookmark t; it_styles := it_styles t; it_entry_sep := it_entry_sep t; it_seq_sep := it_seq_sep t; it_caption := it_caption t; it_caption_numbers := it_caption_numbers t; it_seq_prefix := it_seq_prefix t; it_tc_id := it_tc_id t; it_hyperlink := v; it_preserve_tab := it_preserve_tab t; it_preserve_nl := it_preserve_nl t; it_line_level := it_line_level t; it_hide_web := it_hide_web t |}.
Definition set_preserve_tab v t := {| it_heading := it_heading t; it_tc_level := it_tc_level t; it_omit_page := it_omit_page t; it_bookmark := it_bookmark t; it_styles := it_styles t; it_entry_sep := it_entry_sep t; it_seq_sep := it_seq_sep t; it_caption := it_caption t; it_caption_numbers := it_caption_numbers t; it_seq_prefix := it_seq_prefix t; it_tc_id := it_tc_id t; it_hyperlink := it_hyperlink t; it_preserve_tab := v; it_preserve_nl := it_preserve_nl t; it_line_level := it_line_level t; it_hide_web := it_hide_web t |}.
Definition set_preserve_nl v t := {| it_heading := it_heading t; it_tc_level := it_tc_level t; it_omit_page := it_omit_page t; it_bookmark := it_bookmark t; it_styles := it_styles t; it_entry_sep := it_entry_sep t; it_seq_sep := it_seq_sep t; it_caption := it_caption t; it_caption_numbers := it_caption_numbers t; it_seq_prefix := it_seq_prefix t; it_tc_id := it_tc_id t; it_hyperlink := it_hyperlink t; it_preserve_tab := it_preserve_tab t; it_preserve_nl := v; it_line_level := it_line_level t; it_hide_web := it_hide_web t |}.
Definition set_line_level v t := {| it_heading := it_heading t; it_tc_level := it_tc_level t; it_omit_page := it_omit_page t; it_bookmark := it_bookmark t; it_styles := it_styles t; it_entry_sep := it_entry_sep t; it_seq_sep := it_seq_sep t; it_caption := it_caption t; it_caption_numbers := it_caption_numbers t; it_seq_prefix := it_seq_prefix t; it_tc_id := it_tc_id t; it_hyperlink := it_hyperlink t; it_preserve_tab := it_preserve_tab t; it_preserve_nl := it_preserve_nl t; it_line_level := v; it_hide_web := it_hide_web t |}.
Definition set_hide_web v t := {| it_heading := it_heading t; it_tc_level := it_tc_level t; it_omit_page := it_omit_page t; it_bookmark := it_bookmark t; it_styles := it_styles t; it_entry_sep := it_entry_sep t; it_seq_sep := it_seq_sep t; it_caption := it_caption t; it_caption_numbers := it_caption_numbers t; it_seq_prefix := it_seq_prefix t; it_tc_id := it_tc_id t; it_hyperlink := it_hyperlink t; it_preserve_tab := it_preserve_tab t; it_preserve_nl := it_preserve_nl t; it_line_level := it_line_level t; it_hide_web := v |}.

(** What a switch that takes an argument does with it ([None]: not such a
    switch), instr_toc.rs:290-385; a range that does not parse changes nothing. *)
Definition with_range (set : option (N * N) -> instr_toc -> instr_toc) (r : string) (t : instr_toc) : instr_toc :=
  match parse_level_range r with Some v => set (Some v) t | None => t end.
Definition arg_switch (sw : string) : option (string -> instr_toc -> instr_toc) :=
  if sw =s "\a" then Some (fun r => set_caption (Some (unquote r)))
  else if sw =s "\b" then Some (fun r => set_bookmark (Some (unquote r)))
  else if sw =s "\c" then Some (fun r => set_caption_numbers (Some (unquote r)))
  else if sw =s "\d" then Some (fun r => set_seq_sep (Some (unquote r)))
  else if sw =s "\l" then Some (with_range set_tc_level)
  else if sw =s "\n" then Some (with_range set_omit_page)
  else if sw =s "\o" then Some (with_range set_heading)
  else if sw =s "\p" then Some (fun r => set_entry_sep (Some (unquote r)))
  else if sw =s "\s" then Some (fun r => set_seq_prefix (Some (unquote r)))
  else if sw =s "\t" then Some (fun r t => set_styles (it_styles t ++ parse_styles (split "," (unquote r))) t)
  else None.
(** Switches without argument and everything else, instr_toc.rs:333, 386-391. *)
Definition plain_switch (sw : string) (t : instr_toc) : instr_toc :=
  if sw =s "\h" then set_hyperlink true t
  else if sw =s "\u" then set_line_level true t
  else if sw =s "\w" then set_preserve_tab true t
  else if sw =s "\x" then set_preserve_nl true t
  else if sw =s "\z" then set_hide_web true t
  else t.
(** the loop, instr_toc.rs:285-394; [\f] (314-332) looks at the next word first *)
Fixpoint parse_words (l : list string) (t : instr_toc) : instr_toc :=
  match l with
  | [] => t
  | w :: r =>
      match arg_switch w with
      | Some f => match r with a :: r' => parse_words r' (f a t) | [] => t end
      | None =>
          if w =s "\f" then
            match r with
            | [] => t
            | a :: r' =>
                if starts_with "\" a then parse_words r (set_tc_id (Some None) t)
                else parse_words r' (set_tc_id (Some (if unquote a =s "" then None else Some (unquote a))) t)
            end
          else parse_words r (plain_switch w t)
      end
  end.
(** [InstrToC::from_str], instr_toc.rs:282-396, used by [with_instr_text] *)
Definition parse_toc (s : string) : instr_toc := parse_words (split " " s) instr_toc_empty.

(** ** PAGEREF: instr_pageref.rs:35-47 and 49-68 *)
Definition print_pageref (key : string) (hyperlink relative : bool) : string :=
  "PAGEREF " +++ key +++ print_flag " \p" relative +++ print_flag " \h" hyperlink.
Definition pageref_word (s : bool * bool) (w : string) : bool * bool :=
  if w =s "\h" then (true, snd s) else if w =s "\p" then (fst s, true) else s.
Definition parse_pageref (s : string) : string * bool * bool :=
  match split " " s with
  | [] => ("", false, false)
  | key :: r => let (h, p) := fold_left pageref_word r (false, false) in (key, h, p)
  end.

(** ** TC: [InstrTC::new] instr_tc.rs:21-26, printing 44-68, parsing 78-109 *)
Record instr_tc := { tc_text : string; tc_omit : bool; tc_level : option N; tc_item : option string }.
Definition tc_new (text : string) : instr_tc :=
  {| tc_text := escape_owned text; tc_omit := false; tc_level := None; tc_item := None |}.
Definition print_tc (t : instr_tc) : string :=
  "TC " +++ str1 ch_quot +++ tc_text t +++ str1 ch_quot +++
  match tc_item t with Some i => " \f " +++ i | None => "" end +++
  match tc_level t with Some l => " \l " +++ show_N l | None => "" end +++
  print_flag " \n" (tc_omit t).
Fixpoint parse_tc_words (l : list string) (t : instr_tc) : instr_tc :=
  match l with
  | [] => t
  | w :: r =>
      if w =s "\f" then
        match r with
        | a :: r' => parse_tc_words r' {| tc_text := tc_text t; tc_omit := tc_omit t; tc_level := tc_level t; tc_item := Some (unquote a) |}
        | [] => t
        end
      else if w =s "\l" then
        match r with
        | a :: r' =>
            parse_tc_words r' match parse_usize (unquote a) with
                              | Some n => {| tc_text := tc_text t; tc_omit := tc_omit t; tc_level := Some n; tc_item := tc_item t |}
                              | None => t
                              end
        | [] => t
        end
      else if w =s "\n" then
        parse_tc_words r {| tc_text := tc_text t; tc_omit := true; tc_level := tc_level t; tc_item := tc_item t |}
      else parse_tc_words r t
  end.
Definition parse_tc (s : string) : instr_tc :=
  match split " " s with
  | [] => tc_new ""
  | text :: r => parse_tc_words r (tc_new text)
  end.

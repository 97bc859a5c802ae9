(** Vocabulary for field instructions. *)
From Verif Require Import Str StrFind Props.

(** A name that can be an argument: no blank and no quotation mark, also not
    spelled as an entity. *)
Definition plain_name (s : string) : Prop :=
  has_char " " s = false /\ has_char ch_quot s = false /\ contains "&quot;" s = false.
Definition plain_range (r : N * N) : Prop := (fst r <= max_u64)%N /\ (snd r <= max_u64)%N.
Definition plain_style (s : string * N) : Prop :=
  plain_name (fst s) /\ has_char "," (fst s) = false /\ (snd s <= max_u64)%N.
Definition on_some {A} (P : A -> Prop) (o : option A) : Prop := match o with Some x => P x | None => True end.
Definition plain_toc (t : instr_toc) : Prop :=
  on_some plain_name (it_caption t) /\ on_some plain_name (it_bookmark t) /\ on_some plain_name (it_caption_numbers t) /\
  on_some plain_name (it_seq_sep t) /\ on_some (on_some plain_name) (it_tc_id t) /\ on_some plain_range (it_tc_level t) /\
  on_some plain_range (it_omit_page t) /\ on_some plain_range (it_heading t) /\ on_some plain_name (it_entry_sep t) /\
  on_some plain_name (it_seq_prefix t) /\ Forall plain_style (it_styles t).

(** Is any switch set that is printed after [\f]? *)
Definition later_switch (t : instr_toc) : Prop :=
  it_tc_level t <> None \/ it_omit_page t <> None \/ it_heading t <> None \/ it_entry_sep t <> None \/
  it_seq_prefix t <> None \/ it_styles t <> [] \/ it_hyperlink t = true \/ it_line_level t = true \/
  it_preserve_tab t = true \/ it_preserve_nl t = true \/ it_hide_web t = true.

(** All settings other than the identifier of TC fields. *)
Definition other_settings (t : instr_toc) :=
  (it_heading t, it_tc_level t, it_omit_page t, it_bookmark t, it_styles t, it_entry_sep t, it_seq_sep t,
   (it_caption t, it_caption_numbers t, it_seq_prefix t, it_hyperlink t, it_preserve_tab t, it_preserve_nl t,
    it_line_level t, it_hide_web t)).

(** Character data without markup characters and carriage returns. *)
Definition markup_free (s : string) : Prop :=
  has_char ch_lt s = false /\ has_char ch_amp s = false /\ has_char ch_cr s = false.
Definition markup_free_toc (t : instr_toc) : Prop :=
  on_some markup_free (it_caption t) /\ on_some markup_free (it_bookmark t) /\ on_some markup_free (it_caption_numbers t) /\
  on_some markup_free (it_seq_sep t) /\ on_some (on_some markup_free) (it_tc_id t) /\ on_some markup_free (it_entry_sep t) /\
  on_some markup_free (it_seq_prefix t) /\ Forall (fun s => markup_free (fst s)) (it_styles t).

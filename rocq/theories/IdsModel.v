(** Model of the identifier generators in docx-core/src/documents:
    bookmark_id.rs, footnote_id.rs, hyperlink_id.rs, pic_id.rs, history_id.rs,
    paragraph_property_change_id.rs, toc_key.rs, paragraph_id.rs. *)
From Verif Require Import Str.

Definition two64 : N := 18446744073709551616.
Definition two32 : N := 4294967296.

(** [id.wrapping_add(1)] on [usize] (64 bit). *)
Definition wrapping_succ (c : N) : N := (c + 1) mod two64.

(** A generator maps the counter to the identifier handed out and the new
    counter, or panics ([None]). *)
Definition generator : Type := N -> option (string * N).

(** [generate_bookmark_id], bookmark_id.rs:7-13, and [generate_footnote_id],
    footnote_id.rs:7-13; both are printed in decimal when written. *)
Definition gen_bookmark : generator := fun c => Some (show_N c, wrapping_succ c).
Definition gen_footnote : generator := fun c => Some (show_N c, wrapping_succ c).
(** [generate_hyperlink_id] with [create_hyperlink_rid], hyperlink_id.rs:7-22. *)
Definition gen_hyperlink : generator := fun c => Some ("rIdHyperlink" +++ show_N c, wrapping_succ c).
(** [generate_pic_id] with [create_pic_rid], pic_id.rs:7-22. *)
Definition gen_pic : generator := fun c => Some ("rIdImage" +++ show_N c, wrapping_succ c).
(** [HistoryId::generate], history_id.rs:8-14; [id + 1] panics on overflow when
    overflow checks are on. *)
Definition gen_history : generator := fun c =>
  if (c + 1 <? two64)%N then Some (show_N c, c + 1)%N else None.
(** [ParagraphPropertyChangeId::generate], paragraph_property_change_id.rs:8-14,
    a counter of its own. *)
Definition gen_paragraph_property_change : generator := gen_history.
(** [TocKeyGenerator::generate], toc_key.rs:8-14. *)
Definition gen_toc_key : generator := fun c =>
  if (c + 1 <? two64)%N then Some ("_Toc" +++ pad0 8 (show_N c), c + 1)%N else None.
(** [generate_para_id], paragraph_id.rs:12-19 ([checked_add] on [u32]). *)
Definition gen_para : generator := fun c =>
  if (c + 1 <? two32)%N then Some (pad0 8 (show_hex c), c + 1)%N else None.

(** Initial values and resets. *)
Definition start_one : N := 1.       (* bookmark, footnote, hyperlink, pic, paragraph *)
Definition start_zero : N := 0.      (* history, paragraph property change, toc *)
(** [reset_para_id], paragraph_id.rs:22-24; [reset_bookmark_id], bookmark_id.rs:16-21. *)
Definition reset_id (c : N) : N := start_one.

(** [n] requests in a row. *)
Fixpoint requests (g : generator) (n : nat) (c : N) : option (list string * N) :=
  match n with
  | O => Some ([], c)
  | S k =>
      match g c with
      | None => None
      | Some (id, c') =>
          match requests g k c' with
          | None => None
          | Some (l, c'') => Some (id :: l, c'')
          end
      end
  end.

(** ** Concurrent requests on one shared counter (bookmark, footnote, hyperlink,
    picture, history, toc): a request is an atomic load followed by an atomic
    store (bookmark_id.rs:10-11).  A schedule names, step by step, the thread
    that performs its next action.  [Relaxed] accesses to one location are
    totally ordered, so interleavings are all there is. *)
Record shared := { counter : N; loaded : nat -> option N; handed : list (nat * N) }.

Definition sh_init (c : N) : shared := {| counter := c; loaded := fun _ => None; handed := [] |}.

Definition upd (f : nat -> option N) (t : nat) (v : option N) : nat -> option N :=
  fun u => if Nat.eqb u t then v else f u.

Definition sh_step (s : shared) (t : nat) : shared :=
  match loaded s t with
  | None => {| counter := counter s; loaded := upd (loaded s) t (Some (counter s)); handed := handed s |}
  | Some v => {| counter := wrapping_succ v; loaded := upd (loaded s) t None; handed := handed s ++ [(t, v)] |}
  end.

Definition sh_run (c : N) (sched : list nat) : shared := fold_left sh_step sched (sh_init c).

(** ** Paragraph ids: one counter per thread (paragraph_id.rs:4-9), a request is
    not interruptible. *)
Record local := { counters : nat -> N; given : list (nat * string) }.
Definition loc_init : local := {| counters := fun _ => start_one; given := [] |}.
Definition loc_step (s : option local) (t : nat) : option local :=
  match s with
  | None => None
  | Some s =>
      match gen_para (counters s t) with
      | None => None
      | Some (id, c) =>
          Some {| counters := fun u => if Nat.eqb u t then c else counters s u;
                  given := given s ++ [(t, id)] |}
      end
  end.
Definition loc_run (sched : list nat) : option local := fold_left loc_step sched (Some loc_init).

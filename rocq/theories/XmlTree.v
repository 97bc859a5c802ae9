(** Element trees and the events they stand for (specification for C04, C09,
    C10); nothing here looks at bytes. *)
From Verif Require Import Str EscapeModel EscapeSpec WriterModel XmlParser XmlSpec.

(** ** Trees as a user of the writer sees them *)
Inductive xtree : Type :=
| XElem (name : string) (attrs : list (string * string)) (children : list xtree)
| XText (s : string).

Definition is_text (t : xtree) : bool := match t with XText _ => true | _ => false end.

(** No two neighbouring texts (XML cannot tell them from one text). *)
Fixpoint spaced (l : list xtree) : bool :=
  match l with
  | [] => true
  | t :: r => negb (is_text t && match r with u :: _ => is_text u | [] => false end) && spaced r
  end.

(** Legal names everywhere, texts separated everywhere. *)
Fixpoint legal (t : xtree) : bool :=
  match t with
  | XText _ => true
  | XElem n a ch =>
      elem_name_ok n && forallb (fun kv => attr_name_ok (fst kv)) a && spaced ch && forallb legal ch
  end.

(** The calls that write a tree: values and texts go through [escape]. *)
Fixpoint calls_of (t : xtree) : list call :=
  match t with
  | XText s => [CText (escape s)]
  | XElem n a ch =>
      CStart n (map (fun kv => (fst kv, escape (snd kv))) a) :: flat_map calls_of ch ++ [CEnd]
  end.

(** What a reader has to report for it.  Carriage returns are dropped by the
    crate; a tab in an attribute is read as a blank (XML 1.0, 3.3.3). *)
Fixpoint tabs_as_blanks (s : string) : string :=
  match s with
  | EmptyString => EmptyString
  | String c r => String (if c =c ch_tab then ch_sp else c) (tabs_as_blanks r)
  end.
Definition text_events (s : string) : list event :=
  if s =s "" then [] else [if all_char is_ws s then EWs s else EChars s].
Fixpoint events_for (t : xtree) : list event :=
  match t with
  | XText s => text_events (without_cr s)
  | XElem n a ch =>
      EStart (split_qname n) (map (fun kv => (split_qname (fst kv), tabs_as_blanks (without_cr (snd kv)))) a)
      :: flat_map events_for ch ++ [EEnd (split_qname n)]
  end.

(** ** Bracketing of an event sequence.  [open] are the names of the elements
    open so far; [None] if an end does not match. *)
Definition qname_eqb (a b : qname) : bool :=
  (q_local a =s q_local b) &&
  match q_prefix a, q_prefix b with
  | Some p, Some q => p =s q
  | None, None => true
  | _, _ => false
  end.
Fixpoint still_open (open : list qname) (l : list event) : option (list qname) :=
  match l with
  | [] => Some open
  | EStart n _ :: r => still_open (n :: open) r
  | EEnd n :: r =>
      match open with
      | m :: open' => if qname_eqb n m then still_open open' r else None
      | [] => None
      end
  | _ :: r => still_open open r
  end.

(** ** Character data events *)
Definition is_chars (e : event) : bool := match e with EChars _ | EWs _ => true | _ => false end.
Fixpoint adjacent_chars (l : list event) : bool :=
  match l with
  | [] => false
  | e :: r => (is_chars e && match r with f :: _ => is_chars f | [] => false end) || adjacent_chars r
  end.
(** The first [n] answers of a reader. *)
Definition first_answers (n : nat) (s : string) : list event :=
  map (fun k => nth_request k (reader_of s)) (seq 0 n).

(** What a sequence of writer calls should produce, independently of the
    buffers of the implementation. *)
From Verif Require Import Str WriterModel.

(** ** Bytes.  [open] holds the names of the open elements, innermost first, and
    [pend] the attributes of the innermost one while nothing has been put into
    it yet (then its tag is still unwritten, and may become a short one). *)
Definition attr_bytes (kv : string * string) : string :=
  " " +++ fst kv +++ "=" +++ str1 ch_quot +++ snd kv +++ str1 ch_quot.
Definition tag_bytes (n : string) (a : list (string * string)) : string :=
  "<" +++ n +++ concat_str (map attr_bytes a).

Definition before_content (open : list string) (pend : option (list (string * string))) : string :=
  match open, pend with
  | n :: _, Some a => tag_bytes n a +++ ">"
  | _, _ => ""
  end.

Definition prepend (s : string) (o : option string) : option string := option_map (String.append s) o.

(** [None] if some close has nothing to close. *)
Fixpoint written (open : list string) (pend : option (list (string * string))) (cs : list call) : option string :=
  match cs with
  | [] => Some ""
  | CDecl v e s :: r => prepend (decl_bytes v e s) (written open pend r)
  | CStart n a :: r => prepend (before_content open pend) (written (n :: open) (Some a) r)
  | CText t :: r => prepend (before_content open pend +++ t) (written open None r)
  | CEnd :: r =>
      match open with
      | [] => None
      | n :: open' =>
          prepend (match pend with
                   | Some a => tag_bytes n a +++ " />"
                   | None => "</" +++ n +++ ">"
                   end) (written open' None r)
      end
  end.

(** ** Balance *)
Definition is_open (c : call) : bool := match c with CStart _ _ => true | _ => false end.
Definition is_close (c : call) : bool := match c with CEnd => true | _ => false end.
Definition opens (cs : list call) : nat := length (filter is_open cs).
Definition closes (cs : list call) : nat := length (filter is_close cs).

(** No prefix closes more than it opens. *)
Definition never_overclosed (cs : list call) : Prop :=
  forall p q, cs = p ++ q -> closes p <= opens p.

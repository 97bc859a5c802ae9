(** What every element reader shares: the stream of events it takes, how it can
    end, and the loop it is made of.

    A reader takes events from an [EventReader] (reader/xml_parser.rs) one by one.
    The stream is a list of events; once it is used up the [EventReader] answers
    [EndDocument] for ever (xml_parser.rs:127-130; after the end quick-xml keeps answering [Eof]).  The only
    other state a reader touches is the counter paragraph ids are made from
    (elements/paragraph.rs:19-28, paragraph_id.rs:10-33). *)
From Verif Require Import Str XmlParser IdsModel.

Record rst : Type := { rs_events : list event; rs_para : N }.

(** How a call [X::read(r, attrs)] ends. *)
Inductive out (A : Type) : Type :=
| Val (a : A) (s : rst)      (** [Ok(a)] *)
| Err (s : rst)              (** [Err(_)]; the kind of error is not modelled *)
| Panic                      (** the thread panics *)
| Hang                       (** the call never returns *)
| NoFuel.                    (** only an artefact of the model: the bound on the
                                 recursion was too small (never, see ReadProofs) *)
Arguments Val {A}. Arguments Err {A}. Arguments Panic {A}. Arguments Hang {A}. Arguments NoFuel {A}.

Definition R (A : Type) : Type := rst -> out A.
Definition ret {A} (a : A) : R A := fun s => Val a s.
Definition fail {A} : R A := fun s => Err s.
Definition crash {A} : R A := fun _ => Panic.
Definition no_fuel {A} : R A := fun _ => NoFuel.
(** [m?] followed by the rest. *)
Definition bind {A B} (m : R A) (k : A -> R B) : R B := fun s =>
  match m s with Val a s' => k a s' | Err s' => Err s' | Panic => Panic | Hang => Hang | NoFuel => NoFuel end.
(** [if let Ok(a) = m]. *)
Definition attempt {A} (m : R A) : R (option A) := fun s =>
  match m s with Val a s' => Val (Some a) s' | Err s' => Val None s' | Panic => Panic | Hang => Hang | NoFuel => NoFuel end.

Declare Scope read_scope.
Notation "x <- m ;; k" := (bind m (fun x => k)) (at level 61, m at next level, right associativity) : read_scope.
Notation "m ;; k" := (bind m (fun _ => k)) (at level 61, right associativity) : read_scope.
Open Scope read_scope.

(** A parse whose failure is returned with [?], ends in a panic ([unwrap]), or is
    skipped. *)
Definition or_fail {A} (o : option A) : R A := match o with Some a => ret a | None => fail end.
Definition or_crash {A} (o : option A) : R A := match o with Some a => ret a | None => crash end.
Definition upd {A B} (o : option B) (f : B -> A -> A) (a : A) : A := match o with Some b => f b a | None => a end.

(** [generate_para_id] called by [Paragraph::new] (elements/paragraph.rs:19-28). *)
Definition fresh_para : R string := fun s =>
  match gen_para (rs_para s) with
  | Some (id, c) => Val id {| rs_events := rs_events s; rs_para := c |}
  | None => Panic
  end.

(** What one turn of a [loop { match r.next_event() { ... } }] does: go round
    again with new values of the local variables, or return. *)
Inductive turn (A B : Type) : Type := Again (a : A) | Done (b : B).
Arguments Again {A B}. Arguments Done {A B}.

(** A [loop] over [next_event] that does nothing on [EndDocument].  The number of
    turns is bounded by the number of events left. *)
Fixpoint turns {A B} (fuel : nat) (body : A -> event -> R (turn A B)) (a : A) (s : rst) : out B :=
  match rs_events s with
  | [] => Hang
  | e :: l =>
      match fuel with
      | O => NoFuel
      | S n =>
          match body a e {| rs_events := l; rs_para := rs_para s |} with
          | Val (Again a') s' => turns n body a' s'
          | Val (Done b) s' => Val b s'
          | Err s' => Err s'
          | Panic => Panic
          | Hang => Hang
          | NoFuel => NoFuel
          end
      end
  end.
Definition loop {A B} (body : A -> event -> R (turn A B)) (a : A) : R B :=
  fun s => turns (length (rs_events s)) body a s.

(** The loop of a part (reader/document.rs:12-76): as above, but it returns [fin a]
    on [EndDocument]. *)
Fixpoint part_turns {A B} (fuel : nat) (body : A -> event -> R (turn A B)) (fin : A -> B) (a : A) (s : rst) : out B :=
  match rs_events s with
  | [] => Val (fin a) s
  | EDocEnd :: l => Val (fin a) {| rs_events := l; rs_para := rs_para s |}
  | e :: l =>
      match fuel with
      | O => NoFuel
      | S n =>
          match body a e {| rs_events := l; rs_para := rs_para s |} with
          | Val (Again a') s' => part_turns n body fin a' s'
          | Val (Done b) s' => Val b s'
          | Err s' => Err s'
          | Panic => Panic
          | Hang => Hang
          | NoFuel => NoFuel
          end
      end
  end.
Definition part_loop {A B} (body : A -> event -> R (turn A B)) (fin : A -> B) (a : A) : R B :=
  fun s => part_turns (length (rs_events s)) body fin a s.

(** The shape nearly all element readers share, for instance
    reader/paragraph.rs:17-103: dispatch on a start event, return at the end event
    with the own local name, return an error on a parse error, skip all else. *)
Definition element {A B} (own : string) (start : A -> qname -> list attribute -> R A) (fin : A -> B) : A -> R B :=
  loop (fun a e =>
    match e with
    | EStart q atts => a' <- start a q atts ;; ret (Again a')
    | EEnd q => ret (if q_local q =s own then Done (fin a) else Again a)
    | EErr => fail
    | _ => ret (Again a)
    end).

(** reader/ignore.rs:6-18: skip to the end event with the given local name.
    Errors are skipped as well. *)
Definition ignore (name : string) : R unit :=
  loop (fun _ e =>
    match e with
    | EEnd q => ret (if q_local q =s name then Done tt else Again tt)
    | _ => ret (Again tt)
    end) tt.
(** [ignore_element(e, X, r)]: only if the element at hand is [X]. *)
Definition ignore_if (here name : string) : R unit := if here =s name then ignore name else ret tt.

(** ** Attributes *)
(** [attributes::read], [read_val], [read_id], [read_name] (reader/attributes/mod.rs:22-30,
    val.rs:7-15, id.rs:3-11, name.rs:3-11): the first attribute with that local name,
    whatever its prefix. *)
Fixpoint attr_get (name : string) (atts : list attribute) : option string :=
  match atts with
  | [] => None
  | (q, v) :: l => if q_local q =s name then Some v else attr_get name l
  end.
Definition attr_val : list attribute -> option string := attr_get "val".
(** [attributes.first()] and [attributes[0]]. *)
Definition attr_first (atts : list attribute) : option string :=
  match atts with [] => None | (_, v) :: _ => Some v end.
(** [for a in attrs { ... }] with no [?]. *)
Definition each_attr {A} (f : A -> string -> string -> A) (a : A) (atts : list attribute) : A :=
  fold_left (fun a qv => f a (q_local (fst qv)) (snd qv)) atts a.
(** [for a in attrs { ... }] with [?] or [expect] in the body. *)
Fixpoint each_attr_m {A} (f : A -> string -> string -> R A) (atts : list attribute) (a : A) : R A :=
  match atts with
  | [] => ret a
  | (q, v) :: l => a' <- f a (q_local q) v ;; each_attr_m f l a'
  end.

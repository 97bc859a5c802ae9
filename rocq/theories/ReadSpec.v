(** What the theorems about reading say, apart from the readers. *)
From Verif Require Import Str StrFind XmlParser XmlTree FloatModel ReadBase ReadProps.

(** ** Reading returns *)
(** The call returns to its caller, with a value, an error or a panic. *)
Definition returns {A} (o : out A) : Prop :=
  match o with Val _ _ | Err _ | Panic => True | Hang | NoFuel => False end.
(** The stream closes every element it opens, in order, and reports no parse error. *)
Definition complete (l : list event) : Prop := still_open [] l = Some [] /\ ~ In EErr l.

(** ** Texts *)
(** The events left are the answers the XML reader gives on the text [s]. *)
Definition reads_from (s : string) (st : rst) : Prop :=
  forall n, nth n (rs_events st) EDocEnd = nth_request n (reader_of s).
(** The XML reader reports no error in [s] and at the end of [s] all elements are closed. *)
Definition complete_text (s : string) : Prop :=
  (forall n, nth_request n (reader_of s) <> EErr) /\
  exists n, still_open [] (first_answers n s) = Some [] /\ nth_request n (reader_of s) = EDocEnd.

(** ** A stream that is cut short *)
(** No end tag of that name is left. *)
Definition never_closed (name : string) (l : list event) : Prop := forall q, In (EEnd q) l -> q_local q <> name.

(** ** The elements on which a reader panics *)
(** Their first attribute is taken without a look whether there is one:
    run_property.rs:104-150, paragraph_property.rs:38-80, numbering_property.rs:17-28,
    table.rs:46, table_property.rs:43. *)
Definition needs_attribute : list string :=
  ["highlight"; "vertAlign"; "sz"; "u"; "jc"; "textAlignment"; "pStyle"; "ilvl"; "numId"]%string.
(** Their attribute [w] must be a number, a percent sign aside: attributes/width.rs:16. *)
Definition needs_width : list string :=
  ["tblW"; "tblInd"; "gridCol"; "wAfter"; "wBefore"; "top"; "right"; "bottom"; "left"]%string.
(** Their lengths in points are multiplied by twenty: attributes/val.rs:17-24. *)
Definition has_points : list string := ["ind"; "pgSz"; "pgMar"]%string.
Definition small_points (v : string) : Prop :=
  ends_with "pt" v = true -> forall x, parse_f64 (replace "pt" "" v) = Some x ->
  (-2147483648 <= as_i32f x * 20 <= 2147483647)%Z.
(** A start tag that lacks nothing. *)
Definition sound_tag (q : qname) (atts : list attribute) : Prop :=
  (In (q_local q) needs_attribute -> atts <> []) /\
  (In (q_local q) needs_width -> forall a v, In (a, v) atts -> q_local a = "w"%string -> parse_f64 (replace "%" "" v) <> None) /\
  (In (q_local q) has_points -> forall a v, In (a, v) atts -> small_points v) /\
  (q_local q = "comment"%string -> exists a v, In (a, v) atts /\ q_local a = "id"%string).
Definition sound_event (e : event) : Prop := match e with EStart q atts => sound_tag q atts | _ => True end.
(** The counter of paragraph ids does not run out while the stream is read. *)
Definition ids_suffice (s : rst) : Prop := (rs_para s + N.of_nat (length (rs_events s)) < 4294967296)%N.

(** Model of docx-core/src/xml/writer.rs: the XML event writer. *)
From Verif Require Import Str.

(** [XmlEvent] as accepted by [EventWriter::write], writer.rs:184-196.  A start
    element is given by its name and its attributes in the order of the [attr]
    / [attr_display] calls (writer.rs:237-261), values already formatted. *)
Inductive call : Type :=
| CDecl (version : string) (encoding : option string) (standalone : option bool)
| CStart (name : string) (attrs : list (string * string))
| CEnd
| CText (text : string).

(** [StartElement::attr] / [attr_display], writer.rs:237-261: one attribute,
    copied without escaping. *)
Definition encode_attr (kv : string * string) : string :=
  " " +++ fst kv +++ "=" +++ str1 ch_quot +++ snd kv +++ str1 ch_quot.

Fixpoint encode_attrs (l : list (string * string)) : string :=
  match l with
  | [] => ""
  | kv :: r => encode_attr kv +++ encode_attrs r
  end.

(** The [encoded] buffer of a [StartElement], writer.rs:199-208 and 237-261. *)
Definition encode_start (name : string) (attrs : list (string * string)) : string :=
  "<" +++ name +++ encode_attrs attrs.

(** [ElementState], writer.rs:83-88. *)
Record elem_state := { name_start : nat; name_len : nat; pending : bool }.

(** [EventWriter], writer.rs:90-96.  [out] is what the inner [io::Write] has
    received (assumed not to fail); the head of [stack] is the last element of
    the Rust vector. [perform_escaping] is [false] for every writer the crate
    builds its parts with (xml_builder/mod.rs), so it is not a field here. *)
Record wstate := {
  out : string;
  stack : list elem_state;
  names : string;
  pending_start : string
}.

Definition w_init : wstate := {| out := ""; stack := []; names := ""; pending_start := "" |}.

(** [flush_pending], writer.rs:165-176. *)
Definition flush_pending (w : wstate) : wstate :=
  match stack w with
  | st :: rest =>
      if pending st then
        {| out := out w +++ pending_start w +++ ">";
           stack := {| name_start := name_start st; name_len := name_len st; pending := false |} :: rest;
           names := names w;
           pending_start := "" |}
      else w
  | [] => w
  end.

(** The bytes of quick_xml's [BytesDecl::new(version, encoding, standalone)]
    wrapped in [Event::Decl], writer.rs:110-112. *)
Definition decl_bytes (version : string) (encoding : option string) (standalone : option bool) : string :=
  let q := str1 ch_quot in
  "<?xml version=" +++ q +++ version +++ q
  +++ match encoding with Some e => " encoding=" +++ q +++ e +++ q | None => "" end
  +++ match standalone with Some b => " standalone=" +++ q +++ (if b then "yes" else "no") +++ q | None => "" end
  +++ "?>".

(** [EventWriter::write], writer.rs:100-155. [None] is [Err(UnbalancedEndTag)]. *)
Definition w_step (w : wstate) (c : call) : option wstate :=
  match c with
  | CDecl v e sa =>
      Some {| out := out w +++ decl_bytes v e sa; stack := stack w; names := names w; pending_start := pending_start w |}
  | CStart n a =>
      let w := flush_pending w in
      let enc := encode_start n a in
      let len := String.length n in
      Some {| out := out w;
              stack := {| name_start := String.length (names w); name_len := len; pending := true |} :: stack w;
              names := names w +++ String.substring 1 len enc;
              pending_start := enc |}
  | CEnd =>
      match stack w with
      | [] => None
      | st :: rest =>
          if pending st then
            Some {| out := out w +++ pending_start w +++ " />"; stack := rest;
                    names := String.substring 0 (name_start st) (names w); pending_start := "" |}
          else
            Some {| out := out w +++ "</" +++ String.substring (name_start st) (name_len st) (names w) +++ ">";
                    stack := rest;
                    names := String.substring 0 (name_start st) (names w); pending_start := pending_start w |}
      end
  | CText t =>
      let w := flush_pending w in
      Some {| out := out w +++ t; stack := stack w; names := names w; pending_start := pending_start w |}
  end.

(** A history of calls.  The first failing call ends it, as the [?] operators of
    the builders do; the state before it and the unexecuted calls are kept. *)
Inductive w_result : Type :=
| WOk (w : wstate)
| WFail (w : wstate) (rest : list call).

Fixpoint w_run (w : wstate) (cs : list call) : w_result :=
  match cs with
  | [] => WOk w
  | c :: r => match w_step w c with Some w' => w_run w' r | None => WFail w cs end
  end.

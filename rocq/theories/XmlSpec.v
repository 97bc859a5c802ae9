(** What a sequence of writer calls means as XML, independently of bytes and
    buffers: the events an XML processor has to report for it. *)
From Verif Require Import Str WriterModel XmlParser.

(** ** Legal names: non-empty, free of white space, quotes, markup characters,
    [=] and [/]; an element name does not begin with [!] or [?]. *)
Definition name_char (c : ascii) : bool :=
  negb (is_ws c || (c =c ch_lt) || (c =c ch_gt) || (c =c ch_quot) || (c =c ch_apos)
        || (c =c "="%char) || (c =c "/"%char)).
Definition attr_name_ok (s : string) : bool :=
  match s with EmptyString => false | _ => all_char name_char s end.
Definition elem_name_ok (s : string) : bool :=
  match s with
  | EmptyString => false
  | String c _ => negb (c =c "!"%char) && negb (c =c "?"%char) && all_char name_char s
  end.

(** ** Meaning of raw character data (XML 1.0, 2.11 and 4.1): line ends are
    normalised, references replaced; raw markup or a dangling [&] has none. *)
Fixpoint text_meaning (ref : option string) (s : string) : option string :=
  match s with
  | EmptyString => match ref with None => Some "" | Some _ => None end
  | String c r =>
      match ref with
      | None =>
          if c =c ch_lt then None
          else if c =c ch_amp then text_meaning (Some "") r
          else if c =c ch_cr then
            match r with
            | String d _ => if d =c ch_nl then text_meaning None r else option_map (String ch_nl) (text_meaning None r)
            | EmptyString => option_map (String ch_nl) (text_meaning None r)
            end
          else option_map (String c) (text_meaning None r)
      | Some name =>
          if c =c ";"%char then
            match resolve_ref name, text_meaning None r with
            | Some t, Some u => Some (t +++ u)
            | _, _ => None
            end
          else if (c =c ch_amp) || (c =c ch_lt) then None
          else text_meaning (Some (name +++ str1 c)) r
      end
  end.

(** Meaning of raw attributes. *)
Fixpoint attrs_meaning (l : list (string * string)) : option (list attribute) :=
  match l with
  | [] => Some []
  | (k, v) :: r =>
      if attr_name_ok k && negb (has_char ch_quot v) then
        match decode_attr None v, attrs_meaning r with
        | Some v', Some r' => Some ((split_qname k, v') :: r')
        | _, _ => None
        end
      else None
  end.

(** Character data collected so far, as an event. *)
Definition text_report (raw : string) : option (list event) :=
  match raw with
  | EmptyString => Some []
  | _ => option_map (fun t => [if all_char is_ws t then EWs t else EChars t]) (text_meaning None raw)
  end.

Definition cat_events (a b : option (list event)) : option (list event) :=
  match a, b with Some x, Some y => Some (x ++ y) | _, _ => None end.

(** The events for a sequence of calls; [open] are the open elements, [raw] the
    character data since the last tag.  [None] if the calls are not balanced, or
    a name, an attribute or a text is not legal XML. *)
Fixpoint reported (open : list string) (raw : string) (cs : list call) : option (list event) :=
  match cs with
  | [] => match open with [] => text_report raw | _ => None end
  | CDecl _ _ _ :: _ => None
  | CText t :: r => reported open (raw +++ t) r
  | CStart n a :: r =>
      if elem_name_ok n then
        cat_events (text_report raw)
          (cat_events (option_map (fun a' => [EStart (split_qname n) a']) (attrs_meaning a))
                      (reported (n :: open) "" r))
      else None
  | CEnd :: r =>
      match open with
      | [] => None
      | n :: open' =>
          cat_events (text_report raw)
            (cat_events (Some [EEnd (split_qname n)]) (reported open' "" r))
      end
  end.

(** A document: an optional declaration, then the calls. *)
Definition doc_reported (cs : list call) : option (list event) :=
  match cs with
  | CDecl v e _ :: r =>
      if has_char ch_gt v || match e with Some e => has_char ch_gt e | None => false end then None
      else reported [] "" r
  | _ => reported [] "" cs
  end.

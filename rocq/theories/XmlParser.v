(** Model of the XML reading side: the tokenizer of the external crate quick-xml
    0.41 (as configured in reader/xml_parser.rs:67-82) and the [EventReader] of
    reader/xml_parser.rs on top of it.

    quick-xml is an external dependency whose source is not part of the
    repository; [next_tok], [parse_attrs], [resolve_ref] and [norm_*] state its
    documented behaviour on the inputs considered here and belong to the trusted
    base.  Simplifications: UTF-8 input without byte order mark; a DOCTYPE ends
    at its first [>]; after an error the stream is exhausted. *)
From Coq Require Import Decimal DecimalString Hexadecimal HexadecimalString.
From Verif Require Import Str.

(** ** Lexical helpers *)
Definition is_ws (c : ascii) : bool :=
  (c =c ch_sp) || (c =c ch_tab) || (c =c ch_nl) || (c =c ch_cr).

(** Split around the first occurrence of [sub]. *)
Fixpoint split_sub (sub s : string) : option (string * string) :=
  match strip_prefix sub s with
  | Some r => Some ("", r)
  | None =>
      match s with
      | EmptyString => None
      | String c s' =>
          match split_sub sub s' with
          | Some (u, v) => Some (String c u, v)
          | None => None
          end
      end
  end.

(** Remove trailing white space. *)
Fixpoint trim_end (s : string) : string :=
  match s with
  | EmptyString => EmptyString
  | String c r =>
      match trim_end r with
      | EmptyString => if is_ws c then EmptyString else String c EmptyString
      | t => String c t
      end
  end.

(** Scan to the [>] that ends a tag, ignoring [>] inside quotes. *)
Fixpoint scan_tag (quote : option ascii) (s : string) : option (string * string) :=
  match s with
  | EmptyString => None
  | String c r =>
      match quote with
      | None =>
          if c =c ch_gt then Some ("", r)
          else
            let q := if (c =c ch_quot) || (c =c ch_apos) then Some c else None in
            match scan_tag q r with Some (u, v) => Some (String c u, v) | None => None end
      | Some q =>
          match scan_tag (if c =c q then None else quote) r with
          | Some (u, v) => Some (String c u, v)
          | None => None
          end
      end
  end.

(** The attribute iterator (without duplicate checks), character by character. *)
Inductive attr_state : Type :=
| ANext
| AKey (key : string)
| AAfterKey (key : string)
| AAfterEq (key : string)
| AVal (key : string) (q : ascii) (val : string).

Fixpoint parse_attrs (st : attr_state) (s : string) : option (list (string * string)) :=
  match s with
  | EmptyString => match st with ANext => Some [] | _ => None end
  | String c r =>
      match st with
      | ANext =>
          if is_ws c then parse_attrs ANext r
          else if c =c "="%char then None
          else parse_attrs (AKey (str1 c)) r
      | AKey k =>
          if c =c "="%char then parse_attrs (AAfterEq k) r
          else if is_ws c then parse_attrs (AAfterKey k) r
          else parse_attrs (AKey (k +++ str1 c)) r
      | AAfterKey k =>
          if is_ws c then parse_attrs (AAfterKey k) r
          else if c =c "="%char then parse_attrs (AAfterEq k) r
          else None
      | AAfterEq k =>
          if is_ws c then parse_attrs (AAfterEq k) r
          else if (c =c ch_quot) || (c =c ch_apos) then parse_attrs (AVal k c "") r
          else None
      | AVal k q v =>
          if c =c q then
            match parse_attrs ANext r with Some l => Some ((k, v) :: l) | None => None end
          else parse_attrs (AVal k q (v +++ str1 c)) r
      end
  end.

(** ** References *)
(** UTF-8 encoding of a Unicode scalar value, [char::to_string]. *)
Definition byte (n : N) : ascii := ascii_of_N n.
Definition utf8 (n : N) : string :=
  if (n <? 128)%N then str1 (byte n)
  else if (n <? 2048)%N then
    String (byte (192 + n / 64)) (str1 (byte (128 + n mod 64)))
  else if (n <? 65536)%N then
    String (byte (224 + n / 4096)) (String (byte (128 + (n / 64) mod 64)) (str1 (byte (128 + n mod 64))))
  else
    String (byte (240 + n / 262144)) (String (byte (128 + (n / 4096) mod 64))
      (String (byte (128 + (n / 64) mod 64)) (str1 (byte (128 + n mod 64))))).

(** [char::from_u32], with the code point 0 rejected by quick-xml. *)
Definition char_of_code (n : N) : option string :=
  if (n =? 0)%N then None
  else if (55296 <=? n)%N && (n <=? 57343)%N then None
  else if (n <=? 1114111)%N then Some (utf8 n)
  else None.

(** [u32::from_str_radix(_, 16)] accepts digits of either case. *)
Definition lower_hex (c : ascii) : ascii :=
  if c =c "A"%char then "a"%char else if c =c "B"%char then "b"%char else if c =c "C"%char then "c"%char
  else if c =c "D"%char then "d"%char else if c =c "E"%char then "e"%char else if c =c "F"%char then "f"%char
  else c.
Fixpoint lower_hex_str (s : string) : string :=
  match s with EmptyString => EmptyString | String c r => String (lower_hex c) (lower_hex_str r) end.

Definition parse_code (s : string) : option N :=
  match s with
  | String "x" h =>
      match h with
      | EmptyString => None
      | _ => option_map N.of_hex_uint (HexadecimalString.NilEmpty.uint_of_string (lower_hex_str h))
      end
  | _ => parse_digits s
  end.

(** [decode_reference], xml_parser.rs:247-262, with quick-xml's
    [resolve_char_ref] and [unescape] (predefined entities only). *)
Definition resolve_ref (name : string) : option string :=
  match name with
  | String "#" num =>
      match parse_code num with Some n => char_of_code n | None => None end
  | _ =>
      if name =s "lt" then Some "<"
      else if name =s "gt" then Some ">"
      else if name =s "amp" then Some "&"
      else if name =s "apos" then Some "'"
      else if name =s "quot" then Some (str1 ch_quot)
      else None
  end.

(** End-of-line normalisation of text, [xml_content] (xml_parser.rs:243-245). *)
Fixpoint norm_text (s : string) : string :=
  match s with
  | EmptyString => EmptyString
  | String c r =>
      if c =c ch_cr then
        match r with
        | String d _ => if d =c ch_nl then norm_text r else String ch_nl (norm_text r)
        | EmptyString => String ch_nl EmptyString
        end
      else String c (norm_text r)
  end.

(** [decoded_and_normalized_value] of an attribute, xml_parser.rs:291-293: white
    space written literally becomes blanks, references are resolved. [ref] is
    the part of a reference read so far. *)
Fixpoint decode_attr (ref : option string) (s : string) : option string :=
  match s with
  | EmptyString => match ref with None => Some "" | Some _ => None end
  | String c r =>
      match ref with
      | None =>
          if c =c ch_amp then decode_attr (Some "") r
          else if c =c ch_cr then
            match r with
            | String d _ => if d =c ch_nl then decode_attr None r else option_map (String ch_sp) (decode_attr None r)
            | EmptyString => option_map (String ch_sp) (decode_attr None r)
            end
          else if is_ws c then option_map (String ch_sp) (decode_attr None r)
          else option_map (String c) (decode_attr None r)
      | Some name =>
          if c =c ";"%char then
            match resolve_ref name, decode_attr None r with
            | Some t, Some u => Some (t +++ u)
            | _, _ => None
            end
          else if c =c ch_amp then None
          else decode_attr (Some (name +++ str1 c)) r
      end
  end.

(** ** Tokens of quick-xml ([Event]) *)
Inductive tok : Type :=
| TkStart (name : string) (attrs : string)
| TkEmpty (name : string) (attrs : string)
| TkEnd (name : string)
| TkText (raw : string)
| TkRef (name : string)
| TkCData (raw : string)
| TkSkip                       (* declaration, comment, PI, DOCTYPE *)
| TkErr.

(** Content of a start tag: name, raw attributes, and whether it ends in [/]. *)
Fixpoint drop_last (s : string) : string :=
  match s with
  | EmptyString => EmptyString
  | String c EmptyString => EmptyString
  | String c r => String c (drop_last r)
  end.
Fixpoint ends_with_slash (s : string) : bool :=
  match s with
  | EmptyString => false
  | String c EmptyString => c =c "/"%char
  | String _ r => ends_with_slash r
  end.

Definition start_tok (content : string) : tok :=
  if ends_with_slash content then
    let (n, a) := span_until is_ws (drop_last content) in TkEmpty n a
  else
    let (n, a) := span_until is_ws content in TkStart n a.

(** Markup after a [<]. *)
Definition next_markup (r : string) : tok * string :=
  match strip_prefix "!--" r with
  | Some r' => match split_sub "-->" r' with Some (_, v) => (TkSkip, v) | None => (TkErr, "") end
  | None =>
  match strip_prefix "![CDATA[" r with
  | Some r' => match split_sub "]]>" r' with Some (u, v) => (TkCData u, v) | None => (TkErr, "") end
  | None =>
  match strip_prefix "!DOCTYPE" r with
  | Some r' => match split_sub ">" r' with Some (_, v) => (TkSkip, v) | None => (TkErr, "") end
  | None =>
  match strip_prefix "?" r with
  | Some r' => match split_sub "?>" r' with Some (_, v) => (TkSkip, v) | None => (TkErr, "") end
  | None =>
  match strip_prefix "/" r with
  | Some r' =>
      match split_sub ">" r' with
      | Some (u, v) => (TkEnd (trim_end u), v)
      | None => (TkErr, "")
      end
  | None =>
  if starts_with "!" r then (TkErr, "") else
  match scan_tag None r with
  | Some (u, v) => (start_tok u, v)
  | None => (TkErr, "")
  end end end end end end.

Definition is_amp_or_lt (c : ascii) : bool := (c =c ch_lt) || (c =c ch_amp).
Definition ref_stop (c : ascii) : bool := (c =c ";"%char) || (c =c ch_amp) || (c =c ch_lt).

(** One token; [None] at the end of the input ([Event::Eof]). *)
Definition next_tok (s : string) : option (tok * string) :=
  match s with
  | EmptyString => None
  | String c r =>
      if c =c ch_lt then Some (next_markup r)
      else if c =c ch_amp then
        let (u, v) := span_until ref_stop r in
        match v with
        | String d v' => if d =c ";"%char then Some (TkRef u, v') else Some (TkErr, "")
        | EmptyString => Some (TkErr, "")
        end
      else
        let (u, v) := span_until is_amp_or_lt s in Some (TkText u, v)
  end.

(** The whole token sequence, with [check_end_names = true]: a close tag must
    carry the name of the innermost open one.  [fuel] is the length of the
    input; every token consumes at least one byte (lemma [tokens_eq] of XmlProofs). *)
Fixpoint tokens_f (fuel : nat) (open : list string) (s : string) : list tok :=
  match fuel with
  | O => []
  | S fuel' =>
      match next_tok s with
      | None => []
      | Some (t, rest) =>
          match t with
          | TkErr => [TkErr]
          | TkStart n _ => t :: tokens_f fuel' (n :: open) rest
          | TkEnd n =>
              match open with
              | m :: open' => if n =s m then t :: tokens_f fuel' open' rest else [TkErr]
              | [] => [TkErr]
              end
          | _ => t :: tokens_f fuel' open rest
          end
      end
  end.
Definition tokens (open : list string) (s : string) : list tok := tokens_f (String.length s) open s.

(** ** [EventReader], xml_parser.rs:60-210 *)
(** [OwnedName], xml_parser.rs:10-15 ([namespace] is always [None]). *)
Record qname := { q_prefix : option string; q_local : string }.

(** [split_qname], xml_parser.rs:264-280. *)
Definition split_qname (raw : string) : qname :=
  let (p, r) := span_until (fun c => c =c ":"%char) raw in
  match r with
  | String _ l => {| q_prefix := Some p; q_local := l |}
  | EmptyString => {| q_prefix := None; q_local := raw |}
  end.

Definition attribute : Type := qname * string.

(** [XmlEvent], xml_parser.rs:45-58, and the [Err] case of [next_event]. *)
Inductive event : Type :=
| EStart (name : qname) (attrs : list attribute)
| EEnd (name : qname)
| EChars (s : string)
| EWs (s : string)
| EDocEnd
| EErr.

(** [build_attributes], xml_parser.rs:282-298. *)
Fixpoint decode_attr_list (l : list (string * string)) : option (list attribute) :=
  match l with
  | [] => Some []
  | (k, v) :: r =>
      match decode_attr None v, decode_attr_list r with
      | Some v', Some r' => Some ((split_qname k, v') :: r')
      | _, _ => None
      end
  end.
Definition build_attributes (raw : string) : option (list attribute) :=
  match parse_attrs ANext raw with
  | Some l => decode_attr_list l
  | None => None
  end.

(** [build_start_event], xml_parser.rs:198-209. *)
Definition build_start (n a : string) : option event :=
  option_map (EStart (split_qname n)) (build_attributes a).

(** [read_text_event], xml_parser.rs:187-195: the classification. *)
Definition text_event (t : string) : event := if all_char is_ws t then EWs t else EChars t.

(** State of an [EventReader]: the tokens still to come, the [pending] queue and
    [finished]. *)
Record rstate := { toks : list tok; queue : list event; finished : bool }.

Definition push (st : list tok) (q : list event) (f : bool) : rstate := {| toks := st; queue := q; finished := f |}.

(** The loop of [read_text_event], xml_parser.rs:137-186.  On an error nothing
    of the text survives. *)
Fixpoint read_text_event (ts : list tok) (text : string) (fin : bool) : event * rstate :=
  match ts with
  | [] => (text_event text, push [] [EDocEnd] fin)
  | t :: r =>
      match t with
      | TkText raw => read_text_event r (text +++ norm_text raw) fin
      | TkRef n =>
          match resolve_ref n with
          | Some d => read_text_event r (text +++ d) fin
          | None => (EErr, push r [] fin)
          end
      | TkStart n a =>
          match build_start n a with
          | Some e => (text_event text, push r [e] fin)
          | None => (EErr, push r [] fin)
          end
      | TkEmpty n a =>
          match build_start n a with
          | Some e => (text_event text, push r [e; EEnd (split_qname n)] fin)
          | None => (EErr, push r [] fin)
          end
      | TkEnd n => (text_event text, push r [EEnd (split_qname n)] fin)
      | TkCData raw => (text_event text, push r [EChars raw] fin)
      | TkSkip => (text_event text, push r [] fin)
      | TkErr => (EErr, push [] [] fin)
      end
  end.

(** The loop of [read_next], xml_parser.rs:93-134. *)
Fixpoint read_next_loop (ts : list tok) (fin : bool) : event * rstate :=
  match ts with
  | [] => (EDocEnd, push [] [] true)
  | t :: r =>
      match t with
      | TkStart n a =>
          match build_start n a with
          | Some e => (e, push r [] fin)
          | None => (EErr, push r [] fin)
          end
      | TkEmpty n a =>
          match build_start n a with
          | Some e => (e, push r [EEnd (split_qname n)] fin)
          | None => (EErr, push r [] fin)
          end
      | TkEnd n => (EEnd (split_qname n), push r [] fin)
      | TkText raw => read_text_event r (norm_text raw) fin
      | TkRef n =>
          match resolve_ref n with
          | Some d => read_text_event r d fin
          | None => (EErr, push r [] fin)
          end
      | TkCData raw => (EChars raw, push r [] fin)
      | TkSkip => read_next_loop r fin
      | TkErr => (EErr, push [] [] fin)
      end
  end.

(** [EventReader::next_event] = [read_next], xml_parser.rs:84-135. *)
Definition next_event (st : rstate) : event * rstate :=
  match queue st with
  | e :: q => (e, push (toks st) q (finished st))
  | [] => read_next_loop (toks st) (finished st)
  end.

(** [Iterator::next], xml_parser.rs:212-231. *)
Definition iter_next (st : rstate) : option event * rstate :=
  if finished st then (None, st)
  else
    let (e, st') := next_event st in
    match e with
    | EDocEnd | EErr => (Some e, push (toks st') (queue st') true)
    | _ => (Some e, st')
    end.

Definition reader_of (s : string) : rstate := push (tokens [] s) [] false.

(** The result of the [n]-th request (from 0) for an event. *)
Fixpoint nth_request (n : nat) (st : rstate) : event :=
  let (e, st') := next_event st in
  match n with O => e | S k => nth_request k st' end.

(** Model of custom items: the XML text a caller hands to [add_custom_item] is parsed
    into a small tree (xml_json/mod.rs), and saving writes that tree as text
    (documents/custom_item.rs).  Simplification: the JSON form of the tree is not modelled;
    the depth of the call stack is not bounded. *)
From Coq Require Import List Bool Arith.
From Verif Require Import Str XmlParser.
Import ListNotations.
Open Scope list_scope.

(** [XmlData], xml_json/mod.rs:45-54. *)
Inductive xdata := XData (name : string) (attrs : list (string * string)) (data : option string) (children : list xdata).

(** [XmlData::format], xml_json/mod.rs:58-76.  Nothing is escaped. *)
Fixpoint show_data (x : xdata) : string :=
  match x with
  | XData n a d ch =>
      "<" +++ n +++ concat_str (map (fun kv => " " +++ fst kv +++ "=" +++ str1 ch_quot +++ snd kv +++ str1 ch_quot) a) +++ ">" +++
      match d with Some t => t | None => "" end +++ concat_str (map show_data ch) +++ "</" +++ n +++ ">"
  end.
(** [Display for XmlDocument], xml_json/mod.rs:25-32; [CustomItem::build_to],
    custom_item.rs:33-42, writes just this. *)
Definition show_items (l : list xdata) : string := concat_str (map show_data l).

(** ** [str::trim], of the standard library: Unicode white space at both ends, in UTF-8.
    The characters with the property White_Space: U+0009 to U+000D, U+0020, U+0085, U+00A0,
    U+1680, U+2000 to U+200A, U+2028, U+2029, U+202F, U+205F and U+3000. *)
Definition chars (l : list ascii) : string := fold_right String EmptyString l.
Definition white : list string :=
  map chars
    [["009"]; ["010"]; ["011"]; ["012"]; ["013"]; [" "]; ["194"; "133"]; ["194"; "160"]; ["225"; "154"; "128"];
     ["226"; "128"; "128"]; ["226"; "128"; "129"]; ["226"; "128"; "130"]; ["226"; "128"; "131"]; ["226"; "128"; "132"];
     ["226"; "128"; "133"]; ["226"; "128"; "134"]; ["226"; "128"; "135"]; ["226"; "128"; "136"]; ["226"; "128"; "137"];
     ["226"; "128"; "138"]; ["226"; "128"; "168"]; ["226"; "128"; "169"]; ["226"; "128"; "175"]; ["226"; "129"; "159"];
     ["227"; "128"; "128"]]%char.
Fixpoint reversed (s : string) : string :=
  match s with EmptyString => EmptyString | String c r => reversed r +++ str1 c end.
(** Removes the first of [l] that [s] begins with. *)
Fixpoint strip_one (l : list string) (s : string) : option string :=
  match l with
  | [] => None
  | w :: r => match strip_prefix w s with Some t => Some t | None => strip_one r s end
  end.
Fixpoint strip_all (fuel : nat) (l : list string) (s : string) : string :=
  match fuel with
  | O => s
  | S f => match strip_one l s with Some t => strip_all f l t | None => s end
  end.
Definition trim_start (s : string) : string := strip_all (String.length s) white s.
Definition trim_end (s : string) : string := reversed (strip_all (String.length s) (map reversed white) (reversed s)).
Definition trim (s : string) : string := trim_end (trim_start s).

(** ** [parse], xml_json/mod.rs:102-207.  Events carry no namespace (xml_parser.rs:198-209),
    so no [xmlns] attribute is added (124-150). *)
(** The [fmt_name] of 90-96, 116-122 and 179-185. *)
Definition shown (q : qname) : string :=
  match q_prefix q with
  | Some p => if q_local q =s "" then p else p +++ ":" +++ q_local q
  | None => q_local q
  end.
(** [map_owned_attributes], 86-100. *)
Definition shown_attrs (l : list attribute) : list (string * string) := map (fun kv => (shown (fst kv), snd kv)) l.
Inductive parsed := POk (v : list xdata) (rest : list event) | PErr | PFuel.
Definition with_text (t : string) (x : xdata) : xdata := match x with XData n a _ ch => XData n a (Some t) ch end.
Definition with_children (l : list xdata) (x : xdata) : xdata := match x with XData n a d ch => XData n a d (ch ++ l) end.
Definition name_of (x : xdata) : string := match x with XData n _ _ _ => n end.
(** [data] is the list of events still to come, in order (the code keeps them reversed and
    pops the last). *)
Fixpoint parse (fuel : nat) (data : list event) (current : option xdata) (v : list xdata) : parsed :=
  match fuel with
  | O => PFuel
  | S f =>
      match data with
      | [] => match current with Some _ => PErr | None => POk v [] end
      | EStart q a :: r =>
          match parse f r (Some (XData (shown q) (shown_attrs a) None [])) [] with
          | POk inner rest =>
              match current with
              | Some c => parse f rest (Some (with_children inner c)) v
              | None => parse f rest None (v ++ inner)
              end
          | e => e
          end
      | EChars t :: r =>
          match current with
          | Some c => parse f r (Some (with_text (trim t) c)) v
          | None => PErr
          end
      | EEnd q :: r =>
          match current with
          | Some c => if name_of c =s shown q then POk (v ++ [c]) r else PErr
          | None => PErr
          end
      | _ :: r => parse f r current v
      end
  end.

(** The events of the iterator, xml_json/mod.rs:215; [None] if one of them is an error
    ([unwrap] panics). *)
Inductive collected_events := CEvents (l : list event) | CPanic | CFuel.
Fixpoint collect (fuel : nat) (st : rstate) : collected_events :=
  match fuel with
  | O => CFuel
  | S f =>
      match iter_next st with
      | (None, _) => CEvents []
      | (Some EErr, _) => CPanic
      | (Some e, st') => match collect f st' with CEvents l => CEvents (e :: l) | r => r end
      end
  end.

(** [CustomItem::from_str], custom_item.rs:12-18, and [XmlDocument::from_str],
    xml_json/mod.rs:209-241: what is kept, an error, or a panic. *)
Inductive outcome := Kept (v : list xdata) | Refused | Panicked | OutOfFuel.
Definition keep (s : string) : outcome :=
  match collect (2 * String.length s + 2) (reader_of s) with
  | CEvents l => match parse (S (length l)) l None [] with POk v _ => Kept v | PErr => Refused | PFuel => OutOfFuel end
  | CPanic => Panicked
  | CFuel => OutOfFuel
  end.

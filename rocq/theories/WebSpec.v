(** What a program finds in the file of a web extension. *)
From Coq Require Import NArith List Bool.
From Verif Require Import Str EscapeModel EscapeSpec XmlTree XmlParser XmlSpec ReadBase RenderModel.
Import ListNotations.
Open Scope list_scope.

(** The extension made by [WebExtension::new] and the calls of [property] in order. *)
Definition made (id reference version store store_type : string) (ps : list (string * string)) : web_ext :=
  fold_left (fun w p => web_property (fst p) (snd p) w) ps (web_new id reference version store store_type).
(** The attributes of the elements of the given name. *)
Definition attributes_of (name : string) (l : list event) : list (list attribute) :=
  flat_map (fun e => match e with EStart q atts => if q_local q =s name then [atts] else [] | _ => [] end) l.

(** A string literal: every quote gets a backslash. *)
Fixpoint quote_marks (s : string) : string :=
  match s with
  | EmptyString => EmptyString
  | String c r => if c =c ch_quot then String "092" (String c (quote_marks r)) else String c (quote_marks r)
  end.
Definition literal (s : string) : string := str1 ch_quot +++ quote_marks s +++ str1 ch_quot.

(** Reading a JSON string (RFC 8259, section 7), which is how a property of a web extension
    is to be stored.  Simplification: the escapes that begin with [u] are not decoded. *)
Definition control (c : ascii) : bool := N.ltb (N_of_ascii c) 32.
Definition json_escape (c : ascii) : option ascii :=
  if c =c ch_quot then Some ch_quot else if c =c "092" then Some "092"%char else if c =c "/" then Some "/"%char
  else if c =c "b" then Some "008"%char else if c =c "f" then Some "012"%char else if c =c "n" then Some "010"%char
  else if c =c "r" then Some "013"%char else if c =c "t" then Some "009"%char else None.
Fixpoint json_rest (s : string) : option string :=
  match s with
  | EmptyString => None
  | String c r =>
      if c =c ch_quot then match r with EmptyString => Some ""%string | _ => None end
      else if control c then None
      else if c =c "092" then
        match r with
        | EmptyString => None
        | String d r' => match json_escape d, json_rest r' with Some x, Some t => Some (String x t) | _, _ => None end
        end
      else option_map (String c) (json_rest r)
  end.
Definition json_string (s : string) : option string :=
  match s with String c r => if c =c ch_quot then json_rest r else None | EmptyString => None end.

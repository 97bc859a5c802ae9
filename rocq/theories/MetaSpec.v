(** What a program that reads docProps/core.xml and docProps/custom.xml finds there. *)
From Coq Require Import NArith List Bool.
From Verif Require Import Str XmlParser ReadBase ReadProps DepsModel MetaModel RoundSpec.
Import ListNotations.
Open Scope list_scope.

(** What was set last. *)
Definition created (l : list meta) : option string := last_such (fun x => match x with Created d => Some d | _ => None end) l.
Definition updated (l : list meta) : option string := last_such (fun x => match x with Updated d => Some d | _ => None end) l.
Definition value_given (l : list meta) (name : string) : option string :=
  last_such (fun x => match x with Property n v => if n =s name then Some v else None | _ => None end) l.

(** The elements that have text, with it. *)
Fixpoint fields (l : list event) : list (qname * string) :=
  match l with
  | [] => []
  | e :: r => match e, r with EStart q _, EChars t :: _ => [(q, t)] | _, _ => [] end ++ fields r
  end.
(** The name, the number and the value of each property. *)
Fixpoint entries (l : list event) : list (option string * option string * string) :=
  match l with
  | [] => []
  | e :: r => match e, r with
              | EStart q atts, EStart _ _ :: x :: _ =>
                  if q_local q =s "property"%string then
                    [(attr_get "name" atts, attr_get "pid" atts, match x with EChars t => t | EWs t => t | _ => ""%string end)]
                  else []
              | _, _ => []
              end ++ entries r
  end.
(** A field with a text that is not blank; references in it are resolved. *)
Definition field (name text : string) : list (qname * string) :=
  if all_char is_ws (text_seen text) then [] else [(split_qname name, text_seen text)].

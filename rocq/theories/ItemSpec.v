(** Custom items: what of an XML document is kept, and when it is stored unchanged. *)
From Coq Require Import NArith List Bool.
From Verif Require Import Str XmlParser XmlSpec PackModel ItemModel.
Import ListNotations.
Open Scope list_scope.

(** ** A document as a reader reports it *)
Inductive node := NElem (name : qname) (attrs : list attribute) (children : list node) | NText (s : string) | NBlank (s : string).
Fixpoint told (n : node) : list event :=
  match n with
  | NElem q a ch => EStart q a :: flat_map told ch ++ [EEnd q]
  | NText s => [EChars s]
  | NBlank s => [EWs s]
  end.
(** The reader answers the requests for events with [l], and then with the end. *)
Definition answers (s : string) (l : list event) : Prop := forall n, nth_request n (reader_of s) = nth n l EDocEnd.
(** Nothing but elements and white space. *)
Definition no_text (n : node) : Prop := match n with NText _ => False | _ => True end.

(** ** What is kept: names, attributes and elements, and the last text of each element,
    without the white space around it, which are the characters that Unicode calls White_Space. *)
Definition white_space (n : N) : Prop :=
  (9 <= n <= 13 \/ n = 32 \/ n = 133 \/ n = 160 \/ n = 5760 \/ 8192 <= n <= 8202 \/ n = 8232 \/ n = 8233 \/ n = 8239 \/ n = 8287 \/ n = 12288)%N.
Definition is_white (w : string) : Prop := exists n, white_space n /\ w = utf8 n.
Inductive all_white : string -> Prop := white_nil : all_white "" | white_cons w s : is_white w -> all_white s -> all_white (w +++ s).
Definition trimmed (t : string) : Prop := forall w r, is_white w -> t <> w +++ r /\ t <> r +++ w.
Definition last_text (ch : list node) : option string :=
  fold_left (fun acc n => match n with NText s => Some (trim s) | _ => acc end) ch None.
Fixpoint kept_of (n : node) : list xdata :=
  match n with
  | NElem q a ch => [XData (shown q) (shown_attrs a) (last_text ch) (flat_map kept_of ch)]
  | _ => []
  end.

(** ** Strings that need no escaping *)
(** A name with something after its first colon. *)
Definition local_part (n : string) : Prop := forall p, n = p +++ ":" -> has_char ":" p = true.
Definition plain_value_char (c : ascii) : bool :=
  negb ((c =c ch_quot) || (c =c ch_amp) || (c =c ch_tab) || (c =c ch_nl) || (c =c ch_cr)).
Definition plain_text_char (c : ascii) : bool := negb ((c =c ch_lt) || (c =c ch_amp) || (c =c ch_cr)).
Definition plain_attr (kv : string * string) : Prop :=
  attr_name_ok (fst kv) = true /\ local_part (fst kv) /\ all_char plain_value_char (snd kv) = true.
Inductive plain_item : xdata -> Prop :=
  plain_data n a d ch : elem_name_ok n = true -> local_part n -> Forall plain_attr a ->
    (forall t, d = Some t -> t <> "" /\ trimmed t /\ all_char plain_text_char t = true) ->
    Forall plain_item ch -> plain_item (XData n a d ch).

(** What a reader of the stored text reports. *)
Fixpoint as_node (x : xdata) : node :=
  match x with
  | XData n a d ch =>
      NElem (split_qname n) (map (fun kv => (split_qname (fst kv), snd kv)) a)
        (match d with Some t => [NText t] | None => [] end ++ map as_node ch)
  end.

(** ** Custom items in a saved archive *)
(** The call [add_custom_item(id, s)]; [None]: it panics. *)
Definition item_call (id s : string) : option api :=
  match keep s with Kept v => Some (ACustom id (show_items v)) | _ => None end.
(** The items among the calls, in order. *)
Definition items_of (l : list api) : list (string * string) := flat_map (fun a => match a with ACustom id x => [(id, x)] | _ => [] end) l.

(** What JSON tells of web settings, themes, images and hyperlinks. *)
From Coq Require Import NArith ZArith List Bool Ascii.
From Verif Require Import Str JsonModel TsSpec CallSpec OpenModel.
Import ListNotations.
Open Scope list_scope.

(** ** Reading base64, RFC 4648, section 4 *)
Definition value64 (c : ascii) : option N :=
  let n := N_of_ascii c in
  if (65 <=? n)%N && (n <=? 90)%N then Some (n - 65)%N             (* A-Z *)
  else if (97 <=? n)%N && (n <=? 122)%N then Some (n - 71)%N       (* a-z *)
  else if (48 <=? n)%N && (n <=? 57)%N then Some (n + 4)%N         (* 0-9 *)
  else if (n =? 43)%N then Some 62%N else if (n =? 47)%N then Some 63%N else None.
(** The bytes of a number of 24 bits, from the first on *)
Definition bytes (k : nat) (n : N) : string :=
  substring 0 k (String (ascii_of_N (n / 65536)) (String (ascii_of_N (n / 256 mod 256)) (String (ascii_of_N (n mod 256)) ""))).
Fixpoint decode64 (s : string) : option string :=
  match s with
  | EmptyString => Some ""%string
  | String w (String x (String y (String z r))) =>
      match value64 w, value64 x with
      | Some w, Some x =>
          match value64 y, value64 z with
          | Some y, Some z => option_map (fun r => bytes 3 (w * 262144 + x * 4096 + y * 64 + z) +++ r) (decode64 r)
          | Some y, None => if (z =? "=")%char && (r =s "") then Some (bytes 2 (w * 262144 + x * 4096 + y * 64)) else None
          | None, _ => if (y =? "=")%char && (z =? "=")%char && (r =s "") then Some (bytes 1 (w * 262144 + x * 4096)) else None
          end
      | _, _ => None
      end
  | _ => None
  end.

(** ** What is told *)
Definition tells_word (path : list string) (v : json) (s : string) : Prop := at_ path v = Some (JStr s).
Definition tells_number (path : list string) (v : json) (n : N) : Prop := at_ path v = Some (JNum (Z.of_N n)).
Definition tells_each {A} (told : json -> A -> Prop) (path : list string) (v : json) (l : list A) : Prop :=
  exists vs, at_ path v = Some (JArr vs) /\ Forall2 told vs l.
Inductive div_told : json -> div -> Prop :=
| told_div v i l r t b ch vs :
    tells_word ["id"%string] v i -> tells_number ["marginLeft"%string] v l -> tells_number ["marginRight"%string] v r ->
    tells_number ["marginTop"%string] v t -> tells_number ["marginBottom"%string] v b ->
    at_ ["divsChild"%string] v = Some (JArr vs) -> Forall2 div_told vs ch -> div_told v (Div i l r t b ch).
Definition group_told (place : list string) (v : json) (f : font_group) : Prop :=
  tells_word (place ++ ["latin"%string]) v (fg_latin f) /\ tells_word (place ++ ["ea"%string]) v (fg_ea f) /\ tells_word (place ++ ["cs"%string]) v (fg_cs f) /\
  tells_each (fun v f => tells_word ["script"%string] v (fst f) /\ tells_word ["typeface"%string] v (snd f)) (place ++ ["fonts"%string]) v (fg_fonts f).
Definition theme_told (v : json) (t : theme) : Prop :=
  group_told ["fontSchema"; "majorFont"]%string v (fst t) /\ group_told ["fontSchema"; "minorFont"]%string v (snd t).
(** The bytes of an image and of its preview are in base64. *)
Definition image_told (v : json) (i : image) : Prop :=
  exists data png, v = JArr [JStr (im_id i); JStr (im_path i); JStr data; JStr png] /\ decode64 data = Some (im_data i) /\ decode64 png = Some (im_png i).
Definition link_told (v : json) (l : string * string * string) : Prop := let '(id, target, mode) := l in v = JArr [JStr id; JStr target; JStr mode].
Record opened_told (v : json) (op : opened) : Prop := {
  web_told : tells_each div_told ["webSettings"; "divs"]%string v (op_web op);
  themes_told : tells_each theme_told ["themes"%string] v (op_themes op);
  images_told : tells_each image_told ["images"%string] v (op_images op);
  links_told : tells_each link_told ["hyperlinks"%string] v (op_links op) }.

(** The JSON of what only the reader fills: web settings, themes, images and hyperlinks. *)
From Coq Require Import NArith ZArith List Bool Ascii.
From Verif Require Import Str JsonModel OpenModel.
Import ListNotations.
Open Scope list_scope.

(** ** The standard base64 of the crate base64, as used in documents/mod.rs:124-130, 134-140 *)
Definition digits64 : string := "ABCDEFGHIJKLMNOPQRSTUVWXYZabcdefghijklmnopqrstuvwxyz0123456789+/".
Definition digit64 (n : N) : ascii := match String.get (N.to_nat n) digits64 with Some c => c | None => "="%char end.
Fixpoint encode64 (s : string) : string :=
  match s with
  | EmptyString => EmptyString
  | String a EmptyString =>
      let a := N_of_ascii a in String (digit64 (a / 4)) (String (digit64 (a mod 4 * 16)) "==")
  | String a (String b EmptyString) =>
      let a := N_of_ascii a in let b := N_of_ascii b in
      String (digit64 (a / 4)) (String (digit64 (a mod 4 * 16 + b / 16)) (String (digit64 (b mod 16 * 4)) "="))
  | String a (String b (String c r)) =>
      let a := N_of_ascii a in let b := N_of_ascii b in let c := N_of_ascii c in
      String (digit64 (a / 4)) (String (digit64 (a mod 4 * 16 + b / 16)) (String (digit64 (b mod 16 * 4 + c / 64)) (String (digit64 (c mod 64)) (encode64 r))))
  end.

(** elements/div.rs:3-12 *)
Fixpoint j_div (d : div) : json :=
  match d with
  | Div i l r t b ch =>
      obj [has "id" (JStr i); has "marginLeft" (jn l); has "marginRight" (jn r); has "marginTop" (jn t); has "marginBottom" (jn b);
           has "divsChild" (JArr (map j_div ch))]
  end.
(** web_settings.rs:5-9 *)
Definition j_web_settings (l : list div) : json := obj [has "divs" (JArr (map j_div l))].
(** elements/font_scheme.rs:3-30 *)
Definition j_scheme_font (f : string * string) : json := obj [has "script" (JStr (fst f)); has "typeface" (JStr (snd f))].
Definition j_font_group (f : font_group) : json :=
  obj [has "latin" (JStr (fg_latin f)); has "ea" (JStr (fg_ea f)); has "cs" (JStr (fg_cs f)); has "fonts" (JArr (map j_scheme_font (fg_fonts f)))].
(** theme.rs:5-11 *)
Definition j_theme (t : theme) : json := obj [has "fontSchema" (obj [has "majorFont" (j_font_group (fst t)); has "minorFont" (j_font_group (snd t))])].
(** The tuples of mod.rs:173 and 175 *)
Definition j_image (i : image) : json := JArr [JStr (im_id i); JStr (im_path i); JStr (encode64 (im_data i)); JStr (encode64 (im_png i))].
Definition j_link (l : string * string * string) : json := JArr [JStr (fst (fst l)); JStr (snd (fst l)); JStr (snd l)].
(** mod.rs:143-177.  Simplification: the members that are written, too, are any JSON here. *)
Definition written_before : list string :=
  ["contentType"; "rels"; "documentRels"; "docProps"; "styles"; "document"; "comments"; "numberings"; "settings"; "fontTable"; "media"; "commentsExtended"]%string.
Definition written_between : list string :=
  ["taskpanes"; "taskpanesRels"; "webExtensions"; "customItems"; "customItemProps"; "customItemRels"]%string.
Definition j_opened (others : string -> json) (op : opened) : json :=
  JObj (map (fun k => (k, others k)) written_before ++ [("webSettings"%string, j_web_settings (op_web op))] ++
        map (fun k => (k, others k)) written_between ++
        [("themes"%string, JArr (map j_theme (op_themes op))); ("images"%string, JArr (map j_image (op_images op)));
         ("hyperlinks"%string, JArr (map j_link (op_links op))); ("footnotes"%string, others "footnotes"%string)]).

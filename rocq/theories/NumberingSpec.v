(** Elements as they can be put together with the methods of NumberingModel. *)
From Coq Require Import NArith List Bool.
From Verif Require Import Str Props Ast PackModel PackSpec NumberingModel.
Import ListNotations.

(** Elements that hold no paragraph of the same part. *)
Definition leaf (n : node) : bool :=
  match n with
  | NPara _ _ _ _ | NTable _ _ _ _ | NRow _ _ _ | NCell _ _ _ | NSdt _ _ _ | NLink _ _ _ | NToc _ _ _ | NSection _ _ _ _ | NPart _ _ _ _ => false
  | _ => true
  end.
(** [any]: numbered paragraphs may also be handed to the methods that do not look
    at the flag.  The last constructor of each kind is for the setters of its
    properties. *)
Inductive built (any : bool) : node -> Prop :=
| BLeaf n : leaf n = true -> built any n
| BPara : built any para_new
| BParaPush c p : built any p -> built any c -> any = true \/ ~ uses_numbering [c] -> built any (para_push c p)
| BNumbering id level p : built any p -> built any (para_numbering id level p)
| BParaSet id p nb ch id' p' : built any (NPara id p nb ch) -> p_numbering (base_of p') = p_numbering (base_of p) -> built any (NPara id' p' nb ch)
| BLink l h : built any (NLink l h [])
| BLinkPush c n : built any n -> built any c -> any = true \/ ~ uses_numbering [c] -> built any (link_push c n)
| BRow cells : (forall c, In c cells -> built any c) -> built any (row_new cells)
| BRowSet p nb ch p' : built any (NRow p nb ch) -> built any (NRow p' nb ch)
| BTable p rows : (forall c, In c rows -> built any c) -> built any (table_new p rows)
| BTableRow row t : built any t -> built any row -> any = true \/ ~ uses_numbering [row] -> built any (table_add_row row t)
| BTableSet p g nb ch p' g' : built any (NTable p g nb ch) -> built any (NTable p' g' nb ch)
| BCell : built any cell_new
| BCellAdd c n : built any n -> built any c -> built any (cell_add c n)
| BCellPush c n : built any n -> built any c -> any = true \/ ~ uses_numbering [c] -> built any (cell_push c n)
| BCellSet p nb ch p' : built any (NCell p nb ch) -> built any (NCell p' nb ch)
| BSdt p : built any (NSdt p false [])
| BSdtAdd c n : built any n -> built any c -> built any (sdt_add c n)
| BSdtPush c n : built any n -> leaf c = true -> built any (sdt_push c n)
| BSdtSet p nb ch p' : built any (NSdt p nb ch) -> built any (NSdt p' nb ch)
| BToc d : built any (NToc d [] [])
| BTocBefore c n : built any n -> built any c -> any = true \/ ~ uses_numbering [c] -> built any (toc_add_before c n)
| BTocAfter c n : built any n -> built any c -> any = true \/ ~ uses_numbering [c] -> built any (toc_add_after c n).
Inductive built_part (any : bool) : content -> Prop :=
| BPart : built_part any part_new
| BPartAdd c p : built_part any p -> built any c -> built_part any (part_add c p).
Inductive built_section (any : bool) : section_arg -> Prop :=
| BSection p : built_section any {| sa_prop := p; sa_numbering := false; sa_children := []; sa_pending := fun _ => None |}
| BSectionAdd c s : built_section any s -> built any c -> built_section any (section_add c s)
| BSectionPart x c s : built_section any s -> built_part any c -> built_section any (section_part x c s).
(** What a call is given is put together with the methods. *)
Definition built_call (any : bool) (a : api) : Prop :=
  match a with
  | ABlock n => built any n
  | ASection s => built_section any s
  | APart _ c => built_part any c
  | ADocument _ => False
  | _ => True
  end.
Definition numbering_rel : rel := mk_rel "rId7" "numbering" "numbering.xml".

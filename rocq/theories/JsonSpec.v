(** What the JSON of a document is taken to say, independently of how it is written. *)
From Coq Require Import NArith ZArith List Bool.
From Verif Require Import Str TypesModel Props Ast JsonModel.
From Verif Require Import StrFacts.
From Verif Require PropsSet.
Import ListNotations.
Open Scope list_scope.

(** ** A reader of JSON texts *)
(** White space, strings, numbers and values as in RFC 8259; of the numbers with a fraction
    those that end in [.0], of the [\u] escapes those below 256.  It gives the value and the
    text that is left. *)
Fixpoint skip_space (s : string) : string :=
  match s with
  | String c r => if (c =c ch_sp) || (c =c ch_nl) || (c =c ch_tab) || (c =c ch_cr) then skip_space r else s
  | EmptyString => EmptyString
  end.
Definition hex_value (c : ascii) : option N :=
  let n := N_of_ascii c in
  if (48 <=? n)%N && (n <=? 57)%N then Some (n - 48)%N
  else if (97 <=? n)%N && (n <=? 102)%N then Some (n - 87)%N
  else if (65 <=? n)%N && (n <=? 70)%N then Some (n - 55)%N else None.
Definition cons_char (c : ascii) (r : option (string * string)) : option (string * string) :=
  match r with Some (s, t) => Some (String c s, t) | None => None end.
(** The text after the opening quote. *)
Fixpoint json_string (s : string) : option (string * string) :=
  match s with
  | EmptyString => None
  | String c r =>
      if c =c ch_quot then Some (EmptyString, r)
      else if c =c "\"%char then
        match r with
        | String e t =>
            if e =c "u"%char then
              match t with
              | String z1 (String z2 (String a (String b t))) =>
                  match (z1 =c "0"%char) && (z2 =c "0"%char), hex_value a, hex_value b with
                  | true, Some x, Some y => cons_char (ascii_of_N (16 * x + y)) (json_string t)
                  | _, _, _ => None
                  end
              | _ => None
              end
            else if (e =c ch_quot) || (e =c "\"%char) || (e =c "/"%char) then cons_char e (json_string t)
            else if e =c "b"%char then cons_char "008"%char (json_string t)
            else if e =c "t"%char then cons_char "009"%char (json_string t)
            else if e =c "n"%char then cons_char "010"%char (json_string t)
            else if e =c "f"%char then cons_char "012"%char (json_string t)
            else if e =c "r"%char then cons_char "013"%char (json_string t)
            else None
        | EmptyString => None
        end
      else if (N_of_ascii c <? 32)%N then None
      else cons_char c (json_string r)
  end.
Fixpoint digits (s : string) : string * string :=
  match s with
  | String c r => if is_digit c then let (d, t) := digits r in (String c d, t) else (EmptyString, s)
  | EmptyString => (EmptyString, EmptyString)
  end.
Definition json_number (s : string) : option (json * string) :=
  match s with
  | String "-" r =>
      let (d, t) := digits r in match parse_digits d with Some n => Some (JNum (- Z.of_N n), t) | None => None end
  | _ =>
      let (d, t) := digits s in
      match parse_digits d with
      | Some n => match strip_prefix ".0" t with Some u => Some (JWhole n, u) | None => Some (JNum (Z.of_N n), t) end
      | None => None
      end
  end.
Definition char_at (s : string) (c : ascii) : option string :=
  match s with String a r => if a =c c then Some r else None | EmptyString => None end.
Fixpoint json_value (fuel : nat) (s : string) : option (json * string) :=
  match fuel with
  | O => None
  | S fuel =>
      let s := skip_space s in
      match strip_prefix "null" s, strip_prefix "true" s, strip_prefix "false" s with
      | Some r, _, _ => Some (JNull, r)
      | _, Some r, _ => Some (JBool true, r)
      | _, _, Some r => Some (JBool false, r)
      | None, None, None =>
          match char_at s ch_quot with
          | Some r => match json_string r with Some (t, r) => Some (JStr t, r) | None => None end
          | None =>
              match char_at s "["%char with
              | Some r =>
                  match char_at (skip_space r) "]"%char with
                  | Some r => Some (JArr [], r)
                  | None => match json_items fuel r with Some (l, r) => Some (JArr l, r) | None => None end
                  end
              | None =>
                  match char_at s "{"%char with
                  | Some r =>
                      match char_at (skip_space r) "}"%char with
                      | Some r => Some (JObj [], r)
                      | None => match json_members fuel r with Some (l, r) => Some (JObj l, r) | None => None end
                      end
                  | None => json_number s
                  end
              end
          end
      end
  end
with json_items (fuel : nat) (s : string) : option (list json * string) :=
  match fuel with
  | O => None
  | S fuel =>
      match json_value fuel s with
      | Some (v, r) =>
          let r := skip_space r in
          match char_at r "]"%char, char_at r ","%char with
          | Some t, _ => Some ([v], t)
          | None, Some t => match json_items fuel t with Some (l, u) => Some (v :: l, u) | None => None end
          | None, None => None
          end
      | None => None
      end
  end
with json_members (fuel : nat) (s : string) : option (list (string * json) * string) :=
  match fuel with
  | O => None
  | S fuel =>
      match char_at (skip_space s) ch_quot with
      | Some r =>
          match json_string r with
          | Some (k, r) =>
              match char_at (skip_space r) ":"%char with
              | Some r =>
                  match json_value fuel r with
                  | Some (v, r) =>
                      let r := skip_space r in
                      match char_at r "}"%char, char_at r ","%char with
                      | Some t, _ => Some ([(k, v)], t)
                      | None, Some t => match json_members fuel t with Some (l, u) => Some ((k, v) :: l, u) | None => None end
                      | None, None => None
                      end
                  | None => None
                  end
              | None => None
              end
          | None => None
          end
      | None => None
      end
  end.
(** The value of a whole text. *)
Definition json_of (text : string) : option json :=
  match json_value (2 * String.length text + 2) text with
  | Some (v, r) => match skip_space r with EmptyString => Some v | _ => None end
  | None => None
  end.

(** ** What the JSON shows of a document *)
(** Not: the theme of a color, what of a size is above 32 bits, the style and the note of
    a reference to a footnote. *)
Definition shown_rpr (p : rpr) : rpr :=
  PropsSet.set_r_sz (option_map (fun n => n mod 4294967296)%N (r_sz p))
    (PropsSet.set_r_sz_cs (option_map (fun n => n mod 4294967296)%N (r_sz_cs p))
      (PropsSet.set_r_color (option_map (fun c => {| c_val := c_val c; c_theme := None; c_shade := None; c_tint := None |}) (r_color p)) p)).
Definition shown_base (b : ppr_base) : ppr_base :=
  PropsSet.set_p_rpr (shown_rpr (p_rpr b)) (PropsSet.set_p_outline (option_map (fun n => n mod 4294967296)%N (p_outline b)) b).
Fixpoint shown_ppr (p : ppr) : ppr :=
  match p with
  | PPr b None => PPr (shown_base b) None
  | PPr b (Some c) => PPr (shown_base b) (Some (shown_change c))
  end
with shown_change (c : ppr_change) : ppr_change := match c with PChange a d q => PChange a d (shown_ppr q) end.
Definition shown_tcpr (p : tcpr) : tcpr := PropsSet.set_tc_grid_span (option_map (fun n => n mod 4294967296)%N (tc_grid_span p)) p.
Definition shown_sdtpr (p : sdtpr) : sdtpr := {| sd_rpr := shown_rpr (sd_rpr p); sd_binding := sd_binding p; sd_alias := sd_alias p |}.
Definition shown_toc (d : toc_data) : toc_data := 
  {| td_instr := td_instr d; td_items := td_items d; td_auto := td_auto d; td_dirty := td_dirty d; td_without_sdt := td_without_sdt d;
     td_alias := td_alias d; td_page_placeholder := td_page_placeholder d; td_delete := td_delete d; td_ppr := option_map shown_ppr (td_ppr d) |}.
(** The first header or footer of every slot.  They stand in a section, nowhere else. *)
Definition slots : list slot := [HDefault; HFirst; HEven; FDefault; FFirst; FEven].
Definition same_slot (a b : slot) : bool :=
  match a, b with
  | HDefault, HDefault | HFirst, HFirst | HEven, HEven | FDefault, FDefault | FFirst, FFirst | FEven, FEven => true
  | _, _ => false
  end.
Definition in_slot (s : slot) (n : node) : bool := match n with NPart t _ _ _ => same_slot s t | _ => false end.
Definition first_part (s : slot) (l : list node) : list node := match filter (in_slot s) l with n :: _ => [n] | [] => [] end.
Definition in_slots (l : list node) : list node := flat_map (fun s => first_part s l) slots.
Fixpoint shown (n : node) : node :=
  match n with
  | NRun p ch => NRun (shown_rpr p) (map shown ch)
  | NTextBox ch => NTextBox (map shown ch)
  | NFootRef id _ _ => NFootRef id "" []
  | NCommentStart c ch => NCommentStart c (map shown ch)
  | NIns m ch => NIns m (map shown ch)
  | NDel m ch => NDel m (map shown ch)
  | NMoveFrom m ch => NMoveFrom m (map shown ch)
  | NMoveTo m ch => NMoveTo m (map shown ch)
  | NLink l h ch => NLink l h (map shown ch)
  | NSdt p b ch => NSdt (shown_sdtpr p) b (map shown ch)
  | NPara id p b ch => NPara id (shown_ppr p) b (map shown ch)
  | NTable p g b rows => NTable p g b (map shown rows)
  | NRow p b ch => NRow p b (map shown ch)
  | NCell p b ch => NCell (shown_tcpr p) b (map shown ch)
  | NToc d b a => NToc (shown_toc d) (map shown b) (map shown a)
  | NSection p parts b ch =>
      let ps := flat_map (fun q => match q with NPart s rid b l => [NPart s rid b (map shown l)] | _ => [] end) parts in
      NSection p (in_slots ps) b (map shown ch)
  | NPart _ _ _ _ => NPart HDefault "" false []
  | _ => n
  end.

Definition shown_parts (parts : list node) : list node :=
  in_slots (flat_map (fun q => match q with NPart s rid b l => [NPart s rid b (map shown l)] | _ => [] end) parts).

(** ** The texts *)
(** The texts of a tree as the JSON has them: headers and footers before the contents of
    their section, no footnotes. *)
Definition first_texts (s : slot) (l : list (slot * list string)) : list string :=
  match filter (fun p => same_slot s (fst p)) l with (_, t) :: _ => t | [] => [] end.
Fixpoint texts_of (n : node) : list string :=
  match n with
  | NText s | NDelText s => [s]
  | NRun _ ch | NTextBox ch | NCommentStart _ ch | NIns _ ch | NDel _ ch | NMoveFrom _ ch | NMoveTo _ ch | NLink _ _ ch
  | NSdt _ _ ch | NPara _ _ _ ch | NTable _ _ _ ch | NRow _ _ ch | NCell _ _ ch => flat_map texts_of ch
  | NToc _ b a => flat_map texts_of b ++ flat_map texts_of a
  | NSection _ parts _ ch =>
      let ps := flat_map (fun q => match q with NPart s _ _ l => [(s, flat_map texts_of l)] | _ => [] end) parts in
      flat_map (fun s => first_texts s ps) slots ++ flat_map texts_of ch
  | _ => []
  end.
Definition part_texts (parts : list node) : list string :=
  flat_map (fun s => first_texts s (flat_map (fun q => match q with NPart s _ _ l => [(s, flat_map texts_of l)] | _ => [] end) parts)) slots.
(** What a viewer finds: every object of the kind text or deleted text. *)
Fixpoint member (k : string) (l : list (string * json)) : option json :=
  match l with [] => None | (a, v) :: l => if a =s k then Some v else member k l end.
Definition text_here (l : list (string * json)) : list string :=
  match member "type" l, member "data" l with
  | Some (JStr t), Some (JObj d) =>
      if (t =s "text") || (t =s "deleteText") then match member "text" d with Some (JStr s) => [s] | _ => [] end else []
  | _, _ => []
  end.
Fixpoint texts_found (v : json) : list string :=
  match v with
  | JArr l => flat_map texts_found l
  | JObj l => text_here l ++ flat_map (fun p => match p with (_, x) => texts_found x end) l
  | _ => []
  end.

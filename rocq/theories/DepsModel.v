(** Collection of comments and hyperlinks when a document is built
    ([Docx::update_dependencies]), and the reverse when one is read: threads of
    comments and comment texts ([store_comments]). *)
From Coq Require Import NArith List Bool.
From Verif Require Import Str Props Ast.
Import ListNotations.

(** elements/comment_extended.rs:9-13 *)
Record comment_ext := { ce_para : string; ce_done : bool; ce_parent : option string }.
(** A comment, elements/comment.rs:10-16. *)
Notation comment := (comment_data * list node)%type.

(** Ids of the paragraphs directly in a comment, e.g. mod.rs:927-934. *)
Definition para_ids_of (c : comment) : list string :=
  flat_map (fun n => match n with NPara id _ _ _ => [id] | _ => [] end) (snd c).

(** [HashMap<usize, String>]: the latest entry comes first. *)
Definition comment_map := list (N * string).
Fixpoint map_get (k : N) (m : comment_map) : option string :=
  match m with [] => None | (k', v) :: r => if N.eqb k k' then Some v else map_get k r end.
(** [insert_comment_to_map], mod.rs:920-935 (the same in
    [collect_comment_map_in_paragraph], 1297-1305) *)
Definition insert_comment (c : comment) (m : comment_map) : comment_map :=
  fold_left (fun m id => (cd_id (fst c), id) :: m) (para_ids_of c) m.

(** [HashMap<String, String>] of hyperlinks.  Simplification: its iteration order
    is not specified by Rust; here it is that of the first insertions, and the
    theorems say nothing about the order. *)
Definition link_map := list (string * string).
Fixpoint put_link (k v : string) (m : link_map) : link_map :=
  match m with
  | [] => [(k, v)]
  | (k', v') :: r => if k =s k' then (k, v) :: r else (k', v') :: put_link k v r
  end.
Definition insert_link (l : link) (m : link_map) : link_map :=
  match l with External rid path => put_link rid path m | Anchor _ => m end.

(** The traversal shared by [update_dependencies] (mod.rs:946-1004 and 1014-1130),
    [collect_comment_map_in_table] (1326-1385) and [collect_dependencies_in_table]
    (1387-1483); [f] is what is done with the children of a paragraph. *)
Section Walk.
  Context {S : Type} (f : list node -> S -> S).
  Definition block_walks (n : node) : bool := (* children of content controls and of tables of contents *)
    match n with NPara _ _ _ _ | NTable _ _ _ _ => true | _ => false end.
  Definition top_walks (n : node) : bool :=   (* children of the document, 946-1004 *)
    match n with NPara _ _ _ _ | NTable _ _ _ _ | NToc _ _ _ => true | _ => false end.
  Fixpoint walk (n : node) (s : S) : S :=
    match n with
    | NPara _ _ _ ch => f ch s
    | NTable _ _ _ rows => fold_left (fun s c => walk c s) rows s
    | NRow _ _ cells => fold_left (fun s c => walk c s) cells s
    | NCell _ _ ch => fold_left (fun s c => walk c s) ch s
    | NSdt _ _ ch => fold_left (fun s c => if block_walks c then walk c s else s) ch s
    | NToc _ b a =>
        fold_left (fun s c => if block_walks c then walk c s else s) a
          (fold_left (fun s c => if block_walks c then walk c s else s) b s)
    | _ => s
    end.
  Definition walk_body (l : list node) (s : S) : S :=
    fold_left (fun s c => if top_walks c then walk c s else s) l s.
End Walk.

(** [collect_comment_map_in_paragraph], mod.rs:1292-1324 (inline in 948-963) *)
Definition map_link_child (m : comment_map) (c : node) : comment_map :=
  match c with NCommentStart d ch => insert_comment (d, ch) m | _ => m end.
Definition map_child (s : comment_map * link_map) (c : node) : comment_map * link_map :=
  match c with
  | NCommentStart d ch => (insert_comment (d, ch) (fst s), snd s)
  | NLink l _ ch => (fold_left map_link_child ch (fst s), insert_link l (snd s))
  | _ => s
  end.
Definition map_paragraph (ch : list node) (s : comment_map * link_map) : comment_map * link_map :=
  fold_left map_child ch s.

(** [push_comment_and_comment_extended], mod.rs:2267-2290 *)
Record found := { f_comments : list comment; f_ext : list comment_ext; f_links : link_map }.
Definition push_comment (m : comment_map) (c : comment) (s : found) : found :=
  fold_left (fun s id =>
    {| f_comments := f_comments s ++ [c];
       f_ext := match cd_parent (fst c) with
                | None => f_ext s ++ [{| ce_para := id; ce_done := false; ce_parent := None |}]
                | Some q =>
                    match map_get q m with
                    | Some pid => f_ext s ++ [{| ce_para := id; ce_done := false; ce_parent := Some pid |}]
                    | None => f_ext s
                    end
                end;
       f_links := f_links s |}) (para_ids_of c) s.
(** [collect_dependencies_in_paragraph], mod.rs:1268-1290 (inline in 1016-1034,
    1046-1073, 1085-1112) *)
Definition dep_child (m : comment_map) (s : found) (c : node) : found :=
  match c with
  | NCommentStart d ch => push_comment m (d, ch) s
  | NLink l _ ch =>
      fold_left (fun s c => match c with NCommentStart d ch => push_comment m (d, ch) s | _ => s end) ch
        {| f_comments := f_comments s; f_ext := f_ext s; f_links := insert_link l (f_links s) |}
  | _ => s
  end.
Definition dep_paragraph (m : comment_map) (ch : list node) (s : found) : found := fold_left (dep_child m) ch s.

(** The fields [update_dependencies] writes: [comments], [comments_extended],
    [document_rels.has_comments] and [document_rels.hyperlinks]. *)
Record deps := {
  dp_comments : list comment; dp_ext : list comment_ext; dp_has_comments : bool;
  dp_links : list (string * string * string) }.
Definition external (l : link_map) : list (string * string * string) :=
  map (fun kv => (fst kv, snd kv, "External")) l.
(** [update_dependencies], mod.rs:937-1149 *)
Definition update_dependencies (body : list node) (old : deps) : deps :=
  match walk_body map_paragraph body ([], []) with
  | ([], links) =>
      {| dp_comments := dp_comments old; dp_ext := dp_ext old; dp_has_comments := dp_has_comments old;
         dp_links := dp_links old ++ external links |}
  | (m, links) =>
      let s := walk_body (dep_paragraph m) body {| f_comments := []; f_ext := []; f_links := links |} in
      {| dp_comments := f_comments s; dp_ext := f_ext s;
         dp_has_comments := match f_comments s with [] => dp_has_comments old | _ => true end;
         dp_links := dp_links old ++ external (f_links s) |}
  end.

(** ** Reading *)

(** Last element of a list satisfying a test: a [HashMap] filled in a loop. *)
Fixpoint last_such {A B} (f : A -> option B) (l : list A) : option B :=
  match l with
  | [] => None
  | x :: r => match last_such f r with Some y => Some y | None => f x end
  end.
Fixpoint first_some {A B} (f : A -> option B) (l : list A) : option B :=
  match l with [] => None | x :: r => match f x with Some y => Some y | None => first_some f r end end.

Definition set_parent (p : option N) (c : comment) : comment :=
  ({| cd_id := cd_id (fst c); cd_author := cd_author (fst c); cd_date := cd_date (fst c); cd_parent := p |}, snd c).

(** read_docx.rs:179-185: [comment_id_by_paragraph] *)
Definition comment_of_para (l : list comment) (pid : string) : option N :=
  last_such (fun cp => if snd cp =s pid then Some (fst cp) else None)
    (flat_map (fun c => map (fun id => (cd_id (fst c), id)) (para_ids_of c)) l).
(** 187-196: [parent_paragraph_by_paragraph] *)
Definition parent_of_para (ext : list comment_ext) (pid : string) : option string :=
  last_such (fun e => if ce_para e =s pid then ce_parent e else None) ext.
(** read_docx.rs:177-213: threads of comments in an archive *)
Definition thread_comments (ext : list comment_ext) (l : list comment) : list comment :=
  match ext with
  | [] => l
  | _ => map (fun c => set_parent
                (first_some (fun pid => match parent_of_para ext pid with
                                        | Some q => comment_of_para l q
                                        | None => None
                                        end) (para_ids_of c)) c) l
  end.

(** read_xml.rs:81-111: threads of comments in a flat XML package *)
Definition thread_flat (ext : list comment_ext) (l : list comment) : list comment :=
  map (fun c =>
    match find (fun e => existsb (fun id => ce_para e =s id) (para_ids_of c)) ext with
    | Some {| ce_parent := Some q |} =>
        match find (fun c => existsb (fun id => id =s q) (para_ids_of c)) l with
        | Some p => set_parent (Some (cd_id (fst p))) c
        | None => c
        end
    | _ => c
    end) l.

(** [store_comments], mod.rs:1153-1215: the texts of comments are put into the
    range starts.  [comments_by_id] keeps the last comment with an id. *)
Definition comment_by_id (l : list comment) (id : N) : option comment :=
  last_such (fun c => if N.eqb (cd_id (fst c)) id then Some c else None) l.
Definition store_start (l : list comment) (n : node) : node :=
  match n with
  | NCommentStart d ch => match comment_by_id l (cd_id d) with Some c => NCommentStart (fst c) (snd c) | None => n end
  | _ => n
  end.
(** children of a paragraph at the top of the body, 1163-1201 *)
Definition store_top_child (l : list comment) (n : node) : node :=
  match n with
  | NIns a ch => NIns a (map (fun c => match c with
                                       | NDel b dl => NDel b (map (store_start l) dl)
                                       | _ => store_start l c
                                       end) ch)
  | NDel a ch => NDel a (map (store_start l) ch)
  | _ => store_start l n
  end.
(** [store_comments_in_paragraph], mod.rs:1485-1520 *)
Definition store_child (l : list comment) (n : node) : node :=
  match n with
  | NIns a ch => NIns a (map (store_start l) ch)
  | NDel a ch => NDel a (map (store_start l) ch)
  | _ => store_start l n
  end.
(** [store_comments_in_table], mod.rs:1522-1567 *)
Fixpoint store_block (l : list comment) (n : node) : node :=
  match n with
  | NPara id p nb ch => NPara id p nb (map (store_child l) ch)
  | NTable p g nb rows => NTable p g nb (map (store_block l) rows)
  | NRow p nb cells => NRow p nb (map (store_block l) cells)
  | NCell p nb ch => NCell p nb (map (store_block l) ch)
  | NSdt p nb ch => NSdt p nb (map (fun c => if block_walks c then store_block l c else c) ch)
  | NToc d b a =>
      NToc d (map (fun c => if block_walks c then store_block l c else c) b)
             (map (fun c => if block_walks c then store_block l c else c) a)
  | _ => n
  end.
Definition store_comments (l : list comment) (body : list node) : list node :=
  map (fun c => match c with
                | NPara id p nb ch => NPara id p nb (map (store_top_child l) ch)
                | NTable _ _ _ _ => store_block l c
                | _ => c
                end) body.

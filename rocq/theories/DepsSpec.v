(** Which comments and hyperlinks a document holds, and which the collector sees. *)
From Coq Require Import NArith List Bool.
From Verif Require Import Str Props Ast.
Import ListNotations.

Notation comment := (comment_data * list node)%type.

(** ** Everything in the tree, wherever it is *)
Definition comment_at (n : node) : list comment :=
  match n with NCommentStart d ch => [(d, ch)] | _ => [] end.
Definition link_at (n : node) : list (string * string) :=
  match n with NLink (External rid path) _ _ => [(rid, path)] | _ => [] end.
Definition all_of {X} (at_ : node -> list X) (l : list node) : list X := flat_map at_ (flat_map all_nodes l).

(** ** What is seen: in paragraphs of the body, of table cells (also inside one
    content control there) and before or after a table of contents; there, comments
    directly in the paragraph or in one of its hyperlinks, and links directly in it. *)
Definition block (n : node) : bool := match n with NPara _ _ _ _ | NTable _ _ _ _ => true | _ => false end.
Fixpoint paras_below (n : node) : list node :=
  match n with
  | NPara _ _ _ _ => [n]
  | NTable _ _ _ ch | NRow _ _ ch | NCell _ _ ch => flat_map paras_below ch
  | NSdt _ _ ch => flat_map (fun c => if block c then paras_below c else []) ch
  | NToc _ b a =>
      flat_map (fun c => if block c then paras_below c else []) b ++ flat_map (fun c => if block c then paras_below c else []) a
  | _ => []
  end.
Definition seen_paras (body : list node) : list node :=
  flat_map (fun n => match n with NPara _ _ _ _ | NTable _ _ _ _ | NToc _ _ _ => paras_below n | _ => [] end) body.
Definition comments_in (p : node) : list comment :=
  flat_map (fun n => match n with NLink _ _ ch => flat_map comment_at ch | _ => comment_at n end) (children p).
Definition links_in (p : node) : list (string * string) := flat_map link_at (children p).
Definition seen_comments (body : list node) : list comment := flat_map comments_in (seen_paras body).
Definition seen_links (body : list node) : list (string * string) := flat_map links_in (seen_paras body).

(** ** Bodies that hold comments (links) only where a paragraph, a table or a table
    of contents holds them. *)
Definition transparent (n : node) : bool :=
  match n with NPara _ _ _ _ | NTable _ _ _ _ | NRow _ _ _ | NCell _ _ _ | NToc _ _ _ => true | _ => false end.
Definition none_below {X} (at_ : node -> list X) (n : node) : Prop := all_of at_ (children n) = [].
Definition comments_plain (body : list node) : Prop :=
  Forall (fun n => comment_at n = []) body /\
  Forall (fun n => match n with
                   | NLink _ _ ch => Forall (none_below comment_at) ch
                   | _ => transparent n = true \/ none_below comment_at n
                   end) (flat_map all_nodes body).
Definition links_plain (body : list node) : Prop :=
  Forall (fun n => transparent n = true \/ none_below link_at n) (flat_map all_nodes body).

(** ** Comments and their paragraphs *)
Definition paras_of_comment (c : comment) : list string :=
  flat_map (fun n => match n with NPara id _ _ _ => [id] | _ => [] end) (snd c).
Definition comment_ids (l : list comment) : list N := map (fun c => cd_id (fst c)) l.
(** Id of the last paragraph of the last comment in [l] with id [q]. *)
Definition last_para (l : list comment) (q : N) : option string :=
  match rev (flat_map (fun c => if N.eqb (cd_id (fst c)) q then paras_of_comment c else []) l) with
  | [] => None
  | x :: _ => Some x
  end.
(** The usual comment: one paragraph. *)
Definition single (c : comment) : Prop := exists id p nb ch, snd c = [NPara id p nb ch].
Definition para_id (c : comment) : string := match paras_of_comment c with id :: _ => id | [] => "" end.

(** ** Threads: paragraph marks (paragraph id, id of the paragraph replied to). *)
Definition replies_to (marks : list (string * option string)) (l : list comment) (c : comment) (q : N) : Prop :=
  exists pid x p, In pid (paras_of_comment c) /\ In (pid, Some x) marks /\
    In p l /\ In x (paras_of_comment p) /\ cd_id (fst p) = q.
(** The comment apart from its parent. *)
Definition apart_from_parent (c : comment) := (cd_id (fst c), cd_author (fst c), cd_date (fst c), snd c).

(** ** Bodies of paragraphs and tables whose hyperlinks hold no comment *)
Definition stored_plain (body : list node) : Prop :=
  Forall (fun n => match n with NToc _ _ _ => False | _ => True end) body /\
  Forall (fun n => match n with NLink _ _ ch => flat_map comment_at ch = [] | _ => True end) (flat_map all_nodes body).
(** The comment with the id of [c] in a list without repeated ids, [c] itself if
    there is none. *)
Definition text_for (l : list comment) (c : comment) : comment :=
  match find (fun x => N.eqb (cd_id (fst x)) (cd_id (fst c))) l with Some x => x | None => c end.

(** Theorems about the types of the JSON (C75). *)
From Coq Require Import NArith ZArith List Bool.
From Verif Require Import Str StrFacts TypesModel Props Ast SetterModel JsonModel JsonSpec JsonText TsSpec TsProofs.
From Verif Require RoundProperties JsonProperties.
Import ListNotations.
Open Scope list_scope.

(** The JSON of every document, of whatever size and depth, has the type declared for it if
    the document has only kinds of children and of values that are declared.  If members that may
    be [null] may be missing as well ([strict = false]) this is all that is asked for; to the letter
    ([strict = true]) heights of rows and what frames and positions say have to be given too. *)
Theorem document_json_has_declared_type : forall strict body sp parts nb,
  forallb (as_declared strict AtDocument) body = true -> sectpr_ok strict sp = true -> forallb (part_as_declared strict) parts = true ->
  exists v, json_of (pretty 0 (j_document body sp parts nb)) = Some v /\ has_type strict v (TRef "DocumentJSON").
Proof. intros. eexists. split; [apply text_back|]. now apply document_typed. Qed.
(** So has the JSON of its comments (docx-wasm/js/json/index.ts:43-45). *)
Theorem comments_json_has_declared_type : forall strict l,
  forallb (fun n => match n with NCommentStart _ _ => as_declared strict AtPara n | _ => false end) l = true ->
  exists v, json_of (pretty 0 (j_comments l)) = Some v /\ has_type strict v (TObj [req "comments" (TArr (TRef "CommentJSON"))]).
Proof.
  intros strict l H. eexists. split; [apply text_back|]. apply comments_typed. rewrite <- H. clear H. induction l as [|n l IH]; [reflexivity|].
  cbn [forallb]. rewrite IH. f_equal. now destruct n.
Qed.

(** No picture has the type of a drawing: its image is declared a string and is a list of
    bytes, or missing. *)
Theorem picture_json_declared_refuted : forall strict p, ~ has_type strict (j_node (NPic p)) (TRef "DrawingJSON").
Proof. exact pic_not_typed. Qed.
(** Moves, tags and page numbers in paragraphs are not declared. *)
Theorem paragraph_children_declared_refuted : forall strict n,
  match n with NMoveFrom _ _ | NMoveTo _ _ | NSdt _ _ _ | NPageNum | NNumPages => True | _ => False end ->
  ~ has_type strict (j_node n) (TRef "ParagraphChildJSON").
Proof. intros strict n H. apply undeclared_not_typed. destruct n; try destruct H; reflexivity. Qed.
(** To the letter no row without a height has its type. *)
Theorem row_json_declared_refuted : forall p ch, tr_height p = None -> ~ has_type true (j_node (NRow p false ch)) (TRef "TableRowJSON").
Proof. exact row_not_typed. Qed.

(** ** Documents that meet the hypotheses *)
Example sample_declared : forallb (as_declared false AtDocument) RoundProperties.sample = true /\ forallb (part_as_declared true) JsonProperties.headed = true.
Proof. vm_compute. now split. Qed.
Example sample_not_strict : forallb (as_declared true AtDocument) RoundProperties.sample = false.
Proof. vm_compute. reflexivity. Qed.
Definition tall : trpr :=
  {| tr_grid_after := None; tr_width_after := None; tr_grid_before := Some 1%N; tr_width_before := None; tr_height := Some 20%N;
     tr_rule := Some HeightRule_Exact; tr_del := None; tr_ins := None; tr_cant_split := true |}.
Definition strict_sample : list node :=
  [ NPara "0000000A" ppr_empty false [NRun rpr_empty [NTab; NTextBox [NPara "0000000B" ppr_empty false []]]; NLink (External "rId1" "http://a") None [NRun rpr_empty []]];
    NTable RoundProperties.tp0 [2000%N] false [NRow tall false [NCell tcpr_empty false []]] ].
Example strict_declared : forallb (as_declared true AtDocument) strict_sample = true /\ sectpr_ok true sectpr_default = true.
Proof. vm_compute. now split. Qed.
(** Types say something: a number is not a text, and the text of a run needs its kind. *)
Example types_differ : ~ has_type false (JNum 1) TStr /\ ~ has_type false (obj [has "type" (JStr "texts"); has "data" JNull]) (TRef "TextJSON").
Proof.
  split; intros H; [inversion H|]. apply ref_inv in H. destruct H as (t & E & H). vm_compute in E. injection E as <-.
  eapply (obj_inv _ _ _ "type") in H; [|left; reflexivity]. cbn in H. inversion H.
Qed.

Definition all_proved :=
  conj document_json_has_declared_type (conj comments_json_has_declared_type (conj picture_json_declared_refuted
  (conj paragraph_children_declared_refuted row_json_declared_refuted))).
Print Assumptions all_proved.

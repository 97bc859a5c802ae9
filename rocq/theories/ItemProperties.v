(** C68: what is kept of the XML text of a custom item, and what stands in its file. *)
From Coq Require Import NArith List Bool.
From Verif Require Import Str XmlParser XmlSpec ReadSpec PackModel RenderModel OpenSpec ItemModel ItemSpec ItemProofs ItemArchive.
From Verif Require PackProperties OpenProperties.
Import PackProperties (para_, text_).
Import OpenProperties (k_of, c_of, written, is_saved, rest_).
Import ListNotations.
Open Scope list_scope.

(** A text is kept if and only if a reader reports elements, all closed, with nothing but
    white space outside of them; names, attributes and elements are kept, and of the texts
    of an element the last one, trimmed. *)
Theorem item_is_kept : forall s v, keep s = Kept v <->
  exists l, Forall no_text l /\ answers s (flat_map told l) /\ v = flat_map kept_of l.
Proof. exact keep_iff. Qed.
(** Otherwise adding it panics: with a parse error if the reader reports one, and else
    because it is not a document. *)
Theorem item_is_not_kept : forall s, (keep s = Panicked <-> exists n, nth_request n (reader_of s) = EErr) /\ keep s <> OutOfFuel /\
  forall id, item_call id s = None <-> keep s = Panicked \/ keep s = Refused.
Proof.
  intros s. split; [apply keep_panics|]. split; [apply keep_ends|]. intros id. unfold item_call. pose proof (keep_ends s).
  destruct (keep s); split; try congruence; auto; intros [X|X]; discriminate.
Qed.
(** Trimming removes white space at both ends, and all of it. *)
Theorem item_text_is_trimmed : forall s, trimmed (trim s) /\ exists a b, all_white a /\ all_white b /\ s = a +++ trim s +++ b.
Proof. exact trim_spec. Qed.

(** If no value and no text needs escaping, the stored text says what was kept, and is kept
    as the same again. *)
Theorem stored_item_is_kept : forall v, Forall plain_item v ->
  answers (show_items v) (flat_map told (map as_node v)) /\ keep (show_items v) = Kept v.
Proof. intros v H. split; [now apply stored_answers | now apply stored_again]. Qed.
(** An item of elements with at most one text each, before their elements, and with no
    white space around it, is stored unchanged. *)
Theorem plain_item_is_unchanged : forall s v, Forall plain_item v -> answers s (flat_map told (map as_node v)) ->
  keep s = Kept v /\ answers (show_items v) (flat_map told (map as_node v)).
Proof. exact unchanged. Qed.
(** The file of the [i]-th item of a saved archive is the stored text, whatever the other
    calls were. *)
Theorem item_file_is : forall l o k c es i id x, saved l o k c es -> nth_error (items_of l) i = Some (id, x) ->
  In (File (nth_name "customXml/item" i ".xml") x) es.
Proof. exact item_stored. Qed.
Theorem item_file_says : forall l o k c es i id s v, saved l o k c es -> Forall plain_item v -> keep s = Kept v ->
  nth_error (items_of l) i = Some (id, show_items v) ->
  exists t, In (File (nth_name "customXml/item" i ".xml") t) es /\ answers t (flat_map told (map as_node v)) /\ keep t = Kept v.
Proof. exact item_comes_back. Qed.

(** ** A case *)
Definition s_given : string :=
  "<?xml version=""1.0""?><a:root xmlns:a=""urn:x"" k=""1 &gt; 0""> one <b/>" +++ "<c d='e'><![CDATA[two]]></c> </a:root>".
Definition v_kept : list xdata :=
  [XData "a:root" [("xmlns:a", "urn:x"); ("k", "1 > 0")] (Some "one") [XData "b" [] None []; XData "c" [("d", "e")] (Some "two") []]]%string.
Example kept_here : keep s_given = Kept v_kept.
Proof. vm_compute. reflexivity. Qed.
Example shown_here : show_items v_kept =
  ("<a:root xmlns:a=""urn:x"" k=""1 > 0"">one<b></b><c d=""e"">two</c></a:root>")%string.
Proof. vm_compute. reflexivity. Qed.
(** A decision of [plain_item] for the examples. *)
Fixpoint ends_in_first_colon (n : string) : bool :=
  match n with
  | EmptyString => false
  | String c EmptyString => c =c ":"%char
  | String c r => negb (c =c ":"%char) && ends_in_first_colon r
  end.
Lemma local_part_by n : ends_in_first_colon n = false -> local_part n.
Proof.
  intros H p E. revert n H E. induction p as [|c p IH]; intros n H ->; [discriminate|]. cbn [String.append ends_in_first_colon has_char] in *.
  destruct (p +++ ":") as [|d r] eqn:Q; [destruct p; discriminate|]. destruct (c =c ":"%char); [reflexivity|]. cbn [negb andb orb] in *. exact (IH _ H eq_refl).
Qed.
Lemma trimmed_by t : trim t = t -> trimmed t.
Proof. intros <-. apply trim_spec. Qed.
Lemma plain_none : forall t, @None string = Some t -> t <> ""%string /\ trimmed t /\ all_char plain_text_char t = true.
Proof. discriminate. Qed.
Lemma plain_some u : u <> ""%string -> trim u = u -> all_char plain_text_char u = true ->
  forall t, Some u = Some t -> t <> ""%string /\ trimmed t /\ all_char plain_text_char t = true.
Proof. intros A B C t X. injection X as <-. split; [exact A|]. split; [now apply trimmed_by | exact C]. Qed.
Ltac plain_text := (exact plain_none) || (apply plain_some; [discriminate | vm_compute; reflexivity | reflexivity]).
Ltac plain_one :=
  constructor; [reflexivity | apply local_part_by; reflexivity
    | repeat (constructor; [split; [reflexivity | split; [apply local_part_by; reflexivity | reflexivity]]|]); constructor
    | plain_text
    | repeat (constructor; [plain_one|]); constructor].
Example plain_here : Forall plain_item v_kept.
Proof. constructor; [plain_one | constructor]. Qed.
Definition l_sample : list api := [ABlock (para_ [Ast.NRun Props.rpr_empty [Ast.NText "a"]]); ACustom "ID1" "<x/>"; ACustom "ID2" (show_items v_kept)].
Definition o_sample : rest := rest_ (OpenProperties.e_of l_sample).
Example saved_here : saved l_sample o_sample (k_of l_sample) (c_of l_sample) (written l_sample o_sample) /\
  nth_error (items_of l_sample) 1 = Some ("ID2"%string, show_items v_kept) /\ item_call "ID2" s_given = Some (ACustom "ID2" (show_items v_kept)).
Proof.
  split; [apply is_saved; [PackProperties.typed | vm_compute; reflexivity | vm_compute; reflexivity | reflexivity]|]. split; [reflexivity|].
  unfold item_call. now rewrite kept_here.
Qed.

(** ** What is lost, and what breaks *)
(** References are resolved when the text is read and not written again: the file of an
    item with an ampersand is not XML. *)
Theorem ampersand_in_item_refuted : exists s v, keep s = Kept v /\ s = "<a>R&amp;D</a>"%string /\
  ~ complete_text (show_items v) /\ keep (show_items v) = Panicked.
Proof.
  exists "<a>R&amp;D</a>"%string, [XData "a" [] (Some "R&D"%string) []]. split; [vm_compute; reflexivity|]. split; [reflexivity|].
  split; [|vm_compute; reflexivity]. intros [C _]. apply (C 1). vm_compute. reflexivity.
Qed.
(** An escaped tag in a text becomes an element. *)
Theorem escaped_tag_refuted : exists s v w, s = "<a>&lt;b/&gt;</a>"%string /\ keep s = Kept v /\ keep (show_items v) = Kept w /\
  v = [XData "a" [] (Some "<b/>"%string) []] /\ w = [XData "a" [] None [XData "b" [] None []]].
Proof. do 3 eexists. repeat split; vm_compute; reflexivity. Qed.
(** Text after an element is moved before it, and the text it follows is lost. *)
Theorem mixed_content_refuted : exists s v, s = "<p>Dear <b>you</b>, hello</p>"%string /\ keep s = Kept v /\
  show_items v = "<p>, hello<b>you</b></p>"%string.
Proof. do 2 eexists. repeat split; vm_compute; reflexivity. Qed.
(** A text outside of the elements makes the call panic; two root elements do not. *)
Theorem not_one_root_refuted : keep "<a/>x" = Refused /\ keep "<a/><b/>" = Kept [XData "a" [] None []; XData "b" [] None []] /\ keep "<a>" = Refused /\ keep "<a></b>" = Panicked.
Proof. repeat split; vm_compute; reflexivity. Qed.

Definition all_proved := conj item_is_kept (conj item_is_not_kept (conj item_text_is_trimmed (conj stored_item_is_kept (conj plain_item_is_unchanged
  (conj item_file_is (conj item_file_says (conj ampersand_in_item_refuted (conj escaped_tag_refuted (conj mixed_content_refuted not_one_root_refuted))))))))).
Print Assumptions all_proved.

(** C71: what the file of a web extension says.
    [made id reference version store store_type ps]: [WebExtension::new] with the calls of
    [property] in order.  [attributes_of]: the attributes of the elements of a name, as
    an XML reader finds them.  [literal]: between quotes, each quote with a backslash
    (WebSpec.v). *)
From Coq Require Import NArith List Bool.
From Verif Require Import Str EscapeModel EscapeSpec XmlTree XmlParser XmlProofs XmlSpec ReadBase PackModel RenderModel WellSpec RoundSpec OpenSpec WebSpec WebProofs.
From Verif Require BuildModel PackProperties OpenProperties RenderProperties.
Import BuildModel (part_calls).
Import ListNotations.
Open Scope list_scope.

(** The file has the id in braces, the reference as given, and the properties in the order
    of the calls, each with its name and its value as a literal in which carriage returns
    are dropped and tabs are blanks. *)
Theorem web_extension_says : forall i r v s st ps, Forall readable (map Value ([i; r; v; s; st] ++ map fst ps)) ->
  let found := events_of (text_of (part_calls (x_web (made i r v s st ps)))) in
  attributes_of "property" found =
    map (fun p => [(split_qname "name", seen (fst p)); (split_qname "value", literal (tabs_as_blanks (without_cr (snd p))))]) ps /\
  attributes_of "reference" found = [[(split_qname "id", seen r); (split_qname "version", seen v); (split_qname "store", seen s); (split_qname "storeType", seen st)]] /\
  map (attr_get "id") (attributes_of "webextension" found) = [Some (seen ("{" +++ i +++ "}"))].
Proof. exact web_says. Qed.
(** It is in the archive of every document the extension was added to, if the document has
    task panes. *)
Theorem web_extension_is_in_the_archive : forall l o k c es e, saved l o k c es -> In e (k_web k) -> k_taskpanes k = true ->
  exists n, In (File n (text_of (part_calls (x_web (o_web o e))))) es.
Proof. exact web_file. Qed.
(** A JSON reader gets the value that was given exactly if it has no backslash and no control
    character. *)
Theorem web_property_value_iff : forall v,
  json_string (literal (tabs_as_blanks (without_cr v))) = Some v <-> any_char control v = false /\ has_char "092" v = false.
Proof. exact json_iff. Qed.
(** Otherwise it gets another value or none. *)
Theorem web_property_value_refuted : ~ forall v, json_string (literal (tabs_as_blanks (without_cr v))) = Some v.
Proof. intros H. specialize (H "C:\new"%string). discriminate H. Qed.

(** ** Cases *)
Definition given : list (string * string) := [("key", "say ""hi"" & <bye>"); ("k&amp;2", "")]%string.
Definition file_of_given : string := text_of (part_calls (x_web (made "7f33" "nice" "1.0" "developer" "catalog" given))).
Example given_readable : Forall readable (map Value (["7f33"; "nice"; "1.0"; "developer"; "catalog"]%string ++ map fst given)).
Proof. repeat constructor; eexists; vm_compute; reflexivity. Qed.
Example given_found : map (fun a => (attr_get "name" a, option_map json_string (attr_get "value" a))) (attributes_of "property" (events_of file_of_given)) =
  [(Some "key", Some (Some "say ""hi"" & <bye>")); (Some "k&2", Some (Some ""))]%string.
Proof. vm_compute. reflexivity. Qed.
Example backslash_found : map json_string [literal "C:\new"; literal "end\"; literal "\\"]%string =
  [Some ("C:" +++ String "010" "ew"); None; Some "\"]%string.
Proof. vm_compute. reflexivity. Qed.
Definition with_extension : list api := [ATaskpanes; AWeb "e"%string; ABlock (PackProperties.text_ "x")].
Definition its_rest : rest := {| o_core := o_core OpenProperties.plain_rest; o_custom := o_custom OpenProperties.plain_rest; o_styles := o_styles OpenProperties.plain_rest;
  o_settings := o_settings OpenProperties.plain_rest; o_numberings := o_numberings OpenProperties.plain_rest; o_ext := OpenProperties.e_of with_extension;
  o_web := fun e => made e "nice" "1.0" "developer" "catalog" given |}.
Example extension_saved : let k := OpenProperties.k_of with_extension in
  saved with_extension its_rest k (OpenProperties.c_of with_extension) (OpenProperties.written with_extension its_rest) /\ In "e"%string (k_web k) /\ k_taskpanes k = true.
Proof.
  split; [apply OpenProperties.is_saved; [PackProperties.typed|vm_compute; reflexivity|vm_compute; reflexivity|reflexivity]|]. split; [vm_compute; tauto|vm_compute; reflexivity].
Qed.
Definition all_proved := conj web_extension_says (conj web_extension_is_in_the_archive (conj web_property_value_iff (conj web_property_value_refuted (conj given_readable (conj given_found (conj backslash_found extension_saved)))))).
Print Assumptions all_proved.

(** C67: every file of a saved archive is well-formed XML, but for the bytes of pictures
    and for custom items, which are stored as they are kept. *)
From Coq Require Import NArith ZArith List Bool Lia.
From Verif Require Import Str TypesModel Props Ast TreeModel DepsModel XmlParser XmlSpec ReadSpec PackModel StyleModel StyleSpec RenderModel WellSpec RestSpec OpenSpec WholeSpec WholeProofs.
From Verif Require WellPartProofs PackProperties OpenProperties RenderProperties.
Import PackProperties (para_, text_, pic_, head_).
Import OpenProperties (k_of, c_of, e_of, written, is_saved, rest_).
Import ListNotations.
Open Scope list_scope.

(** If the strings that were given are legal XML where they stand, every file is the text
    of a well-formed element. *)
Theorem every_file_is_xml : forall l o k c es, saved l o k c es -> Forall legal (given k o c) ->
  forall n t, In (File n t) es -> media_file c n t \/ item_file k n t \/ is_xml t.
Proof. exact files_are_xml. Qed.
(** If the XML reader can read them where they stand, it reads every file to its end
    without an error, and with all elements closed. *)
Theorem every_file_can_be_read : forall l o k c es, saved l o k c es -> Forall readable (given k o c) ->
  forall n t, In (File n t) es -> media_file c n t \/ item_file k n t \/ complete_text t.
Proof. exact files_complete. Qed.

(** ** A document with all kinds of files *)
Definition sample : list api :=
  [APart HDefault (head_ "h"); APart FFirst (false, [para_ [NRun rpr_empty [pic_ "p1" "other bytes"]]]); ATaskpanes; AWeb "e"; ACustom "ID" "<x/>";
   ABlock (para_ [NRun rpr_empty [pic_ "p2" "bytes"; NText "a &lt; b"]; NLink (External "rIdHyperlink1" "http://a?b&amp;c") None [NRun rpr_empty [NText "link"]]])]%string.
Definition titled (t : string) (w : web_ext) : rest := let r := rest_ (e_of sample) in {|
  o_core := {| co_created := None; co_creator := Some "someone"%string; co_description := None; co_language := None; co_modified_by := None; co_modified := None;
    co_revision := Some 3%N; co_subject := None; co_title := Some t |};
  o_custom := o_custom r; o_styles := o_styles r; o_settings := o_settings r; o_numberings := o_numberings r; o_ext := o_ext r; o_web := fun _ => w |}.
Definition extension : web_ext := web_property "key" "say ""hi"" & <bye>" (web_new "7f33b723-fb58-4524-8733-dbedc4b7c095" "nice" "1.0" "developer" "uploadfiledevcatalog").
Definition rest0 : rest := titled "Tom &amp; Jerry" extension.
Example sample_meets : saved sample rest0 (k_of sample) (c_of sample) (written sample rest0) /\
  Forall legal (given (k_of sample) rest0 (c_of sample)) /\ Forall readable (given (k_of sample) rest0 (c_of sample)).
Proof.
  split; [apply is_saved; [PackProperties.typed | vm_compute; reflexivity | vm_compute; reflexivity | reflexivity]|].
  split; [apply WellPartProofs.all_legal | apply WellPartProofs.all_readable]; vm_compute; reflexivity.
Qed.
Example sample_files : length (written sample rest0) = 33.
Proof. vm_compute. reflexivity. Qed.

(** ** What the hypothesis is for *)
(** A title with an ampersand, which is stored as it is, makes a part that is not XML. *)
Definition not_complete (t : string) : Prop := exists n, nth_request n (reader_of t) = EErr.
Lemma not_complete_text t : not_complete t -> ~ complete_text t.
Proof. intros (n & H) [C _]. now apply (C n). Qed.
Theorem ampersand_in_title_refuted : exists l o k c es t, saved l o k c es /\ co_title (o_core o) = Some "Tom & Jerry"%string /\
  In (File "docProps/core.xml" t) es /\ ~ complete_text t.
Proof.
  set (o := titled "Tom & Jerry" extension). exists sample, o, (k_of sample), (c_of sample), (written sample o).
  eexists. split; [apply is_saved; [PackProperties.typed | vm_compute; reflexivity | vm_compute; reflexivity | reflexivity]|]. split; [reflexivity|].
  split; [vm_compute; do 7 right; left; reflexivity|]. apply not_complete_text. exists 17. vm_compute. reflexivity.
Qed.

Definition all_proved := conj every_file_is_xml (conj every_file_can_be_read ampersand_in_title_refuted).
Print Assumptions all_proved.

(** The readers of styles, numberings and settings have the shape of readers. *)
From Coq Require Import NArith ZArith List Bool.
From Verif Require Import Str TypesModel Props XmlParser ReadBase ReadProps ReadModel ReadProg StyleRead.
Import ListNotations.

Lemma reader_style atts : Reader "style" (fun s => read_style s atts).
Proof.
  unfold read_style. refine (reader_pure_then _ _ _ _ (fun s => _) _ _); [pure_auto | intros h]. reader_tac.
Qed.
Lemma reader_doc_defaults : Reader "docDefaults" read_doc_defaults.
Proof. unfold read_doc_defaults. reader_tac. Qed.
Global Hint Resolve reader_style reader_doc_defaults : reader.
Lemma reader_styles : Reader "styles" read_styles_with.
Proof. unfold read_styles_with. reader_tac. Qed.
Lemma pure_number_attr n atts : pure (read_number_attr n atts).
Proof. unfold read_number_attr. pure_auto. Qed.
Global Hint Resolve pure_number_attr : reader.
Lemma reader_level atts : Reader "lvl" (fun s => read_level s atts).
Proof.
  unfold read_level. refine (reader_pure_then _ _ _ _ (fun s => _) _ _); [apply pure_number_attr | intros h]. reader_tac.
Qed.
Global Hint Resolve reader_level : reader.
Lemma reader_override atts : Reader "lvlOverride" (fun s => read_override s atts).
Proof.
  unfold read_override. refine (reader_pure_then _ _ _ _ (fun s => _) _ _); [pure_auto | intros v].
  refine (reader_pure_then _ _ _ _ (fun s => _) _ _); [pure_auto | intros i]. reader_tac.
Qed.
Global Hint Resolve reader_override : reader.
Lemma reader_lax own A B (start : subs -> A -> qname -> list attribute -> R A) (fin : A -> B) a0 :
  (forall a q atts, Prog (q_local q) (fun s => start s a q atts)) ->
  Reader own (fun s => element_lax own (start s) fin a0).
Proof.
  intros H. unfold element_lax.
  eapply (reader_loop own A B
    (fun s a e => match e with
                  | EStart q atts => bind (start s a q atts) (fun a' => ret (Again a'))
                  | EEnd q => ret (if q_local q =s own then Done (fin a) else Again a)
                  | _ => ret (Again a)
                  end) a0
    (fun a q atts s => start s a q atts) (fun _ _ _ => None) fin (fun a _ => a) false); cbn; auto.
  intros. congruence.
Qed.
Lemma reader_abstract atts : Reader "abstractNum" (fun s => read_abstract s atts).
Proof.
  unfold read_abstract. refine (reader_pure_then _ _ _ _ (fun s => _) _ _); [apply pure_number_attr | intros i].
  refine (reader_lax _ _ _ (fun s => _) _ _ _). intros. prog_tac.
Qed.
Lemma reader_num atts : Reader "num" (fun s => read_num s atts).
Proof.
  unfold read_num. refine (reader_pure_then _ _ _ _ (fun s => _) _ _); [apply pure_number_attr | intros i].
  refine (reader_lax _ _ _ (fun s => _) _ _ _). intros. prog_tac.
Qed.
Global Hint Resolve reader_abstract reader_num : reader.
Lemma prog_numberings a q atts : Prog (q_local q) (fun s => numberings_start s a q atts).
Proof. unfold numberings_start. prog_tac. Qed.

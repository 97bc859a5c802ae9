(** Property C42. *)
From Verif Require Import Str ZipNameModel ZipNameSpec ZipNameProofs.

(** An entry stored under a canonical name is found under every spelling of it,
    and its bytes are returned without a leading byte order mark. *)
Theorem every_spelling_finds_the_entry : forall a m n d,
  canonical n -> spells m n -> NoDup (map fst a) -> In (n, d) a -> read_zip a m = Some (without_bom d).
Proof. exact read_zip_found. Qed.
Print Assumptions every_spelling_finds_the_entry.

(** Whatever is found is an entry stored under a canonical name spelled by the
    request: no wrong entry is ever returned. *)
Theorem only_spelled_entries_are_found : forall a m d, read_zip a m = Some d ->
  exists n e, In (n, e) a /\ canonical n /\ spells m n /\ d = without_bom e.
Proof. exact read_zip_only_canonical. Qed.
Print Assumptions only_spelled_entries_are_found.

Theorem byte_order_mark_removed : forall d,
  (forall r, d <> bom +++ r) /\ without_bom d = d \/ exists r, d = bom +++ r /\ without_bom d = r.
Proof. exact without_bom_spec. Qed.
Print Assumptions byte_order_mark_removed.

(** Entries stored with backslashes are therefore not found under any request,
    not even under their own name. *)
Theorem backslash_entries_not_found_refuted : exists a n d, In (n, d) a /\ forall m, read_zip a m = None.
Proof.
  exists [("word\document.xml", "x")], "word\document.xml", "x". split; [now left|].
  intro m. destruct (read_zip _ m) eqn:E; [|reflexivity]. exfalso.
  destruct (only_spelled_entries_are_found _ _ _ E) as (n & e & [Hi|[]] & [Hc _] & _).
  injection Hi as <- <-. discriminate Hc.
Qed.
Print Assumptions backslash_entries_not_found_refuted.

Example spelling_case :
  spells "//word\media/a.png" "word/media/a.png" /\ canonical "word/media/a.png"
  /\ read_zip [("word/media/a.png", bom +++ "x"); ("b", "y")] "//word\media/a.png" = Some "x".
Proof.
  split; [|split; [split; [reflexivity|discriminate]|reflexivity]].
  do 2 apply sp_slash. apply sp_same. repeat constructor.
Qed.

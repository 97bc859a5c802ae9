(** Properties C22, C23, C24 at the level of the sequence of pictures of each part. *)
From Verif Require Import Str MediaModel MediaSpec MediaProofs.

(** Whatever the checksum function and whatever ids and bytes the pictures of the
    body, the headers and the footers carry, packaging succeeds, and
    - no two media files have the same name or the same bytes (C23);
    - in each part no two relationships share an id (C24) or a target;
    - for each picture, following its new id leads to its bytes (C22). *)
Theorem pictures_resolve : forall crc body headers footers,
  exists out m, package_media crc body headers footers = Some (out, m)
    /\ NoDup (map fst m) /\ NoDup (map snd m)
    /\ Forall2 (fun pics o => NoDup (map fst (snd o)) /\ NoDup (map snd (snd o))
         /\ Forall2 (fun pic nid => follow (snd o) m nid = Some (snd pic)) pics (fst o))
       (body :: headers ++ footers) out.
Proof. exact package_media_ok. Qed.
Print Assumptions pictures_resolve.

(** The case of colliding ids, colliding checksums and shared bytes. *)
Example pictures_case :
  package_media (fun _ => 7%N) [("a", "X"); ("a", "Y"); ("b", "X"); ("a_2", "Z")] [[("a", "Y")]; []] [[("c", "W"); ("c", "V")]]
  = Some ([(["a"; "a_2"; "a"; "a_2_2"], [("a", "media/a.png"); ("a_2", "media/a_2.png"); ("a_2_2", "media/a_2_2.png")]);
           (["headera"], [("headera", "media/a_2.png")]); ([], []);
           (["footerc"; "footerc_2"], [("footerc", "media/footerc.png"); ("footerc_2", "media/footerc_2.png")])],
          [("a", "X"); ("a_2", "Y"); ("a_2_2", "Z"); ("footerc", "W"); ("footerc_2", "V")]).
Proof. reflexivity. Qed.

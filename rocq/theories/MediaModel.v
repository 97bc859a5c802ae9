(** Package-wide media registry and per-part picture relationships. *)
From Verif Require Import Str.

(** A hash map is modelled as an association list whose first entry for a key counts. *)
Fixpoint get {A} (k : string) (m : list (string * A)) : option A :=
  match m with
  | [] => None
  | (x, v) :: r => if x =s k then Some v else get k r
  end.
Definition put {A} (k : string) (v : A) (m : list (string * A)) : list (string * A) := (k, v) :: m.

Definition fingerprint : Type := N * N.
Definition fp_eqb (a b : fingerprint) : bool := N.eqb (fst a) (fst b) && N.eqb (snd a) (snd b).
Fixpoint get_fp (k : fingerprint) (m : list (fingerprint * list nat)) : option (list nat) :=
  match m with
  | [] => None
  | (x, v) :: r => if fp_eqb x k then Some v else get_fp k r
  end.

(** documents/image_collector.rs 21-26: [MediaRegistry]. *)
Record registry := Registry {
  media : list (string * string);
  media_by_id : list (string * nat);
  by_fingerprint : list (fingerprint * list nat);
  next_suffix : list (string * N) }.

(** [MediaRegistry::default()]. *)
Definition empty_registry : registry := Registry [] [] [] [].

(** image_collector.rs 94, 173: [format!("{preferred_id}_{suffix}")]. *)
Definition suffixed (id : string) (n : N) : string := id +++ "_" +++ show_N n.

(** image_collector.rs 93-101 and 172-180: the [loop] that tries one suffix after
    the other.  [fuel] bounds the number of rounds ([None] when it runs out;
    proved not to happen).  The overflow check of the suffix at 2^64 is not
    modelled: it would need 2^64 entries. *)
Fixpoint search_suffix (fuel : nat) (used : string -> bool) (id : string) (n : N) : option (string * N) :=
  match fuel with
  | O => None
  | S fuel =>
      if used (suffixed id n) then search_suffix fuel used id (n + 1)
      else Some (suffixed id n, (n + 1)%N)
  end.

(** image_collector.rs 83-102 ([unique_media_id]) and 159-181 ([unique_relationship_id]),
    which differ only in the maps they use: the identifier and the new suffix map. *)
Definition unique_id (used : string -> bool) (count : nat) (suffixes : list (string * N)) (id : string)
  : option (string * list (string * N)) :=
  if used id then
    let n := match get id suffixes with Some n => n | None => 2%N end in
    match search_suffix (S count) used id n with
    | Some (c, n') => Some (c, put id n' suffixes)
    | None => None
    end
  else Some (id, suffixes).

Definition known {A} (m : list (string * A)) (k : string) : bool :=
  match get k m with Some _ => true | None => false end.

Definition bytes_at (r : registry) (i : nat) : string :=
  match nth_error (media r) i with Some (_, b) => b | None => EmptyString end.
Definition id_at (r : registry) (i : nat) : string :=
  match nth_error (media r) i with Some (m, _) => m | None => EmptyString end.

Section Crc.
(** The checksum function ([crc32fast::hash]), left arbitrary. *)
Variable crc : string -> N.

(** image_collector.rs 36-66: [MediaRegistry::register]; [None] only if the suffix search
    runs out of fuel. *)
Definition register (r : registry) (preferred : string) (bytes : string) : option (nat * registry) :=
  let by_id := match get preferred (media_by_id r) with
               | Some i => if bytes_at r i =s bytes then Some i else None
               | None => None
               end in
  match by_id with
  | Some i => Some (i, r)
  | None =>
      let fp := (N.of_nat (String.length bytes), crc bytes) in
      let same := match get_fp fp (by_fingerprint r) with
                  | Some candidates => find (fun i => bytes_at r i =s bytes) candidates
                  | None => None
                  end in
      match same with
      | Some i => Some (i, r)
      | None =>
          match unique_id (known (media_by_id r)) (length (media_by_id r)) (next_suffix r) preferred with
          | None => None
          | Some (mid, suffixes) =>
              let index := length (media r) in
              let candidates := match get_fp fp (by_fingerprint r) with Some l => l | None => [] end in
              Some (index, Registry (media r ++ [(mid, bytes)]) (put mid index (media_by_id r))
                             ((fp, candidates ++ [index]) :: by_fingerprint r) suffixes)
          end
      end
  end.

(** image_collector.rs 116-126: [PackagePartCollector], without the footnotes. *)
Record collector := Collector {
  rels : list (string * string);
  rel_ids : list (string * unit);
  next_rel_suffix : list (string * N);
  rel_of_media : list (nat * nat) }.
Definition empty_collector : collector := Collector [] [] [] [].

Fixpoint get_nat (k : nat) (m : list (nat * nat)) : option nat :=
  match m with
  | [] => None
  | (x, v) :: r => if Nat.eqb x k then Some v else get_nat k r
  end.

(** image_collector.rs 148-153: [relationship_id]. *)
Definition preferred_rel_id (prefix : option string) (id : string) : string :=
  match prefix with Some p => p +++ id | None => id end.

(** image_collector.rs 200: the relationship target. *)
Definition media_target (mid : string) : string := "media/" +++ mid +++ ".png".

(** image_collector.rs 185-207: [visit_picture].  The picture is its id and its bytes;
    the result is its new id. *)
Definition visit_picture (prefix : option string) (r : registry) (c : collector) (id bytes : string)
  : option (string * registry * collector) :=
  let preferred := preferred_rel_id prefix id in
  match register r preferred bytes with
  | None => None
  | Some (mi, r') =>
      match get_nat mi (rel_of_media c) with
      | Some ri =>
          Some (match nth_error (rels c) ri with Some (rid, _) => rid | None => EmptyString end, r', c)
      | None =>
          match unique_id (known (rel_ids c)) (length (rel_ids c)) (next_rel_suffix c) preferred with
          | None => None
          | Some (rid, suffixes) =>
              Some (rid, r',
                    Collector (rels c ++ [(rid, media_target (id_at r' mi))]) (put rid tt (rel_ids c))
                      suffixes ((mi, length (rels c)) :: rel_of_media c))
          end
      end
  end.

(** All the pictures of one part, in the order in which the tree visitor meets them. *)
Fixpoint visit_pictures (prefix : option string) (r : registry) (c : collector) (l : list (string * string))
  : option (list string * registry * collector) :=
  match l with
  | [] => Some ([], r, c)
  | (id, bytes) :: l' =>
      match visit_picture prefix r c id bytes with
      | None => None
      | Some (nid, r', c') =>
          match visit_pictures prefix r' c' l' with
          | None => None
          | Some (ids, r'', c'') => Some (nid :: ids, r'', c'')
          end
      end
  end.

(** documents/mod.rs 845-851 with collect_header_images / collect_footer_images
    (1222-1253): the parts are collected one after the other with one registry;
    result: for every part the new picture ids and the relationships. *)
Fixpoint collect_parts (r : registry) (parts : list (option string * list (string * string)))
  : option (list (list string * list (string * string)) * registry) :=
  match parts with
  | [] => Some ([], r)
  | (prefix, pics) :: rest =>
      match visit_pictures prefix r empty_collector pics with
      | None => None
      | Some (ids, r', c) =>
          match collect_parts r' rest with
          | None => None
          | Some (out, r'') => Some ((ids, rels c) :: out, r'')
          end
      end
  end.
End Crc.

(** The package: body first, then headers, then footers (mod.rs 849-851), with the
    prefixes of image_collector.rs 219, 252, 262; [into_media] (74-76) gives the media list. *)
Definition package_media (crc : string -> N) (body : list (string * string))
    (headers footers : list (list (string * string)))
  : option (list (list string * list (string * string)) * list (string * string)) :=
  match collect_parts crc empty_registry
          ((None, body) :: map (fun l => (Some "header", l)) headers ++ map (fun l => (Some "footer", l)) footers) with
  | Some (out, r) => Some (out, media r)
  | None => None
  end.

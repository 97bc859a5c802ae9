(** Looking up an entry of a read archive. *)
From Verif Require Import Str.

Definition ch_back : ascii := "\"%char.
Definition ch_slash : ascii := "/"%char.

(** [str::replace('\\', "/")]. *)
Fixpoint back_to_slash (s : string) : string :=
  match s with
  | EmptyString => EmptyString
  | String c r => String (if c =c ch_back then ch_slash else c) (back_to_slash r)
  end.

(** [str::trim_start_matches('/')]. *)
Fixpoint trim_slashes (s : string) : string :=
  match s with
  | EmptyString => EmptyString
  | String c r => if c =c ch_slash then trim_slashes r else s
  end.

(** reader/read_zip.rs 10-16: the path looked up for a requested name. *)
Definition zip_path (name : string) : string :=
  if has_char ch_back name then trim_slashes (back_to_slash name) else trim_slashes name.

(** An opened archive: its entries, in the order of the central directory.
    [ZipArchive::by_name] (external crate zip) finds an entry by its stored name
    exactly; a repeated name denotes the last entry. *)
Definition archive := list (string * string).
Fixpoint by_name (a : archive) (n : string) : option string :=
  match a with
  | [] => None
  | (m, d) :: r => match by_name r n with Some x => Some x | None => if m =s n then Some d else None end
  end.

(** reader/read_zip.rs 22-25: a leading UTF-8 byte order mark is removed. *)
Definition bom : string := String "239" (String "187" (String "191" EmptyString)).
Definition without_bom (d : string) : string :=
  match strip_prefix bom d with Some r => r | None => d end.

(** reader/read_zip.rs 5-27: [read_zip]; [None] is the error of [by_name].  The
    decompression of the entry and its failure (line 20) are not modelled. *)
Definition read_zip (a : archive) (name : string) : option string :=
  option_map without_bom (by_name a (zip_path name)).

(** * Specification: the parts of a file, and files in which one part is replaced by another (C81) *)
From Verif Require Import Py Codec LnkFile Spec SpecText SpecInfo SpecOutcome SpecPrefix.

(** The bytes of the parts of a file. The LinkInfo reaches to the end of the file: its offsets may point anywhere (C55). *)
Definition header_bytes (b : bytes) : bytes := takeN 76 b.
Definition info_bytes (b : bytes) : bytes := dropN (id_list_end b) b.
Definition string_bytes (b : bytes) : bytes := slice (info_end b) (string_data_end b) b.
Definition extra_bytes (b : bytes) : bytes := dropN (string_data_end b) b.

(** The flags that say which strings there are, and of which kind. *)
Definition same_string_flags (b1 b2 : bytes) : Prop :=
  forall i, In i [2; 3; 4; 5; 6; 7] -> bit_set i b1 = bit_set i b2.

(** Two reports have the same entries under these keys. *)
Definition same_entries (keys : list string) (d1 d2 : dict) : Prop :=
  forall k, In k keys -> dget k d1 = dget k d2.
(** Two calls end alike: both return, or both raise the same exception. *)
Definition end_alike {A B} (r1 : result A) (r2 : result B) : Prop :=
  match r1, r2 with Ok _, Ok _ => True | Err e1, Err e2 => e1 = e2 | _, _ => False end.
(** The sizes reported for two files differ as much as two parts of the files do. *)
Definition sizes_follow (d1 d2 : dict) (part1 part2 : bytes) : Prop :=
  exists n1 n2, dget "size" d1 = Some (PN n1) /\ dget "size" d2 = Some (PN n2) /\ n1 + lenN part2 = n2 + lenN part1.

(** [front] is all that comes before the strings: the header, the ID list and the LinkInfo with all its strings. *)
Definition before_strings (front b : bytes) : Prop :=
  lists_inside (lenN front) b /\ info_inside (lenN front) b /\ info_end b = lenN front.
(** An ID list: its size and that many bytes. *)
Definition is_id_list (x : bytes) : Prop := lenN x = 2 + num 2 0 x.

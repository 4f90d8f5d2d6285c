(** * Specification: what can be read back from a report (property C78) *)
From Verif Require Import Py Codec Spec SpecHeader SpecTime SpecItems SpecEntries.

(** A FILETIME that may be missing in the report: zero, or not within the years 1..9999 (by 17 microseconds). *)
Definition may_be_missing (t : Z) : Prop :=
  (t = 0 \/ filetime_instant t < 170 \/ 10 * end_of_time - 170 <= filetime_instant t)%Z.
(** Two FILETIMEs that may be reported alike: both missing, or at most 34 microseconds (340 units) apart, and less than
    two microseconds if both are within 2^32 seconds of 1970. *)
Definition times_alike (t1 t2 : Z) : Prop :=
  (may_be_missing t1 /\ may_be_missing t2)
  \/ ((Z.abs (t1 - t2) <= 340)%Z /\ (near_1970 t1 -> near_1970 t2 -> (Z.abs (t1 - t2) < 20)%Z)).

(** Two headers that may be reported alike: all fields are the same but the show command, of which only three values are
    told apart, and the times. *)
Definition headers_alike (h1 h2 : shell_header) : Prop :=
  h_size h1 = h_size h2 /\ h_clsid h1 = h_clsid h2 /\ h_flags h1 = h_flags h2 /\ h_attrs h1 = h_attrs h2
  /\ times_alike (h_ctime h1) (h_ctime h2) /\ times_alike (h_atime h1) (h_atime h2) /\ times_alike (h_wtime h1) (h_wtime h2)
  /\ h_fsize h1 = h_fsize h2 /\ h_icon h1 = h_icon h2 /\ (h_show h1 = h_show h2 \/ ~ In (h_show h1) [3; 7] /\ ~ In (h_show h2) [3; 7])
  /\ h_key h1 = h_key h2 /\ h_mods h1 = h_mods h2
  /\ h_res1 h1 = h_res1 h2 /\ h_res2 h1 = h_res2 h2 /\ h_res3 h1 = h_res3 h2.

(** The bytes of a block, counted from its size on, that its report tells: from where to where. What is missing here are
    the signature, text fields, the font index and the colours of a console but the first. *)
Definition told_bytes (signature : N) : list (N * N) :=
  match signature with
  | 0xA0000002 => [(0, 4); (8, 24); (32, 44); (108, 144)]
  | 0xA0000003 => [(0, 4); (8, 16); (32, 96)]
  | 0xA0000004 => [(0, 4); (8, 12)]
  | 0xA0000005 => [(0, 4); (8, 16)]
  | 0xA000000B => [(0, 4); (8, 28)]
  | _ => [(0, 4)]
  end.

(** The items of an ID list: the size of each, and its fields (see [item_error]; the first byte is the type). *)
Inductive items_walked : bytes -> list (N * bytes) -> Prop :=
| walked_end rest : rest = [] \/ 2 <= lenN rest /\ num 2 0 rest = 0 -> items_walked rest []
| walked_next rest items :
    3 <= lenN rest -> num 2 0 rest <> 0 -> items_walked (dropN (num 2 0 rest) rest) items ->
    items_walked rest ((num 2 0 rest, slice 2 (2 + num 2 0 rest) rest) :: items).

Definition same_ranges (ranges : list (N * N)) (b1 b2 : bytes) : Prop :=
  forall i j, In (i, j) ranges -> slice i j b1 = slice i j b2.
(** The bytes of the fields of an item that its entry tells, by the class of the entry. Names are missing here. *)
Definition told_fields (class : string) : list (N * N) :=
  match class with
  | "File entry" => [(2, 6); (10, 12)]
  | "Network location" => [(2, 3)]
  | "Control panel CPL file" => [(2, 6)]
  | "Control panel category" => [(6, 10)]
  | "Root Folder" => [(1, 18)]
  | "Control panel" => [(14, 30)]
  | _ => []
  end%string.
(** FAT times may be reported alike only if there are no such times in the calendar. *)
Definition fat_alike (n1 n2 : N) : Prop := n1 = n2 \/ fat_shown n1 = None /\ fat_shown n2 = None.
Definition entries_alike (f1 f2 : bytes) : Prop :=
  same_ranges [(2, 6); (10, 12)] f1 f2 /\ fat_alike (num 4 6 f1) (num 4 6 f2)
  /\ flags_text (num 1 0 f1) = flags_text (num 1 0 f2).
Definition users_entry (f : bytes) : bytes := slice 10 (10 + num 2 8 f) f.
Definition users_guids (f : bytes) : bytes := slice (4 + num 2 2 f) (36 + num 2 2 f) f.
(** Two items that may be reported alike. *)
Definition items_alike (i1 i2 : N * bytes) : Prop :=
  let '(size1, f1) := i1 in let '(size2, f2) := i2 in
  let class := class_of_type (num 1 0 f1) in
  class_of_type (num 1 0 f2) = class
  /\ same_ranges (told_fields class) f1 f2
  /\ (class = "File entry"%string -> entries_alike f1 f2)
  /\ (class = "Network location"%string -> flags_text (num 1 0 f1) = flags_text (num 1 0 f2))
  /\ (class = "Volume Item"%string ->
      num 1 0 f1 mod 16 = num 1 0 f2 mod 16 /\ (N.testbit (num 1 0 f1) 0 = false -> same_ranges [(2, 18)] f1 f2))
  /\ (class = "Users files folder"%string ->
      entries_alike (users_entry f1) (users_entry f2) /\ users_guids f1 = users_guids f2)
  /\ (class = "Unknown"%string -> size1 = size2).

(** The bytes of a LinkInfo section that its report tells, counted from its start: the fixed fields of the section, and
    those of the volume ([network = false]) or of the network location. *)
Definition told_info (network : bool) (raw : bytes) : list (N * N) :=
  let o := if network then num 4 20 raw else num 4 12 raw in
  (0, if 0x24 <=? num 4 4 raw then 36 else 28)
  :: [(o, if network then if 20 <? num 4 (o + 8) raw then o + 28 else o + 20
          else if num 4 (o + 12) raw =? 0x14 then o + 20 else o + 16)].

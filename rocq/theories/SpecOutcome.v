(** * Specification: when a report can be made, and which exception is raised when not (property C60) *)
From Verif Require Import Py PyTime Codec Spec SpecText SpecItems SpecInfo SpecExtra.

(** An item needs its fixed part. [fields] is what the code takes as the item's fields: from behind the size to two
    bytes behind the item (C32). *)
Definition needs (n : N) (fields : bytes) : option exn := if lenN fields <? n then Some StructError else None.
Definition after_all (first second : option exn) : option exn := match first with Some e => Some e | None => second end.

Definition item_error (item_type : N) (fields : bytes) : option exn :=
  match item_type / 16 mod 8 with
  | 2 =>                                     (* volume: a name, or a GUID *)
    if N.testbit item_type 0 then None else needs 18 fields
  | 3 => needs 12 fields                     (* file entry *)
  | 4 =>                                     (* network location *)
    after_all (needs 3 fields)
      (if nuls (dropN 3 fields) <? extra_strings (num 1 2 fields) then Some RuntimeError else None)
  | _ =>
    match item_type with
    | 0x00 | 0x01 => needs 10 fields         (* control panel file, control panel category *)
    | 0x1E | 0x1F => needs 18 fields         (* root folder *)
    | 0x70 | 0x71 => needs 30 fields         (* control panel *)
    | 0x74 =>                                (* users files: a file entry from 8 on, two GUIDs behind the inner data *)
      after_all (needs 10 fields)
        (after_all (needs 12 (slice 10 (10 + num 2 8 fields) fields)) (needs (36 + num 2 2 fields) fields))
    | _ => None                              (* the rest has no fields that are read *)
    end
  end.

(** The items from a position on: [None] when all can be read. *)
Inductive items_outcome : bytes -> option exn -> Prop :=
| items_end rest : rest = [] \/ 2 <= lenN rest /\ num 2 0 rest = 0 -> items_outcome rest None
| items_cut rest : lenN rest = 1 \/ lenN rest = 2 /\ num 2 0 rest <> 0 -> items_outcome rest (Some StructError)
| items_bad rest e :
    3 <= lenN rest -> num 2 0 rest <> 0 ->
    item_error (num 1 2 rest) (slice 2 (2 + num 2 0 rest) rest) = Some e -> items_outcome rest (Some e)
| items_next rest o :
    3 <= lenN rest -> num 2 0 rest <> 0 ->
    item_error (num 1 2 rest) (slice 2 (2 + num 2 0 rest) rest) = None ->
    items_outcome (dropN (num 2 0 rest) rest) o -> items_outcome rest o.

(** The exceptions that leave a block: a Darwin descriptor (UTF-16, 520 bytes from 268 on) that is too short for a
    product code, or too short for a component behind its first greater-than sign; a network
    location with missing strings in an ID list. All other errors of a block are caught. *)
Definition short_descriptor (t : text) : Prop :=
  lenN t < 20 \/ exists before component, t = before ++ 62 :: component /\ ~ In 62 before /\ lenN component < 20.
Inductive block_escape (signature : N) (raw : bytes) : exn -> Prop :=
| darwin_escape :
    signature = 0xA0000006 -> short_descriptor (wide_text (slice 268 788 raw)) -> block_escape signature raw IndexError
| id_list_escape :
    signature = 0xA000000C -> items_outcome (slice 8 (num 4 0 raw) raw) (Some RuntimeError) ->
    block_escape signature raw RuntimeError.
Inductive blocks_outcome : list (N * bytes) -> option exn -> Prop :=
| no_blocks : blocks_outcome [] None
| block_fails signature raw rest e : block_escape signature raw e -> blocks_outcome ((signature, raw) :: rest) (Some e)
| block_passes signature raw rest o :
    (forall e, ~ block_escape signature raw e) -> blocks_outcome rest o -> blocks_outcome ((signature, raw) :: rest) o.

(** The whole report: the header, the ID list, the LinkInfo and the extra blocks, in this order. *)
Definition id_list (b : bytes) : bytes :=
  slice (header_len b + 2) (header_len b + 2 + num 2 (header_len b) b) b.
Definition header_whole (b : bytes) : Prop := 76 <= header_len b /\ 76 <= lenN b.
Definition items_whole (b : bytes) : Prop := has_id_list b = true -> items_outcome (id_list b) None.
Definition info_whole (b : bytes) : Prop :=
  info_processed b = true ->
  info_readable (negb (N.testbit (num 4 (id_list_end b + 8) b) 0)) (dropN (id_list_end b) b) = true.

Inductive report_outcome (b : bytes) : option exn -> Prop :=
| header_fails : ~ header_whole b -> report_outcome b (Some StructError)
| items_fail e :
    header_whole b -> has_id_list b = true -> items_outcome (id_list b) (Some e) -> report_outcome b (Some e)
| info_fails : header_whole b -> items_whole b -> ~ info_whole b -> report_outcome b (Some StructError)
| blocks_decide blocks r o :
    header_whole b -> items_whole b -> info_whole b ->
    block_walk (dropN (string_data_end b) b) blocks r -> blocks_outcome blocks o -> report_outcome b o.

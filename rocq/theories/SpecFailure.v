(** * Specification: how a report fails - the exception, and the warnings given before it (property C65) *)
From Verif Require Import Py Codec Spec SpecText SpecHeader SpecTime SpecDouble SpecItems SpecInfo SpecExtra SpecOutcome SpecEntries SpecBlocks.

(** ** The header

    [h] are the bytes of the header that are there. The fields are read in the order of the report; the first one that
    is cut off ends it. [created], [accessed] and [written] are the times that would be shown. *)
Definition signed64 (i : N) (h : bytes) : Z := signed 64 (num 8 i h).
Definition header_tried (h : bytes) (created accessed written : option datetime) : list warning :=
  must_be "link_cls_id" (text_eqb (guid_text (slice 4 20 h)) link_clsid_text)
  ++ warn_if (36 <=? lenN h) (time_said (signed64 28 h) created)
  ++ warn_if (44 <=? lenN h) (time_said (signed64 36 h) accessed)
  ++ warn_if (52 <=? lenN h) (time_said (signed64 44 h) written)
  ++ warn_if (66 <=? lenN h) (must_be "size" (num 4 0 h =? 76))
  ++ warn_if (68 <=? lenN h) (must_be "reserved0" (num 2 66 h =? 0))
  ++ warn_if (72 <=? lenN h) (must_be "reserved1" (num 4 68 h =? 0))
  ++ warn_if (76 <=? lenN h) (must_be "reserved2" (num 4 72 h =? 0)).

(** ** The link info

    [raw] are the bytes from the link info on. The two code-page strings are read first, then the two Unicode strings,
    then the volume or the network share. *)
Definition info_tried (cp : cp_arg) (network : bool) (raw : bytes) : list warning :=
  let base := num 4 16 raw in
  let suffix := num 4 24 raw in
  let wbase := wide_offset 28 raw in
  let wsuffix := wide_offset 32 raw in
  let share := num 4 20 raw in
  let wname := num 4 (share + 20) raw in
  if lenN raw <? 28 then []
  else
    warn_if (negb (base =? 0)) (field_warning cp (dropN base raw))
    ++ warn_if (negb (suffix =? 0)) (field_warning cp (dropN suffix raw))
    ++ (if (0x24 <=? num 4 4 raw) && (lenN raw <? 32) then []
        else
          warn_if (negb (wbase =? 0)) (wide_warning (dropN wbase raw))
          ++ (if (0x24 <=? num 4 4 raw) && (lenN raw <? 36) then []
              else
                warn_if (negb (wsuffix =? 0)) (wide_warning (dropN (wsuffix + 4) raw))
                (* of a share whose two Unicode names are announced but whose second offset is cut off, the first
                   name is read *)
                ++ warn_if (network && (share + 24 <=? lenN raw) && (20 <? num 4 (share + 8) raw) && negb (wname =? 0))
                     (wide_warning (dropN (share + wname) raw)))).

(** ** The extra data blocks *)
Inductive block_stops (cp : cp_arg) (signature : N) (raw : bytes) : exn -> list warning -> Prop :=
| darwin_stops text said :
    signature = 0xA0000006 -> text = wide_text (slice 268 788 raw) -> said = wide_warning (slice 268 788 raw) ->
    short_descriptor text ->
    block_stops cp signature raw IndexError
      (field_warning cp (slice 8 268 raw) ++ said ++ said ++ (if lenN text <? 20 then [] else said ++ said))
| id_list_stops said :
    signature = 0xA000000C -> entries_tried cp (slice 8 (num 4 0 raw) raw) RuntimeError said ->
    block_stops cp signature raw RuntimeError said.
Inductive blocks_stop (cp : cp_arg) : list (N * bytes) -> exn -> list warning -> Prop :=
| stops_here signature raw rest e w : block_stops cp signature raw e w -> blocks_stop cp ((signature, raw) :: rest) e w
| stops_behind signature raw rest d w e ws :
    block_read cp signature raw d w -> blocks_stop cp rest e ws -> blocks_stop cp ((signature, raw) :: rest) e (w ++ ws)
| stops_behind_left_out signature raw rest w e ws :
    block_tried cp signature raw w -> blocks_stop cp rest e ws ->
    blocks_stop cp ((signature, raw) :: rest) e (w ++ WExtraBlock (block_name signature) :: ws).

(** ** The whole report *)
Definition items_said_by (b : bytes) (cp : cp_arg) (said : list warning) : Prop :=
  if has_id_list b then exists items, entries_listed cp (id_list b) items said else said = [].
(** Behind the header. *)
Inductive sections_fail (b : bytes) (cp : cp_arg) : exn -> list warning -> Prop :=
| items_stop e said : has_id_list b = true -> entries_tried cp (id_list b) e said -> sections_fail b cp e said
| info_stops said raw network :
    items_said_by b cp said -> info_processed b = true ->
    raw = dropN (id_list_end b) b -> network = negb (N.testbit (num 4 8 raw) 0) -> info_readable network raw = false ->
    sections_fail b cp StructError (said ++ info_tried cp network raw)
| extra_stops said raw network blocks tail e blocks_said :
    items_said_by b cp said ->
    raw = dropN (id_list_end b) b -> network = negb (N.testbit (num 4 8 raw) 0) ->
    (info_processed b = true -> info_readable network raw = true) ->
    block_walk (dropN (string_data_end b) b) blocks tail -> blocks_stop cp blocks e blocks_said ->
    sections_fail b cp e (said ++ warn_if (info_processed b) (info_warnings cp network raw) ++ blocks_said).
Inductive report_fails (b : bytes) (cp : cp_arg) : exn -> list warning -> Prop :=
| header_stops h created accessed written :
    h = takeN (header_len b) b -> lenN h < 76 ->
    time_read (signed64 28 h) created -> time_read (signed64 36 h) accessed -> time_read (signed64 44 h) written ->
    report_fails b cp StructError (header_tried h created accessed written)
| sections_stop h created accessed written e said :
    h = takeN (header_len b) b -> 76 <= lenN h ->
    time_read (signed64 28 h) created -> time_read (signed64 36 h) accessed -> time_read (signed64 44 h) written ->
    sections_fail b cp e said ->
    report_fails b cp e (header_tried h created accessed written ++ said).

(** * Specification: the code-page strings a report reads, in order (property C76)

    What a report does, whatever the code page: the warnings that do not depend on it, and the strings that are decoded
    with it. [heard] turns this into the warnings of a given page. A page that does not exist stops at the first string
    that has text in it. *)
From Verif Require Import Py Codec Spec SpecText SpecHeader SpecTime SpecDouble SpecItems SpecInfo SpecExtra SpecOutcome SpecEntries SpecBlocks SpecWhole SpecFailure.

Inductive event :=
| Says (said : list warning)
| Reads (field : bytes)
| ReadsName (field : bytes).                 (* a name of a network share: read again unless its text is empty *)

Definition heard_at (cp : cp_arg) (e : event) : list warning :=
  match e with
  | Says said => said
  | Reads field => field_warning cp field
  | ReadsName field => name_warnings cp field
  end.
Definition heard (cp : cp_arg) (trace : list event) : list warning := flat_map (heard_at cp) trace.
(** The event needs a code page: its string does not start with a NUL byte, and is not empty. *)
Definition needs_page (e : event) : Prop :=
  match e with Says _ => False | Reads field | ReadsName field => before_nul field <> [] end.
Definition stored_event (wide : bool) (field : bytes) : event := if wide then Says (wide_warning field) else Reads field.

(** ** Items *)
Definition file_entry_trace (fields : bytes) : list event :=
  let ty := num 1 0 fields in
  [Says (flags_warning ty); Says (fat_warned (num 4 6 fields)); stored_event (N.testbit ty 2) (dropN 12 fields)].
Definition optional_string (o : option bytes) : list event := match o with Some s => [Reads s] | None => [] end.
(** An item that can be read. *)
Definition entry_trace (fields : bytes) : list event :=
  let ty := num 1 0 fields in
  match ty / 16 mod 8 with
  | 2 => if N.testbit ty 0 then [Reads (slice 1 21 fields)] else []
  | 3 => file_entry_trace fields
  | 4 =>
    Reads (network_location_at fields) :: optional_string (network_description fields)
    ++ optional_string (network_comments fields) ++ [Says (flags_warning ty)]
  | _ =>
    match ty with
    | 0x00 =>
      [stored_event (cpl_wide fields) (cpl_string fields 0);
       stored_event (cpl_wide fields) (cpl_string fields (cpl_name_offset_of fields))]
      ++ (if cpl_comments_offset_of fields =? 0 then []
          else [stored_event (cpl_wide fields) (cpl_string fields (cpl_comments_offset_of fields))])
    | 0x01 => [Says (unless_known (category_name (num 4 6 fields)) (WCategory (num 4 6 fields)))]
    | 0x1E | 0x1F => [Says (unless_known (sort_name (num 1 1 fields)) (WSortIndex (num 1 1 fields)))]
    | 0x52 | 0x61 | 0x70 | 0x71 | 0x72 | 0x73 => []
    | 0x74 => file_entry_trace (slice 10 (10 + num 2 8 fields) fields)
    | _ => [Says [WItemType ty]]
    end
  end.
(** An item that cannot be read. *)
Definition entry_tried_trace (fields : bytes) : list event :=
  let ty := num 1 0 fields in
  match ty / 16 mod 8 with
  | 2 => []
  | 3 => [Says (file_entry_tried fields)]
  | 4 =>
    Reads (network_location_at fields)
    :: (if nuls (network_location_at fields) =? 0 then [] else optional_string (network_description fields))
  | _ =>
    match ty with
    | 0x1E | 0x1F =>
      [Says (if 2 <=? lenN fields then unless_known (sort_name (num 1 1 fields)) (WSortIndex (num 1 1 fields)) else [])]
    | 0x74 =>
      let inner := slice 10 (10 + num 2 8 fields) fields in
      if lenN fields <? 10 then []
      else if lenN inner <? 12 then [Says (file_entry_tried inner)]
      else file_entry_trace inner
    | _ => []
    end
  end.
(** All items from a position on: [None] when all can be read, else the exception. *)
Inductive entries_trace : bytes -> option exn -> list event -> Prop :=
| entries_all rest : rest = [] \/ 2 <= lenN rest /\ num 2 0 rest = 0 -> entries_trace rest None []
| entries_short rest : lenN rest = 1 \/ lenN rest = 2 /\ num 2 0 rest <> 0 -> entries_trace rest (Some StructError) []
| entry_unread rest e :
    3 <= lenN rest -> num 2 0 rest <> 0 ->
    let fields := slice 2 (2 + num 2 0 rest) rest in
    item_error (num 1 2 rest) fields = Some e ->
    entries_trace rest (Some e) (entry_tried_trace fields)
| entry_then rest o trace :
    3 <= lenN rest -> num 2 0 rest <> 0 ->
    let fields := slice 2 (2 + num 2 0 rest) rest in
    item_error (num 1 2 rest) fields = None ->
    entries_trace (dropN (num 2 0 rest) rest) o trace ->
    entries_trace rest o (entry_trace fields ++ trace).

(** ** The link info *)
Definition event_if (b : bool) (e : event) : list event := if b then [e] else [].
Definition info_trace (network : bool) (raw : bytes) : list event :=
  let base := num 4 16 raw in
  let suffix := num 4 24 raw in
  let wbase := wide_offset 28 raw in
  let wsuffix := wide_offset 32 raw in
  event_if (negb (base =? 0)) (Reads (dropN base raw))
  ++ event_if (negb (suffix =? 0)) (Reads (dropN suffix raw))
  ++ event_if (negb (wbase =? 0)) (Says (wide_warning (dropN wbase raw)))
  ++ event_if (negb (wsuffix =? 0)) (Says (wide_warning (dropN (wsuffix + 4) raw)))
  ++ (if network then
        let o := num 4 20 raw in
        let name := num 4 (o + 8) raw in
        let device := num 4 (o + 12) raw in
        let wname := if 20 <? name then num 4 (o + 20) raw else 0 in
        let wdevice := if 20 <? name then num 4 (o + 24) raw else 0 in
        event_if (negb (wname =? 0)) (Says (wide_warning (dropN (o + wname) raw)))
        ++ event_if (negb (wdevice =? 0)) (Says (wide_warning (dropN (o + wdevice) raw)))
        ++ event_if (name <=? 20) (ReadsName (dropN (o + name) raw))
        ++ event_if (name <=? 20) (ReadsName (dropN (o + device) raw))
      else
        let o := num 4 12 raw in
        let label := num 4 (o + 12) raw in
        let wide := if label =? 0x14 then num 4 (o + 16) raw else 0 in
        event_if (negb (label =? 0x14)) (Reads (dropN (o + label) raw))
        ++ event_if (negb (wide =? 0)) (Says (wide_warning (dropN (o + wide) raw)))).
(** A link info that cannot be read: of the code-page strings only the first two are reached. *)
Definition info_tried_trace (network : bool) (raw : bytes) : list event :=
  let base := num 4 16 raw in
  let suffix := num 4 24 raw in
  let wbase := wide_offset 28 raw in
  let wsuffix := wide_offset 32 raw in
  let share := num 4 20 raw in
  let wname := num 4 (share + 20) raw in
  if lenN raw <? 28 then []
  else
    event_if (negb (base =? 0)) (Reads (dropN base raw))
    ++ event_if (negb (suffix =? 0)) (Reads (dropN suffix raw))
    ++ (if (0x24 <=? num 4 4 raw) && (lenN raw <? 32) then []
        else
          event_if (negb (wbase =? 0)) (Says (wide_warning (dropN wbase raw)))
          ++ (if (0x24 <=? num 4 4 raw) && (lenN raw <? 36) then []
              else
                event_if (negb (wsuffix =? 0)) (Says (wide_warning (dropN (wsuffix + 4) raw)))
                ++ event_if (network && (share + 24 <=? lenN raw) && (20 <? num 4 (share + 8) raw) && negb (wname =? 0))
                     (Says (wide_warning (dropN (share + wname) raw))))).

(** ** The extra data blocks *)
Inductive block_end := Shown | LeftOut | Stops (e : exn).

(** Blocks of a fixed layout: the fields in order, up to the first that is cut off. *)
Definition fixed_trace (signature : N) (raw : bytes) : list event :=
  match signature with
  | 0xA0000001 | 0xA0000007 => [Reads (slice 8 268 raw); Says (wide_warning (slice 268 788 raw))]
  | 0xA0000002 => event_if (44 <=? lenN raw) (Says (wide_warning (slice 44 108 raw)))
  | 0xA0000003 =>
    event_if (12 <=? lenN raw) (Says (must_be "length" (num 4 8 raw =? 88)))
    ++ event_if (16 <=? lenN raw) (Says (must_be "version" (num 4 12 raw =? 0)))
    ++ event_if (16 <=? lenN raw) (Reads (slice 16 32 raw))
  | 0xA0000008 => [Reads (dropN 8 raw)]
  | _ => []
  end.
Inductive block_trace (signature : N) (raw : bytes) : block_end -> list event -> Prop :=
| fixed_traced :
    signature <> 0xA0000006 -> signature <> 0xA0000009 -> signature <> 0xA000000C ->
    block_trace signature raw (if fixed_bytes signature <=? lenN raw then Shown else LeftOut) (fixed_trace signature raw)
| darwin_whole said :
    signature = 0xA0000006 -> said = wide_warning (slice 268 788 raw) -> ~ short_descriptor (wide_text (slice 268 788 raw)) ->
    block_trace signature raw Shown [Reads (slice 8 268 raw); Says (said ++ said ++ said ++ said)]
| darwin_short text said :
    signature = 0xA0000006 -> text = wide_text (slice 268 788 raw) -> said = wide_warning (slice 268 788 raw) ->
    short_descriptor text ->
    block_trace signature raw (Stops IndexError)
      [Reads (slice 8 268 raw); Says (said ++ said ++ (if lenN text <? 20 then [] else said ++ said))]
(* property stores have no code-page strings: what they say is the same with every page *)
| store_shown d said :
    signature = 0xA0000009 -> block_read CpNone signature raw d said -> block_trace signature raw Shown [Says said]
| store_left_out said :
    signature = 0xA0000009 -> block_tried CpNone signature raw said -> block_trace signature raw LeftOut [Says said]
| id_list_shown trace :
    signature = 0xA000000C -> entries_trace (slice 8 (num 4 0 raw) raw) None trace -> block_trace signature raw Shown trace
| id_list_left_out trace :
    signature = 0xA000000C -> entries_trace (slice 8 (num 4 0 raw) raw) (Some StructError) trace ->
    block_trace signature raw LeftOut trace
| id_list_stopped trace :
    signature = 0xA000000C -> entries_trace (slice 8 (num 4 0 raw) raw) (Some RuntimeError) trace ->
    block_trace signature raw (Stops RuntimeError) trace.
Inductive blocks_trace : list (N * bytes) -> option exn -> list event -> Prop :=
| no_block : blocks_trace [] None []
| block_stopped signature raw rest e trace :
    block_trace signature raw (Stops e) trace -> blocks_trace ((signature, raw) :: rest) (Some e) trace
| block_shown signature raw rest trace o more :
    block_trace signature raw Shown trace -> blocks_trace rest o more ->
    blocks_trace ((signature, raw) :: rest) o (trace ++ more)
| block_not_shown signature raw rest trace o more :
    block_trace signature raw LeftOut trace -> blocks_trace rest o more ->
    blocks_trace ((signature, raw) :: rest) o (trace ++ Says [WExtraBlock (block_name signature)] :: more).

(** ** The whole report *)
Definition items_trace (b : bytes) (o : option exn) (trace : list event) : Prop :=
  if has_id_list b then entries_trace (id_list b) o trace else o = None /\ trace = [].
(** Behind the header. *)
Inductive sections_trace (b : bytes) : option exn -> list event -> Prop :=
| items_stopped e trace : items_trace b (Some e) trace -> sections_trace b (Some e) trace
| info_stopped trace raw network :
    items_trace b None trace -> info_processed b = true ->
    raw = dropN (id_list_end b) b -> network = negb (N.testbit (num 4 8 raw) 0) -> info_readable network raw = false ->
    sections_trace b (Some StructError) (trace ++ info_tried_trace network raw)
| all_sections trace raw network blocks tail o more :
    items_trace b None trace ->
    raw = dropN (id_list_end b) b -> network = negb (N.testbit (num 4 8 raw) 0) ->
    (info_processed b = true -> info_readable network raw = true) ->
    block_walk (dropN (string_data_end b) b) blocks tail -> blocks_trace blocks o more ->
    sections_trace b o (trace ++ (if info_processed b then info_trace network raw else []) ++ more).
(** [report_trace b o trace]: making the report of the file [b] does [trace], and then ends well ([o = None]) or with an
    exception. *)
Inductive report_trace (b : bytes) : option exn -> list event -> Prop :=
| header_cut h created accessed written :
    h = takeN (header_len b) b -> lenN h < 76 ->
    time_read (signed64 28 h) created -> time_read (signed64 36 h) accessed -> time_read (signed64 44 h) written ->
    report_trace b (Some StructError) [Says (header_tried h created accessed written)]
| header_read h created accessed written o trace :
    h = takeN (header_len b) b -> 76 <= lenN h ->
    time_read (signed64 28 h) created -> time_read (signed64 36 h) accessed -> time_read (signed64 44 h) written ->
    sections_trace b o trace ->
    report_trace b o (Says (header_tried h created accessed written) :: trace).

(** ** With a page *)

(** [page_stops trace before]: [before] is what is done before the first string that needs a page. *)
Definition page_stops (trace before : list event) : Prop :=
  exists e after, trace = before ++ e :: after /\ needs_page e /\ forall x, In x before -> ~ needs_page x.
Definition no_page_needed (trace : list event) : Prop := forall x, In x trace -> ~ needs_page x.

(** * Specification: what the parts of a link give, one by one (property C71)

    The answer to a call is read off the bytes of the file and the number of earlier calls of [next]. *)
From Verif Require Import Py Codec Sha256 LnkFile Spec SpecText SpecItems SpecExtra SpecCommand SpecOutcome SpecEntries SpecBlocks SpecWhole SpecFailure SpecReport SpecRun.
From Verif Require Import Walk.

(** ** Items

    [rest] are the bytes of an ID list from an item on. The item is made when the iterator comes to it: a network
    location reads its strings then, and fails then; an unknown type is warned about then. All else is read from the
    item when it is asked for. *)
Definition fields_at (rest : bytes) : bytes := slice 2 (2 + num 2 0 rest) rest.
Definition item_there (rest : bytes) : Prop := 3 <= lenN rest /\ num 2 0 rest <> 0.
Definition network_item (rest : bytes) : Prop := num 1 2 rest / 16 mod 8 = 4.
Definition error_at (rest : bytes) : option exn := item_error (num 1 2 rest) (fields_at rest).

Definition made_says (cp : cp_arg) (fields : bytes) : list warning :=
  let ty := num 1 0 fields in
  match ty / 16 mod 8 with
  | 4 =>
    field_warning cp (network_location_at fields) ++ opt_field_warning cp (network_description fields)
    ++ opt_field_warning cp (network_comments fields)
  | _ => unless_known (documented_class ty) (WItemType ty)
  end.
Definition shown_says (cp : cp_arg) (fields : bytes) : list warning :=
  let ty := num 1 0 fields in
  match ty / 16 mod 8 with
  | 4 => flags_warning ty
  | _ => match documented_class ty with Some _ => entry_says cp fields | None => [] end
  end.

(** What the iterator does when it comes to [rest]: it warns, and gives the item or raises. *)
Inductive comes_to (cp : cp_arg) (rest : bytes) : list warning -> option exn -> Prop :=
| at_the_end : rest = [] \/ 2 <= lenN rest /\ num 2 0 rest = 0 -> comes_to cp rest [] (Some StopIteration)
| at_a_cut : lenN rest = 1 \/ lenN rest = 2 /\ num 2 0 rest <> 0 -> comes_to cp rest [] (Some StructError)
| at_a_bad_network e : item_there rest -> network_item rest -> error_at rest = Some e ->
    comes_to cp rest (entry_tried cp (fields_at rest)) (Some e)
| at_an_item : item_there rest -> (network_item rest -> error_at rest = None) ->
    comes_to cp rest (made_says cp (fields_at rest)) None.

(** [k] items on. *)
Inductive further (cp : cp_arg) : nat -> bytes -> bytes -> Prop :=
| not_further rest : further cp 0 rest rest
| one_further k rest said there :
    comes_to cp rest said None -> further cp k (dropN (num 2 0 rest) rest) there -> further cp (S k) rest there.

(** The answer to [next] when it has been asked [k] times before: once it has raised, there is nothing more. *)
Inductive next_gives (cp : cp_arg) (list_ : bytes) (k : nat) : list warning -> option exn -> Prop :=
| next_comes there said e : further cp k list_ there -> comes_to cp there said e -> next_gives cp list_ k said e
| next_over j there said e :
    (j < k)%nat -> further cp j list_ there -> comes_to cp there said (Some e) -> next_gives cp list_ k [] (Some StopIteration).

(** [as_item()]: malformed items other than network locations fail here, and do not hide what follows them. *)
Inductive item_shown (cp : cp_arg) (rest : bytes) : list warning -> result dict -> Prop :=
| item_good : error_at rest = None ->
    item_shown cp rest (shown_says cp (fields_at rest)) (Ok (entry_of cp (num 2 0 rest) (fields_at rest)))
| item_malformed e : error_at rest = Some e -> item_shown cp rest (entry_tried cp (fields_at rest)) (Err e).

(** ** Blocks *)

(** The exception of a block that cannot be read and is left out of reports: a ValueError for a typed value of no known
    type, else a struct.error. The first storage and the first property that cannot be read decide. *)
Inductive first_bad {A} (P : A -> dict -> list warning -> Prop) : list A -> A -> Prop :=
| bad_here a l : (forall d w, ~ P a d w) -> first_bad P (a :: l) a
| bad_later a l d w x : P a d w -> first_bad P l x -> first_bad P (a :: l) x.
Definition value_error (v : bytes) : exn :=
  if (4 <=? lenN v) && (negb (num 2 2 v =? 0) || negb (num 2 0 v =? 0x1F) && negb (num 2 0 v =? 0x02)) then ValueError
  else StructError.
Definition property_error (named : bool) (p : bytes) : exn :=
  if 8 <=? lenN p then value_error (dropN (if named then 9 + num 4 4 p else 9) p) else StructError.
Inductive storage_error (s : bytes) : exn -> Prop :=
| storage_error_cut : lenN s < 24 \/ (forall ps, ~ SpecBlocks.elements (dropN 24 s) ps) -> storage_error s StructError
| storage_error_property named ps p :
    24 <= lenN s -> (named = true <-> slice 8 24 s = named_format) -> SpecBlocks.elements (dropN 24 s) ps ->
    first_bad (property_at named) ps p -> storage_error s (property_error named p).
Inductive block_error (signature : N) (raw : bytes) : exn -> Prop :=
| block_error_plain : signature <> 0xA0000009 -> block_error signature raw StructError
| block_error_cut : signature = 0xA0000009 -> (forall ss, ~ SpecBlocks.elements (dropN 8 raw) ss) -> block_error signature raw StructError
| block_error_storage ss s e :
    signature = 0xA0000009 -> SpecBlocks.elements (dropN 8 raw) ss -> first_bad storage_at ss s -> storage_error s e ->
    block_error signature raw e.

Inductive part := Block (signature : N) (raw : bytes) | Behind (r : bytes).
Inductive parts (b : bytes) (allow : bool) : list part -> Prop :=
| parts_are blocks r :
    block_walk (dropN (string_data_end b) b) blocks r ->
    parts b allow (map (fun blk => Block (fst blk) (snd blk)) blocks
                   ++ if allow && (4 <? lenN r) && (num 4 0 r =? 0) then [Behind r] else []).
Definition part_name (p : part) : string :=
  match p with Block signature _ => block_name signature | Behind _ => "TERMINAL_BLOCK" end.
Definition part_size (p : part) : N := match p with Block _ raw => num 4 0 raw | Behind r => lenN r end.
Inductive part_shown (cp : cp_arg) : part -> list warning -> result dict -> Prop :=
| block_good signature raw d w : block_read cp signature raw d w -> part_shown cp (Block signature raw) w (Ok d)
| block_bad signature raw w e :
    block_tried cp signature raw w -> block_error signature raw e -> part_shown cp (Block signature raw) w (Err e)
| block_breaks signature raw w e : block_stops cp signature raw e w -> part_shown cp (Block signature raw) w (Err e)
| behind_good r :
    part_shown cp (Behind r) []
      (Ok [("size", PN (lenN r)); ("appended_data_sha256", PStr (sha256_hex (dropN 4 r)))]%string).

(** ** Calls

    What the variable [v] holds after the calls [h], the latest first, and how often it has been asked for the next. *)
Inductive kind := Items | Blocks.
Fixpoint holds_iterator (b : bytes) (v : nat) (h : list call) : option (kind * nat) :=
  match h with
  | [] => None
  | c :: h =>
    match c with
    | IterItems v' => if Nat.eqb v' v && has_id_list b then Some (Items, O) else holds_iterator b v h
    | IterBlocks v' => if Nat.eqb v' v then Some (Blocks, O) else holds_iterator b v h
    | Next v' =>
      match holds_iterator b v h with
      | Some (x, k) => Some (x, if Nat.eqb v' v then S k else k)
      | None => None
      end
    | _ => holds_iterator b v h
    end
  end.
Definition as_answer (r : result dict) : result answer := match r with Ok d => Ok (ADict d) | Err e => Err e end.
Definition given (e : option exn) : result answer := match e with None => Ok Given | Some e => Err e end.

(** The [k]-th thing that the iterator in [v] has given. *)
Inductive has_item (b : bytes) (cp : cp_arg) (h : list call) (v k : nat) : bytes -> Prop :=
| given_item asked there said :
    holds_iterator b v h = Some (Items, asked) -> (k < asked)%nat ->
    further cp k (id_list b) there -> comes_to cp there said None -> has_item b cp h v k there.
Inductive has_part (b : bytes) (allow : bool) (h : list call) (v k : nat) : part -> Prop :=
| given_part asked l p :
    holds_iterator b v h = Some (Blocks, asked) -> (k < asked)%nat -> parts b allow l -> nth_error l k = Some p ->
    has_part b allow h v k p.

(** Each method of the string data is about the string of its name (SpecCommand.v, [string_fields]). *)
Definition string_named (m : string_method) : string :=
  match m with
  | Description => "description" | RelativePath => "relative_path" | WorkingDirectory => "working_directory"
  | CommandLineArguments => "command_line_arguments" | IconLocation => "icon_location"
  end.
Inductive gives (b : bytes) (cp : cp_arg) (allow : bool) (h : list call) : call -> list warning -> result answer -> Prop :=
| iter_items v : has_id_list b = true -> gives b cp allow h (IterItems v) [] (Ok Nothing)
| iter_no_items v : has_id_list b = false -> gives b cp allow h (IterItems v) [] (Err TypeError)
| iter_blocks v : gives b cp allow h (IterBlocks v) [] (Ok Nothing)
| next_item v k said e :
    holds_iterator b v h = Some (Items, k) -> next_gives cp (id_list b) k said e -> gives b cp allow h (Next v) said (given e)
| next_block v k l :
    holds_iterator b v h = Some (Blocks, k) -> parts b allow l ->
    gives b cp allow h (Next v) [] (given (if Nat.ltb k (length l) then None else Some StopIteration))
| item_name v k there :
    has_item b cp h v k there -> gives b cp allow h (NameOf v k) [] (Ok (AName (class_of_type (num 1 2 there))))
| item_size v k there :
    has_item b cp h v k there -> gives b cp allow h (SizeOf v k) [] (Ok (ANumber (num 2 0 there)))
| item_entry v k there said r :
    has_item b cp h v k there -> item_shown cp there said r -> gives b cp allow h (Show v k) said (as_answer r)
| block_is_named v k p : has_part b allow h v k p -> gives b cp allow h (NameOf v k) [] (Ok (AName (part_name p)))
| block_has_size v k p : has_part b allow h v k p -> gives b cp allow h (SizeOf v k) [] (Ok (ANumber (part_size p)))
| block_entry v k p said r :
    has_part b allow h v k p -> part_shown cp p said r -> gives b cp allow h (Show v k) said (as_answer r)
| string_asked m found e cut :
    string_walk b string_fields (info_end b) found e cut ->
    gives b cp allow h (Ask m) []
      (Ok (match text_of b cp found (string_named m) with Some t => AText t | None => Nothing end))
| report_made all full d said :
    report_outcome b None -> whole_report b cp allow full said -> selected all full d ->
    gives b cp allow h (Report all) said (Ok (ADict d))
| report_not_made all e said : report_fails b cp e said -> gives b cp allow h (Report all) said (Err e).

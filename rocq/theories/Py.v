(** * Python primitives used by LnkParse3

    Byte strings, slices, exceptions with a warning log, struct.unpack, number
    formatting and insertion-ordered dictionaries. These are not part of /repo; they
    model the CPython behaviour that the modelled modules rely on. *)
From Coq Require Export NArith ZArith Bool Ascii String.
From Coq.Strings Require Export Byte.
From Coq Require Export List.
Export ListNotations.
#[global] Open Scope string_scope.
#[global] Open Scope N_scope.
#[global] Open Scope list_scope.
Arguments N.add : simpl never.
Arguments N.sub : simpl never.
Arguments N.mul : simpl never.
Arguments N.div : simpl never.
Arguments N.modulo : simpl never.
Arguments N.eqb : simpl never.
Arguments N.leb : simpl never.
Arguments N.ltb : simpl never.
Arguments N.land : simpl never.
Arguments N.pow : simpl never.
Arguments Z.add : simpl never.
Arguments Z.sub : simpl never.
Arguments Z.mul : simpl never.
Arguments Z.pow : simpl never.

(** ** Byte strings, text, slices *)

(** [bytes]: every list of [Byte.byte] is a legal Python byte string. *)
Definition bytes := list byte.

(** [text]: a Python [str] as its list of code points. *)
Definition text := list N.

Definition b2n (b : byte) : N := Byte.to_N b.
(** [bytes([n])] for 0 <= n < 256 (larger values are reduced; used by encoders only). *)
Definition n2b (n : N) : byte :=
  match Byte.of_N (n mod 256) with Some b => b | None => x00 end.

Definition lenN {A} (l : list A) : N := N.of_nat (length l).

(** [l[:n]] *)
Fixpoint takeN {A} (n : N) (l : list A) : list A :=
  match l with
  | [] => []
  | x :: xs => if n =? 0 then [] else x :: takeN (N.pred n) xs
  end.

(** [l[n:]] *)
Fixpoint dropN {A} (n : N) (l : list A) : list A :=
  match l with
  | [] => []
  | x :: xs => if n =? 0 then l else dropN (N.pred n) xs
  end.

(** [l[i:j]] for non-negative bounds; empty when [j < i]. *)
Definition slice {A} (i j : N) (l : list A) : list A := takeN (j - i) (dropN i l).

(** ASCII literals as text. *)
Definition s2t (s : string) : text := map N_of_ascii (list_ascii_of_string s).

(** ** Exceptions and warnings *)

Inductive exn :=
| StructError | ValueError | IndexError | KeyError | TypeError | RuntimeError
| AttributeError | LookupError | LnkParserError | StopIteration
| OutOfFuel.  (** artefact of the model: never the outcome (property C01) *)

(** One constructor per [warnings.warn] call in /repo, with the data it mentions. *)
Inductive warning :=
| WMustBe (field : string)            (* decorators.py:18 *)
| WFiletime (b : bytes)               (* utils.py:109 *)
| WDostime (b : bytes)                (* utils.py:167 *)
| WDecode (s : text)                  (* text_processor.py:30, 56 *)
| WStringData                         (* string_data.py:59 *)
| WExtraData                          (* extra_data.py:35 *)
| WExtraSig                           (* extra_factory.py:64 *)
| WExtraBlock (name : string)         (* extra_data.py:68 *)
| WInfoClass                          (* info_factory.py:46 *)
| WTarget (name : string)             (* lnk_targets.py:92, extra/shell_item.py:64 *)
| WItemType (n : N)                   (* target_factory.py:46 *)
| WItemFlags (n : N)                  (* target/lnk_target_base.py:59 *)
| WSortIndex (n : N)                  (* target/root_folder.py:49 *)
| WCategory (n : N).                  (* target/control_panel_category.py:61 *)

Inductive result (A : Type) := Ok (a : A) | Err (e : exn).
Arguments Ok {A} a. Arguments Err {A} e.

(** A computation: the warnings emitted, in order, and the value or exception. *)
Definition M (A : Type) : Type := list warning * result A.

Definition ret {A} (a : A) : M A := ([], Ok a).
Definition raise {A} (e : exn) : M A := ([], Err e).
Definition warn (w : warning) : M unit := ([w], Ok tt).
Definition bind {A B} (m : M A) (f : A -> M B) : M B :=
  match m with
  | (w, Ok a) => let (w', r) := f a in (w ++ w', r)
  | (w, Err e) => (w, Err e)
  end.
Notation "x <- m ;; k" := (bind m (fun x => k)) (at level 61, m at next level, right associativity).
Notation "m ;;; k" := (bind m (fun _ => k)) (at level 61, right associativity).

(** [try: m except E: h], for the exceptions selected by [sel]. *)
Definition try_except {A} (m : M A) (sel : exn -> bool) (h : M A) : M A :=
  match m with
  | (w, Err e) => if sel e then let (w', r) := h in (w ++ w', r) else (w, Err e)
  | _ => m
  end.

Definition is_struct_error (e : exn) : bool := match e with StructError => true | _ => false end.
Definition is_key_error (e : exn) : bool := match e with KeyError => true | _ => false end.
Definition is_struct_or_value_error (e : exn) : bool :=
  match e with StructError | ValueError => true | _ => false end.

Fixpoint mapM {A B} (f : A -> M B) (l : list A) : M (list B) :=
  match l with
  | [] => ret []
  | x :: xs => y <- f x ;; ys <- mapM f xs ;; ret (y :: ys)
  end.

(** ** struct.unpack *)

Fixpoint le_val (bs : bytes) : N :=
  match bs with [] => 0 | b :: r => b2n b + 256 * le_val r end.
Definition be_val (bs : bytes) : N := le_val (rev bs).

(** Two's complement reading of an n-bit value. *)
Definition signed (bits : N) (n : N) : Z :=
  if n <? 2 ^ (bits - 1) then Z.of_N n else (Z.of_N n - Z.of_N (2 ^ bits))%Z.

(** [unpack("<B"|"<H"|"<I"|"<q", b)[0]]: the length must match exactly. *)
Definition unpack_le (size : N) (b : bytes) : M N :=
  if lenN b =? size then ret (le_val b) else raise StructError.
Definition unpack_u8 (b : bytes) : M N := unpack_le 1 b.
Definition unpack_u16 (b : bytes) : M N := unpack_le 2 b.
Definition unpack_u32 (b : bytes) : M N := unpack_le 4 b.
Definition unpack_i16 (b : bytes) : M Z := n <- unpack_le 2 b ;; ret (signed 16 n).
Definition unpack_i32 (b : bytes) : M Z := n <- unpack_le 4 b ;; ret (signed 32 n).
Definition unpack_i64 (b : bytes) : M Z := n <- unpack_le 8 b ;; ret (signed 64 n).

(** ** Number formatting *)

Fixpoint digits_aux (base : N) (fuel : nat) (n : N) (acc : list N) : list N :=
  match fuel with
  | O => acc
  | S f => if n <? base then n :: acc else digits_aux base f (n / base) (n mod base :: acc)
  end.
(** Digits of [n], most significant first; [[0]] for 0. *)
Definition digits (base n : N) : list N := digits_aux base (S (N.size_nat n)) n [].

Definition digit_char (upper : bool) (d : N) : N :=
  if d <? 10 then 48 + d else (if upper then 55 else 87) + d.

Definition pad0 (w : nat) (t : text) : text := repeat 48 (w - length t) ++ t.

(** [str(n)] *)
Definition dec_text (n : N) : text := map (digit_char false) (digits 10 n).
Definition decZ_text (z : Z) : text :=
  if (z <? 0)%Z then 45 :: dec_text (Z.abs_N z) else dec_text (Z.abs_N z).
(** ["%0wX" % n] *)
Definition hexX (w : nat) (n : N) : text := pad0 w (map (digit_char true) (digits 16 n)).
(** [f"{z:0wX}"] for any sign: the sign counts towards the width. *)
Definition hexX_Z (w : nat) (z : Z) : text :=
  if (z <? 0)%Z then 45 :: hexX (w - 1) (Z.abs_N z) else hexX w (Z.abs_N z).
(** ["%0wx" % n] *)
Definition hexx (w : nat) (n : N) : text := pad0 w (map (digit_char false) (digits 16 n)).
(** [hex(n)] for n >= 0 *)
Definition hex_text (n : N) : text := s2t "0x" ++ hexx 1 n.
(** [b.hex()] *)
Definition bytes_hex (b : bytes) : text := flat_map (fun x => hexx 2 (b2n x)) b.

(** ** Values reported by the parser *)

Record datetime := DT { dt_year : Z; dt_month : Z; dt_day : Z; dt_hour : Z; dt_min : Z; dt_sec : Z; dt_us : Z }.

Inductive pyval :=
| PNone
| PInt (z : Z)
| PStr (t : text)
| PDate (d : datetime)
| PList (l : list pyval)
| PDict (d : list (string * pyval)).

Definition dict := list (string * pyval).

Definition PN (n : N) : pyval := PInt (Z.of_N n).
Definition PS (s : string) : pyval := PStr (s2t s).
Definition POpt {A} (f : A -> pyval) (o : option A) : pyval :=
  match o with Some a => f a | None => PNone end.

(** [d.get(k)] *)
Fixpoint dget (k : string) (d : dict) : option pyval :=
  match d with
  | [] => None
  | (k', v) :: r => if String.eqb k k' then Some v else dget k r
  end.
(** [k in d] *)
Definition dmem (k : string) (d : dict) : bool :=
  match dget k d with Some _ => true | None => false end.
(** [d[k] = v]: keeps the position of an existing key. *)
Fixpoint dset (k : string) (v : pyval) (d : dict) : dict :=
  match d with
  | [] => [(k, v)]
  | (k', v') :: r => if String.eqb k k' then (k', v) :: r else (k', v') :: dset k v r
  end.
(** [d.pop(k, None)] *)
Fixpoint dpop (k : string) (d : dict) : dict :=
  match d with
  | [] => []
  | (k', v') :: r => if String.eqb k k' then r else (k', v') :: dpop k r
  end.
(** [d[k] = f(d[k])] for nested updates of an existing entry. *)
Fixpoint dupd (k : string) (f : pyval -> pyval) (d : dict) : dict :=
  match d with
  | [] => []
  | (k', v') :: r => if String.eqb k k' then (k', f v') :: r else (k', v') :: dupd k f r
  end.

(** Look-up in a table keyed by numbers. *)
Fixpoint assocN {A} (k : N) (t : list (N * A)) : option A :=
  match t with
  | [] => None
  | (k', v) :: r => if k =? k' then Some v else assocN k r
  end.

Fixpoint text_eqb (a b : text) : bool :=
  match a, b with
  | [], [] => true
  | x :: a', y :: b' => (x =? y) && text_eqb a' b'
  | _, _ => false
  end.

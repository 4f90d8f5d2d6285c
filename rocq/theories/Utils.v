(** * utils.py and decorators.py *)
From Verif Require Import Py PyTime.

(** utils.py:8-18 [parse_uuid], also the body of decorators.py:27-34 [uuid] *)
Definition parse_uuid (binary : bytes) : M text :=
  let b1 := slice 0 8 binary in
  (if lenN b1 =? 8 then ret tt else raise StructError) ;;;
  let d1 := le_val (slice 0 4 b1) in
  let d2 := le_val (slice 4 6 b1) in
  let d3 := le_val (slice 6 8 b1) in
  let b2 := slice 8 16 binary in
  (if lenN b2 =? 8 then ret tt else raise StructError) ;;;
  let d4 := be_val (slice 0 2 b2) in
  let d51 := be_val (slice 2 4 b2) in
  let d52 := be_val (slice 4 8 b2) in
  ret (hexX 8 d1 ++ s2t "-" ++ hexX 4 d2 ++ s2t "-" ++ hexX 4 d3 ++ s2t "-" ++ hexX 4 d4
       ++ s2t "-" ++ hexX 4 d51 ++ hexX 8 d52).

(** [base_85.find(char)]: index or -1. *)
Fixpoint find_char (c : N) (t : text) (i : Z) : Z :=
  match t with
  | [] => (-1)%Z
  | x :: r => if x =? c then i else find_char c r (i + 1)%Z
  end.

(** utils.py:24-26 *)
Definition base_85 : text :=
  s2t "!$%&'()*+,-.0123456789=?@ABCDEFGHIJKLMNOPQRSTUVWXYZ[]^_`abcdefghijklmnopqrstuvwxyz{}~".

(** utils.py:27-35, the loop on i = 5 .. 1; [quad[i - 1]] raises IndexError on a short quad.
    The argument is the value of [i]. *)
Fixpoint quad_loop (quad : text) (i : nat) (ddec : Z) : M Z :=
  match i with
  | O => ret ddec
  | S i' =>
    match nth_error quad i' with
    | None => raise IndexError
    | Some char =>
      let ddec := (ddec + find_char char base_85 0)%Z in
      let ddec := if Nat.ltb 1 i then (ddec * 85)%Z else ddec in
      quad_loop quad i' ddec
    end
  end.

(** utils.py:21-37 [_quad_to_hex] *)
Definition quad_to_hex (quad : text) : M text :=
  ddec <- quad_loop quad 5 0%Z ;; ret (hexX_Z 8 ddec).

(** utils.py:40-78 [parse_packed_uuid], for a text that is not None *)
Definition parse_packed_uuid (t : text) : M text :=
  quad1 <- quad_to_hex (slice 0 5 t) ;;
  quad2 <- quad_to_hex (slice 5 10 t) ;;
  quad3 <- quad_to_hex (slice 10 15 t) ;;
  quad4 <- quad_to_hex (slice 15 20 t) ;;
  let quads := quad1 ++ quad2 ++ quad3 ++ quad4 in
  let d1 := slice 0 8 quads in
  let d2 := slice 12 16 quads in
  let d3 := slice 8 12 quads in
  let d41 := slice 22 24 quads in
  let d42 := slice 20 22 quads in
  let d51 := slice 18 20 quads in
  let d52 := slice 16 18 quads in
  let d53 := slice 30 32 quads in
  let d54 := slice 28 30 quads in
  let d55 := slice 26 28 quads in
  let d56 := slice 24 26 quads in
  ret (d1 ++ s2t "-" ++ d2 ++ s2t "-" ++ d3 ++ s2t "-" ++ d41 ++ d42 ++ s2t "-"
       ++ d51 ++ d52 ++ d53 ++ d54 ++ d55 ++ d56).

(** utils.py:95 *)
Definition epoch_as_filetime : Z := 116444736000000000%Z.
(** utils.py:96 *)
Definition hundreds_of_nanoseconds : Z := 10000000%Z.

(** utils.py:81-110 [parse_filetime] (branch for Python >= 3.8) *)
Definition parse_filetime (binary : bytes) : M (option datetime) :=
  nanosec <- unpack_i64 binary ;;
  if (nanosec =? 0)%Z then ret None
  else
    match fromtimestamp_utc (nanosec - epoch_as_filetime)%Z hundreds_of_nanoseconds with
    | Some dt => ret (Some dt)
    | None => warn (WFiletime binary) ;;; ret None
    end.

(** utils.py:113-168 [parse_dostime] (branch for Python >= 3.8) *)
Definition parse_dostime (binary : bytes) : M (option datetime) :=
  dos <- unpack_u32 binary ;;
  if dos =? 0 then ret None
  else
    let y := N.shiftr (N.land dos 0x0000FE00) 9 + 1980 in
    let mo := N.shiftr (N.land dos 0x000001E0) 5 in
    let d := N.shiftr (N.land dos 0x0000001F) 0 in
    let h := N.shiftr (N.land dos 0xF8000000) 27 in
    let mi := N.shiftr (N.land dos 0x07E00000) 21 in
    let s := N.shiftr (N.land dos 0x001F0000) 16 * 2 in
    match make_datetime (Z.of_N y) (Z.of_N mo) (Z.of_N d) (Z.of_N h) (Z.of_N mi) (Z.of_N s) 0 with
    | Some dt => ret (Some dt)
    | None => warn (WDostime binary) ;;; ret None
    end.

(** decorators.py:10-24 [must_be] for numbers and for text *)
Definition must_be_N (name : string) (expected : N) (m : M N) : M N :=
  result <- m ;;
  (if result =? expected then ret tt else warn (WMustBe name)) ;;; ret result.
Definition must_be_text (name : string) (expected : text) (m : M text) : M text :=
  result <- m ;;
  (if text_eqb result expected then ret tt else warn (WMustBe name)) ;;; ret result.

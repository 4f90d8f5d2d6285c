(** * string_data.py *)
From Verif Require Import Py Codec Utils Header.

(** The state of a StringData object: [_data] and [_size]. *)
Record string_data := SD { sd_data : dict; sd_size : N }.

(** string_data.py:81-93 [read]; [header] is the raw header of [_lnk_file]. *)
Definition sd_read (header : bytes) (cp : cp_arg) (binary : bytes) (limit_length : bool) : M (text * N) :=
  let offset := 2 in
  char_count <- unpack_u16 (slice 0 offset binary) ;;
  let length := if limit_length && (260 <? char_count) then 260 else char_count in
  unicode <- has_flag "IsUnicode" header ;;
  let length := if unicode : bool then length * 2 else length in
  text <- (if unicode : bool then read_unicode_string (slice offset (offset + length) binary)
           else read_string cp (slice offset (offset + length) binary)) ;;
  ret (text, offset + length).

(** string_data.py:34-57: the optional strings in order, with the flag that announces each
    and whether [limit_length] is passed. *)
Definition sd_fields : list (string * string * bool) :=
  [("HasName", "description", true);
   ("HasRelativePath", "relative_path", true);
   ("HasWorkingDir", "working_directory", true);
   ("HasArguments", "command_line_arguments", false);
   ("HasIconLocation", "icon_location", false)]%string.

(** string_data.py:33-59, the body of the [try] unrolled over [sd_fields]. [struct.error]
    stops the loop with the fields read so far and one warning. *)
Fixpoint sd_loop (fields : list (string * string * bool)) (header : bytes) (cp : cp_arg)
    (raw : bytes) (st : string_data) : M string_data :=
  match fields with
  | [] => ret st
  | (flag, name, limit) :: rest =>
    match has_flag flag header with
    | (w, Ok false) => sd_loop rest header cp raw st
    | (w, Ok true) =>
      match sd_read header cp (dropN (sd_size st) raw) limit with
      | (w, Ok (text, length)) =>
        let (w', r) := sd_loop rest header cp raw (SD (dset name (PStr text) (sd_data st)) (sd_size st + length)) in
        (w ++ w', r)
      | (w, Err e) => if is_struct_error e then (w ++ [WStringData], Ok st) else (w, Err e)
      end
    | (w, Err e) => if is_struct_error e then (w ++ [WStringData], Ok st) else (w, Err e)
    end
  end.

(** string_data.py:25-61 [__init__] *)
Definition string_data_init (header : bytes) (cp : cp_arg) (indata : bytes) : M string_data :=
  sd_loop sd_fields header cp indata (SD [] 0).

(** string_data.py:95-96 [as_dict]: no stored value is None. *)
Definition string_data_as_dict (sd : string_data) : dict := sd_data sd.

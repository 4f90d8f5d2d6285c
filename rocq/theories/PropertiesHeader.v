(** * Properties C04-C10: the header, flags, prescribed values, times, GUIDs

    The vocabulary is in Spec.v ([encode_header]), SpecHeader.v ([header_report]) and
    SpecTime.v (the calendar). *)
From Verif Require Import Lemmas Codec Utils Header LnkFile Spec SpecHeader SpecTime.
From Verif Require Import LayoutProofs FormatProofs EncProofs HeaderProofs ApiProofs TimeProofs WarnProofs HeaderFileProofs.

(** ** C04. Header fields are read from the documented layout. *)
Theorem C04_header_reported :
  forall h rest cp allow l d,
    wf_header h ->
    snd (lnk_init (FromBytes (encode_header h ++ rest)) cp allow) = Ok l -> snd (get_json l true) = Ok d ->
    exists c a w,
      dget "header" d = Some (PDict (header_report h c a w))
      /\ time_shown (h_ctime h) c /\ time_shown (h_atime h) a /\ time_shown (h_wtime h) w.
Proof. exact shown_header. Qed.
Print Assumptions C04_header_reported.

(** Every file with a report begins with such a header, so this covers all files. *)
Theorem C04_every_file :
  forall b cp allow l d,
    snd (lnk_init (FromBytes b) cp allow) = Ok l -> snd (get_json l true) = Ok d ->
    exists h rest c a w,
      wf_header h /\ b = encode_header h ++ rest
      /\ dget "header" d = Some (PDict (header_report h c a w))
      /\ time_shown (h_ctime h) c /\ time_shown (h_atime h) a /\ time_shown (h_wtime h) w.
Proof. exact every_header. Qed.
Print Assumptions C04_every_file.

(** The times of a header written from calendar times. *)
Theorem C04_times_reported :
  forall h rest cp allow l d c a w,
    wf_header h ->
    (forall t, t = c \/ t = a \/ t = w -> valid_datetime t /\ dt_us t = 0%Z /\ filetime_of t <> 0%Z) ->
    h_ctime h = filetime_of c -> h_atime h = filetime_of a -> h_wtime h = filetime_of w ->
    snd (lnk_init (FromBytes (encode_header h ++ rest)) cp allow) = Ok l -> snd (get_json l true) = Ok d ->
    dget "header" d = Some (PDict (header_report h (Some c) (Some a) (Some w))).
Proof. exact header_reported_calendar. Qed.
Print Assumptions C04_times_reported.

Definition sample_header : shell_header :=
  ShellHeader 76 link_clsid 0 0x21 (filetime_of (DT 2024 2 29 12 34 56 0)) (filetime_of (DT 1601 1 1 0 0 1 0))
    (filetime_of (DT 9999 12 31 23 59 59 0)) 4096 (-3) 7 x43 x02 0 0 0.
Definition sample_report : dict :=
  header_report sample_header (Some (DT 2024 2 29 12 34 56 0)) (Some (DT 1601 1 1 0 0 1 0)) (Some (DT 9999 12 31 23 59 59 0)).
Example C04_example :
  wf_header sample_header
  /\ exists l d, snd (lnk_init (FromBytes (encode_header sample_header ++ [x01; x02])) CpNone true) = Ok l
     /\ snd (get_json l true) = Ok d /\ dget "header" d = Some (PDict sample_report).
Proof.
  split; [unfold wf_header, fits16, fits32, fits_i32, fits_i64; vm_compute; intuition discriminate|].
  eexists. eexists. split; [vm_compute; reflexivity|]. split; vm_compute; reflexivity.
Qed.

(** ** C05. Flag lists name exactly the set bits. *)
Theorem C05_flags_reported :
  forall b cp allow l d h,
    snd (lnk_init (FromBytes b) cp allow) = Ok l -> snd (get_json l true) = Ok d ->
    dget "header" d = Some (PDict h) ->
    dget "r_link_flags" h = Some (PN (num 4 20 b))
    /\ dget "link_flags" h = Some (names_value (set_bits 0 link_flag_bits (num 4 20 b)))
    /\ dget "r_file_flags" h = Some (PN (num 4 24 b))
    /\ dget "file_flags" h = Some (names_value (set_bits 0 file_attribute_bits (num 4 24 b))).
Proof. exact every_flags. Qed.
Print Assumptions C05_flags_reported.

(** The list contains the name of bit [i] iff bit [i] is set, and nothing twice. *)
Theorem C05_names_are_bits :
  forall n i s,
    (nth_error link_flag_bits i = Some s ->
       (In s (set_bits 0 link_flag_bits n) <-> N.testbit n (N.of_nat i) = true))
    /\ (nth_error file_attribute_bits i = Some s ->
       (In s (set_bits 0 file_attribute_bits n) <-> N.testbit n (N.of_nat i) = true))
    /\ NoDup (set_bits 0 link_flag_bits n) /\ NoDup (set_bits 0 file_attribute_bits n).
Proof.
  exact (fun n i s => conj (link_flag_listed n i s) (conj (file_flag_listed n i s)
    (conj (set_bits_NoDup _ 0 n (nodupb_ok link_flag_bits eq_refl))
          (set_bits_NoDup _ 0 n (nodupb_ok file_attribute_bits eq_refl))))).
Qed.
Print Assumptions C05_names_are_bits.

(** The predicates of the object ([has_relative_path()] and so on) test their own bit. *)
Theorem C05_predicates :
  forall b cp allow l, snd (lnk_init (FromBytes b) cp allow) = Ok l ->
  forall name i,
    In (name, i) [("HasTargetIDList", 0); ("HasLinkInfo", 1); ("HasName", 2); ("HasRelativePath", 3);
                  ("HasWorkingDir", 4); ("HasArguments", 5); ("HasIconLocation", 6); ("IsUnicode", 7);
                  ("ForceNoLinkInfo", 8)]%string ->
    has_flag name (l_header l) = ret (bit_set i b).
Proof. exact predicates_of_flags. Qed.
Print Assumptions C05_predicates.

Example C05_example :
  exists l d h, snd (lnk_init (FromBytes (encode_header (plain_header 0x04000180))) CpNone true) = Ok l
    /\ snd (get_json l true) = Ok d /\ dget "header" d = Some (PDict h)
    /\ dget "link_flags" h = Some (names_value ["IsUnicode"; "ForceNoLinkInfo"; "KeepLocalIDListForUNCTarget"]%string)
    /\ dget "file_flags" h = Some (names_value ["FILE_ATTRIBUTE_ARCHIVE"]%string).
Proof. eexists. eexists. eexists. split; [vm_compute; reflexivity|]. split; [vm_compute; reflexivity|]. split; [vm_compute; reflexivity|]. split; vm_compute; reflexivity. Qed.

(** ** C06. Violated prescribed values warn; the value reported is the stored one (C04). *)
Theorem C06_header_warnings :
  forall h rest cp allow l all,
    wf_header h -> snd (lnk_init (FromBytes (encode_header h ++ rest)) cp allow) = Ok l ->
    (In (WMustBe "size") (fst (get_json l all)) <-> h_size h <> 76)
    /\ (In (WMustBe "link_cls_id") (fst (get_json l all)) <-> h_clsid h <> link_clsid)
    /\ (In (WMustBe "reserved0") (fst (get_json l all)) <-> h_res1 h <> 0)
    /\ (In (WMustBe "reserved1") (fst (get_json l all)) <-> h_res2 h <> 0)
    /\ (In (WMustBe "reserved2") (fst (get_json l all)) <-> h_res3 h <> 0).
Proof. exact header_warnings. Qed.
Print Assumptions C06_header_warnings.

Theorem C06_constructor_warnings :
  forall h rest cp allow,
    wf_header h ->
    (In (WMustBe "size") (fst (lnk_init (FromBytes (encode_header h ++ rest)) cp allow)) <-> h_size h <> 76).
Proof. exact constructor_warnings. Qed.
Print Assumptions C06_constructor_warnings.

(** The header's warnings come first and in a fixed order. *)
Theorem C06_header_warnings_first :
  forall h rest cp allow l all,
    wf_header h -> snd (lnk_init (FromBytes (encode_header h ++ rest)) cp allow) = Ok l ->
    exists wc wa ww others,
      fst (get_json l all) = clsid_warning h ++ wc ++ wa ++ ww ++ size_warning h ++ reserved_warnings h ++ others
      /\ time_warned (h_ctime h) wc /\ time_warned (h_atime h) wa /\ time_warned (h_wtime h) ww.
Proof. exact warned_header. Qed.
Print Assumptions C06_header_warnings_first.

Definition odd_header : shell_header :=
  ShellHeader 80 (repeat x11 16) 0 0 0 0 0 0 0 1 x00 x00 0 9 0.
Example C06_example :
  wf_header odd_header
  /\ exists l, lnk_init (FromBytes (encode_header odd_header)) CpNone true = ([WMustBe "size"; WMustBe "size"], Ok l)
     /\ fst (get_json l true) = [WMustBe "link_cls_id"; WMustBe "size"; WMustBe "reserved1"].
Proof.
  split; [unfold wf_header, fits16, fits32, fits_i32, fits_i64; vm_compute; intuition discriminate|].
  eexists. split; [vm_compute; reflexivity|]. vm_compute. reflexivity.
Qed.

(** ** C07. Hot key and show command. *)
Theorem C07_rendering :
  forall h rest cp allow l d hd,
    wf_header h ->
    snd (lnk_init (FromBytes (encode_header h ++ rest)) cp allow) = Ok l -> snd (get_json l true) = Ok d ->
    dget "header" d = Some (PDict hd) ->
    dget "windowstyle" hd = Some (PS (show_text (h_show h)))
    /\ dget "hotkey" hd = Some (PStr (hot_key_text (h_key h) (h_mods h))).
Proof. exact rendering_reported. Qed.
Print Assumptions C07_rendering.

Theorem C07_hot_key_recoverable :
  forall k1 m1 k2 m2, hot_key_text k1 m1 = hot_key_text k2 m2 -> k1 = k2 /\ m1 = m2.
Proof. exact hot_key_text_inj. Qed.
Print Assumptions C07_hot_key_recoverable.

Example C07_example :
  hot_key_text x43 x02 = s2t "CONTROL - C {0x4302}" /\ hot_key_text x7b x04 = s2t "ALT - F12 {0x7b04}"
  /\ hot_key_text x43 x03 = s2t "4303" /\ hot_key_text x00 x00 = s2t "UNSET - UNSET {0x0000}".
Proof. vm_compute. repeat split; reflexivity. Qed.

(** ** C08. FILETIMEs. *)
Theorem C08_zero : parse_filetime (enci64 0) = ret None.
Proof. exact filetime_zero. Qed.
Print Assumptions C08_zero.

(** Every whole second of the years 1..9999, and every microsecond within 2^32 seconds of
    1970, is reported exactly. *)
Theorem C08_exact :
  forall t,
    valid_datetime t -> filetime_of t <> 0%Z ->
    dt_us t = 0%Z \/ (Z.abs (since_1970 (filetime_of t)) < 2 ^ 32 * 10000000)%Z ->
    parse_filetime (enci64 (filetime_of t)) = ret (Some t).
Proof. exact filetime_round_trip. Qed.
Print Assumptions C08_exact.

(** Any FILETIME within 2^32 seconds of 1970: less than a microsecond (ten units) off. *)
Theorem C08_near_1970 :
  forall t,
    fits_i64 t -> t <> 0%Z -> (Z.abs (since_1970 t) < 2 ^ 32 * 10000000)%Z ->
    exists dt, parse_filetime (enci64 t) = ret (Some dt) /\ valid_datetime dt
      /\ (Z.abs (10 * microseconds dt - filetime_instant t) < 10)%Z.
Proof. exact filetime_near_1970_reported. Qed.
Print Assumptions C08_near_1970.

(** Any FILETIME of the years 1..9999: at most 17 microseconds off (a FILETIME within 17
    microseconds of the ends of that range may be reported as missing). *)
Theorem C08_in_range :
  forall t,
    fits_i64 t -> t <> 0%Z -> (170 <= filetime_instant t < 10 * end_of_time - 170)%Z ->
    exists dt, parse_filetime (enci64 t) = ret (Some dt) /\ valid_datetime dt
      /\ (Z.abs (10 * microseconds dt - filetime_instant t) <= 170)%Z.
Proof. exact filetime_in_range. Qed.
Print Assumptions C08_in_range.

Theorem C08_out_of_range :
  forall t,
    fits_i64 t -> t <> 0%Z -> (filetime_instant t < -170 \/ 10 * end_of_time + 170 <= filetime_instant t)%Z ->
    parse_filetime (enci64 t) = ([WFiletime (enci64 t)], Ok None).
Proof. exact filetime_out_of_range. Qed.
Print Assumptions C08_out_of_range.

(** The calendar of the specification is one: consecutive days have consecutive numbers and
    different valid times are different instants. *)
Theorem C08_calendar :
  (forall t t', valid_datetime t -> valid_datetime t' -> microseconds t = microseconds t' -> t = t')
  /\ (forall t, valid_datetime t -> (0 <= microseconds t < end_of_time)%Z)
  /\ (forall y, days_before_year (y + 1) = days_before_year y + 365 + (if leap_year y then 1 else 0))%Z.
Proof. exact (conj microseconds_inj (conj microseconds_range year_step)). Qed.
Print Assumptions C08_calendar.

(** A FILETIME of a whole microsecond far from 1970 that is not reported exactly: the double
    nearest to it is 15 microseconds away. *)
Theorem C08_exact_everywhere_refuted :
  exists t, valid_datetime t /\ parse_filetime (enci64 (filetime_of t)) <> ret (Some t).
Proof.
  exists (DT 9000 1 1 0 0 0 1). split; [unfold valid_datetime, valid_date; vm_compute; intuition discriminate|].
  vm_compute. discriminate.
Qed.
Print Assumptions C08_exact_everywhere_refuted.

Example C08_example :
  parse_filetime [x00; x80; x3e; xd5; xde; xb1; x9d; x01] = ret (Some (DT 1970 1 1 0 0 0 0))
  /\ filetime_of (DT 1970 1 1 0 0 0 0) = 116444736000000000%Z.
Proof. vm_compute. split; reflexivity. Qed.
Example C08_example_out_of_range :
  (10 * end_of_time + 170 <= filetime_instant 9223372036854775807)%Z
  /\ parse_filetime (enci64 9223372036854775807) = ([WFiletime (enci64 9223372036854775807)], Ok None).
Proof. vm_compute. split; [discriminate|reflexivity]. Qed.

(** ** C09. DOS times. *)
Theorem C09_round_trip :
  forall t,
    valid_datetime t -> (1980 <= dt_year t <= 2107)%Z -> dt_us t = 0%Z -> (dt_sec t mod 2 = 0)%Z ->
    parse_dostime (enc16 (Z.to_N (fat_date t)) ++ enc16 (Z.to_N (fat_time t))) = ret (Some t).
Proof. exact dostime_round_trip. Qed.
Print Assumptions C09_round_trip.

(** Every other word. *)
Theorem C09_all_words :
  forall n, fits32 n ->
    (n = 0 -> parse_dostime (enc32 n) = ret None)
    /\ (n <> 0 -> valid_datetime (fat_datetime n) -> parse_dostime (enc32 n) = ret (Some (fat_datetime n)))
    /\ (n <> 0 -> ~ valid_datetime (fat_datetime n) -> parse_dostime (enc32 n) = ([WDostime (enc32 n)], Ok None)).
Proof. exact dostime_spec. Qed.
Print Assumptions C09_all_words.

Example C09_example :
  parse_dostime [x5d; x58; x5c; x64] = ret (Some (DT 2024 2 29 12 34 56 0))
  /\ parse_dostime [x5d; x5a; x5c; x64] = ([WDostime [x5d; x5a; x5c; x64]], Ok None).
Proof. vm_compute. split; reflexivity. Qed.

(** ** C10. GUIDs. *)
Theorem C10_registry_format : forall g, lenN g = 16 -> parse_uuid g = ret (guid_text g) /\ lenN (guid_text g) = 36.
Proof. exact (fun g H => conj (parse_uuid_guid g H) (guid_text_length g H)). Qed.
Print Assumptions C10_registry_format.

Theorem C10_lossless : forall g1 g2, lenN g1 = 16 -> lenN g2 = 16 -> guid_text g1 = guid_text g2 -> g1 = g2.
Proof. exact guid_text_inj. Qed.
Print Assumptions C10_lossless.

Theorem C10_short_raises : forall g, lenN g < 16 -> parse_uuid g = raise StructError.
Proof. exact parse_uuid_short. Qed.
Print Assumptions C10_short_raises.

Example C10_example : parse_uuid link_clsid = ret (s2t "00021401-0000-0000-C000-000000000046").
Proof. vm_compute. reflexivity. Qed.

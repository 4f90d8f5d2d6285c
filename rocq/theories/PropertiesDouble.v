(** * Property C64: times to the last digit, and in their order

    SpecDouble.v says in rational arithmetic which time is read from a FILETIME. *)
From Verif Require Import Py PyTime Utils Codec Header LnkFile Spec SpecHeader SpecTime SpecDouble.
From Verif Require Import DoubleProofs OrderProofs WholeProofs.

(** ** C64. A FILETIME is reported as the time its rounding to a double names. *)
Theorem C64_exact :
  forall t shown w,
    fits_i64 t ->
    parse_filetime (enci64 t) = (w, Ok shown) <-> time_read t shown /\ w = time_said t shown.
Proof. exact filetime_read. Qed.
Print Assumptions C64_exact.

Theorem C64_determined :
  forall t,
    fits_i64 t ->
    (exists shown, time_read t shown)
    /\ forall shown1 shown2, time_read t shown1 -> time_read t shown2 -> shown1 = shown2.
Proof. exact time_read_total. Qed.
Print Assumptions C64_determined.

(** A later FILETIME is never reported as an earlier time, and between two that are reported all are. *)
Theorem C64_order :
  forall t1 t2 dt1 dt2 w1 w2,
    fits_i64 t1 -> fits_i64 t2 -> (t1 <= t2)%Z ->
    parse_filetime (enci64 t1) = (w1, Ok (Some dt1)) -> parse_filetime (enci64 t2) = (w2, Ok (Some dt2)) ->
    (microseconds dt1 <= microseconds dt2)%Z.
Proof. exact filetime_order. Qed.
Print Assumptions C64_order.

Theorem C64_no_gaps :
  forall t1 t t2 dt1 dt2 w1 w2,
    fits_i64 t1 -> fits_i64 t2 -> (t1 <= t <= t2)%Z -> t <> 0%Z ->
    parse_filetime (enci64 t1) = (w1, Ok (Some dt1)) -> parse_filetime (enci64 t2) = (w2, Ok (Some dt2)) ->
    exists dt, parse_filetime (enci64 t) = ([], Ok (Some dt)).
Proof. exact filetime_no_gaps. Qed.
Print Assumptions C64_no_gaps.

(** In every report the three times of the header are the ones read from the file, and in the order of the file. *)
Theorem C64_header_times :
  forall b cp allow l d,
    usable cp -> snd (lnk_init (FromBytes b) cp allow) = Ok l -> snd (get_json l true) = Ok d ->
    exists h rest created accessed written,
      wf_header h /\ b = encode_header h ++ rest
      /\ time_read (h_ctime h) created /\ time_read (h_atime h) accessed /\ time_read (h_wtime h) written
      /\ dget "header" d = Some (PDict (header_report h created accessed written))
      /\ forall c w, created = Some c -> written = Some w ->
           ((h_ctime h <= h_wtime h)%Z -> (microseconds c <= microseconds w)%Z)
           /\ ((h_wtime h <= h_ctime h)%Z -> (microseconds w <= microseconds c)%Z).
Proof. exact header_times. Qed.
Print Assumptions C64_header_times.

(** One microsecond past the year 9000: the nearest double is about sixteen microseconds away; and a time past 9999. *)
Example C64_example :
  time_read (filetime_of (DT 9000 1 1 0 0 0 1)) (Some (DT 9000 1 1 0 0 0 0))
  /\ time_read (filetime_of (DT 9000 1 1 0 0 0 20)) (Some (DT 9000 1 1 0 0 0 31))
  /\ time_read 9223372036854775807 None
  /\ time_said 9223372036854775807 None = [WFiletime (enci64 9223372036854775807)].
Proof.
  assert (H : forall t shown, fits_i64 t -> parse_filetime (enci64 t) = (time_said t shown, Ok shown) -> time_read t shown).
  { intros t shown F E. now apply C64_exact in E. }
  split; [|split; [|split]]; [apply H; [split; [discriminate|reflexivity]|vm_compute; reflexivity]..|reflexivity].
Qed.
Example C64_example_order :
  parse_filetime (enci64 116444736000000019) = ([], Ok (Some (DT 1970 1 1 0 0 0 2)))
  /\ parse_filetime (enci64 116444736000000021) = ([], Ok (Some (DT 1970 1 1 0 0 0 2)))
  /\ parse_filetime (enci64 116444736000000026) = ([], Ok (Some (DT 1970 1 1 0 0 0 3))).
Proof. vm_compute. repeat split. Qed.

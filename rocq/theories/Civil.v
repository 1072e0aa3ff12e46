(** time.Unix(sec, 0).Format("2006-01-02") as in Go's time package (standard
    library, not part of /repo; used at datatype.go:97-99).  The local time
    zone is an oracle giving the offset in seconds for a moment. *)
From Verif Require Import Base Utf8 GoStrings.
Local Open Scope Z_scope.

(** time.go isLeap *)
Definition is_leap (y : Z) : bool :=
  (y mod 4 =? 0) && (negb (y mod 100 =? 0) || (y mod 400 =? 0)).

(** time.go absoluteZeroYear; the calendar is computed from the start of that
    year. *)
Definition abs_zero_year : Z := -292277022399.

(** Days from the start of [abs_zero_year] to 1970-01-01: time.go
    (unixToInternal + internalToAbsolute) / secondsPerDay. *)
Definition abs_epoch_days : Z := 106751991073094.

Definition uint64 (z : Z) : Z := z mod 18446744073709551616.

(** time.go daysBefore *)
Definition days_before : list Z :=
  [0; 31; 59; 90; 120; 151; 181; 212; 243; 273; 304; 334; 365].

(** time.go absDate: year and day of the year from days since the start of
    [abs_zero_year]. *)
Definition abs_year (d : Z) : Z * Z :=
  let n := d / 146097 in
  let y := 400 * n in
  let d := d - 146097 * n in
  let n := d / 36524 in
  let n := n - n / 4 in
  let y := y + 100 * n in
  let d := d - 36524 * n in
  let n := d / 1461 in
  let y := y + 4 * n in
  let d := d - 1461 * n in
  let n := d / 365 in
  let n := n - n / 4 in
  let y := y + n in
  let d := d - 365 * n in
  (y + abs_zero_year, d).

(** time.go absDate, second half: month (1..12) and day (1..31) from the day of
    the year, leap day already dealt with. *)
Definition month_go (day : Z) : Z * Z :=
  let month := Z.to_nat (day / 31) in
  let fin := nth (S month) days_before 0 in
  if fin <=? day then (Z.of_nat month + 2, day - fin + 1)
  else (Z.of_nat month + 1, day - nth month days_before 0 + 1).

Definition month_day (leap : bool) (yday : Z) : Z * Z :=
  if leap then
    if 59 <? yday then month_go (yday - 1)
    else if yday =? 59 then (2, 29)
    else month_go yday
  else month_go yday.

(** Time.Date for a local time of [sec] seconds since 1970. *)
Definition civil (sec : Z) : Z * Z * Z :=
  let abs := uint64 (sec + abs_epoch_days * 86400) in
  let (y, yday) := abs_year (abs / 86400) in
  let (m, d) := month_day (is_leap y) yday in
  (y, m, d).

(** format.go appendInt: decimal, zero padded to a width. *)
Definition pad_int (width : nat) (z : Z) : bytes :=
  let ds := dec_of_N (Z.to_N (Z.abs z)) in
  (if z <? 0 then ["-"%char] else []) ++ repeat "0"%char (width - length ds) ++ ds.

Definition fmt_date (ymd : Z * Z * Z) : bytes :=
  match ymd with
  | (y, m, d) => pad_int 4 y ++ "-"%char :: pad_int 2 m ++ "-"%char :: pad_int 2 d
  end.

(** time.Unix(unix, 0).Format("2006-01-02"); [tz] is the local zone. *)
Definition format_date (tz : Z -> Z) (unix : Z) : bytes :=
  fmt_date (civil (unix + tz unix)).

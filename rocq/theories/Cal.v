(* The part of CPython's `datetime` module that pysolar uses (external to /repo;
   modelled from the Python 3 library reference and CPython's Modules/_datetimemodule.c:
   days_before_year, ymd_to_ord, ord_to_ymd, utctimetuple, timestamp, subtraction,
   addition of a timedelta).

   A datetime is represented by its local wall-clock reading, as the number of
   microseconds since 0001-01-01T00:00:00 (fields are derived from it), its fold flag and
   its tzinfo. Python stores the fields instead; [fields_of_us_inv] and [us_of_fields_inv]
   in CalProofs.v show that the two representations are in bijection. *)
From Verif Require Import Py.

Definition us_per_day : Z := 86400 * 1000000.

Definition is_leap (y : Z) : bool :=
  (y mod 4 =? 0) && (negb (y mod 100 =? 0) || (y mod 400 =? 0)).

(* days before January 1 of year y, with 0001-01-01 = day 0 *)
Definition days_before_year (y : Z) : Z :=
  let p := y - 1 in p * 365 + p / 4 - p / 100 + p / 400.

Definition days_before_month_common (m : Z) : Z :=
  match m with
  | 1 => 0 | 2 => 31 | 3 => 59 | 4 => 90 | 5 => 120 | 6 => 151
  | 7 => 181 | 8 => 212 | 9 => 243 | 10 => 273 | 11 => 304 | 12 => 334
  | _ => 0
  end.

Definition days_before_month (leap : bool) (m : Z) : Z :=
  days_before_month_common m + (if (2 <? m) && leap then 1 else 0).

Definition days_in_month (leap : bool) (m : Z) : Z :=
  match m with
  | 1 | 3 | 5 | 7 | 8 | 10 | 12 => 31
  | 4 | 6 | 9 | 11 => 30
  | 2 => if leap then 29 else 28
  | _ => 0
  end.

(* date.toordinal(): 0001-01-01 is day 1 *)
Definition ymd2ord (y m d : Z) : Z :=
  days_before_year y + days_before_month (is_leap y) m + d.

(* date.fromordinal(), CPython's ord_to_ymd *)
Definition ord2ymd (ordinal : Z) : Z * Z * Z :=
  let n := ordinal - 1 in
  let n400 := n / 146097 in
  let n := n mod 146097 in
  let n100 := n / 36524 in
  let n := n mod 36524 in
  let n4 := n / 1461 in
  let n := n mod 1461 in
  let n1 := n / 365 in
  let n := n mod 365 in
  let year := n400 * 400 + 1 + n100 * 100 + n4 * 4 + n1 in
  if (n1 =? 4) || (n100 =? 4) then (year - 1, 12, 31)
  else
    let leapyear := (n1 =? 3) && (negb (n4 =? 24) || (n100 =? 3)) in
    let month := (n + 50) / 32 in
    let preceding := days_before_month leapyear month in
    if n <? preceding then
      (year, month - 1, n - (preceding - days_in_month leapyear (month - 1)) + 1)
    else (year, month, n - preceding + 1).

(* broken-down time: the fields of a datetime / of time.struct_time *)
Record fields := mkfields {
  f_year : Z; f_mon : Z; f_day : Z; f_hour : Z; f_min : Z; f_sec : Z; f_us : Z }.

Definition us_of_fields (f : fields) : Z :=
  (ymd2ord (f_year f) (f_mon f) (f_day f) - 1) * us_per_day
  + ((f_hour f * 60 + f_min f) * 60 + f_sec f) * 1000000 + f_us f.

Definition fields_of_us (u : Z) : fields :=
  let days := u / us_per_day in
  let r := u mod us_per_day in
  let s := r / 1000000 in
  let '(y, m, d) := ord2ymd (days + 1) in
  {| f_year := y; f_mon := m; f_day := d;
     f_hour := s / 3600; f_min := (s / 60) mod 60; f_sec := s mod 60;
     f_us := r mod 1000000 |}.

(* struct_time.tm_yday *)
Definition f_yday (f : fields) : Z :=
  days_before_month (is_leap (f_year f)) (f_mon f) + f_day f.

(* datetime.min .. datetime.max: years 1..9999 *)
Definition max_us : Z := 3652059 * us_per_day.
Definition in_range (u : Z) : bool := (0 <=? u) && (u <? max_us).

(* A tzinfo object: its identity (Python compares tzinfo objects with `is`) and its
   utcoffset method, a function of the local wall clock and the fold flag, in microseconds.
   utcoffset may return None. dst()/tzname() are not used by pysolar. *)
Record tzinfo := {
  tz_id : Z;
  tz_utcoffset : Z -> bool -> option Z }.

Record datetime := mkdt {
  dt_local : Z;             (* wall clock, microseconds since 0001-01-01T00:00 *)
  dt_fold : bool;
  dt_tz : option tzinfo }.

Definition valid_dt (d : datetime) : Prop := in_range (dt_local d) = true.

(* datetime.utcoffset(): None for naive datetimes; the C layer raises ValueError when the
   tzinfo returns an offset that is not strictly between -24h and 24h *)
Definition utcoffset (d : datetime) : res (option Z) :=
  match dt_tz d with
  | None => Ok None
  | Some tz =>
      match tz_utcoffset tz (dt_local d) (dt_fold d) with
      | None => Ok None
      | Some o => if (Z.abs o <? us_per_day) then Ok (Some o) else Err ValueError
      end
  end.

(* datetime.timetuple(): local fields *)
Definition timetuple (d : datetime) : fields := fields_of_us (dt_local d).

(* datetime.utctimetuple(): fields of local - utcoffset; naive datetimes are taken as UTC *)
Definition utctimetuple (d : datetime) : res fields :=
  off <- utcoffset d ;;
  let u := dt_local d - match off with Some o => o | None => 0 end in
  if in_range u then Ok (fields_of_us u) else Err OverflowError.

(* 1970-01-01T00:00:00 UTC; ymd2ord 1970 1 1 - 1 = 719162 *)
Definition epoch_us : Z := 719162 * us_per_day.

(* datetime.timestamp() of an aware datetime: (self - epoch).total_seconds(), here in
   microseconds. For naive datetimes Python uses the platform's mktime (Unmodelled;
   every caller in pysolar checks awareness first). tzinfo with utcoffset() None:
   "can't subtract offset-naive and offset-aware datetimes" *)
Definition timestamp_us (d : datetime) : res Z :=
  match dt_tz d with
  | None => Err Unmodelled
  | Some _ =>
      off <- utcoffset d ;;
      match off with
      | None => Err TypeError
      | Some o => Ok (dt_local d - o - epoch_us)
      end
  end.

(* datetime + timedelta: wall-clock arithmetic, same tzinfo, fold cleared *)
Definition dt_add (d : datetime) (delta_us : Z) : res datetime :=
  let u := dt_local d + delta_us in
  if in_range u then Ok {| dt_local := u; dt_fold := false; dt_tz := dt_tz d |}
  else Err OverflowError.

(* datetime - datetime, in microseconds: wall-clock difference when both have the same
   tzinfo object (or none), otherwise difference of UTC instants *)
Definition same_tz (a b : option tzinfo) : bool :=
  match a, b with
  | None, None => true
  | Some x, Some y => tz_id x =? tz_id y
  | _, _ => false
  end.

Definition dt_sub (a b : datetime) : res Z :=
  if same_tz (dt_tz a) (dt_tz b) then Ok (dt_local a - dt_local b)
  else
    oa <- utcoffset a ;;
    ob <- utcoffset b ;;
    match oa, ob with
    | Some x, Some y => Ok ((dt_local a - x) - (dt_local b - y))
    | None, None => Ok (dt_local a - dt_local b)
    | _, _ => Err TypeError
    end.

(* datetime(year, month, day, tzinfo=tz) for the date of d: midnight of the same local day *)
Definition same_day (d : datetime) : datetime :=
  {| dt_local := dt_local d / us_per_day * us_per_day; dt_fold := false; dt_tz := dt_tz d |}.

(* limits of timedelta: |days| <= 999999999 *)
Definition timedelta_ok (us : Z) : bool := Z.abs (us / us_per_day) <=? 999999999.

(* convenience constructors for examples *)
Definition fixed_tz (off : Z) : tzinfo := {| tz_id := off; tz_utcoffset := fun _ _ => Some off |}.
Definition utc : tzinfo := fixed_tz 0.
Definition mk (y mo d h mi s us : Z) (tz : option tzinfo) : datetime :=
  {| dt_local := us_of_fields (mkfields y mo d h mi s us); dt_fold := false; dt_tz := tz |}.

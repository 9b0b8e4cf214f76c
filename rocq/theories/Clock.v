(* numeric.tm_yday / tm_hour / tm_min (pysolar/numeric.py 55-88), the three calendar
   decompositions used by the fast functions and by the radiation model.  They are the only
   functions of the library besides arithmetic that change with the back end, and the only
   ones that accept arrays of times, hence a record of their own. *)
From Verif Require Import Py Num Cal TzCheck.

Record Clock (N : Num) := {
  D : Type;                     (* a time, or an array of times *)
  aware_check : D -> res unit;  (* @check_aware_dt('when'): arrays pass (tzinfo_check.py 86) *)
  tm_yday : D -> res (T N);
  tm_hour : D -> res (T N);
  tm_min : D -> res (T N)
}.
Arguments D {N} _.
Arguments aware_check {N} _ _.
Arguments tm_yday {N} _ _.
Arguments tm_hour {N} _ _.
Arguments tm_min {N} _ _.

(* numeric.py 55-56, 67-68, 79-80 *)
Definition tm_yday_math (d : datetime) : res Z := f <- utctimetuple d ;; Ok (f_yday f).
Definition tm_hour_math (d : datetime) : res Z := f <- utctimetuple d ;; Ok (f_hour f).
Definition tm_min_math  (d : datetime) : res Z := f <- utctimetuple d ;; Ok (f_min f).

(* numpy.array(d, dtype='datetime64[u]') for a datetime.datetime d.  numpy subtracts the
   UTC offset truncated to whole minutes (numpy's convert_pydatetime_to_datetimestruct) and
   then floors to the unit; years before 1 or after 9999 are not rejected.  The result is
   the number of microseconds since 0001-01-01 before flooring. *)
Definition datetime64_us (d : datetime) : res Z :=
  match dt_tz d with
  | None => Ok (dt_local d)
  | Some tz =>
      match tz_utcoffset tz (dt_local d) (dt_fold d) with
      | None => Err (AttributeError "total_seconds")
      | Some o => Ok (dt_local d - Z.quot o 60000000 * 60000000)
      end
  end.

(* numeric.py 61-64: (dd - dy).astype('int') + 1; dy is 1 January of dd's year *)
Definition tm_yday_dt64 (u : Z) : Z :=
  let days := u / us_per_day in
  let '(y, _, _) := ord2ymd (days + 1) in
  (days - days_before_year y) + 1.
(* numeric.py 73-76: (dh - dd).astype('int') *)
Definition tm_hour_dt64 (u : Z) : Z := u / 3600000000 - (u / us_per_day) * 24.
(* numeric.py 85-88: (dm - dh).astype('int') *)
Definition tm_min_dt64 (u : Z) : Z := u / 60000000 - (u / 3600000000) * 60.

Definition tm_yday_numpy (d : datetime) : res Z := rmap tm_yday_dt64 (datetime64_us d).
Definition tm_hour_numpy (d : datetime) : res Z := rmap tm_hour_dt64 (datetime64_us d).
Definition tm_min_numpy  (d : datetime) : res Z := rmap tm_min_dt64 (datetime64_us d).

(* the scalar clocks of the two back ends *)
Definition clock_math (N : Num) : Clock N := {|
  D := datetime;
  aware_check := aware;
  tm_yday d := rmap ofZ (tm_yday_math d);
  tm_hour d := rmap ofZ (tm_hour_math d);
  tm_min d := rmap ofZ (tm_min_math d) |}.

Definition clock_numpy (N : Num) : Clock N := {|
  D := datetime;
  aware_check := aware;
  tm_yday d := rmap ofZ (tm_yday_numpy d);
  tm_hour d := rmap ofZ (tm_hour_numpy d);
  tm_min d := rmap ofZ (tm_min_numpy d) |}.

(* Specification of civil time, independent of the model: day numbers from Meeus'
   formula (Astronomical Algorithms, ch. 7), the IERS leap-second history by date of effect
   (Bulletin C), and Julian dates.  Instants are microseconds since 0001-01-01T00:00 UTC
   (proleptic Gregorian, as Python's datetime). *)
From Coq Require Import ZArith QArith List Bool.
From Verif Require Import Tables.
Import ListNotations.
Local Open Scope Z_scope.

(* Julian date at 0h of a Gregorian calendar date, plus 1/2 (an integer) *)
Definition meeus_day (y m d : Z) : Z :=
  let y' := if m <=? 2 then y - 1 else y in
  let m' := if m <=? 2 then m + 12 else m in
  let a := y' / 100 in
  let b := 2 - a + a / 4 in
  36525 * (y' + 4716) / 100 + 306001 * (m' + 1) / 10000 + d + b - 1524.

(* 0h UTC of a calendar date as an instant *)
Definition midnight (y m d : Z) : Z := (meeus_day y m d - meeus_day 1 1 1) * 86400000000.

(* IERS: dates at which TAI-UTC increased by one second (it was 10 s on 1972-01-01) *)
Definition iers_leap_dates : list (Z * Z * Z) :=
  [ (1972,7,1); (1973,1,1); (1974,1,1); (1975,1,1); (1976,1,1); (1977,1,1); (1978,1,1);
    (1979,1,1); (1980,1,1); (1981,7,1); (1982,7,1); (1983,7,1); (1985,7,1); (1988,1,1);
    (1990,1,1); (1991,1,1); (1992,7,1); (1993,7,1); (1994,7,1); (1996,1,1); (1997,7,1);
    (1999,1,1); (2006,1,1); (2009,1,1); (2012,7,1); (2015,7,1); (2017,1,1) ].

(* TAI-UTC at an instant: 10 plus the leap seconds that have taken effect *)
Definition tai_minus_utc (u : Z) : Z :=
  10 + Z.of_nat (length (filter (fun '(y, m, d) => midnight y m d <=? u) iers_leap_dates)).

(* ---------------------------------------------------------------- the Delta-T table *)
(* the entry for year y, month m of the table in /repo/pysolar/solartime.py: one row per year
   from 1973 on, one column per month, the first row starting in February, the last (2014)
   ending in April *)
Definition dt_entry (y m : Z) : option Q :=
  match nth_error delta_t (Z.to_nat (y - 1973)) with
  | Some row => nth_error row (Z.to_nat (if y =? 1973 then m - 2 else m - 1))
  | None => None
  end.


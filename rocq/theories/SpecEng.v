(* Specification of the engineering formulas behind the fast functions and the radiation
   model, independent of the model: G. M. Masters, Renewable and Efficient Electric Power
   Systems (2004), ch. 7 - cited in radiation.py 24-44, solar.py 360 and doc/index.rst 204 - with angles in degrees; and the
   civil-time reading of an instant (day of the year, hour and minute UTC). *)
From Coq Require Import Reals ZArith.
From Verif Require Import Py RInst Cal SpecDt SpecTime SpecGeom.
Local Open Scope R_scope.

(* the instant u (microseconds since 0001-01-01) falls in minute m of hour h of day number [day] of its year *)
Definition civil_clock (u day h m : Z) : Prop :=
  (exists y, midnight y 1 1 <= u < midnight (y + 1) 1 1 /\
     let start := midnight y 1 1 + (((day - 1) * 24 + h) * 60 + m) * 60000000 in
     start <= u < start + 60000000)%Z /\
  (0 <= h < 24 /\ 0 <= m < 60)%Z.

(* declination (7.6): 23.45 sin(360/365 (n - 81)) *)
Definition masters_declination (n : R) : R := 23.45 * sind (360 / 365 * (n - 81)).

(* equation of time in minutes (7.12, 7.13) *)
Definition masters_eot (n : R) : R :=
  let B := 360 / 364 * (n - 81) in 9.87 * sind (2 * B) - 7.53 * cosd B - 1.5 * sind B.

(* solar time in hours (7.14 with longitudes counted eastwards from Greenwich) and hour angle,
   15 degrees per hour after solar noon *)
Definition masters_solar_time (day h m lon : R) : R := h + m / 60 + (4 * lon + masters_eot day) / 60.
Definition masters_hour_angle (day h m lon : R) : R := 15 * (masters_solar_time day h m lon - 12).

(* clear-sky direct beam (7.21 - 7.24): A exp(-k m) with m = 1/sin(altitude) *)
Definition masters_flux (n : R) : R := 1160 + 75 * sind (360 / 365 * (n - 275)).
Definition masters_depth (n : R) : R := 0.174 + 0.035 * sind (360 / 365 * (n - 100)).
Definition masters_beam (n altitude : R) : R := masters_flux n * exp (- (masters_depth n / sind altitude)).

(* ---------------------------------------------------------------- sunrise and sunset *)
(* The Fourier series for the declination (degrees) and the equation of time (seconds) in the
   reference of util.py 76 (CM 121 manual), with the day number of the local date. *)
Definition fourier_declination (day : R) : R :=
  let t := 360 * day / 366 in
  0.322003 - 22.971 * cosd t - 0.357898 * cosd (2 * t) - 0.14398 * cosd (3 * t)
  + 3.94638 * sind t + 0.019334 * sind (2 * t) + 0.05928 * sind (3 * t).
Definition fourier_eot (day : R) : R :=
  let t := 279.134 + 0.985647 * day in
  5.0323 - 100.976 * sind t + 595.275 * sind (2 * t) + 3.6858 * sind (3 * t)
  - 12.47 * sind (4 * t) - 430.847 * cosd t + 12.5024 * cosd (2 * t) + 18.25 * cosd (3 * t).

(* H hours before or after transit the sun's centre is 0.833 degrees below the horizon *)
Definition rises_at (latitude declination H : R) : Prop :=
  dot (equatorial declination (15 * H)) (up latitude) = sind (- (0.833)).

(* clock time of transit in hours after local midnight: noon, corrected for the longitude
   within the time zone (offset in microseconds) and for the equation of time *)
Definition transit_hours (offset : Z) (longitude day : R) : R :=
  12 + (IZR offset / 3600000000 - longitude / 15) - fourier_eot day / 3600.

(* midnight of the day containing a local reading, and "r hours after it, to the microsecond" *)
Definition day_start (l : Z) : Z := (l / 86400000000 * 86400000000)%Z.
Definition hours_after (l : Z) (r : R) (t : Z) : Prop :=
  Rabs (IZR t - (IZR (day_start l) + r * 3600000000)) <= 1 / 2.

(* ---------------------------------------------------------------- irradiance *)
(* Spencer's eccentricity correction (r0/r)^2, reference of util.py 214-257, with the rounded
   leading coefficient 1.00010 *)
Definition spencer_eccentricity (n : R) : R :=
  let t := 360 * (n - 1) / 365 in
  1.0001 + 0.034221 * cosd t + 0.00128 * sind t + 0.000719 * cosd (2 * t) + 0.000077 * sind (2 * t).

(* ESRA solar distance correction (reference of util.py 207): sin(2 pi (n - 94) / 365) *)
Definition esra_correction (n : R) : R := 1 - 0.0335 * sind (360 * (n - 94) / 365).

(* ---------------------------------------------------------------- arrays *)
(* the array call returns an array, and every element of it is what the call on the single
   numbers at that index returns *)
Definition elementwise {I} (arr : res (I -> Rx)) (one : I -> res nx) : Prop :=
  exists v, arr = Ok v /\ forall i, exists x, one i = Ok x /\ vx x = v i.
(* the same wherever the call on single numbers returns *)
Definition elementwise_where {I} (arr : res (I -> Rx)) (one : I -> res nx) : Prop :=
  forall i x, one i = Ok x -> exists v, arr = Ok v /\ v i = vx x.

(* whenever the math back end returns a value, the numpy back end returns that value *)
Definition same_value (m : res Rx) (n : res nx) : Prop := forall x, m = Ok x -> exists b, n = Ok (mknx b x).
Definition same_pair (m : res (Rx * Rx)) (n : res (nx * nx)) : Prop :=
  forall x y, m = Ok (x, y) -> exists b c, n = Ok (mknx b x, mknx c y).

(* ---------------------------------------------------------------- sunrise: what is claimed *)
(* sunrise <= transit <= sunset on the wall clock, transit the midpoint to the microsecond, and
   all three in the caller's time zone *)
Definition ordered (d sr ss tr : datetime) : Prop :=
  (dt_local sr <= dt_local tr <= dt_local ss)%Z /\
  (Z.abs (2 * dt_local tr - (dt_local sr + dt_local ss)) <= 2)%Z /\
  dt_tz sr = dt_tz d /\ dt_tz ss = dt_tz d /\ dt_tz tr = dt_tz d.

(* at least three days from both ends of the calendar *)
Definition inside_calendar (d : datetime) : Prop := (3 * us_per_day <= dt_local d < max_us - 3 * us_per_day)%Z.

(* a and a' denote the same instant to the microsecond - exactly, when the difference of the two
   UTC offsets is an even number of microseconds *)
Definition same_moment (o o' : Z) (a a' : datetime) : Prop :=
  exists v v', instant a v /\ instant a' v' /\ (Z.abs (v - v') <= 1)%Z /\ (Z.even (o - o') = true -> v = v').

(* ---------------------------------------------------------------- REST2 *)
Definition high : string := "high-frequency"%string.
Definition low : string := "low-frequency"%string.
(* a transmittance: a number in (0, 1] *)
Definition transmits (r : res Rx) (x : R) : Prop := r = Ok (Fin x) /\ 0 < x <= 1.

(* ---------------------------------------------------------------- util.py, sky models *)
(* declination with TY days in the year: an amplitude of 23.45 degrees, zero on day 81 *)
Definition yearly_declination (TY n : R) : R := 23.45 * sin (2 * PI / TY * (n - 81)).

(* Solar elevation functions (Younes, Claywell and Muneer 2005): quadratics in s, the sine of the
   solar altitude *)
Definition younes_clear (s : R) : R := 0.038175 + 1.5458 * s - 0.5998 * s ^ 2.
Definition younes_overcast (s : R) : R := -0.0067133 + 0.786 * s + 0.22401 * s ^ 2.
(* diffuse transmittance as a function of the Linke turbidity *)
Definition younes_diffuse (TL : R) : R := -21.657 + 41.752 * TL + 0.51905 * TL ^ 2.

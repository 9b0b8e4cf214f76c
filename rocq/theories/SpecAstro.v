(* Published astronomical series, written as sums over tables, independent of the model's
   loops.  The coefficient tables themselves are the library's (Tables.v). *)
From Coq Require Import Reals Qreals QArith ZArith List.
From Verif Require Import SpecGeom.
Import ListNotations.
Local Open Scope R_scope.

(* one VSOP87 series: sum of A cos(B + C x) over its rows *)
Definition vsop_series (x : R) (rows : list (Q * Q * Q)) : R :=
  fold_right (fun r s => let '(a, b, c) := r in Q2R a * cos (Q2R b + Q2R c * x) + s) 0 rows.
(* sum over n of x^n times the n-th series, starting at exponent n *)
Fixpoint vsop_sum (n : nat) (x : R) (tables : list (list (Q * Q * Q))) : R :=
  match tables with
  | [] => 0
  | rows :: rest => x ^ n * vsop_series x rows + vsop_sum (S n) x rest
  end.

(* fundamental arguments of the nutation theory, degrees; T in Julian centuries (TT) from
   J2000 (Meeus, Astronomical Algorithms, ch. 22) *)
Definition arg_D (T : R) : R := 297.85036 + 445267.111480 * T - 0.0019142 * T ^ 2 + T ^ 3 / 189474.
Definition arg_M (T : R) : R := 357.52772 + 35999.050340 * T - 0.0001603 * T ^ 2 - T ^ 3 / 300000.
Definition arg_M' (T : R) : R := 134.96298 + 477198.867398 * T + 0.0086972 * T ^ 2 + T ^ 3 / 56250.
Definition arg_F (T : R) : R := 93.27191 + 483202.017538 * T - 0.0036825 * T ^ 2 + T ^ 3 / 327270.
Definition arg_Omega (T : R) : R := 125.04452 - 1934.136261 * T + 0.0020708 * T ^ 2 + T ^ 3 / 450000.

(* IAU 1980 nutation: rows (s0, s1, c0, c1) in 0.0001 arc seconds, with integer multiples of
   the five arguments; result in degrees *)
Definition nutation_angle (T : R) (y : Z * Z * Z * Z * Z) : R :=
  let '(d, m, m', f, o) := y in
  IZR d * arg_D T + IZR m * arg_M T + IZR m' * arg_M' T + IZR f * arg_F T + IZR o * arg_Omega T.
Definition nutation_longitude (T : R) (rows : list ((Q * Q * Q * Q) * (Z * Z * Z * Z * Z))) : R :=
  fold_right (fun r s => let '((s0, s1, _, _), y) := r in (Q2R s0 + Q2R s1 * T) * sind (nutation_angle T y) + s) 0 rows
  / 36000000.
Definition nutation_obliquity (T : R) (rows : list ((Q * Q * Q * Q) * (Z * Z * Z * Z * Z))) : R :=
  fold_right (fun r s => let '((_, _, c0, c1), y) := r in (Q2R c0 + Q2R c1 * T) * cosd (nutation_angle T y) + s) 0 rows
  / 36000000.

(* mean obliquity of the ecliptic in degrees; u in units of 10000 Julian years (Laskar 1986) *)
Definition mean_obliquity (u : R) : R :=
  (84381.448 - 4680.93 * u - 1.55 * u ^ 2 + 1999.25 * u ^ 3 - 51.38 * u ^ 4 - 249.67 * u ^ 5
   - 39.05 * u ^ 6 + 7.12 * u ^ 7 + 27.87 * u ^ 8 + 5.79 * u ^ 9 + 2.45 * u ^ 10) / 3600.

(* mean sidereal time at Greenwich in degrees, not reduced (IAU 1982, Meeus 12.4) *)
Definition iau_sidereal (jd : R) : R :=
  let c := (jd - 2451545) / 36525 in
  280.46061837 + 360.98564736629 * (jd - 2451545) + 0.000387933 * c ^ 2 - c ^ 3 / 38710000.

(* ---------------------------------------------------------------- the sun (NREL SPA, Meeus ch. 25)
   T: Julian centuries TT from J2000 *)
Section Sun.
Variables (distance_tables latitude_tables longitude_tables : list (list (Q * Q * Q))).
Variable nutation_rows : list ((Q * Q * Q * Q) * (Z * Z * Z * Z * Z)).

(* heliocentric distance (AU); geocentric latitude and longitude (degrees): the sun seen from the
   earth is opposite to the earth seen from the sun *)
Definition spa_distance (T : R) : R := vsop_sum 0 (T / 10) distance_tables / 10 ^ 8.
Definition spa_latitude (T : R) : R := - (vsop_sum 0 (T / 10) latitude_tables / 10 ^ 8 * 180 / PI).
Definition spa_longitude (T : R) : R := vsop_sum 0 (T / 10) longitude_tables / 10 ^ 8 * 180 / PI + 180.
Definition spa_obliquity (T : R) : R := mean_obliquity (T / 100) + nutation_obliquity T nutation_rows.
(* aberration of 20.4898 arc seconds over the distance *)
Definition spa_apparent_longitude (T : R) : R :=
  spa_longitude T + nutation_longitude T nutation_rows - 20.4898 / 3600 / spa_distance T.

(* (alpha, delta) are the sun's geocentric right ascension and declination *)
Definition spa_equatorial (T alpha delta : R) : Prop :=
  -90 <= delta <= 90 /\
  spherical alpha delta =
    ecliptic_to_equatorial (spa_obliquity T) (spherical (spa_apparent_longitude T) (spa_latitude T)).
End Sun.

(* w is the unit vector from the observer towards the sun in the local equatorial frame, by the
   published algorithm: sidereal time IAU 1982 plus the equation of the equinoxes, parallax
   8.794 arc seconds over the distance *)
Definition spa_direction (dist lat_t lon_t : list (list (Q * Q * Q))) nut (T jd lon x y : R) (w : vec) : Prop :=
  dot w w = 1 /\
  exists alpha delta H rho,
    spa_equatorial dist lat_t lon_t nut T alpha delta /\
    same_angle H (iau_sidereal jd + nutation_longitude T nut * cosd (spa_obliquity nut T) + lon - alpha) /\
    0 < rho /\
    (let '(a, b, c) := parallax_shift delta H (8.794 / 3600 / spa_distance dist T) x y in
     let '(w1, w2, w3) := w in a = rho * w1 /\ b = rho * w2 /\ c = rho * w3).

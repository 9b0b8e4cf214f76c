(* How far the engineering approximation is from the full computation (C80 - C82). *)
From Coq Require Import Reals Lra.
From Verif Require Import Py Num Clock SolarTime Solar RInst Constants SpecTime SpecDt SpecGeom SpecEng Samples ApproxProofs.
Local Open Scope R_scope.

(* ------------------------------------------------------------------------------- C80 *)
Theorem C80_fast_direction_close : forall d u day h m lat lon el,
  instant d u -> (midnight 1901 1 1 <= u < midnight 2100 1 1)%Z -> civil_clock u day h m ->
  -90 <= lat <= 90 -> -100000 <= el <= 100000 ->
  exists decl hf dec ha (k : Z),
    get_declination (N := MathR) (Fin (IZR day)) = Ok (Fin decl) /\
    get_hour_angle (N := MathR) (C := clock_math MathR) d (Fin lon) = Ok (Fin hf) /\
    get_topocentric_position (N := MathR) (Fin lat) (Fin lon) d (Fin el) = Ok (Fin dec, Fin ha) /\
    Rabs (dec - decl) <= 1.867 /\ -0.685 <= ha - hf - 360 * IZR k <= 0.925 /\
    cosd 2.1 <= dot (equatorial dec ha) (equatorial decl hf).
Proof. exact fast_direction. Qed.
Print Assumptions C80_fast_direction_close.
Example C80_case : instant sample_dt sample_u /\ (midnight 1901 1 1 <= sample_u < midnight 2100 1 1)%Z /\ civil_clock sample_u 173 17 0.
Proof. exact (conj sample_instant (conj sample_1901 sample_clock)). Qed.

(* ------------------------------------------------------------------------------- C81 *)
(* e: the geometric elevation.  The altitude adds the refraction correction, and raises where the
   formula has no value (C17). *)
Theorem C81_fast_altitude_close : forall d u lat lon el,
  instant d u -> (midnight 1901 1 1 <= u < midnight 2100 1 1)%Z -> -90 <= lat <= 90 -> -100000 <= el <= 100000 ->
  exists f dec ha e,
    get_altitude_fast (N := MathR) (C := clock_math MathR) (Fin lat) (Fin lon) d = Ok (Fin f) /\
    get_topocentric_position (N := MathR) (Fin lat) (Fin lon) d (Fin el) = Ok (Fin dec, Fin ha) /\
    get_topocentric_elevation_angle (N := MathR) (Fin lat) (Fin dec) (Fin ha) = Ok (Fin e) /\ Rabs (f - e) <= 2.1 /\
    (forall a, get_altitude (N := MathR) (Fin lat) (Fin lon) d (Fin el) standard_temperature standard_pressure = Ok a ->
       exists a', a = Fin a' /\ Rabs (f - a') <= 3).
Proof. exact fast_altitude. Qed.
Print Assumptions C81_fast_altitude_close.

(* ------------------------------------------------------------------------------- C82 *)
Theorem C82_fast_azimuth_close : forall d u lat lon el f,
  instant d u -> (midnight 1901 1 1 <= u < midnight 2100 1 1)%Z -> -90 < lat < 90 -> -100000 <= el <= 100000 ->
  get_altitude_fast (N := MathR) (C := clock_math MathR) (Fin lat) (Fin lon) d = Ok (Fin f) -> -60 <= f <= 60 ->
  exists A B (k : Z),
    get_azimuth_fast (N := MathR) (C := clock_math MathR) (Fin lat) (Fin lon) d = Ok (Fin A) /\
    get_azimuth (N := MathR) (Fin lat) (Fin lon) d (Fin el) = Ok (Fin B) /\ Rabs (A - B - 360 * IZR k) <= 4.4.
Proof. exact fast_azimuth. Qed.
Print Assumptions C82_fast_azimuth_close.
Example C82_case : exists f, get_altitude_fast (N := MathR) (C := clock_math MathR) (Fin 60) (Fin (-75)) sample_dt = Ok (Fin f) /\ -60 <= f <= 60.
Proof. exact sample_low. Qed.

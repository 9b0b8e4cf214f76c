(* Properties C124, C125: which exceptions an aware datetime can lead to, and the irradiance of arrays of
   places and times in doubles. *)
From Coq Require Import Reals Lra.
From Verif Require Import Py Num Cal TzCheck Clock RInst Constants SolarTime Solar Radiation Util
  SpecTime SpecDt SpecEng SpecErr SpecB64 B64 B64Lemmas B64Np SpecNp NpProofs64 NpCases64 ErrProofs ArrRad64 Samples.

(* ------------------------------------------------------------------------------- C124 *)
(* [arithmetic r]: r is a value, ValueError, ZeroDivisionError or OverflowError *)
Theorem C124_only_arithmetic : forall (N : Num), arithmetic_num N -> forall d u, instant d u ->
  arithmetic (get_leap_seconds d) /\ arithmetic (get_delta_t (N := N) d) /\
  arithmetic (get_julian_solar_day (N := N) d) /\ arithmetic (get_julian_ephemeris_day (N := N) d) /\
  (forall lat lon el, arithmetic (get_topocentric_position (N := N) lat lon d el)) /\
  (forall lat lon el t p, arithmetic (get_position (N := N) lat lon d el t p)) /\
  (forall lat lon el t p, arithmetic (get_altitude (N := N) lat lon d el t p)) /\
  (forall lat lon el, arithmetic (get_azimuth (N := N) lat lon d el)) /\
  (forall lat lon, arithmetic (get_sunrise_sunset_transit (N := N) lat lon d)) /\
  (forall lat lon, arithmetic (get_sunrise_sunset (N := N) lat lon d)) /\
  (forall lat lon, arithmetic (get_sunrise_time (N := N) lat lon d)) /\
  (forall lat lon, arithmetic (get_sunset_time (N := N) lat lon d)) /\
  (forall lat lon, arithmetic (get_transit_time (N := N) lat lon d)) /\
  arithmetic (mean_earth_sun_distance (N := N) d) /\
  (forall TY, arithmetic (declination_degree (N := N) d TY)) /\
  (forall lat lon t p el, arithmetic (solarelevation_function_clear (N := N) lat lon d t p el)) /\
  (forall lat lon el t p, arithmetic (solarelevation_function_overcast (N := N) lat lon d el t p)) /\
  (forall lat lon el t p TL, arithmetic (diffuse_underclear (N := N) lat lon d el t p TL)) /\
  (forall lat lon el t p TL, arithmetic (diffuse_underovercast (N := N) lat lon d el t p TL)) /\
  (forall lat lon TY AM TL el t p, arithmetic (direct_underclear (N := N) lat lon d TY AM TL el t p)) /\
  (forall lat lon TY AM TL el t p, arithmetic (global_irradiance_clear (N := N) lat lon d TY AM TL el t p)) /\
  (forall lat lon el t p, arithmetic (global_irradiance_overcast (N := N) lat lon d el t p)).
Proof. exact aware_arithmetic. Qed.
Print Assumptions C124_only_arithmetic.
(* the functions reading the back end's clock, and get_azimuth_fast and get_radiation_direct, which have no check *)
Theorem C124_only_arithmetic_clock : forall (N : Num), arithmetic_num N -> forall d u, instant d u ->
  ((forall lon, arithmetic (get_solar_time (N := N) (C := clock_math N) lon d)) /\
  (forall lon, arithmetic (get_hour_angle (N := N) (C := clock_math N) d lon)) /\
  (forall lat lon, arithmetic (get_altitude_fast (N := N) (C := clock_math N) lat lon d)) /\
  (forall lat lon, arithmetic (get_azimuth_fast (N := N) (C := clock_math N) lat lon d)) /\
  (forall alt, arithmetic (get_radiation_direct (N := N) (C := clock_math N) d alt)) /\
  (forall lat lon sc, arithmetic (extraterrestrial_irrad (N := N) (C := clock_math N) (fun x => x) lat lon d sc)) /\
  (forall ghi lat lon, arithmetic (clear_index (N := N) (C := clock_math N) (fun x => x) ghi lat lon d))) /\
  ((forall lon, arithmetic (get_solar_time (N := N) (C := clock_numpy N) lon d)) /\
  (forall lon, arithmetic (get_hour_angle (N := N) (C := clock_numpy N) d lon)) /\
  (forall lat lon, arithmetic (get_altitude_fast (N := N) (C := clock_numpy N) lat lon d)) /\
  (forall lat lon, arithmetic (get_azimuth_fast (N := N) (C := clock_numpy N) lat lon d)) /\
  (forall alt, arithmetic (get_radiation_direct (N := N) (C := clock_numpy N) d alt)) /\
  (forall lat lon sc, arithmetic (extraterrestrial_irrad (N := N) (C := clock_numpy N) (fun x => x) lat lon d sc)) /\
  (forall ghi lat lon, arithmetic (clear_index (N := N) (C := clock_numpy N) (fun x => x) ghi lat lon d))).
Proof. exact (fun N HN d u Hd => conj (aware_arithmetic_math N HN d u Hd) (aware_arithmetic_numpy N HN d u Hd)). Qed.
Print Assumptions C124_only_arithmetic_clock.
(* doubles with any C library whatever, under both back ends, raise nothing else *)
Theorem C124_doubles : forall L, arithmetic_num (B64 L) /\ arithmetic_num (Np64 L).
Proof. exact (fun L => conj (b64_arithmetic L) (np64_arithmetic L)). Qed.
Print Assumptions C124_doubles.
Example C124_case : instant sample_dt sample_u /\
  ~ arithmetic (get_leap_seconds sample_naive) /\ get_leap_seconds sample_dt = Ok 37%Z /\
  ~ arithmetic (Err IndexError : res Z) /\ arithmetic (Err OverflowError : res Z).
Proof.
  split; [exact sample_instant|]. split; [|split; [vm_compute; reflexivity|]].
  - change (get_leap_seconds sample_naive) with (Err (NoTimeZoneInfoError "when") : res Z). intros [H|[H|H]]; discriminate H.
  - split; [intros [H|[H|H]]; discriminate H|right; right; reflexivity].
Qed.

(* ------------------------------------------------------------------------------- C125 *)
Local Open Scope R_scope.
(* E: the exact quick altitude of element i; d: any datetime at the instant of element i of the times w *)
Theorem C125_array_beam_night : forall L, accurate L -> pow_std L -> forall (I : Type) (i : I) (x xo : I -> f64) (w : I -> Z) lat lon E d,
  instant d (w i) -> in_range (w i) = true -> val (x i) lat -> val (xo i) lon -> -90 <= lat <= 90 -> -360 <= lon <= 360 ->
  get_altitude_fast (N := MathR) (C := clock_math MathR) (Fin lat) (Fin lon) d = Ok (Fin E) -> -89 <= E <= -0.0176 ->
  exists alt r, get_altitude_fast (C := clock_array64 I L) x xo w = Ok alt /\
    get_radiation_direct (C := clock_array64 I L) w alt = Ok r /\ val (r i) 0.
Proof. exact @beam_night64. Qed.
Print Assumptions C125_array_beam_night.
Theorem C125_array_beam_day : forall L, accurate L -> pow_std L -> forall (I : Type) (i : I) (x xo : I -> f64) (w : I -> Z) lat lon E d,
  instant d (w i) -> in_range (w i) = true -> val (x i) lat -> val (xo i) lon -> -90 <= lat <= 90 -> -360 <= lon <= 360 ->
  get_altitude_fast (N := MathR) (C := clock_math MathR) (Fin lat) (Fin lon) d = Ok (Fin E) -> 0.0001 <= E <= 89 ->
  exists alt r b b', get_altitude_fast (C := clock_array64 I L) x xo w = Ok alt /\
    get_radiation_direct (C := clock_array64 I L) w alt = Ok r /\ val (r i) b /\
    get_radiation_direct (N := MathR) (C := clock_math MathR) d (Fin E) = Ok (Fin b') /\ Rabs (b - b') <= 1.1e-8.
Proof. exact @beam_day64. Qed.
Print Assumptions C125_array_beam_day.
(* test_numpy_radiation: rad_results[2] == 0 *)
Theorem C125_repository_test : forall L, accurate L -> pow_std L -> forall (x xo : nat -> f64) (w : nat -> Z),
  val (x 2%nat) 40 -> val (xo 2%nat) 3 -> w 2%nat = (midnight 2018 5 8 + 3 * 3600000000)%Z ->
  exists alt r, get_altitude_fast (C := clock_array64 nat L) x xo w = Ok alt /\
    get_radiation_direct (C := clock_array64 nat L) w alt = Ok r /\ val (r 2%nat) 0.
Proof. exact radiation_test64. Qed.
Print Assumptions C125_repository_test.
Example C125_case : accurate std_libm /\ pow_std std_libm /\ val (flit 40) 40 /\ val (flit 3) 3 /\
  exists d E, instant d radiation_test_u /\ in_range radiation_test_u = true /\
    get_altitude_fast (N := MathR) (C := clock_math MathR) (Fin 40) (Fin 3) d = Ok (Fin E) /\ -89 <= E <= -0.0176.
Proof. exact radiation_case. Qed.

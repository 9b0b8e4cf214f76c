(* Properties C69-C75: what is returned in IEEE binary64, the arithmetic of CPython with the math back
   end.  The C library's sin, cos, ... are a parameter L; what is assumed of it is in SpecB64.v. *)
From Coq Require Import Reals Qreals Lra Lia.
From Flocq Require Import Core IEEE754.BinarySingleNaN.
From Interval Require Import Tactic.
From Verif Require Import Py Num Cal TzCheck Clock Constants SolarTime Solar RInst SpecTime SpecDt SpecEng Samples
  B64 SpecB64 B64Lemmas B64Angles B64Near B64Julian B64Witness B64Ranges.
Local Open Scope R_scope.

(* ------------------------------------------------------------------------------- C69 *)
Theorem C69_azimuth_range64 : forall L, atan2_in_range L ->
  (forall ha lat dec r, get_topocentric_azimuth_angle (N := B64 L) ha lat dec = Ok r -> on_circle r) /\
  (forall lat lon d el r, get_azimuth (N := B64 L) lat lon d el = Ok r -> on_circle r) /\
  (forall lat lon d el t p az alt, get_position (N := B64 L) lat lon d el t p = Ok (az, alt) -> on_circle az).
Proof. exact azimuths64. Qed.
Print Assumptions C69_azimuth_range64.
Example C69_case : atan2_in_range exact_libm.
Proof. exact atan2_range_exact. Qed.

(* ------------------------------------------------------------------------------- C70 *)
(* FALSE: a tiny negative angle reduced modulo 360 is 360, whatever the C library *)
Theorem C70_reduced_below_360_refuted : forall L, exists r,
  get_local_hour_angle (N := B64 L) (flit 0) (flit 0) (flit 1e-20) = Ok r /\ val r 360.
Proof. exact local_hour_angle_360. Qed.
Print Assumptions C70_reduced_below_360_refuted.
(* the geocentric longitude is always below 360, the others at most 360 *)
Theorem C70_reduced_angles_partial : forall L,
  (forall jme r, get_geocentric_longitude (N := B64 L) jme = Ok r -> on_circle r) /\
  (forall jme r, get_heliocentric_longitude (N := B64 L) jme = Ok r -> on_closed_circle r) /\
  (forall a b c r, get_geocentric_sun_right_ascension (N := B64 L) a b c = Ok r -> on_closed_circle r) /\
  (forall a b c r, get_local_hour_angle (N := B64 L) a b c = Ok r -> on_closed_circle r) /\
  (forall jd r, get_mean_sidereal_time (N := B64 L) jd = Ok r -> on_closed_circle r).
Proof. exact reduced64. Qed.
Print Assumptions C70_reduced_angles_partial.
(* and an argument that is not negative is reduced exactly, to below 360 *)
Theorem C70_exact_reduction_partial : forall L x a, val x a -> 0 <= a ->
  exists r v, fmod (n := B64 L) x (lit 360) = Ok r /\ val r v /\ 0 <= v < 360 /\ exists k : Z, a = v + 360 * IZR k.
Proof. exact reduction_exact. Qed.
Print Assumptions C70_exact_reduction_partial.

(* ------------------------------------------------------------------------------- C71 *)
(* FALSE: latitude 8, declination 8, hour angle 0 (the sun in the zenith): the sine of the elevation
   rounds to 1.0000000000000002 *)
Theorem C71_elevation_defined_refuted : forall L, correctly_rounded L ->
  get_topocentric_elevation_angle (N := B64 L) (flit 8) (flit 8) (flit 0) = Err ValueError.
Proof. exact elevation_raises. Qed.
Print Assumptions C71_elevation_defined_refuted.
Theorem C71_elevation_range_partial : forall L, asin_in_range L -> 
  (forall lat dec ha r, get_topocentric_elevation_angle (N := B64 L) lat dec ha = Ok r -> nan_or_within (-90) 90 r) /\
  (forall lat lon d r, get_altitude_fast (N := B64 L) (C := clock_math (B64 L)) lat lon d = Ok r -> nan_or_within (-90) 90 r).
Proof. exact elevations64. Qed.
Print Assumptions C71_elevation_range_partial.
Example C71_case : correctly_rounded exact_libm /\ asin_in_range exact_libm.
Proof. exact (conj exact_libm_correct (asin_range_cr _ exact_libm_correct)). Qed.

(* ------------------------------------------------------------------------------- C72 *)
(* FALSE: zenith angle 8, slope 8, facing the sun *)
Theorem C72_incidence_defined_refuted : forall L, correctly_rounded L ->
  get_incidence_angle (N := B64 L) (flit 8) (flit 8) (flit 0) (flit 180) = Err ValueError.
Proof. exact incidence_raises. Qed.
Print Assumptions C72_incidence_defined_refuted.
Theorem C72_incidence_range_partial : forall L, acos_in_range L -> forall z s o a r,
  get_incidence_angle (N := B64 L) z s o a = Ok r -> nan_or_within 0 180 r.
Proof. exact incidences64. Qed.
Print Assumptions C72_incidence_range_partial.
Example C72_case : acos_in_range exact_libm.
Proof. exact (acos_range_cr _ exact_libm_correct). Qed.

(* ------------------------------------------------------------------------------- C73 *)
(* FALSE: at latitude 0, longitude 0, in the minute 00:05 UTC of day 81 of any year *)
Theorem C73_azimuth_fast_defined_refuted : forall L, correctly_rounded L ->
  forall d u, instant d u -> in_range u = true -> civil_clock u 81 0 5 ->
  get_azimuth_fast (N := B64 L) (C := clock_math (B64 L)) (flit 0) (flit 0) d = Err ValueError.
Proof. exact azimuth_fast_raises. Qed.
Print Assumptions C73_azimuth_fast_defined_refuted.
Theorem C73_azimuth_fast_range_partial : forall L, asin_in_range L -> forall lat lon d r,
  get_azimuth_fast (N := B64 L) (C := clock_math (B64 L)) lat lon d = Ok r -> nan_or_within 0 360 r.
Proof. exact azimuths_fast64. Qed.
Print Assumptions C73_azimuth_fast_range_partial.
Example C73_case : let d := mk 2021 3 22 0 5 0 0 (Some utc) in let u := (midnight 2021 3 22 + 300000000)%Z in
  instant d u /\ in_range u = true /\ civil_clock u 81 0 5.
Proof.
  cbv zeta. split; [do 2 eexists; (split; [reflexivity|]); (split; [reflexivity|]); (split; [reflexivity|vm_compute; reflexivity])|].
  split; [vm_compute; reflexivity|]. split; [exists 2021%Z; vm_compute; intuition discriminate|lia].
Qed.

(* ------------------------------------------------------------------------------- C74 *)
(* Julian days: within 1.7e-9 day (0.15 ms) of the exact value in the years 1 to 9999, within 3.1e-10
   day (27 microseconds) from 1834 to 2105.  No property of the C library is used. *)
Theorem C74_julian_accuracy64 : forall L d u, instant d u ->
  (in_range u = true ->
    (exists y r, get_julian_ephemeris_day (N := B64 L) d = Ok y /\ get_julian_ephemeris_day (N := MathR) d = Ok (Fin r) /\ near y r 1.7e-9) /\
    (exists y r, get_julian_solar_day (N := B64 L) d = Ok y /\ get_julian_solar_day (N := MathR) d = Ok (Fin r) /\ near y r 1.7e-9)) /\
  ((midnight 1834 1 1 <= u < midnight 2106 1 1)%Z ->
    (exists y r, get_julian_ephemeris_day (N := B64 L) d = Ok y /\ get_julian_ephemeris_day (N := MathR) d = Ok (Fin r) /\ near y r 3.1e-10) /\
    (exists y r, get_julian_solar_day (N := B64 L) d = Ok y /\ get_julian_solar_day (N := MathR) d = Ok (Fin r) /\ near y r 3.1e-10)).
Proof. exact julian_accuracy64. Qed.
Print Assumptions C74_julian_accuracy64.
Example C74_case : instant sample_dt sample_u /\ (midnight 1834 1 1 <= sample_u < midnight 2106 1 1)%Z.
Proof. split; [exact sample_instant|vm_compute; intuition discriminate]. Qed.

(* ------------------------------------------------------------------------------- C75 *)
(* FALSE: noon and one microsecond later have the same Julian ephemeris day *)
Theorem C75_ephemeris_day_increasing_refuted : forall L, exists d1 d2 u x,
  instant d1 u /\ instant d2 (u + 1) /\ in_range u = true /\
  get_julian_ephemeris_day (N := B64 L) d1 = Ok x /\ get_julian_ephemeris_day (N := B64 L) d2 = Ok x.
Proof. exact jde_not_strict64. Qed.
Print Assumptions C75_ephemeris_day_increasing_refuted.
(* increasing for instants 300 microseconds apart, from 1834 to 2105 for 54 microseconds *)
Theorem C75_ephemeris_day_increasing_partial : forall L d1 d2 u1 u2, instant d1 u1 -> instant d2 u2 ->
  (in_range u1 = true /\ in_range u2 = true /\ u1 + 300 <= u2 \/
   midnight 1834 1 1 <= u1 /\ u2 < midnight 2106 1 1 /\ u1 + 54 <= u2)%Z ->
  exists x y, get_julian_ephemeris_day (N := B64 L) d1 = Ok x /\ get_julian_ephemeris_day (N := B64 L) d2 = Ok y /\ Bltb x y = true.
Proof. exact jde_strict64. Qed.
Print Assumptions C75_ephemeris_day_increasing_partial.
Example C75_case : let d2 := mk 2020 6 21 12 0 0 54 (Some sample_tz) in instant d2 (sample_u + 54).
Proof. cbv zeta. do 2 eexists. (split; [reflexivity|]); (split; [reflexivity|]); (split; [reflexivity|vm_compute; reflexivity]). Qed.

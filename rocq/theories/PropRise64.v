(* C123: the doubles at the sunrise, sunset and transit computed in doubles. *)
From Coq Require Import Reals Lra ZArith.
From Verif Require Import Py Num Cal TzCheck Clock Constants SolarTime Solar Util RInst SpecTime SpecDt SpecGeom SpecEng SpecDemo SpecB64 SpecRise Samples
  B64 B64Lemmas B64Lift B64Witness B64Ranges B64Sunrise DayProofs RiseB64.
Local Open Scope R_scope.

(* ------------------------------------------------------------------------------- C123 *)
(* both within 1.341 degrees of the -0.833 degrees of sunrise; the clock must not have been changed
   between the argument and sunrise (C83) *)
Theorem C123_horizon64 : forall L, accurate L -> forall d u day h m, instant d u -> civil_clock (dt_local d) day h m ->
  forall x xo xe lat lon el, val x lat -> val xo lon -> val xe el -> -89 <= lat <= 89 -> -180 <= lon <= 180 -> -100000 <= el <= 100000 ->
  (midnight 1901 1 1 <= dt_local d < midnight 2100 1 1)%Z -> Rabs (rising_cosine lat (fourier_declination (IZR day))) <= 0.99 ->
  exists sr ss tr, get_sunrise_sunset_transit (N := B64 L) x xo d = Ok (sr, ss, tr) /\
  forall t ut, t = sr \/ t = ss -> instant t ut -> (dt_local t - ut = dt_local d - u)%Z -> (midnight 1901 1 1 <= ut < midnight 2100 1 1)%Z ->
  (exists qd qh q e, get_topocentric_position (N := B64 L) x xo t xe = Ok (qd, qh) /\
    get_topocentric_elevation_angle (N := B64 L) x qd qh = Ok q /\ val q e /\ Rabs (e - -0.833) <= 1.341) /\
  (atan2_in_range L -> exists q a, get_azimuth (N := B64 L) x xo t xe = Ok q /\ val q a /\ (t = sr -> 0 < a < 180) /\ (t = ss -> 180 < a < 360)).
Proof. exact horizon_main64. Qed.
Print Assumptions C123_horizon64.
(* hour angle within 0.4471 degrees of the meridian, and no double elevation within half a day is higher *)
Theorem C123_transit64 : forall L, accurate L -> forall d u day h m, instant d u -> civil_clock (dt_local d) day h m ->
  forall x xo xe lat lon el, val x lat -> val xo lon -> val xe el -> -89 <= lat <= 89 -> -180 <= lon <= 180 -> -100000 <= el <= 100000 ->
  (midnight 1901 1 1 <= dt_local d < midnight 2100 1 1)%Z -> Rabs (rising_cosine lat (fourier_declination (IZR day))) <= 0.99 ->
  exists sr ss tr, get_sunrise_sunset_transit (N := B64 L) x xo d = Ok (sr, ss, tr) /\
  forall ut, instant tr ut -> (dt_local tr - ut = dt_local d - u)%Z -> (midnight 1901 1 1 <= ut < midnight 2100 1 1)%Z ->
  exists qd qh ha (k : Z), get_topocentric_position (N := B64 L) x xo tr xe = Ok (qd, qh) /\ val qh ha /\ Rabs (ha - 360 * IZR k) <= 0.4471 /\
    (-84 <= lat <= 84 -> forall d' u' qd' qh' q q', instant d' u' -> in_range u' = true -> (Z.abs (u' - ut) <= 43200000000)%Z ->
      get_topocentric_elevation_angle (N := B64 L) x qd qh = Ok q ->
      get_topocentric_position (N := B64 L) x xo d' xe = Ok (qd', qh') -> get_topocentric_elevation_angle (N := B64 L) x qd' qh' = Ok q' ->
      exists e e', val q e /\ val q' e' /\ sind e' <= sind e + 4.81e-4 /\ (same_month ut u' -> sind e' <= sind e + 6.1e-5)).
Proof. exact transit_main64. Qed.
Print Assumptions C123_transit64.
(* the condition on the cosine holds up to 65 degrees of latitude on every day *)
Theorem C123_every_day_below_65 : forall lat day, -65 <= lat <= 65 -> 1 <= day <= 366 -> Rabs (rising_cosine lat (fourier_declination day)) <= 0.99.
Proof. exact rising_low. Qed.
Print Assumptions C123_every_day_below_65.
Example C123_case : accurate exact_libm /\ atan2_in_range exact_libm /\ Rabs (rising_cosine 40 (fourier_declination 173)) <= 0.99 /\
  exists sr ss tr, get_sunrise_sunset_transit (N := B64 exact_libm) (flit 40) (flit (-75)) sample_dt = Ok (sr, ss, tr) /\
  forall t, t = sr \/ t = ss \/ t = tr -> exists ut, instant t ut /\ (dt_local t - ut = dt_local sample_dt - sample_u)%Z /\ (midnight 1901 1 1 <= ut < midnight 2100 1 1)%Z.
Proof. exact (conj (cr_accurate _ exact_libm_correct) (conj atan2_range_exact (conj (proj1 sunrise64_case) (rise64_case _ (cr_accurate _ exact_libm_correct))))). Qed.

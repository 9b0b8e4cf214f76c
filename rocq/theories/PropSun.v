(* Where the sun of the full computation is at the computed sunrise, sunset and transit (C83 - C85). *)
From Coq Require Import Reals Lra ZArith.
From Verif Require Import Py Num Cal Clock SolarTime Solar Util RInst Constants SpecTime SpecDt SpecGeom SpecEng Samples SunProofs.
Local Open Scope R_scope.

(* ------------------------------------------------------------------------------- C83 *)
(* The claim for every time zone is FALSE: the UTC offset is read off the argument, and the clock may
   have changed between the argument and sunrise. *)
Definition C83_claim : Prop := forall d u lat lon el sr ss tr t ut dec ha e,
  instant d u -> -90 < lat < 90 -> -180 <= lon <= 180 -> -100000 <= el <= 100000 ->
  (midnight 1901 1 1 <= dt_local d < midnight 2100 1 1)%Z ->
  get_sunrise_sunset_transit (N := MathR) (Fin lat) (Fin lon) d = Ok (sr, ss, tr) ->
  (t = sr \/ t = ss) -> instant t ut -> (midnight 1901 1 1 <= ut < midnight 2100 1 1)%Z ->
  get_topocentric_position (N := MathR) (Fin lat) (Fin lon) t (Fin el) = Ok (Fin dec, Fin ha) ->
  get_topocentric_elevation_angle (N := MathR) (Fin lat) (Fin dec) (Fin ha) = Ok (Fin e) -> Rabs (e - -0.833) <= 1.34.
Theorem C83_sunrise_elevation_refuted : ~ C83_claim.
Proof. exact sunrise_claim_false. Qed.
Print Assumptions C83_sunrise_elevation_refuted.
(* the witness: 8 March 2020, clocks put forward at 02:00, latitude 40, longitude 75 west; asked at
   00:30 the sunrise returned is an hour early, with the sun more than 7 degrees below the horizon *)
Theorem C83_clock_change : forall el, -100000 <= el <= 100000 ->
  exists sr ss tr ut dec ha e, get_sunrise_sunset_transit (N := MathR) (Fin 40) (Fin (-75)) spring_dt = Ok (sr, ss, tr) /\
    instant sr ut /\ (midnight 2020 3 8 <= ut < midnight 2020 3 9)%Z /\
    get_topocentric_position (N := MathR) (Fin 40) (Fin (-75)) sr (Fin el) = Ok (Fin dec, Fin ha) /\
    get_topocentric_elevation_angle (N := MathR) (Fin 40) (Fin dec) (Fin ha) = Ok (Fin e) /\ e < -7.
Proof. exact spring_wrong. Qed.
Print Assumptions C83_clock_change.
(* Proved where the offset at that moment is the offset at the argument. *)
Theorem C83_sunrise_elevation_partial : forall d u lat lon el sr ss tr t ut,
  instant d u -> -90 < lat < 90 -> -180 <= lon <= 180 -> -100000 <= el <= 100000 ->
  (midnight 1901 1 1 <= dt_local d < midnight 2100 1 1)%Z ->
  get_sunrise_sunset_transit (N := MathR) (Fin lat) (Fin lon) d = Ok (sr, ss, tr) ->
  (t = sr \/ t = ss) -> instant t ut -> (dt_local t - ut = dt_local d - u)%Z -> (midnight 1901 1 1 <= ut < midnight 2100 1 1)%Z ->
  exists dec ha e, get_topocentric_position (N := MathR) (Fin lat) (Fin lon) t (Fin el) = Ok (Fin dec, Fin ha) /\
    get_topocentric_elevation_angle (N := MathR) (Fin lat) (Fin dec) (Fin ha) = Ok (Fin e) /\ Rabs (e - -0.833) <= 1.34.
Proof. exact sunrise_true. Qed.
Print Assumptions C83_sunrise_elevation_partial.
Example C83_case : exists sr ss tr, get_sunrise_sunset_transit (N := MathR) (Fin 40) (Fin (-75)) sample_dt = Ok (sr, ss, tr) /\
  (240000000 <= dt_local ss - dt_local sr <= 86160000000)%Z /\
  forall t, t = sr \/ t = ss \/ t = tr -> exists ut, instant t ut /\
    (dt_local t - ut = dt_local sample_dt - sample_u)%Z /\ (midnight 1901 1 1 <= ut < midnight 2100 1 1)%Z.
Proof. exact sunrise_case. Qed.

(* ------------------------------------------------------------------------------- C84 *)
(* the day lasting from four minutes to 23 hours 56 minutes *)
Theorem C84_sunrise_in_the_east : forall d u lat lon el sr ss tr t ut,
  instant d u -> -90 < lat < 90 -> -180 <= lon <= 180 -> -100000 <= el <= 100000 ->
  (midnight 1901 1 1 <= dt_local d < midnight 2100 1 1)%Z ->
  get_sunrise_sunset_transit (N := MathR) (Fin lat) (Fin lon) d = Ok (sr, ss, tr) ->
  (240000000 <= dt_local ss - dt_local sr <= 86160000000)%Z ->
  (t = sr \/ t = ss) -> instant t ut -> (dt_local t - ut = dt_local d - u)%Z -> (midnight 1901 1 1 <= ut < midnight 2100 1 1)%Z ->
  exists A, get_azimuth (N := MathR) (Fin lat) (Fin lon) t (Fin el) = Ok (Fin A) /\ (t = sr -> 0 < A < 180) /\ (t = ss -> 180 < A < 360).
Proof. exact sunrise_side. Qed.
Print Assumptions C84_sunrise_in_the_east.

(* ------------------------------------------------------------------------------- C85 *)
(* 0.447 degrees of hour angle: 1 minute 48 seconds *)
Theorem C85_transit_on_the_meridian : forall d u lat lon el sr ss tr ut,
  instant d u -> -90 < lat < 90 -> -180 <= lon <= 180 -> -100000 <= el <= 100000 ->
  (midnight 1901 1 1 <= dt_local d < midnight 2100 1 1)%Z ->
  get_sunrise_sunset_transit (N := MathR) (Fin lat) (Fin lon) d = Ok (sr, ss, tr) ->
  instant tr ut -> (dt_local tr - ut = dt_local d - u)%Z -> (midnight 1901 1 1 <= ut < midnight 2100 1 1)%Z ->
  exists dec ha (k : Z), get_topocentric_position (N := MathR) (Fin lat) (Fin lon) tr (Fin el) = Ok (Fin dec, Fin ha) /\
    Rabs (ha - 360 * IZR k) <= 0.447.
Proof. exact transit_true. Qed.
Print Assumptions C85_transit_on_the_meridian.

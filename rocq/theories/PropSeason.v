(* Where the sun is over the year and over the day (C99, C100). *)
From Coq Require Import Reals Lra ZArith.
From Verif Require Import Py Num Cal Clock SolarTime Solar Util RInst Constants SpecTime SpecDt SpecGeom SpecEng Samples MotionProofs SeasonProofs SunProofs NoonProofs.
Local Open Scope R_scope.

(* ------------------------------------------------------------------------------- C99 *)
(* Day 82 is 22 or 23 March, 264 is 20 or 21 September, 77 is 17 or 18 March, 268 is 24 or 25 September;
   169 is 17 or 18 June, 176 is 24 or 25 June, 353 is 18 or 19 December, 359 is 24 or 25 December. *)
Theorem C99_seasons : forall d u day h m lat lon el dec ha, instant d u -> (midnight 1901 1 1 <= u < midnight 2100 1 1)%Z -> civil_clock u day h m ->
  -90 <= lat <= 90 -> -100000 <= el <= 100000 ->
  get_topocentric_position (N := MathR) (Fin lat) (Fin lon) d (Fin el) = Ok (Fin dec, Fin ha) ->
  ((82 <= day <= 264)%Z -> 0 < dec) /\ ((day <= 77 \/ 268 <= day)%Z -> dec < 0) /\
  ((169 <= day <= 176)%Z -> 23.3 <= dec) /\ ((353 <= day <= 359)%Z -> dec <= -23.3).
Proof. exact seasons. Qed.
Print Assumptions C99_seasons.

Theorem C99_midnight_sun : forall d u day h m lat lon el T P, instant d u -> (midnight 1901 1 1 <= u < midnight 2100 1 1)%Z -> civil_clock u day h m ->
  -90 <= lat <= 90 -> -100000 <= el <= 100000 -> 0 < T -> 0 <= P ->
  (66.71 <= lat /\ (169 <= day <= 176)%Z \/ lat <= -66.71 /\ (353 <= day <= 359)%Z) ->
  exists a, 0 < a /\ get_altitude (N := MathR) (Fin lat) (Fin lon) d (Fin el) (Fin T) (Fin P) = Ok (Fin a).
Proof. exact midnight_sun. Qed.
Print Assumptions C99_midnight_sun.

(* the refraction formula raises at isolated elevations below -5, so: whenever a value is returned *)
Theorem C99_polar_night : forall d u day h m lat lon el T P a, instant d u -> (midnight 1901 1 1 <= u < midnight 2100 1 1)%Z -> civil_clock u day h m ->
  -90 <= lat <= 90 -> -100000 <= el <= 100000 ->
  (67.6 <= lat /\ (353 <= day <= 359)%Z \/ lat <= -67.6 /\ (169 <= day <= 176)%Z) ->
  get_altitude (N := MathR) (Fin lat) (Fin lon) d (Fin el) T P = Ok a -> exists a', a = Fin a' /\ a' <= -0.9.
Proof. exact polar_night. Qed.
Print Assumptions C99_polar_night.

Theorem C99_poles : forall d u day h m lon el, instant d u -> (midnight 1901 1 1 <= u < midnight 2100 1 1)%Z -> civil_clock u day h m -> -100000 <= el <= 100000 ->
  (exists dec ha, get_topocentric_position (N := MathR) (Fin 90) (Fin lon) d (Fin el) = Ok (Fin dec, Fin ha) /\
    get_topocentric_elevation_angle (N := MathR) (Fin 90) (Fin dec) (Fin ha) = Ok (Fin dec) /\
    ((82 <= day <= 264)%Z -> 0 < dec) /\ ((day <= 77 \/ 268 <= day)%Z -> dec < 0)) /\
  (exists dec ha, get_topocentric_position (N := MathR) (Fin (-90)) (Fin lon) d (Fin el) = Ok (Fin dec, Fin ha) /\
    get_topocentric_elevation_angle (N := MathR) (Fin (-90)) (Fin dec) (Fin ha) = Ok (Fin (- dec)) /\
    ((82 <= day <= 264)%Z -> - dec < 0) /\ ((day <= 77 \/ 268 <= day)%Z -> 0 < - dec)).
Proof. exact poles. Qed.
Print Assumptions C99_poles.

Example C99_case : (midnight 1901 1 1 <= noon2000 3 25 < midnight 2100 1 1)%Z /\ civil_clock (noon2000 3 25) 85 12 0 /\
  (midnight 1901 1 1 <= noon2000 6 21 < midnight 2100 1 1)%Z /\ civil_clock (noon2000 6 21) 173 12 0 /\
  (midnight 1901 1 1 <= noon2000 9 30 < midnight 2100 1 1)%Z /\ civil_clock (noon2000 9 30) 274 12 0 /\
  (midnight 1901 1 1 <= noon2000 12 21 < midnight 2100 1 1)%Z /\ civil_clock (noon2000 12 21) 356 12 0 /\
  forall u, instant (at_utc u) u.
Proof. exact season_days. Qed.

(* ------------------------------------------------------------------------------- C100 *)
(* negative hour angles are before noon, positive ones after; k: whole turns *)
Theorem C100_morning_east_afternoon_west : forall d u lat lon el dec ha az (k : Z), instant d u -> in_range u = true -> -90 <= lat <= 90 -> -100000 <= el <= 100000 ->
  get_topocentric_position (N := MathR) (Fin lat) (Fin lon) d (Fin el) = Ok (Fin dec, Fin ha) ->
  get_azimuth (N := MathR) (Fin lat) (Fin lon) d (Fin el) = Ok (Fin az) ->
  (-180 < ha - 360 * IZR k < 0 -> 0 < az < 180) /\ (0 < ha - 360 * IZR k < 180 -> 180 < az < 360).
Proof. exact halves. Qed.
Print Assumptions C100_morning_east_afternoon_west.

Theorem C100_culmination : forall d u lat lon el dec ha az e (k : Z), instant d u -> (midnight 1901 1 1 <= u < midnight 2100 1 1)%Z ->
  -90 <= lat <= 90 -> -100000 <= el <= 100000 ->
  get_topocentric_position (N := MathR) (Fin lat) (Fin lon) d (Fin el) = Ok (Fin dec, Fin ha) ->
  get_azimuth (N := MathR) (Fin lat) (Fin lon) d (Fin el) = Ok (Fin az) ->
  get_topocentric_elevation_angle (N := MathR) (Fin lat) (Fin dec) (Fin ha) = Ok (Fin e) -> ha = 360 * IZR k ->
  e = 90 - Rabs (lat - dec) /\ (23.47 <= lat -> az = 180) /\ (lat <= -23.47 -> az = 0).
Proof. exact culminates. Qed.
Print Assumptions C100_culmination.
(* at every instant and latitude there is a place on the meridian below the sun *)
Example C100_case : forall lat el, -90 <= lat <= 90 -> -100000 <= el <= 100000 ->
  exists lon dec az e, -180 <= lon < 180 /\ get_topocentric_position (N := MathR) (Fin lat) (Fin lon) sample_dt (Fin el) = Ok (Fin dec, Fin 0) /\
    get_azimuth (N := MathR) (Fin lat) (Fin lon) sample_dt (Fin el) = Ok (Fin az) /\
    get_topocentric_elevation_angle (N := MathR) (Fin lat) (Fin dec) (Fin 0) = Ok (Fin e).
Proof. exact (fun lat el => meridian sample_dt sample_u lat el sample_instant sample_in_range). Qed.

(* at the computed transit; the time zone's offset then is that at the argument *)
Theorem C100_transit_due_south : forall d u lat lon el sr ss tr ut, instant d u -> -90 < lat < 90 -> -180 <= lon <= 180 -> -100000 <= el <= 100000 ->
  (midnight 1901 1 1 <= dt_local d < midnight 2100 1 1)%Z ->
  get_sunrise_sunset_transit (N := MathR) (Fin lat) (Fin lon) d = Ok (sr, ss, tr) ->
  instant tr ut -> (dt_local tr - ut = dt_local d - u)%Z -> (midnight 1901 1 1 <= ut < midnight 2100 1 1)%Z ->
  exists az, get_azimuth (N := MathR) (Fin lat) (Fin lon) tr (Fin el) = Ok (Fin az) /\
    (30 <= lat -> Rabs (az - 180) <= 4) /\ (lat <= -30 -> 0 <= az <= 4 \/ 356 <= az < 360).
Proof. exact noon_side. Qed.
Print Assumptions C100_transit_due_south.
(* the computed transit of the sample day at latitude 40 *)
Example C100_transit_case : exists sr ss tr ut, get_sunrise_sunset_transit (N := MathR) (Fin 40) (Fin (-75)) sample_dt = Ok (sr, ss, tr) /\
  instant tr ut /\ (dt_local tr - ut = dt_local sample_dt - sample_u)%Z /\ (midnight 1901 1 1 <= ut < midnight 2100 1 1)%Z.
Proof. exact transit_case. Qed.

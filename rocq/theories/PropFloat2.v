(* Properties C76-C79: how accurate the position is when computed in IEEE binary64.  [accurate L]
   (SpecB64.v): the C library's functions are within a relative error of 2^-52 of the
   mathematical ones; a correctly rounded library is one such. *)
From Coq Require Import Reals List.
From Verif Require Import Py Num Cal TzCheck Clock Tables Constants SolarTime Solar RInst SpecTime SpecDt SpecEng SpecGeom SpecAstro Trig Samples
  B64 SpecB64 B64Lemmas B64Witness B64Lift B64Final.
Local Open Scope R_scope.

(* ------------------------------------------------------------------------------- C76 *)
(* e1 degrees in declination and e2 in hour angle (modulo a turn) *)
Theorem C76_position_accuracy64 : forall L, accurate L -> forall lat lon el x xo xe dt u, instant dt u ->
  val x lat -> val xo lon -> val xe el -> -90 <= lat <= 90 -> -360 <= lon <= 360 -> -100000 <= el <= 100000 ->
  forall e1 e2, in_range u = true /\ e1 = 1.7e-8 /\ e2 = 1.35e-6 \/ (midnight 1834 1 1 <= u < midnight 2106 1 1)%Z /\ e1 = 8.1e-10 /\ e2 = 2.25e-7 ->
  exists qd qh dec ha dec' ha' (k : Z),
    get_topocentric_position (N := B64 L) x xo dt xe = Ok (qd, qh) /\ val qd dec /\ val qh ha /\
    get_topocentric_position (N := MathR) (Fin lat) (Fin lon) dt (Fin el) = Ok (Fin dec', Fin ha') /\
    Rabs (dec - dec') <= e1 /\ Rabs (ha - ha' - 360 * IZR k) <= e2.
Proof. exact position_accuracy64. Qed.
Print Assumptions C76_position_accuracy64.
Example C76_case : accurate exact_libm /\ instant sample_dt sample_u /\ (midnight 1834 1 1 <= sample_u < midnight 2106 1 1)%Z /\ val (flit 52) 52.
Proof. exact (conj (cr_accurate _ exact_libm_correct) (conj sample_instant (conj sample_modern (val_int 52 ltac:(discriminate))))). Qed.

(* ------------------------------------------------------------------------------- C77 *)
(* E: the exact elevation angle; cosd E >= 1e-5 keeps 0.0006 degrees off the zenith *)
Theorem C77_azimuth_accuracy64 : forall L, accurate L -> forall lat lon el x xo xe dt u dec ha E, instant dt u ->
  val x lat -> val xo lon -> val xe el -> -90 <= lat <= 90 -> -360 <= lon <= 360 -> -100000 <= el <= 100000 ->
  get_topocentric_position (N := MathR) (Fin lat) (Fin lon) dt (Fin el) = Ok (Fin dec, Fin ha) ->
  get_topocentric_elevation_angle (N := MathR) (Fin lat) (Fin dec) (Fin ha) = Ok (Fin E) -> 1e-5 <= cosd E ->
  forall c, in_range u = true /\ c = 2e-6 \/ (midnight 1834 1 1 <= u < midnight 2106 1 1)%Z /\ c = 3.3e-7 ->
  exists q a a' (k : Z), get_azimuth (N := B64 L) x xo dt xe = Ok q /\ val q a /\
    get_azimuth (N := MathR) (Fin lat) (Fin lon) dt (Fin el) = Ok (Fin a') /\ Rabs (a - a' - 360 * IZR k) <= c / cosd E.
Proof. exact azimuth_accuracy64. Qed.
Print Assumptions C77_azimuth_accuracy64.

(* ------------------------------------------------------------------------------- C78 *)
(* The refraction formula is singular near -5.1 degrees and jumps at -0.83337.  At the zenith the
   elevation may raise ValueError (C71); it does so nowhere else. *)
Theorem C78_altitude_accuracy64 : forall L, accurate L -> forall lat lon el x xo xe dt u xT T xP P dec ha E, instant dt u -> in_range u = true ->
  val x lat -> val xo lon -> val xe el -> -90 <= lat <= 90 -> -360 <= lon <= 360 -> -100000 <= el <= 100000 ->
  val xT T -> val xP P -> 180 <= T <= 340 -> 0 <= P <= 110000 ->
  get_topocentric_position (N := MathR) (Fin lat) (Fin lon) dt (Fin el) = Ok (Fin dec, Fin ha) ->
  get_topocentric_elevation_angle (N := MathR) (Fin lat) (Fin dec) (Fin ha) = Ok (Fin E) ->
  ~ (-5.21 < E < -4.99) -> 1e-5 <= Rabs (E + 0.83337) ->
  (exists q a a', get_altitude (N := B64 L) x xo dt xe xT xP = Ok q /\ val q a /\
     get_altitude (N := MathR) (Fin lat) (Fin lon) dt (Fin el) (Fin T) (Fin P) = Ok (Fin a') /\
     Rabs (a - a') <= 1.7e-5 /\ (Rabs E <= 89 -> Rabs (a - a') <= 2.8e-6) /\
     (Rabs E <= 89 -> (midnight 1834 1 1 <= u < midnight 2106 1 1)%Z -> Rabs (a - a') <= 4.6e-7)) \/
  (get_altitude (N := B64 L) x xo dt xe xT xP = Err ValueError /\ 89.99998 < Rabs E).
Proof. exact altitude_accuracy64. Qed.
Print Assumptions C78_altitude_accuracy64.
(* one of the poles, at the sample instant *)
Example C77_C78_case : exists lat x dec ha E, val x lat /\ -90 <= lat <= 90 /\
  get_topocentric_position (N := MathR) (Fin lat) (Fin 0) sample_dt (Fin 0) = Ok (Fin dec, Fin ha) /\
  get_topocentric_elevation_angle (N := MathR) (Fin lat) (Fin dec) (Fin ha) = Ok (Fin E) /\
  1e-5 <= cosd E /\ ~ (-5.21 < E < -4.99) /\ 1e-5 <= Rabs (E + 0.83337) /\ Rabs E <= 89.
Proof. exact pole_case. Qed.

(* ------------------------------------------------------------------------------- C79 *)
(* C56 for the doubles returned: within 0.100002 degrees of the published algorithm's direction *)
Theorem C79_close_to_published_algorithm64 : forall L, accurate L -> forall lat lon el x xo xe dt u, instant dt u -> in_range u = true ->
  val x lat -> val xo lon -> val xe el -> -90 <= lat <= 90 -> -360 <= lon <= 360 -> -100000 <= el <= 100000 ->
  exists jd jde x0 y0 qd qh dec ha,
    get_julian_solar_day (N := MathR) dt = Ok (Fin jd) /\ get_julian_ephemeris_day (N := MathR) dt = Ok (Fin jde) /\
    ellipsoid_point 0.99664719 lat x0 y0 /\
    get_topocentric_position (N := B64 L) x xo dt xe = Ok (qd, qh) /\ val qd dec /\ val qh ha /\
    let is_direction := spa_direction sun_earth_distance_coeffs heliocentric_latitude_coeffs heliocentric_longitude_coeffs
      (combine nutation_coefficients aberration_sin_terms) ((jde - 2451545) / 36525) jd lon
      (x0 + el / 6378140 * cosd lat) (y0 + el / 6378140 * sind lat) in
    (exists w, is_direction w) /\ forall w, is_direction w -> cosd 0.100002 <= dot (equatorial dec ha) w.
Proof. exact spa_position64. Qed.
Print Assumptions C79_close_to_published_algorithm64.
Example C79_case : accurate exact_libm /\ instant sample_dt sample_u /\ in_range sample_u = true /\ val (flit 52) 52 /\ val (flit 300) 300.
Proof. exact (conj (cr_accurate _ exact_libm_correct) (conj sample_instant (conj sample_in_range (conj (val_int 52 ltac:(discriminate)) (val_int 300 ltac:(discriminate)))))). Qed.

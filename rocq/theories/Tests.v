(* test/test_solar.py and test/test_hour_angle.py: the assertions of the test suite, as values.
   unittest itself (loading, reporting) is not modelled; a test passes when every call it makes returns and
   every assertion holds (SpecTests.v). *)
From Flocq Require Import IEEE754.BinarySingleNaN.
From Verif Require Import Py Num Cal TzCheck Clock Constants SolarTime Solar Elevation Simulate B64.
Open Scope num_scope.

(* assertAlmostEqual(a, b, n) and assertAlmostEqual(a, b, delta = d) *)
Inductive assertion (N : Num) := Places (a b : T N) (n : nat) | Delta (a b d : T N).
Arguments Places {N}. Arguments Delta {N}.

(* timedelta(seconds = x) (Modules/_datetimemodule.c, accum and delta_new): as [py_timedelta_hours] in
   B64.v, with a million microseconds to the second *)
Definition py_timedelta_seconds (x : f64) : res Z :=
  match x with
  | B754_nan => Err ValueError
  | B754_infinity _ => Err OverflowError
  | _ =>
      let n := Btrunc x in
      let frac := Bminus mode_NE x (flit (inject_Z n)) in
      timedelta_us (n * 1000000 + Btrunc (Bnearbyint mode_NE (Bmult mode_NE (flit 1000000) frac)))%Z
  end.
(* test_solar.py 34-35: self.d *)
Definition setup_date (L : libm) : res datetime :=
  let d := mk 2003 10 17 19 30 30 0 (Some (fixed_tz 0)) in
  dt <- get_delta_t (N := B64 L) d ;;
  ls <- get_leap_seconds d ;;
  us <- py_timedelta_seconds (sub (n := B64 L) (sub (n := B64 L) dt tt_offset) (ofZ ls)) ;;
  dt_add d us.

Section S.
Context {N : Num}.
Local Notation "a ~ b @ n" := (Places (N := N) (lit a) b n) (at level 50, b at level 40, n at level 9).

(* test_solar.py 39-151: setUp after the date, and the assertions of the tests up to test_get_incidence_angle *)
Definition test_solar (d : datetime) : res (list (assertion N)) :=
  let longitude : T N := lit (-105.1786) in
  let latitude : T N := lit 39.742476 in
  let pressure : T N := lit 82000.0 in
  let elevation : T N := lit 1830.14 in
  let temperature : T N := lit 11.0 + lit 273.15 in
  let slope : T N := lit 30.0 in
  let slope_orientation : T N := lit (-10.0) in
  jd <- get_julian_solar_day d ;;
  jc <- get_julian_century jd ;;
  jde <- get_julian_ephemeris_day d ;;
  jce <- get_julian_ephemeris_century jde ;;
  jme <- get_julian_ephemeris_millennium jce ;;
  geocentric_longitude <- get_geocentric_longitude jme ;;
  geocentric_latitude <- get_geocentric_latitude jme ;;
  nutation <- get_nutation jce ;;
  sun_earth_distance <- get_sun_earth_distance jme ;;
  true_ecliptic_obliquity <- get_true_ecliptic_obliquity jme nutation ;;
  aberration_correction <- get_aberration_correction sun_earth_distance ;;
  let apparent_sun_longitude := get_apparent_sun_longitude geocentric_longitude nutation aberration_correction in
  apparent_sidereal_time <- get_apparent_sidereal_time jd jme nutation ;;
  geocentric_sun_right_ascension <- get_geocentric_sun_right_ascension apparent_sun_longitude true_ecliptic_obliquity geocentric_latitude ;;
  geocentric_sun_declination <- get_geocentric_sun_declination apparent_sun_longitude true_ecliptic_obliquity geocentric_latitude ;;
  local_hour_angle <- get_local_hour_angle (lit 318.5119) longitude geocentric_sun_right_ascension ;;
  equatorial_horizontal_parallax <- get_equatorial_horizontal_parallax sun_earth_distance ;;
  projected_radial_distance <- get_projected_radial_distance elevation latitude ;;
  projected_axial_distance <- get_projected_axial_distance elevation latitude ;;
  topocentric_sun_right_ascension <- get_topocentric_sun_right_ascension projected_radial_distance
    equatorial_horizontal_parallax local_hour_angle apparent_sun_longitude true_ecliptic_obliquity geocentric_latitude ;;
  parallax_sun_right_ascension <- get_parallax_sun_right_ascension projected_radial_distance equatorial_horizontal_parallax local_hour_angle geocentric_sun_declination ;;
  topocentric_sun_declination <- get_topocentric_sun_declination geocentric_sun_declination projected_axial_distance equatorial_horizontal_parallax parallax_sun_right_ascension local_hour_angle ;;
  let topocentric_local_hour_angle := get_topocentric_local_hour_angle local_hour_angle parallax_sun_right_ascension in
  topocentric_zenith_angle <- get_topocentric_zenith_angle latitude topocentric_sun_declination topocentric_local_hour_angle pressure temperature ;;
  topocentric_azimuth_angle <- get_topocentric_azimuth_angle topocentric_local_hour_angle latitude topocentric_sun_declination ;;
  incidence_angle <- get_incidence_angle topocentric_zenith_angle slope slope_orientation topocentric_azimuth_angle ;;
  Ok [ 2452930.312847 ~ jd @ 6;
       2452930.3136 ~ jde @ 4;
       0.03792779869191517 ~ jc @ 12;
       0.0037927819143886397 ~ jme @ 12;
       204.0182635175 ~ geocentric_longitude @ 4;
       0.0001011219 ~ geocentric_latitude @ 8;
       0.00166657 ~ (n_obliquity nutation) @ 8;
       (-0.00399840) ~ (n_longitude nutation) @ 8;
       0.9965421031 ~ sun_earth_distance @ 6;
       23.440465 ~ true_ecliptic_obliquity @ 6;
       (-0.005711359) ~ aberration_correction @ 9;
       204.0085537528 ~ apparent_sun_longitude @ 4;
       318.5119 ~ apparent_sidereal_time @ 2;
       202.22741 ~ geocentric_sun_right_ascension @ 4;
       (-9.31434) ~ geocentric_sun_declination @ 4;
       11.105900 ~ local_hour_angle @ 4;
       0.7702006 ~ projected_radial_distance @ 6;
       202.22741 ~ topocentric_sun_right_ascension @ 3;
       (-0.0003659912761437859) ~ parallax_sun_right_ascension @ 12;
       (-9.316179) ~ topocentric_sun_declination @ 3;
       11.10629 ~ topocentric_local_hour_angle @ 4;
       50.11162 ~ topocentric_zenith_angle @ 3;
       194.34024 ~ topocentric_azimuth_angle @ 4;
       25.18700 ~ incidence_angle @ 3 ].
(* test_solar.py 73-74, 153-157 *)
Definition test_elevation : res (list (assertion N)) :=
  p <- pressure_default (lit 1567.7) ;;
  Ok [ 83855.90228 ~ p @ 4; 277.9600 ~ (temperature_default (lit 1567.7)) @ 4 ].

(* test_solar.py 160-177, testGetPosition *)
Definition test_when : datetime := mk 2016 12 19 23 0 0 0 (Some (fixed_tz 0)).
Definition test_get_position : res (list (assertion N)) :=
  p <- get_position_default (lit 59.6365662) (lit 12.5350953) test_when ;;
  q <- get_position_default (lit (-43)) (lit 172) test_when ;;
  r <- get_position_default (lit 51.4826) (lit 0) test_when ;;
  Ok [ Places (fst p) (lit 357.1431414) 7; Places (snd p) (lit (-53.7672217)) 7;
       Places (fst q) (lit 50.50035708) 7; Places (snd q) (lit 63.0922036) 7;
       Places (fst r) (lit 333.04037976) 7; Places (snd r) (lit (-59.83724345)) 7 ].
(* test_solar.py 179-185, testGetAltitude and testGetAzimuth *)
Definition test_get_altitude : res (list (assertion N)) :=
  al <- get_altitude_default (lit (-43)) (lit 172) test_when ;; Ok [ Places al (lit 63.0922036) 7 ].
Definition test_get_azimuth : res (list (assertion N)) :=
  az <- get_azimuth_default (lit (-43)) (lit 172) test_when ;; Ok [ Places az (lit 50.50035708) 7 ].

(* test_solar.py 187-207, testGetAltitudeFast and testGetAzimuthFast: the loops over range(7, 19) *)
Definition test_hour (hour : Z) : res datetime :=
  dt_add (mk 2016 12 19 0 0 0 0 (Some (fixed_tz (12 * 3600000000)))) (hour * 3600000000).
Definition over_hours (body : datetime -> res (list (assertion N))) : res (list (assertion N)) :=
  fold_right (fun hour acc => w <- test_hour hour ;; a <- body w ;; l <- acc ;; Ok (a ++ l)%list) (Ok []) [7; 8; 9; 10; 11; 12; 13; 14; 15; 16; 17; 18]%Z.
Definition altitude_fast_body (w : datetime) : res (list (assertion N)) :=
  al <- get_altitude_fast (C := clock_math N) (lit (-43)) (lit 172) w ;;
  ex <- get_altitude_default (lit (-43)) (lit 172) w ;;
  Ok [ Delta al ex (lit 1) ].
Definition azimuth_fast_body (w : datetime) : res (list (assertion N)) :=
  az <- get_azimuth_fast (C := clock_math N) (lit (-43)) (lit 172) w ;;
  ex <- get_azimuth_default (lit (-43)) (lit 172) w ;;
  Ok [ Delta az ex (lit 1.5) ].
Definition test_get_altitude_fast := over_hours altitude_fast_body.
Definition test_get_azimuth_fast := over_hours azimuth_fast_body.

(* test_hour_angle.py 21-74 (latitude_deg is not used there) *)
Definition test_hour_angle : res (list (assertion N)) :=
  let when := mk 2008 2 13 10 42 0 0 (Some (fixed_tz (-6 * 3600000000))) in
  let longitude_deg : T N := lit (-89.384448) in
  ha <- get_hour_angle (C := clock_math N) when longitude_deg ;;
  jd <- get_julian_solar_day when ;;
  jde <- get_julian_ephemeris_day when ;;
  jce <- get_julian_ephemeris_century jde ;;
  jme <- get_julian_ephemeris_millennium jce ;;
  geocentric_latitude <- get_geocentric_latitude jme ;;
  geocentric_longitude <- get_geocentric_longitude jme ;;
  sun_earth_distance <- get_sun_earth_distance jme ;;
  aberration_correction <- get_aberration_correction sun_earth_distance ;;
  nutation <- get_nutation jce ;;
  apparent_sidereal_time <- get_apparent_sidereal_time jd jme nutation ;;
  true_ecliptic_obliquity <- get_true_ecliptic_obliquity jme nutation ;;
  let apparent_sun_longitude := get_apparent_sun_longitude geocentric_longitude nutation aberration_correction in
  geocentric_sun_right_ascension <- get_geocentric_sun_right_ascension apparent_sun_longitude true_ecliptic_obliquity geocentric_latitude ;;
  local_hour_angle <- get_local_hour_angle apparent_sidereal_time longitude_deg geocentric_sun_right_ascension ;;
  reference_ha <- fmod (lit (-22.5)) (lit 360.0) ;;
  a <- fmod local_hour_angle (lit 360.0) ;;
  b <- fmod ha (lit 360.0) ;;
  c <- fmod reference_ha (lit 360.0) ;;
  Ok [ Places a b 0; Places c b 0 ].
End S.

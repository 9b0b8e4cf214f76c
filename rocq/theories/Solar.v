(* pysolar/solar.py.  (solar_test, lines 31-43, is in Demo.v.) *)
From Verif Require Import Py Num Cal TzCheck Clock Tables Constants SolarTime.
Open Scope num_scope.

Record nutation (X : Type) := mknut { n_longitude : X; n_obliquity : X }.
Arguments mknut {X} _ _.
Arguments n_longitude {X} _.
Arguments n_obliquity {X} _.

Section S.
Context {N : Num}.

(* solar.py 46-49 *)
Definition equation_of_time (day : T N) : res (T N) :=
  q <- div (lit 2 * npi) (lit 364.0) ;;
  let b := q * (day - lit 81) in
  s2 <- nsin (lit 2 * b) ;;
  c1 <- ncos b ;;
  s1 <- nsin b ;;
  Ok (lit 9.87 * s2 - lit 7.53 * c1 - lit 1.5 * s1).

(* solar.py 52-53 *)
Definition get_aberration_correction (sun_earth_distance : T N) : res (T N) :=
  div (lit (-20.4898)) (lit 3600.0 * sun_earth_distance).

(* solar.py 180-195.  The two nested loops; l = (l[0], l[1], l[2]) *)
Definition coeff_line (jme : T N) (line : list (Q * Q * Q)) : res (T N) :=
  fold_left (fun acc l =>
    c <- acc ;;
    let '(l0, l1, l2) := l in
    w <- ncos (lit l1 + lit l2 * jme) ;;
    Ok (c + lit l0 * w)) line (Ok (lit 0.0)).

Definition get_coeff (jme : T N) (coeffs : list (list (Q * Q * Q))) : res (T N) :=
  st <- fold_left (fun acc line =>
    st <- acc ;;
    let '(result, x) := st in
    c <- coeff_line jme line ;;
    Ok (result + c * x, x * jme)) coeffs (Ok (lit 0.0, lit 1.0)) ;;
  Ok (fst st).

(* solar.py 197-203 *)
Definition get_declination (day : T N) : res (T N) :=
  q <- div (lit 2 * npi) (lit 365.0) ;;
  s <- nsin (q * (day - lit 81)) ;;
  Ok (earth_axis_inclination * s).

(* solar.py 205-206 *)
Definition get_equatorial_horizontal_parallax (sun_earth_distance : T N) : res (T N) :=
  q <- div (lit 3600) sun_earth_distance ;;
  div (lit 8.794) q.

(* solar.py 208-210 *)
Definition get_flattened_latitude (latitude : T N) : res (T N) :=
  let latitude_rad := radians latitude in
  t <- ntan latitude_rad ;;
  a <- natan (lit 0.99664719 * t) ;;
  Ok (degrees a).

(* solar.py 243-244 *)
Definition get_heliocentric_latitude (jme : T N) : res (T N) :=
  c <- get_coeff jme heliocentric_latitude_coeffs ;;
  q <- div c (lit 1e8) ;;
  Ok (degrees q).

(* solar.py 246-247 *)
Definition get_heliocentric_longitude (jme : T N) : res (T N) :=
  c <- get_coeff jme heliocentric_longitude_coeffs ;;
  q <- div c (lit 1e8) ;;
  fmod (degrees q) (lit 360).

(* solar.py 214-215 *)
Definition get_geocentric_latitude (jme : T N) : res (T N) :=
  h <- get_heliocentric_latitude jme ;;
  Ok (- lit 1 * h).

(* solar.py 217-218 *)
Definition get_geocentric_longitude (jme : T N) : res (T N) :=
  h <- get_heliocentric_longitude jme ;;
  fmod (h + lit 180) (lit 360).

(* solar.py 220-228 *)
Definition get_geocentric_sun_declination
    (apparent_sun_longitude true_ecliptic_obliquity geocentric_latitude : T N) : res (T N) :=
  let apparent_sun_longitude_rad := radians apparent_sun_longitude in
  let true_ecliptic_obliquity_rad := radians true_ecliptic_obliquity in
  let geocentric_latitude_rad := radians geocentric_latitude in
  s1 <- nsin geocentric_latitude_rad ;;
  c1 <- ncos true_ecliptic_obliquity_rad ;;
  let a := s1 * c1 in
  c2 <- ncos geocentric_latitude_rad ;;
  s2 <- nsin true_ecliptic_obliquity_rad ;;
  s3 <- nsin apparent_sun_longitude_rad ;;
  let b := c2 * s2 * s3 in
  delta <- nasin (a + b) ;;
  Ok (degrees delta).

(* solar.py 230-239 *)
Definition get_geocentric_sun_right_ascension
    (apparent_sun_longitude true_ecliptic_obliquity geocentric_latitude : T N) : res (T N) :=
  let apparent_sun_longitude_rad := radians apparent_sun_longitude in
  let true_ecliptic_obliquity_rad := radians true_ecliptic_obliquity in
  let geocentric_latitude_rad := radians geocentric_latitude in
  s1 <- nsin apparent_sun_longitude_rad ;;
  c1 <- ncos true_ecliptic_obliquity_rad ;;
  let a := s1 * c1 in
  t2 <- ntan geocentric_latitude_rad ;;
  s2 <- nsin true_ecliptic_obliquity_rad ;;
  let b := t2 * s2 in
  c <- ncos apparent_sun_longitude_rad ;;
  alpha <- natan2 (a - b) c ;;
  fmod (degrees alpha) (lit 360).

(* solar.py 254-259 *)
Definition get_incidence_angle
    (topocentric_zenith_angle slope slope_orientation topocentric_azimuth_angle : T N) : res (T N) :=
  let tza_rad := radians topocentric_zenith_angle in
  let slope_rad := radians slope in
  let so_rad := radians slope_orientation in
  let taa_rad := radians topocentric_azimuth_angle in
  c1 <- ncos tza_rad ;;
  c2 <- ncos slope_rad ;;
  s1 <- nsin slope_rad ;;
  s2 <- nsin tza_rad ;;
  c3 <- ncos (taa_rad - npi - so_rad) ;;
  a <- nacos (c1 * c2 + s1 * s2 * c3) ;;
  Ok (degrees a).

(* solar.py 261-262 *)
Definition get_local_hour_angle
    (apparent_sidereal_time longitude geocentric_sun_right_ascension : T N) : res (T N) :=
  fmod (apparent_sidereal_time + longitude - geocentric_sun_right_ascension) (lit 360).

(* solar.py 264-268 *)
Definition get_mean_sidereal_time (jd : T N) : res (T N) :=
  jc <- get_julian_century jd ;;
  q <- div jc (lit 38710000) ;;
  let sidereal_time :=
    lit 280.46061837 + (lit 360.98564736629 * (jd - lit 2451545.0))
    + lit 0.000387933 * jc * jc * (lit 1 - q) in
  fmod sidereal_time (lit 360).

(* solar.py 270-300.  p is the dictionary returned by constants.get_aberration_coeffs() *)
Definition nutation_args (p : list (string * (Q * Q * Q * Q))) (jce : T N) : res (list (T N)) :=
  fold_right (fun k acc =>
    f <- dict_get k p ;;
    v <- cubic f jce ;;
    rest <- acc ;;
    Ok (v :: rest)) (Ok [])
    [ "MeanElongationOfMoon"; "MeanAnomalyOfSun"; "MeanAnomalyOfMoon";
      "ArgumentOfLatitudeOfMoon"; "LongitudeOfAscendingNode" ]%string.

(* solar.py 289-292: sigmaxy += x[j] * y[i][j] *)
Definition sigmaxy (x : list (T N)) (yi : Z * Z * Z * Z * Z) : T N :=
  let '(y0, y1, y2, y3, y4) := yi in
  fold_left (fun acc xy => acc + fst xy * ofZ (snd xy))
    (combine x [y0; y1; y2; y3; y4]) (lit 0.0).

(* solar.py 288-294, one iteration: the two appended values *)
Definition nutation_term (x : list (T N)) (jce : T N)
    (row : (Q * Q * Q * Q) * (Z * Z * Z * Z * Z)) : res (T N * T N) :=
  let '((a0, a1, a2, a3), yi) := row in
  let s := sigmaxy x yi in
  sn <- nsin (radians s) ;;
  let dl := (lit a0 + (lit a1 * jce)) * sn in
  cs <- ncos (radians s) ;;
  Ok (dl, (lit a2 + (lit a3 * jce)) * cs).

Definition nutation_terms (x : list (T N)) (jce : T N) : res (list (T N * T N)) :=
  fold_right (fun row acc => t <- nutation_term x jce row ;; rest <- acc ;; Ok (t :: rest))
    (Ok []) (combine nutation_coefficients aberration_sin_terms).

(* solar.py 297: sum(), from left to right starting at 0 (CPython from 3.12 on compensates
   rounding errors on plain floats; see DESIGN.md, Idealisations) *)
Definition py_sum (l : list (T N)) : T N := fold_left add l (lit 0).

Definition get_nutation_from (p : list (string * (Q * Q * Q * Q))) (jce : T N) : res (nutation (T N)) :=
  x <- nutation_args p jce ;;
  ts <- nutation_terms x jce ;;
  ql <- div (py_sum (map fst ts)) (lit 36000000.0) ;;
  qo <- div (py_sum (map snd ts)) (lit 36000000.0) ;;
  Ok (mknut ql qo).

(* solar.py 270-300 with the module-level cache of constants.py threaded *)
Definition get_nutation_st (st : cache) (jce : T N) : res (nutation (T N)) * cache :=
  let '(p, st') := get_aberration_coeffs st in
  (get_nutation_from p jce, st').

(* the cache does not influence results ([nutation_cache_transparent], GenProofs.v), so the
   callers below use the freshly built dictionary *)
Definition get_nutation (jce : T N) : res (nutation (T N)) := fst (get_nutation_st None jce).

(* solar.py 302-310 *)
Definition get_parallax_sun_right_ascension
    (projected_radial_distance equatorial_horizontal_parallax local_hour_angle
     geocentric_sun_declination : T N) : res (T N) :=
  let prd := projected_radial_distance in
  let ehp_rad := radians equatorial_horizontal_parallax in
  let lha_rad := radians local_hour_angle in
  let gsd_rad := radians geocentric_sun_declination in
  s1 <- nsin ehp_rad ;;
  s2 <- nsin lha_rad ;;
  let a := - lit 1 * prd * s1 * s2 in
  c1 <- ncos gsd_rad ;;
  s1' <- nsin ehp_rad ;;
  c2 <- ncos lha_rad ;;
  let b := c1 - prd * s1' * c2 in
  parallax <- natan2 a b ;;
  Ok (degrees parallax).

(* solar.py 312-315 *)
Definition get_projected_radial_distance (elevation latitude : T N) : res (T N) :=
  fl <- get_flattened_latitude latitude ;;
  let flattened_latitude_rad := radians fl in
  let latitude_rad := radians latitude in
  c1 <- ncos flattened_latitude_rad ;;
  c2 <- ncos latitude_rad ;;
  q <- div (elevation * c2) earth_radius ;;
  Ok (c1 + q).

(* solar.py 317-320 *)
Definition get_projected_axial_distance (elevation latitude : T N) : res (T N) :=
  fl <- get_flattened_latitude latitude ;;
  let flattened_latitude_rad := radians fl in
  let latitude_rad := radians latitude in
  s1 <- nsin flattened_latitude_rad ;;
  s2 <- nsin latitude_rad ;;
  q <- div (elevation * s2) earth_radius ;;
  Ok (lit 0.99664719 * s1 + q).

(* solar.py 322-323 *)
Definition get_sun_earth_distance (jme : T N) : res (T N) :=
  c <- get_coeff jme sun_earth_distance_coeffs ;;
  div c (lit 1e8).

(* solar.py 325-344.  Both arguments of `where` are evaluated before selection. *)
Definition get_refraction_correction (pressure temperature topocentric_elevation_angle : T N) : res (T N) :=
  let sun_radius := lit 0.26667 in
  let atmos_refract := lit 0.5667 in
  let tea := topocentric_elevation_angle in
  let a := pressure * lit 2.830 * lit 1.02 in
  q <- div (lit 10.3) (tea + lit 5.11) ;;
  t <- ntan (radians (tea + q)) ;;
  let b := lit 1010.0 * temperature * lit 60.0 * t in
  r <- div a b ;;
  Ok (where_ (le (- lit 1.0 * (sun_radius + atmos_refract)) tea) r (lit 0)).

(* solar.py 398-403 *)
Definition get_true_ecliptic_obliquity (jme : T N) (nut : nutation (T N)) : res (T N) :=
  u <- div jme (lit 10.0) ;;
  u2 <- powi u 2 ;;
  u3 <- powi u 3 ;;
  u4 <- powi u 4 ;;
  u5 <- powi u 5 ;;
  u6 <- powi u 6 ;;
  u7 <- powi u 7 ;;
  u8 <- powi u 8 ;;
  u9 <- powi u 9 ;;
  u10 <- powi u 10 ;;
  let mean_obliquity :=
    lit 84381.448 - (lit 4680.93 * u) - (lit 1.55 * u2) + (lit 1999.25 * u3)
    - (lit 51.38 * u4) - (lit 249.67 * u5) - (lit 39.05 * u6) + (lit 7.12 * u7)
    + (lit 27.87 * u8) + (lit 5.79 * u9) + (lit 2.45 * u10) in
  q <- div mean_obliquity (lit 3600.0) ;;
  Ok (q + n_obliquity nut).

(* solar.py 145-146: the cosine is taken of the obliquity in DEGREES *)
Definition get_apparent_sidereal_time (jd jme : T N) (nut : nutation (T N)) : res (T N) :=
  m <- get_mean_sidereal_time jd ;;
  o <- get_true_ecliptic_obliquity jme nut ;;
  c <- ncos o ;;
  Ok (m + n_longitude nut * c).

(* solar.py 149-150 *)
Definition get_apparent_sun_longitude (geocentric_longitude : T N) (nut : nutation (T N))
    (ab_correction : T N) : T N :=
  geocentric_longitude + n_longitude nut + ab_correction.

(* solar.py 359-366 *)
Definition get_topocentric_azimuth_angle
    (topocentric_local_hour_angle latitude topocentric_sun_declination : T N) : res (T N) :=
  let tlha_rad := radians topocentric_local_hour_angle in
  let latitude_rad := radians latitude in
  let tsd_rad := radians topocentric_sun_declination in
  a <- nsin tlha_rad ;;
  c1 <- ncos tlha_rad ;;
  s1 <- nsin latitude_rad ;;
  t1 <- ntan tsd_rad ;;
  c2 <- ncos latitude_rad ;;
  let b := c1 * s1 - t1 * c2 in
  r <- natan2 a b ;;
  fmod (lit 180.0 + degrees r) (lit 360).

(* solar.py 368-372 *)
Definition get_topocentric_elevation_angle
    (latitude topocentric_sun_declination topocentric_local_hour_angle : T N) : res (T N) :=
  let latitude_rad := radians latitude in
  let tsd_rad := radians topocentric_sun_declination in
  let tlha_rad := radians topocentric_local_hour_angle in
  s1 <- nsin latitude_rad ;;
  s2 <- nsin tsd_rad ;;
  c1 <- ncos latitude_rad ;;
  c2 <- ncos tsd_rad ;;
  c3 <- ncos tlha_rad ;;
  a <- nasin ((s1 * s2) + c1 * c2 * c3) ;;
  Ok (degrees a).

(* solar.py 374-375 *)
Definition get_topocentric_local_hour_angle (local_hour_angle parallax_sun_right_ascension : T N) : T N :=
  local_hour_angle - parallax_sun_right_ascension.

(* solar.py 377-385: `pad` (the axial distance) is used in both a and b *)
Definition get_topocentric_sun_declination
    (geocentric_sun_declination projected_axial_distance equatorial_horizontal_parallax
     parallax_sun_right_ascension local_hour_angle : T N) : res (T N) :=
  let gsd_rad := radians geocentric_sun_declination in
  let pad := projected_axial_distance in
  let ehp_rad := radians equatorial_horizontal_parallax in
  let psra_rad := radians parallax_sun_right_ascension in
  let lha_rad := radians local_hour_angle in
  s1 <- nsin gsd_rad ;;
  s2 <- nsin ehp_rad ;;
  c1 <- ncos psra_rad ;;
  let a := (s1 - pad * s2) * c1 in
  c2 <- ncos gsd_rad ;;
  s3 <- nsin ehp_rad ;;
  c3 <- ncos lha_rad ;;
  let b := c2 - (pad * s3 * c3) in
  r <- natan2 a b ;;
  Ok (degrees r).

(* solar.py 387-392 *)
Definition get_topocentric_sun_right_ascension
    (projected_radial_distance equatorial_horizontal_parallax local_hour_angle
     apparent_sun_longitude true_ecliptic_obliquity geocentric_latitude : T N) : res (T N) :=
  gsd <- get_geocentric_sun_declination apparent_sun_longitude true_ecliptic_obliquity geocentric_latitude ;;
  psra <- get_parallax_sun_right_ascension projected_radial_distance equatorial_horizontal_parallax local_hour_angle gsd ;;
  gsra <- get_geocentric_sun_right_ascension apparent_sun_longitude true_ecliptic_obliquity geocentric_latitude ;;
  Ok (psra + gsra).

(* solar.py 394-396 *)
Definition get_topocentric_zenith_angle
    (latitude topocentric_sun_declination topocentric_local_hour_angle pressure temperature : T N) : res (T N) :=
  tea <- get_topocentric_elevation_angle latitude topocentric_sun_declination topocentric_local_hour_angle ;;
  r <- get_refraction_correction pressure temperature tea ;;
  Ok (lit 90 - tea - r).

(* solar.py 56-86, from the two Julian days on.  Split off get_topocentric_position so that
   the part that depends on the datetime is exactly the two calls on lines 64-65. *)
Definition topocentric_position_at
    (latitude_deg longitude_deg elevation : T N) (prd pad jd jde : T N) : res (T N * T N) :=
  jce <- get_julian_ephemeris_century jde ;;
  jme <- get_julian_ephemeris_millennium jce ;;
  geocentric_latitude <- get_geocentric_latitude jme ;;
  geocentric_longitude <- get_geocentric_longitude jme ;;
  sun_earth_distance <- get_sun_earth_distance jme ;;
  aberration_correction <- get_aberration_correction sun_earth_distance ;;
  equatorial_horizontal_parallax <- get_equatorial_horizontal_parallax sun_earth_distance ;;
  nut <- get_nutation jce ;;
  apparent_sidereal_time <- get_apparent_sidereal_time jd jme nut ;;
  true_ecliptic_obliquity <- get_true_ecliptic_obliquity jme nut ;;
  let apparent_sun_longitude := get_apparent_sun_longitude geocentric_longitude nut aberration_correction in
  geocentric_sun_right_ascension <- get_geocentric_sun_right_ascension apparent_sun_longitude true_ecliptic_obliquity geocentric_latitude ;;
  geocentric_sun_declination <- get_geocentric_sun_declination apparent_sun_longitude true_ecliptic_obliquity geocentric_latitude ;;
  local_hour_angle <- get_local_hour_angle apparent_sidereal_time longitude_deg geocentric_sun_right_ascension ;;
  parallax_sun_right_ascension <- get_parallax_sun_right_ascension prd equatorial_horizontal_parallax local_hour_angle geocentric_sun_declination ;;
  let topocentric_local_hour_angle := get_topocentric_local_hour_angle local_hour_angle parallax_sun_right_ascension in
  topocentric_sun_declination <- get_topocentric_sun_declination geocentric_sun_declination pad equatorial_horizontal_parallax parallax_sun_right_ascension local_hour_angle ;;
  Ok (topocentric_sun_declination, topocentric_local_hour_angle).

(* solar.py 56-86 *)
Definition get_topocentric_position
    (latitude_deg longitude_deg : T N) (when : datetime) (elevation : T N) : res (T N * T N) :=
  aware when ;;
  prd <- get_projected_radial_distance elevation latitude_deg ;;
  pad <- get_projected_axial_distance elevation latitude_deg ;;
  jd <- get_julian_solar_day when ;;
  jde <- get_julian_ephemeris_day when ;;
  topocentric_position_at latitude_deg longitude_deg elevation prd pad jd jde.

(* solar.py 89-116 *)
Definition get_position
    (latitude_deg longitude_deg : T N) (when : datetime) (elevation temperature pressure : T N) : res (T N * T N) :=
  aware when ;;
  dh <- get_topocentric_position latitude_deg longitude_deg when elevation ;;
  let '(tsd, tlha) := dh in
  tea <- get_topocentric_elevation_angle latitude_deg tsd tlha ;;
  refraction_correction <- get_refraction_correction pressure temperature tea ;;
  let altitude_deg := tea + refraction_correction in
  azimuth_deg <- get_topocentric_azimuth_angle tlha latitude_deg tsd ;;
  Ok (azimuth_deg, altitude_deg).

(* solar.py 119-130 *)
Definition get_altitude
    (latitude_deg longitude_deg : T N) (when : datetime) (elevation temperature pressure : T N) : res (T N) :=
  aware when ;;
  dh <- get_topocentric_position latitude_deg longitude_deg when elevation ;;
  let '(tsd, tlha) := dh in
  tea <- get_topocentric_elevation_angle latitude_deg tsd tlha ;;
  refraction_correction <- get_refraction_correction pressure temperature tea ;;
  Ok (tea + refraction_correction).

(* solar.py 153-162 *)
Definition get_azimuth
    (latitude_deg longitude_deg : T N) (when : datetime) (elevation : T N) : res (T N) :=
  aware when ;;
  dh <- get_topocentric_position latitude_deg longitude_deg when elevation ;;
  let '(tsd, tlha) := dh in
  get_topocentric_azimuth_angle tlha latitude_deg tsd.

(* the declared parameter defaults: elevation = 0, temperature/pressure = standard values *)
Definition get_position_default (lat lon : T N) (when : datetime) :=
  get_position lat lon when (lit 0) standard_temperature standard_pressure.
Definition get_altitude_default (lat lon : T N) (when : datetime) :=
  get_altitude lat lon when (lit 0) standard_temperature standard_pressure.
Definition get_azimuth_default (lat lon : T N) (when : datetime) :=
  get_azimuth lat lon when (lit 0).

Context {C : Clock N}.

(* solar.py 346-355 *)
Definition get_solar_time (longitude_deg : T N) (when : D C) : res (T N) :=
  aware_check C when ;;
  h <- tm_hour C when ;;
  m <- tm_min C when ;;
  y <- tm_yday C when ;;
  eot <- equation_of_time y ;;
  div (h * lit 60 + m + lit 4 * longitude_deg + eot) (lit 60).

(* solar.py 249-252 *)
Definition get_hour_angle (when : D C) (longitude_deg : T N) : res (T N) :=
  aware_check C when ;;
  solar_time <- get_solar_time longitude_deg when ;;
  Ok (lit 15.0 * (solar_time - lit 12.0)).

(* solar.py 133-142 *)
Definition get_altitude_fast (latitude_deg longitude_deg : T N) (when : D C) : res (T N) :=
  aware_check C when ;;
  day <- tm_yday C when ;;
  decl <- get_declination day ;;
  let declination_rad := radians decl in
  let latitude_rad := radians latitude_deg in
  hour_angle <- get_hour_angle when longitude_deg ;;
  c1 <- ncos latitude_rad ;;
  c2 <- ncos declination_rad ;;
  c3 <- ncos (radians hour_angle) ;;
  let first_term := c1 * c2 * c3 in
  s1 <- nsin latitude_rad ;;
  s2 <- nsin declination_rad ;;
  let second_term := s1 * s2 in
  a <- nasin (first_term + second_term) ;;
  Ok (degrees a).

(* solar.py 165-178; not decorated.  Both arguments of `where` are evaluated. *)
Definition get_azimuth_fast (latitude_deg longitude_deg : T N) (when : D C) : res (T N) :=
  day <- tm_yday C when ;;
  decl <- get_declination day ;;
  let declination_rad := radians decl in
  let latitude_rad := radians latitude_deg in
  ha <- get_hour_angle when longitude_deg ;;
  let hour_angle_rad := radians ha in
  alt <- get_altitude_fast latitude_deg longitude_deg when ;;
  let altitude_rad := radians alt in
  c1 <- ncos declination_rad ;;
  s1 <- nsin hour_angle_rad ;;
  c2 <- ncos altitude_rad ;;
  q <- div (- c1 * s1) c2 ;;
  azimuth_rad <- nasin q ;;
  c3 <- ncos hour_angle_rad ;;
  t1 <- ntan latitude_rad ;;
  t2 <- ntan declination_rad ;;
  Ok (where_ (le t2 (c3 * t1))
        (lit 180 - degrees azimuth_rad)
        (degrees azimuth_rad + lit 360 * of_bool (lt azimuth_rad (lit 0)))).

End S.

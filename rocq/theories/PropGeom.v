(* Properties C13-C30, C55, C56: geometry, refraction, series, the position pipeline.
   Arithmetic: real numbers with the exceptions of the math back end (MathR). *)
From Coq Require Import Reals Qreals Lra Lia.
From Interval Require Import Tactic.
From Verif Require Import Py Num Cal CalProofs TzCheck Tables Constants SolarTime Solar RInst RTac SpecTime SpecDt
  SpecGeom SpecAstro Trig GeoProofs RefractionProofs SphereProofs SeriesProofs PositionProofs TopoProofs SpaProofs
  SpecEng Samples AttainProofs GeomCases.
Local Open Scope R_scope.

(* ------------------------------------------------------------------------------- C13 *)
(* [horizontal_coordinates lat v az e]: v's components along the observer's east, north and up
   axes are those of the direction with azimuth az and elevation e *)
Theorem C13_horizontal_coordinates : forall lat dec ha, -90 < dec < 90 ->
  exists az e,
    get_topocentric_azimuth_angle (N := MathR) (Fin ha) (Fin lat) (Fin dec) = Ok (Fin az) /\
    get_topocentric_elevation_angle (N := MathR) (Fin lat) (Fin dec) (Fin ha) = Ok (Fin e) /\
    horizontal_coordinates lat (equatorial dec ha) az e /\ 0 <= az < 360 /\ -90 <= e <= 90.
Proof. exact horizontal_coordinates_correct. Qed.
Print Assumptions C13_horizontal_coordinates.

(* equator, sun on the equator six hours past noon: due west on the horizon *)
Example C13_case : horizontal_coordinates 0 (equatorial 0 90) 270 0.
Proof.
  unfold horizontal_coordinates, dot, equatorial, east, north, up. rewrite !sind_0, !cosd_0, sind_90, cosd_90.
  assert (sind 270 = -1) by (unfold sind; replace (270 * PI / 180) with (3 * (PI / 2)) by lra; apply sin_3PI2).
  assert (cosd 270 = 0) by (unfold cosd; replace (270 * PI / 180) with (3 * (PI / 2)) by lra; apply cos_3PI2).
  rewrite H, H0. lra.
Qed.

(* ------------------------------------------------------------------------------- C14 *)
(* every azimuth returned, for any arguments including infinities and nan, is nan or in [0,360);
   nan does not occur for physical inputs (C22) *)
Theorem C14_azimuth_range :
  (forall ha lat dec r, get_topocentric_azimuth_angle (N := MathR) ha lat dec = Ok r ->
     r = NaN \/ exists a, r = Fin a /\ 0 <= a < 360) /\
  (forall lat lon d el r, get_azimuth (N := MathR) lat lon d el = Ok r ->
     r = NaN \/ exists a, r = Fin a /\ 0 <= a < 360) /\
  (forall lat lon d el t p r alt, get_position (N := MathR) lat lon d el t p = Ok (r, alt) ->
     r = NaN \/ exists a, r = Fin a /\ 0 <= a < 360).
Proof. exact (conj azimuth_range (conj get_azimuth_range get_position_range)). Qed.
Print Assumptions C14_azimuth_range.

Example C14_case : exists lon a alt, -180 <= lon < 180 /\
  get_position (N := MathR) (Fin 0) (Fin lon) sample_dt (Fin 0) standard_temperature standard_pressure = Ok (Fin a, Fin alt) /\
  0 <= a < 360 /\ 45 < alt < 45.02.
Proof. exact position_case. Qed.

(* ------------------------------------------------------------------------------- C15 *)
Theorem C15_altitude_physical : forall lat lon d el u a,
  instant d u -> in_range u = true -> -90 <= lat <= 90 -> -100000000000 <= el <= 100000000000 ->
  get_altitude (N := MathR) (Fin lat) (Fin lon) d (Fin el) standard_temperature standard_pressure = Ok a ->
  exists dec ha az e r,
    get_topocentric_position (N := MathR) (Fin lat) (Fin lon) d (Fin el) = Ok (Fin dec, Fin ha) /\
    horizontal_coordinates lat (equatorial dec ha) az e /\ -90 <= e <= 90 /\
    a = Fin (e + r) /\ -90 <= e + r <= 90 /\ Rabs r < 0.9 /\ (e < -0.83337 -> r = 0).
Proof. exact altitude_physical. Qed.
Print Assumptions C15_altitude_physical.

Example C15_case : instant sample_dt sample_u /\ in_range sample_u = true /\ exists lon a, -180 <= lon < 180 /\ 45 < a < 45.02 /\
  get_altitude (N := MathR) (Fin 0) (Fin lon) sample_dt (Fin 0) standard_temperature standard_pressure = Ok (Fin a).
Proof. exact (conj sample_instant (conj sample_in_range (sun_up _ _ sample_instant sample_in_range))). Qed.

(* ------------------------------------------------------------------------------- C16 *)
(* the full claim *)
Definition C16_claim : Prop := forall P T e, 0 < P -> 0 < T -> -90 <= e <= 90 -> ~ (-5.2 < e < -5) ->
  exists r, get_refraction_correction (N := MathR) (Fin P) (Fin T) (Fin e) = Ok (Fin r) /\ 0 <= r.
(* false: at the zenith the correction is negative for every pressure and temperature *)
Theorem C16_refraction_negative_refuted : forall P T, 0 < P -> 0 < T ->
  exists r, get_refraction_correction (N := MathR) (Fin P) (Fin T) (Fin 90) = Ok (Fin r) /\ r < 0.
Proof. exact refraction_negative. Qed.
Print Assumptions C16_refraction_negative_refuted.
Theorem C16_claim_refuted : ~ C16_claim.
Proof. exact refraction_claim_false. Qed.
Print Assumptions C16_claim_refuted.
(* what holds: non-negative up to 89.89 degrees, proportional to pressure, inversely proportional
   to temperature, zero below the threshold *)
Theorem C16_refraction_partial :
  (forall P T e, 0 <= P -> 0 < T -> -90 <= e <= 89.89 -> ~ (-5.2 < e < -5) ->
     exists r, get_refraction_correction (N := MathR) (Fin P) (Fin T) (Fin e) = Ok (Fin r) /\ 0 <= r) /\
  (forall P T e k, -90 <= e <= 90 -> ~ (-5.2 < e < -5) -> T <> 0 -> k <> 0 ->
     exists r, get_refraction_correction (N := MathR) (Fin P) (Fin T) (Fin e) = Ok (Fin r) /\
       get_refraction_correction (N := MathR) (Fin (k * P)) (Fin T) (Fin e) = Ok (Fin (k * r)) /\
       get_refraction_correction (N := MathR) (Fin P) (Fin (k * T)) (Fin e) = Ok (Fin (r / k))) /\
  (forall P T e r, e < -0.83337 -> get_refraction_correction (N := MathR) P T (Fin e) = Ok r -> r = Fin 0).
Proof. exact (conj refraction_nonneg (conj refraction_scaling refraction_returns_below)). Qed.
Print Assumptions C16_refraction_partial.
(* and above the threshold it is the published formula *)
Theorem C16_refraction_formula : forall P T e, -0.83337 <= e <= 90 -> T <> 0 ->
  get_refraction_correction (N := MathR) (Fin P) (Fin T) (Fin e) = Ok (Fin (refraction_formula P T e)).
Proof. exact refraction_above. Qed.
Print Assumptions C16_refraction_formula.

(* half a degree of refraction at the horizon, a minute of arc at 45 degrees *)
Example C16_case : 0.47 < refraction_formula 101325 288.15 0 < 0.48 /\ 0.015 < refraction_formula 101325 288.15 45 < 0.017.
Proof. exact refraction_case. Qed.

(* ------------------------------------------------------------------------------- C17 *)
Definition C17_claim : Prop := forall P T e, 0 < P -> 0 < T -> -90 <= e <= 90 ->
  exists r, get_refraction_correction (N := MathR) (Fin P) (Fin T) (Fin e) = Ok r.
Theorem C17_refraction_total_refuted : forall P T,
  get_refraction_correction (N := MathR) (Fin P) (Fin T) (Fin (-5.11)) = Err ZeroDivisionError.
Proof. exact refraction_raises. Qed.
Print Assumptions C17_refraction_total_refuted.
Theorem C17_claim_refuted : ~ C17_claim.
Proof. exact refraction_total_false. Qed.
Print Assumptions C17_claim_refuted.
(* and get_altitude with it: at every instant somewhere on the equator *)
Theorem C17_altitude_raises_refuted : forall d u, instant d u -> in_range u = true -> exists lon, -180 <= lon < 180 /\ forall T P,
  get_altitude (N := MathR) (Fin 0) (Fin lon) d (Fin 0) (Fin T) (Fin P) = Err ZeroDivisionError /\
  get_position (N := MathR) (Fin 0) (Fin lon) d (Fin 0) (Fin T) (Fin P) = Err ZeroDivisionError.
Proof. exact altitude_raises. Qed.
Print Assumptions C17_altitude_raises_refuted.
(* exactly when it raises; only ZeroDivisionError; and only within (-5.2, -5) *)
Theorem C17_refraction_raises_partial : forall P T e, T <> 0 ->
  (get_refraction_correction (N := MathR) (Fin P) (Fin T) (Fin e) = Err ZeroDivisionError <->
     e = -5.11 \/ sind (refraction_argument e) = 0) /\
  (forall x, get_refraction_correction (N := MathR) (Fin P) (Fin T) (Fin e) = Err x -> x = ZeroDivisionError) /\
  (-90 <= e <= 90 -> ~ (-5.2 < e < -5) -> exists r, get_refraction_correction (N := MathR) (Fin P) (Fin T) (Fin e) = Ok (Fin r)).
Proof. exact refraction_raises_exactly. Qed.
Print Assumptions C17_refraction_raises_partial.

(* besides -5.11 the tangent vanishes at other elevations, e.g. one just below -5 *)
Example C17_case : exists e, -5.2 < e < -5 /\ e <> -5.11 /\ sind (refraction_argument e) = 0.
Proof. exact tangent_zero. Qed.

(* ------------------------------------------------------------------------------- C18 *)
Theorem C18_longitude_periodic : forall lat lon d el t p (k : Z),
  let lon' := Fin (lon + 360 * IZR k) in
  get_topocentric_position (N := MathR) lat lon' d el = get_topocentric_position (N := MathR) lat (Fin lon) d el /\
  get_position (N := MathR) lat lon' d el t p = get_position (N := MathR) lat (Fin lon) d el t p /\
  get_altitude (N := MathR) lat lon' d el t p = get_altitude (N := MathR) lat (Fin lon) d el t p /\
  get_azimuth (N := MathR) lat lon' d el = get_azimuth (N := MathR) lat (Fin lon) d el.
Proof. exact longitude_periodic. Qed.
Print Assumptions C18_longitude_periodic.

(* ------------------------------------------------------------------------------- C19 *)
Theorem C19_equatorial_coordinates : forall longitude obliquity latitude, -90 < latitude < 90 ->
  exists ra dec,
    get_geocentric_sun_right_ascension (N := MathR) (Fin longitude) (Fin obliquity) (Fin latitude) = Ok (Fin ra) /\
    get_geocentric_sun_declination (N := MathR) (Fin longitude) (Fin obliquity) (Fin latitude) = Ok (Fin dec) /\
    spherical ra dec = ecliptic_to_equatorial obliquity (spherical longitude latitude) /\
    0 <= ra < 360 /\ -90 <= dec <= 90.
Proof. exact equatorial_coordinates_correct. Qed.
Print Assumptions C19_equatorial_coordinates.

(* summer solstice: longitude 90 on the ecliptic is right ascension 90, declination = obliquity *)
Example C19_case : spherical 90 23.44 = ecliptic_to_equatorial 23.44 (spherical 90 0).
Proof. unfold spherical, ecliptic_to_equatorial. rewrite cosd_90, sind_90, cosd_0, sind_0. f_equal; [f_equal|]; ring. Qed.

(* ------------------------------------------------------------------------------- C20 *)
(* [ellipsoid_point b lat x y]: the point of the ellipse with semi-axes 1 and b where the normal has
   angle lat; it is unique *)
Theorem C20_ellipsoid : forall lat el, -90 <= lat <= 90 ->
  exists x y, ellipsoid_point 0.99664719 lat x y /\
    (forall x' y', ellipsoid_point 0.99664719 lat x' y' -> x' = x /\ y' = y) /\
    get_projected_radial_distance (N := MathR) (Fin el) (Fin lat) = Ok (Fin (x + el / 6378140 * cosd lat)) /\
    get_projected_axial_distance (N := MathR) (Fin el) (Fin lat) = Ok (Fin (y + el / 6378140 * sind lat)).
Proof. exact ellipsoid_correct. Qed.
Print Assumptions C20_ellipsoid.
Theorem C20_reduced_latitude : forall lat, -90 < lat < 90 ->
  exists u, get_flattened_latitude (N := MathR) (Fin lat) = Ok (Fin u) /\
    -90 < u < 90 /\ tand u = 0.99664719 * tand lat.
Proof. exact flattened_latitude_correct. Qed.
Print Assumptions C20_reduced_latitude.

Example C20_case : ellipsoid_point 0.99664719 90 0 0.99664719.
Proof.
  unfold ellipsoid_point, Q2R; simpl. split; [field|]. exists (1 / 0.99664719). rewrite cosd_90, sind_90.
  split; [lra|]. split; [ring|]. unfold Q2R; simpl. field.
Qed.

(* ------------------------------------------------------------------------------- C21 *)
(* x: Julian millennia from J2000; years 1..9999 are -2 < x < 8, years 1000..3000 are |x| <= 1.001 *)
Theorem C21_distance : forall x, -8 <= x <= 8 ->
  exists r, get_sun_earth_distance (N := MathR) (Fin x) = Ok (Fin r) /\ 0.96 <= r <= 1.04 /\
    (-1.001 <= x <= 1.001 -> 0.98 <= r <= 1.02).
Proof. exact distance_bounds. Qed.
Print Assumptions C21_distance.
(* stated for datetimes: the argument the pipeline passes is in that range *)
Theorem C21_distance_of_datetime : forall d u, instant d u -> in_range u = true ->
  exists jde c m r, get_julian_ephemeris_day (N := MathR) d = Ok (Fin jde) /\
    get_julian_ephemeris_century (N := MathR) (Fin jde) = Ok (Fin c) /\
    get_julian_ephemeris_millennium (N := MathR) (Fin c) = Ok (Fin m) /\
    get_sun_earth_distance (N := MathR) (Fin m) = Ok (Fin r) /\ 0.96 <= r <= 1.04 /\
    ((midnight 1000 1 1 <= u < midnight 3001 1 1)%Z -> 0.98 <= r <= 1.02).
Proof. exact distance_of_datetime. Qed.
Print Assumptions C21_distance_of_datetime.

Example C21_case : instant sample_dt sample_u /\ in_range sample_u = true /\ (midnight 1000 1 1 <= sample_u < midnight 3001 1 1)%Z.
Proof. split; [exact sample_instant|]. split; [exact sample_in_range|]. vm_compute. intuition discriminate. Qed.

(* ------------------------------------------------------------------------------- C22 *)
Theorem C22_position_total : forall lat lon d el T P u,
  instant d u -> in_range u = true -> -90 <= lat <= 90 -> -100000000000 <= el <= 100000000000 -> T <> 0 ->
  exists dec ha az e,
    get_topocentric_position (N := MathR) (Fin lat) (Fin lon) d (Fin el) = Ok (Fin dec, Fin ha) /\
    horizontal_coordinates lat (equatorial dec ha) az e /\ 0 <= az < 360 /\ -90 <= e <= 90 /\
    get_azimuth (N := MathR) (Fin lat) (Fin lon) d (Fin el) = Ok (Fin az) /\
    (~ (-5.2 < e < -5) ->
     let h := e + (if Rle_dec (-0.83337) e then refraction_formula P T e else 0) in
     get_altitude (N := MathR) (Fin lat) (Fin lon) d (Fin el) (Fin T) (Fin P) = Ok (Fin h) /\
     get_position (N := MathR) (Fin lat) (Fin lon) d (Fin el) (Fin T) (Fin P) = Ok (Fin az, Fin h)).
Proof. exact altitude_total. Qed.
Print Assumptions C22_position_total.

Definition sample : datetime := mk 2020 6 21 12 0 0 0 (Some (fixed_tz (-18000 * 1000000))).
Example C22_case : exists u, instant sample u /\ in_range u = true.
Proof. eexists. split; [do 2 eexists; (split; [reflexivity|]); (split; [reflexivity|]); (split; [reflexivity|reflexivity])|]. vm_compute. reflexivity. Qed.

(* ------------------------------------------------------------------------------- C23 *)
(* [vsop_sum 0 x tables] = sum over n of x^n * sum over the rows (A, B, C) of table n of A cos(B + C x) *)
Theorem C23_vsop : forall x tables, get_coeff (N := MathR) (Fin x) tables = Ok (Fin (vsop_sum 0 x tables)).
Proof. exact get_coeff_val. Qed.
Print Assumptions C23_vsop.
Example C23_case x : vsop_sum 0 x [[(2, 0, 0); (3, 1, 5)]; [(7, 1, 1)]]%Q = 2 * cos 0 + 3 * cos (1 + 5 * x) + x * (7 * cos (1 + 1 * x)).
Proof.
  unfold vsop_sum, vsop_series, fold_right, Q2R; simpl. rewrite !Rinv_1.
  repeat match goal with |- context [cos ?e] => progress ring_simplify e end. ring.
Qed.

(* ------------------------------------------------------------------------------- C24 *)
Theorem C24_nutation : forall T,
  let rows := combine nutation_coefficients aberration_sin_terms in
  List.length nutation_coefficients = 63%nat /\ List.length aberration_sin_terms = 63%nat /\
  get_nutation (N := MathR) (Fin T) = Ok (mknut (Fin (nutation_longitude T rows)) (Fin (nutation_obliquity T rows))) /\
  (-10.01 <= T <= 10.01 -> Rabs (nutation_longitude T rows) < 0.0056 /\ Rabs (nutation_obliquity T rows) < 0.0028) /\
  (-80 <= T <= 80 -> Rabs (nutation_longitude T rows) < 0.0059 /\ Rabs (nutation_obliquity T rows) < 0.0029).
Proof. exact nutation_correct. Qed.
Print Assumptions C24_nutation.

(* ------------------------------------------------------------------------------- C25 *)
Theorem C25_mean_sidereal_time : forall jd, 1721425 <= jd <= 5373485 ->
  exists s, get_mean_sidereal_time (N := MathR) (Fin jd) = Ok (Fin s) /\ 0 <= s < 360 /\
    exists e, Rabs e <= 0.02 /\ same_angle (s + e) (iau_sidereal jd).
Proof. exact mean_sidereal_correct. Qed.
Print Assumptions C25_mean_sidereal_time.

(* J2000 *)
Example C25_case : 1721425 <= 2451545 <= 5373485 /\ iau_sidereal 2451545 = 280.46061837.
Proof. split; [lra|]. unfold iau_sidereal. lra. Qed.

(* ------------------------------------------------------------------------------- C26 *)
Definition C26_claim : Prop := forall jd jme nl no e m,
  get_true_ecliptic_obliquity (N := MathR) (Fin jme) (mknut (Fin nl) (Fin no)) = Ok (Fin e) ->
  get_mean_sidereal_time (N := MathR) (Fin jd) = Ok (Fin m) ->
  get_apparent_sidereal_time (N := MathR) (Fin jd) (Fin jme) (mknut (Fin nl) (Fin no)) = Ok (Fin (m + nl * cosd e)).
Theorem C26_claim_refuted : ~ C26_claim.
Proof. exact apparent_sidereal_claim_false. Qed.
Print Assumptions C26_claim_refuted.
(* in fact wrong whenever the nutation in longitude is not zero and the obliquity is the earth's *)
Theorem C26_apparent_sidereal_refuted : forall jd jme nl no e, nl <> 0 ->
  get_true_ecliptic_obliquity (N := MathR) (Fin jme) (mknut (Fin nl) (Fin no)) = Ok (Fin e) ->
  22.5 <= e <= 24.5 ->
  exists m s, get_mean_sidereal_time (N := MathR) (Fin jd) = Ok (Fin m) /\
    get_apparent_sidereal_time (N := MathR) (Fin jd) (Fin jme) (mknut (Fin nl) (Fin no)) = Ok (Fin s) /\
    s <> m + nl * cosd e.
Proof. exact apparent_sidereal_wrong. Qed.
Print Assumptions C26_apparent_sidereal_refuted.
(* the value returned, and how far it is from the right one *)
Theorem C26_apparent_sidereal_partial : forall jd jme nl no e,
  get_true_ecliptic_obliquity (N := MathR) (Fin jme) (mknut (Fin nl) (Fin no)) = Ok (Fin e) ->
  exists m s, get_mean_sidereal_time (N := MathR) (Fin jd) = Ok (Fin m) /\
    get_apparent_sidereal_time (N := MathR) (Fin jd) (Fin jme) (mknut (Fin nl) (Fin no)) = Ok (Fin s) /\
    s = m + nl * cos e /\ Rabs (s - (m + nl * cosd e)) <= 2 * Rabs nl.
Proof. exact apparent_sidereal_error. Qed.
Print Assumptions C26_apparent_sidereal_partial.
(* the obliquity itself is Laskar's polynomial plus the nutation in obliquity *)
Theorem C26_true_obliquity : forall jme nl no,
  get_true_ecliptic_obliquity (N := MathR) (Fin jme) (mknut (Fin nl) (Fin no)) = Ok (Fin (mean_obliquity (jme / 10) + no)).
Proof. exact obliquity_val. Qed.
Print Assumptions C26_true_obliquity.

Example C26_case : exists e, get_true_ecliptic_obliquity (N := MathR) (Fin 0) (mknut (Fin 0.004) (Fin 0.002)) = Ok (Fin e) /\ 23.4 < e < 23.5.
Proof. eexists. split; [apply obliquity_val|]. unfold mean_obliquity. split; lra. Qed.

(* ------------------------------------------------------------------------------- C27 *)
Theorem C27_parallax_refuted :
  ~ (forall R, 0 < R -> get_equatorial_horizontal_parallax (N := MathR) (Fin R) = Ok (Fin (8.794 / (3600 * R)))).
Proof. exact parallax_refuted. Qed.
Print Assumptions C27_parallax_refuted.
Theorem C27_parallax_increases_refuted : forall R R', 0 < R -> R < R' ->
  exists p p', get_equatorial_horizontal_parallax (N := MathR) (Fin R) = Ok (Fin p) /\
    get_equatorial_horizontal_parallax (N := MathR) (Fin R') = Ok (Fin p') /\ p < p'.
Proof. exact parallax_increases. Qed.
Print Assumptions C27_parallax_increases_refuted.
Theorem C27_parallax_partial : forall R, 0.98 <= R <= 1.02 ->
  exists p, get_equatorial_horizontal_parallax (N := MathR) (Fin R) = Ok (Fin p) /\
    Rabs (p - 8.794 / (3600 * R)) <= 0.0001.
Proof. exact parallax_partial. Qed.
Print Assumptions C27_parallax_partial.
(* the distance in July *)
Example C27_case : 0.98 <= 1.0167 <= 1.02 /\ 0.0024 < 8.794 / (3600 * 1.0167) < 0.00241.
Proof. split; [lra|split; interval]. Qed.

(* ------------------------------------------------------------------------------- C28 *)
(* [claim_C28]: the topocentric declination and hour angle point along the parallax-shifted direction *)
Theorem C28_topocentric_declination_refuted : ~ claim_C28.
Proof. exact declination_refuted. Qed.
Print Assumptions C28_topocentric_declination_refuted.
(* the hour angle is right; the declination is off by at most 0.002 degrees per earth radius of
   difference between the radial and axial distances *)
Theorem C28_topocentric_declination_partial : forall x y p H d,
  -1.1 <= x <= 1.1 -> -1.1 <= y <= 1.1 -> 0 < p <= 0.003 -> -25 <= d <= 25 ->
  exists da dec true_dec,
    get_parallax_sun_right_ascension (N := MathR) (Fin x) (Fin p) (Fin H) (Fin d) = Ok (Fin da) /\
    get_topocentric_sun_declination (N := MathR) (Fin d) (Fin y) (Fin p) (Fin da) (Fin H) = Ok (Fin dec) /\
    points_along (parallax_shift d H p x y) true_dec (H - da) /\ -90 < true_dec < 90 /\
    Rabs (dec - true_dec) <= 0.002 * Rabs (x - y) /\
    sind dec * (cosd d - y * sind p * cosd H) = cosd dec * ((sind d - y * sind p) * cosd da).
Proof. exact declination_error. Qed.
Print Assumptions C28_topocentric_declination_partial.

(* the terms of a place at 45 degrees latitude, sea level *)
Example C28_case : exists x y, ellipsoid_point 0.99664719 45 x y /\ -1.1 <= x <= 1.1 /\ -1.1 <= y <= 1.1 /\ x <> y.
Proof. exact ellipsoid_case. Qed.

(* ------------------------------------------------------------------------------- C29 *)
(* [enu az z]: the direction with azimuth az at angle z from the vertical; the surface normal has
   azimuth 180 + orientation and is [slope] away from the vertical *)
Theorem C29_incidence_angle : forall zenith slope orientation az, exists i,
  get_incidence_angle (N := MathR) (Fin zenith) (Fin slope) (Fin orientation) (Fin az) = Ok (Fin i) /\
  0 <= i <= 180 /\ cosd i = dot (enu az zenith) (enu (180 + orientation) slope) /\
  (slope = 0 -> 0 <= zenith <= 180 -> i = zenith).
Proof. exact incidence_correct. Qed.
Print Assumptions C29_incidence_angle.

(* the sun 60 degrees from the zenith due south, the surface facing south at 60 degrees: head on *)
Example C29_case : dot (enu 180 60) (enu (180 + 0) 60) = 1.
Proof. exact incidence_case. Qed.

(* ------------------------------------------------------------------------------- C30 *)
Theorem C30_zenith_angle : forall lat lon d el t p alt, get_altitude (N := MathR) lat lon d el t p = Ok alt ->
  exists dec ha, get_topocentric_position (N := MathR) lat lon d el = Ok (dec, ha) /\
    get_topocentric_zenith_angle (N := MathR) lat dec ha p t = Ok (xsub (Fin 90) alt).
Proof. exact zenith_complements. Qed.
Print Assumptions C30_zenith_angle.

Example C30_case : exists lon a, -180 <= lon < 180 /\ 45 < a < 45.02 /\
  get_altitude (N := MathR) (Fin 0) (Fin lon) sample_dt (Fin 0) standard_temperature standard_pressure = Ok (Fin a).
Proof. exact (sun_up _ _ sample_instant sample_in_range). Qed.

(* ------------------------------------------------------------------------------- C55 *)
(* the whole pipeline, with the library's deviations from the published algorithm as they are:
   the nutation is multiplied by the cosine of the obliquity's number of degrees, the parallax is
   proportional to the distance, the axial distance is used in the declination's denominator *)
Theorem C55_position_pipeline : forall lat lon d el u,
  instant d u -> in_range u = true -> -90 <= lat <= 90 -> -100000000000 <= el <= 100000000000 ->
  exists jd jde m alpha delta H x0 y0 dec ha,
    get_julian_solar_day (N := MathR) d = Ok (Fin jd) /\ get_julian_ephemeris_day (N := MathR) d = Ok (Fin jde) /\
    get_mean_sidereal_time (N := MathR) (Fin jd) = Ok (Fin m) /\
    get_topocentric_position (N := MathR) (Fin lat) (Fin lon) d (Fin el) = Ok (Fin dec, Fin ha) /\
    let T := (jde - 2451545) / 36525 in
    let rows := combine nutation_coefficients aberration_sin_terms in
    spa_equatorial sun_earth_distance_coeffs heliocentric_latitude_coeffs heliocentric_longitude_coeffs rows T alpha delta /\
    same_angle H (m + nutation_longitude T rows * cos (spa_obliquity rows T) + lon - alpha) /\
    ellipsoid_point 0.99664719 lat x0 y0 /\
    let x := x0 + el / 6378140 * cosd lat in
    let y := y0 + el / 6378140 * sind lat in
    let p := 8.794 / 3600 * spa_distance sun_earth_distance_coeffs T in
    (exists r, 0 < r /\ r * cosd ha = cosd delta * cosd H - x * sind p /\ r * sind ha = cosd delta * sind H) /\
    (exists r, 0 < r /\ r * cosd dec = cosd delta - y * sind p * cosd H /\
       r * sind dec = (sind delta - y * sind p) * cosd (H - ha)) /\
    -90 < dec < 90 /\ 0 <= H < 360 /\ -90 < H - ha < 90.
Proof. exact pipeline. Qed.
Print Assumptions C55_position_pipeline.

(* ------------------------------------------------------------------------------- C56 *)
(* for every location up to 100 km and every datetime of years 1..9999 the direction returned is
   within 0.1 degrees of the direction w of the published algorithm (which exists) *)
Theorem C56_close_to_published_algorithm : forall lat lon d el u,
  instant d u -> in_range u = true -> -90 <= lat <= 90 -> -100000 <= el <= 100000 ->
  exists jd jde x0 y0 dec ha,
    get_julian_solar_day (N := MathR) d = Ok (Fin jd) /\ get_julian_ephemeris_day (N := MathR) d = Ok (Fin jde) /\
    ellipsoid_point 0.99664719 lat x0 y0 /\
    get_topocentric_position (N := MathR) (Fin lat) (Fin lon) d (Fin el) = Ok (Fin dec, Fin ha) /\
    let is_direction := spa_direction sun_earth_distance_coeffs heliocentric_latitude_coeffs heliocentric_longitude_coeffs
      (combine nutation_coefficients aberration_sin_terms) ((jde - 2451545) / 36525) jd lon
      (x0 + el / 6378140 * cosd lat) (y0 + el / 6378140 * sind lat) in
    (exists w, is_direction w) /\ forall w, is_direction w -> cosd 0.1 <= dot (equatorial dec ha) w.
Proof. exact spa_position. Qed.
Print Assumptions C56_close_to_published_algorithm.

(* C55 and C56 at the sample instant, 52 degrees north *)
Example C55_C56_case : instant sample_dt sample_u /\ in_range sample_u = true /\ -90 <= 52 <= 90 /\ -100000 <= 300 <= 100000.
Proof. split; [exact sample_instant|]. split; [exact sample_in_range|]. lra. Qed.

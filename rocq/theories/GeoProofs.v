(* Real-number values of the geometric functions of solar.py (math back end, finite
   arguments) and their geometric meaning. *)
From Coq Require Import Reals Qreals Lra Lia Psatz.
From Flocq Require Import Core.
From Verif Require Import Py Num Cal Constants SolarTime Solar RInst RTac SpecGeom Trig.
Local Open Scope R_scope.

Lemma cosd_ne0 x : -90 < x < 90 -> cosd x <> 0.
Proof. intros H. pose proof (cosd_pos x H). lra. Qed.
Lemma cos_rad_ne0 x : cosd x <> 0 -> cos (rad x) <> 0.
Proof. now rewrite cosd_rad. Qed.

(* the angle of the point (n, e) -- n along 0, e along 90 degrees *)
Lemma angle_of e n : let A := Rfmod (180 + deg (Ratan2 (- e) (- n))) 360 in
  let r := sqrt (n * n + e * e) in
  0 <= A < 360 /\ r * sind A = e /\ r * cosd A = n.
Proof.
  intros A r. split; [apply Rfmod_range; lra|]. unfold A. rewrite sind_fmod, cosd_fmod.
  pose proof (atan2_polar (- e) (- n)) as [P1 P2]. cbv zeta in P1, P2.
  replace (- n * - n + - e * - e) with (n * n + e * e) in P1, P2 by ring. fold r in P1, P2.
  rewrite sind_rad, cosd_rad, rad_plus, rad_deg, rad_180.
  rewrite Rplus_comm, neg_sin, neg_cos. lra.
Qed.

Lemma elevation_val lat d h :
  get_topocentric_elevation_angle (N := MathR) (Fin lat) (Fin d) (Fin h)
  = Ok (Fin (deg (asin (sind lat * sind d + cosd lat * cosd d * cosd h)))).
Proof.
  unfold get_topocentric_elevation_angle. rx. rewrite <- !sind_rad, <- !cosd_rad.
  rewrite nasin_R; [rx; reflexivity|]. apply unit_dot; [apply sincosd|apply sincosd|apply cosd_bound].
Qed.

Lemma azimuth_val lat d h : cosd d <> 0 ->
  get_topocentric_azimuth_angle (N := MathR) (Fin h) (Fin lat) (Fin d)
  = Ok (Fin (Rfmod (180 + deg (Ratan2 (sind h) (cosd h * sind lat - tand d * cosd lat))) 360)).
Proof.
  intros Hd. unfold get_topocentric_azimuth_angle. rx. rewrite ntan_R by now apply cos_rad_ne0. rx.
  rewrite <- !sind_rad, <- !cosd_rad, <- !tand_rad.
  replace (Q2R 180.0) with 180 by (unfold Q2R; simpl; lra). reflexivity.
Qed.

(* ---------------------------------------------------------------- C13, C14 *)
Lemma horizontal_coordinates_correct lat d h : -90 < d < 90 ->
  exists A e,
    get_topocentric_azimuth_angle (N := MathR) (Fin h) (Fin lat) (Fin d) = Ok (Fin A) /\
    get_topocentric_elevation_angle (N := MathR) (Fin lat) (Fin d) (Fin h) = Ok (Fin e) /\
    horizontal_coordinates lat (equatorial d h) A e /\ 0 <= A < 360 /\ -90 <= e <= 90.
Proof.
  intros Hd. pose proof (cosd_pos d Hd) as Pd. do 2 eexists.
  split; [apply azimuth_val; lra|]. split; [apply elevation_val|].
  set (A := Rfmod _ 360). set (u := sind lat * sind d + cosd lat * cosd d * cosd h).
  assert (U : -1 <= u <= 1) by (apply unit_dot; [apply sincosd|apply sincosd|apply cosd_bound]).
  split; [|split; [apply Rfmod_range; lra|apply deg_asin_range]].
  set (e := - (cosd d * sind h)). set (n := sind d * cosd lat - cosd d * cosd h * sind lat).
  assert (EA : A = Rfmod (180 + deg (Ratan2 (- e) (- n))) 360).
  { unfold A. do 3 f_equal. rewrite <- (atan2_scale (cosd d)) by assumption. f_equal; unfold e, n; [ring|].
    rewrite tand_def. field. lra. }
  destruct (angle_of e n) as (_ & P1 & P2). rewrite <- EA in P1, P2.
  assert (R : sqrt (n * n + e * e) = cosd (deg (asin u))).
  { rewrite cosd_deg, cos_asin_sqrt by assumption. f_equal. unfold n, e, u.
    pose proof (sincosd lat) as L. pose proof (sincosd d) as D. pose proof (sincosd h) as K.
    set (sl := sind lat) in *. set (cl := cosd lat) in *. set (sd := sind d) in *. set (cd := cosd d) in *.
    set (sh := sind h) in *. set (ch := cosd h) in *.
    assert (cl * cl = 1 - sl * sl) as L' by lra. assert (sh * sh = 1 - ch * ch) as K' by lra. assert (sd * sd = 1 - cd * cd) as D' by lra.
    transitivity (sd * sd * (cl * cl) - 2 * sd * cl * cd * ch * sl + cd * cd * (ch * ch) * (sl * sl) + cd * cd * (sh * sh)); [ring|].
    transitivity (1 - (sl * sl * (sd * sd) + 2 * sl * sd * cl * cd * ch + cl * cl * (cd * cd) * (ch * ch))); [|ring].
    rewrite L', K', D'. ring. }
  rewrite R in P1, P2. unfold horizontal_coordinates, equatorial, dot, east, north, up.
  split; [|split].
  - rewrite (Rmult_comm (sind A)), P1. unfold e. ring.
  - rewrite (Rmult_comm (cosd A)), P2. unfold n. ring.
  - rewrite sind_deg, sin_asin by assumption. unfold u. ring.
Qed.

(* the modulo bounds every azimuth, whatever the arguments *)
Lemma fmod_360_range a r : @fmod MathR a (lit 360) = Ok r -> r = NaN \/ exists x, r = Fin x /\ 0 <= x < 360.
Proof.
  rx. unfold fmod, MathR. cbn. unfold xfmod_py, xis_zero. rewrite Req_bool_false by lra. intros [= <-].
  destruct a; simpl; auto. right. eexists. split; [reflexivity|]. apply Rfmod_range. lra.
Qed.
Lemma azimuth_range h lat d r : get_topocentric_azimuth_angle (N := MathR) h lat d = Ok r ->
  r = NaN \/ exists x, r = Fin x /\ 0 <= x < 360.
Proof.
  unfold get_topocentric_azimuth_angle. intros H. cbv zeta in H.
  repeat (apply bind_eq_Ok in H as (? & _ & H)). eapply fmod_360_range, H.
Qed.
Lemma get_azimuth_range lat lon d el r : get_azimuth (N := MathR) lat lon d el = Ok r ->
  r = NaN \/ exists x, r = Fin x /\ 0 <= x < 360.
Proof.
  unfold get_azimuth. intros H. apply bind_eq_Ok in H as ([] & _ & H). apply bind_eq_Ok in H as ([a b] & _ & H).
  eapply azimuth_range, H.
Qed.
Lemma get_position_range lat lon d el t p az alt : get_position (N := MathR) lat lon d el t p = Ok (az, alt) ->
  az = NaN \/ exists x, az = Fin x /\ 0 <= x < 360.
Proof.
  unfold get_position. intros H. apply bind_eq_Ok in H as ([] & _ & H). apply bind_eq_Ok in H as ([a b] & _ & H).
  apply bind_eq_Ok in H as (? & _ & H). apply bind_eq_Ok in H as (? & _ & H). apply bind_eq_Ok in H as (? & H & E).
  injection E as -> _. eapply azimuth_range, H.
Qed.

(* ---------------------------------------------------------------- C19 *)
Lemma geo_declination_val l o b :
  get_geocentric_sun_declination (N := MathR) (Fin l) (Fin o) (Fin b)
  = Ok (Fin (deg (asin (sind b * cosd o + cosd b * sind o * sind l)))).
Proof.
  unfold get_geocentric_sun_declination. rx. rewrite <- !sind_rad, <- !cosd_rad.
  rewrite nasin_R; [rx; reflexivity|].
  apply unit_dot; [apply sincosd|pose proof (sincosd o); lra|apply sind_bound].
Qed.
Lemma geo_right_ascension_val l o b : cosd b <> 0 ->
  get_geocentric_sun_right_ascension (N := MathR) (Fin l) (Fin o) (Fin b)
  = Ok (Fin (Rfmod (deg (Ratan2 (sind l * cosd o - tand b * sind o) (cosd l))) 360)).
Proof.
  intros H. unfold get_geocentric_sun_right_ascension. rx. rewrite ntan_R by now apply cos_rad_ne0. rx.
  now rewrite <- !sind_rad, <- !cosd_rad, <- !tand_rad.
Qed.

Lemma equatorial_coordinates_correct l o b : -90 < b < 90 ->
  exists ra dec,
    get_geocentric_sun_right_ascension (N := MathR) (Fin l) (Fin o) (Fin b) = Ok (Fin ra) /\
    get_geocentric_sun_declination (N := MathR) (Fin l) (Fin o) (Fin b) = Ok (Fin dec) /\
    spherical ra dec = ecliptic_to_equatorial o (spherical l b) /\ 0 <= ra < 360 /\ -90 <= dec <= 90.
Proof.
  intros Hb. pose proof (cosd_pos b Hb) as Pb. do 2 eexists.
  split; [apply geo_right_ascension_val; lra|]. split; [apply geo_declination_val|].
  set (ra := Rfmod _ 360). set (u := sind b * cosd o + cosd b * sind o * sind l).
  assert (U : -1 <= u <= 1) by (apply unit_dot; [apply sincosd|pose proof (sincosd o); lra|apply sind_bound]).
  split; [|split; [apply Rfmod_range; lra|apply deg_asin_range]].
  set (y := cosd b * sind l * cosd o - sind b * sind o). set (x := cosd b * cosd l).
  pose proof (atan2_polar y x) as [P1 P2]. cbv zeta in P1, P2.
  assert (E : Ratan2 (sind l * cosd o - tand b * sind o) (cosd l) = Ratan2 y x).
  { rewrite <- (atan2_scale (cosd b)) by assumption. f_equal; unfold x, y. rewrite tand_def. field. lra. }
  assert (R : sqrt (x * x + y * y) = cos (asin u)).
  { rewrite cos_asin_sqrt by assumption. f_equal. unfold x, y, u.
    pose proof (sincosd l) as L. pose proof (sincosd b) as D. pose proof (sincosd o) as K.
    set (sl := sind l) in *. set (cl := cosd l) in *. set (sb := sind b) in *. set (cb := cosd b) in *.
    set (so := sind o) in *. set (co := cosd o) in *.
    assert (cl * cl = 1 - sl * sl) as L' by lra. assert (so * so = 1 - co * co) as K' by lra. assert (sb * sb = 1 - cb * cb) as D' by lra.
    transitivity (cb * cb * (cl * cl) + cb * cb * (sl * sl) * (co * co) - 2 * cb * sl * co * sb * so + sb * sb * (so * so)); [ring|].
    transitivity (1 - (sb * sb * (co * co) + 2 * sb * co * cb * so * sl + cb * cb * (so * so) * (sl * sl))); [|ring].
    rewrite L', K', D'. ring. }
  rewrite R in P1, P2. unfold spherical, ecliptic_to_equatorial, ra.
  rewrite sind_fmod, cosd_fmod, !sind_deg, !cosd_deg, sin_asin, E by assumption. rewrite P1, P2.
  unfold x, y, u. apply f_equal2; [apply f_equal2|]; ring.
Qed.

(* ---------------------------------------------------------------- C20 *)
Definition flat : R := 0.99664719.
Lemma flat_pos : 0 < flat. Proof. unfold flat. lra. Qed.

Lemma flattened_val lat : cosd lat <> 0 ->
  get_flattened_latitude (N := MathR) (Fin lat) = Ok (Fin (deg (atan (flat * tand lat)))).
Proof. intros H. unfold get_flattened_latitude. rx. rewrite ntan_R by now apply cos_rad_ne0. rx. now rewrite <- tand_rad. Qed.
Lemma flattened_pole s : s = 1 \/ s = -1 -> get_flattened_latitude (N := MathR) (Fin (90 * s)) = Ok (Fin (90 * s)).
Proof.
  intros [-> | ->]; unfold get_flattened_latitude; rx; cbn -[xdegrees xmul Q2R]; unfold Rtan_x;
    rewrite Req_bool_true.
  - rewrite Rbool_lt_true; [|]. cbn. destruct (Rsgn_cases (Q2R 0.99664719)) as [[E H]|[[E H]|[E H]]]; rewrite ?E; cbn;
      try (unfold Q2R in H; simpl in H; lra). f_equal. f_equal. field. apply PI_ne0.
    rewrite <- sind_rad. replace (90 * 1) with 90 by ring. rewrite sind_90. lra.
  - rewrite <- cosd_rad. replace (90 * 1) with 90 by ring. apply cosd_90.
  - rewrite Rbool_lt_false; [|]. cbn. destruct (Rsgn_cases (Q2R 0.99664719)) as [[E H]|[[E H]|[E H]]]; rewrite ?E; cbn;
      try (unfold Q2R in H; simpl in H; lra). f_equal. f_equal. field. apply PI_ne0.
    rewrite <- sind_rad. replace (90 * -1) with (- (90)) by ring. rewrite sind_opp, sind_90. lra.
  - rewrite <- cosd_rad. replace (90 * -1) with (- (90)) by ring. rewrite cosd_opp. apply cosd_90.
Qed.

Lemma flat_point lat : cosd lat <> 0 -> 0 <= cosd lat ->
  let u := deg (atan (flat * tand lat)) in
  ellipsoid_point flat lat (cosd u) (flat * sind u).
Proof.
  intros H H' u. assert (0 < cosd lat) by lra. clear H'. pose proof flat_pos. split.
  - replace (flat * sind u / flat) with (sind u) by (field; lra). pose proof (sincosd u). simpl. lra.
  - unfold u. rewrite cosd_deg, sind_deg, cos_atan, sin_atan.
    set (q := sqrt (1 + flat * tand lat * (flat * tand lat))).
    assert (0 < q). { apply sqrt_lt_R0. pose proof (Rle_0_sqr (flat * tand lat)) as S. unfold Rsqr in S. lra. }
    exists (/ (q * cosd lat)). split; [|split].
    + apply Rinv_0_lt_compat. nra.
    + field. lra.
    + rewrite tand_def. field. lra.
Qed.

Lemma radius_val : @earth_radius MathR = Fin 6378140.
Proof. unfold earth_radius. rx. f_equal. unfold Q2R; simpl; lra. Qed.

Lemma projected_vals lat el : -90 <= lat <= 90 ->
  exists x y, ellipsoid_point flat lat x y /\
    get_projected_radial_distance (N := MathR) (Fin el) (Fin lat) = Ok (Fin (x + el / 6378140 * cosd lat)) /\
    get_projected_axial_distance (N := MathR) (Fin el) (Fin lat) = Ok (Fin (y + el / 6378140 * sind lat)).
Proof.
  intros Hl. destruct (Req_dec (cosd lat) 0) as [Hc|Hc].
  - assert (Hs : exists s, (s = 1 \/ s = -1) /\ lat = 90 * s).
    { destruct (Rlt_dec (-90) lat); [destruct (Rlt_dec lat 90)|].
      - pose proof (cosd_pos lat ltac:(lra)). lra.
      - exists 1. lra.
      - exists (-1). lra. }
    destruct Hs as (s & Hs & E).
    exists 0, (flat * s). pose proof flat_pos.
    assert (Ss : sind lat = s).
    { rewrite E. destruct Hs as [-> | ->].
      - replace (90 * 1) with 90 by ring. apply sind_90.
      - replace (90 * -1) with (- (90)) by ring. rewrite sind_opp, sind_90. lra. }
    split; [split|split].
    + replace (flat * s / flat) with s by (field; lra). destruct Hs; subst s; lra.
    + exists (/ flat). split; [now apply Rinv_0_lt_compat|]. rewrite Hc, Ss. split; [lra|]. field. lra.
    + unfold get_projected_radial_distance. rewrite radius_val. rewrite E at 1. rewrite (flattened_pole s Hs), <- E. rx.
      rewrite <- !cosd_rad. do 2 f_equal. rewrite Hc. lra.
    + unfold get_projected_axial_distance. rewrite radius_val. rewrite E at 1. rewrite (flattened_pole s Hs), <- E. rx.
      rewrite <- !sind_rad. do 2 f_equal. rewrite Ss. unfold flat. lra.
  - exists (cosd (deg (atan (flat * tand lat)))), (flat * sind (deg (atan (flat * tand lat)))).
    split; [|split].
    + apply flat_point; [assumption|]. now apply cosd_nonneg.
    + unfold get_projected_radial_distance. rewrite flattened_val, radius_val by assumption. rx.
      rewrite <- !cosd_rad. do 2 f_equal. lra.
    + unfold get_projected_axial_distance. rewrite flattened_val, radius_val by assumption. rx.
      rewrite <- !sind_rad. do 2 f_equal. unfold flat. lra.
Qed.

Lemma flattened_latitude_correct lat : -90 < lat < 90 ->
  exists u, get_flattened_latitude (N := MathR) (Fin lat) = Ok (Fin u) /\
    -90 < u < 90 /\ tand u = 0.99664719 * tand lat.
Proof.
  intros H. eexists. split; [apply flattened_val, cosd_ne0, H|]. split.
  - pose proof (atan_bound (flat * tand lat)) as [B1 B2]. apply deg_lt in B1, B2.
    replace (- PI / 2) with (- (PI / 2)) in B1 by lra.
    rewrite deg_opp in B1. rewrite deg_PI2 in B1, B2. lra.
  - rewrite tand_deg, atan_right_inv. reflexivity.
Qed.

(* points satisfying the specification are unique *)
Lemma ellipsoid_unique lat x y x' y' : ellipsoid_point flat lat x y -> ellipsoid_point flat lat x' y' -> x = x' /\ y = y'.
Proof.
  intros (E & k & K & X & Y) (E' & k' & K' & X' & Y'). pose proof flat_pos as F.
  assert (y = flat ^ 2 * (k * sind lat)) as Ey by (rewrite <- Y; field; lra).
  assert (y' = flat ^ 2 * (k' * sind lat)) as Ey' by (rewrite <- Y'; field; lra).
  assert (G : k * k * (cosd lat * cosd lat + (flat * sind lat) * (flat * sind lat)) = 1).
  { rewrite <- E, X, Ey. field. lra. }
  assert (G' : k' * k' * (cosd lat * cosd lat + (flat * sind lat) * (flat * sind lat)) = 1).
  { rewrite <- E', X', Ey'. field. lra. }
  assert (k = k').
  { set (m := cosd lat * cosd lat + (flat * sind lat) * (flat * sind lat)) in *. clearbody m.
    assert (k * k = k' * k'). { apply Rmult_eq_reg_r with m; [lra|]. intros ->. lra. }
    apply sqr_eq_nonneg; lra. }
  subst k'. rewrite X, X', Ey, Ey'. auto.
Qed.

Lemma ellipsoid_correct lat el : -90 <= lat <= 90 ->
  exists x y, ellipsoid_point 0.99664719 lat x y /\
    (forall x' y', ellipsoid_point 0.99664719 lat x' y' -> x' = x /\ y' = y) /\
    get_projected_radial_distance (N := MathR) (Fin el) (Fin lat) = Ok (Fin (x + el / 6378140 * cosd lat)) /\
    get_projected_axial_distance (N := MathR) (Fin el) (Fin lat) = Ok (Fin (y + el / 6378140 * sind lat)).
Proof.
  intros H. destruct (projected_vals lat el H) as (x & y & E & X & Y). exists x, y. split; [exact E|]. split; [|auto].
  intros x' y' E'. exact (ellipsoid_unique lat x' y' x y E' E).
Qed.

(* The whole position pipeline on physical inputs: totality (C22), altitude (C15). *)
From Coq Require Import Reals Qreals Lra Lia Psatz.
From Flocq Require Import Core.
From Interval Require Import Tactic.
From Verif Require Import Py Num Cal CalProofs TzCheck Tables Constants SolarTime Solar RInst RTac SpecTime SpecDt SolarTimeProofs
  JulianProofs GenProofs SpecGeom SpecAstro Trig GeoProofs RefractionProofs SphereProofs SeriesProofs.
Local Open Scope R_scope.

(* ---------------------------------------------------------------- Julian days in range *)
Definition T_of (jde : R) : R := (jde - 2451545) / 36525.

Lemma jd_utc_range u : in_range u = true -> 1721425.5 <= jd_utc u < 5373484.5.
Proof.
  intros H. apply in_range_iff in H. destruct H as [H1 H2].
  assert (M : max_us = (3652059 * 86400000000)%Z) by reflexivity. rewrite M in H2.
  apply IZR_le in H1. apply IZR_lt in H2. rewrite mult_IZR in H2. unfold jd_utc. lra.
Qed.

Lemma jd_ok d u : instant d u -> in_range u = true ->
  exists jd jde, get_julian_solar_day (N := MathR) d = Ok (Fin jd)  /\
    get_julian_ephemeris_day (N := MathR) d = Ok (Fin jde)  /\
    1721425 < jd < 5373485 /\ 1721425 < jde < 5373485.
Proof.
  intros Hi Hr. do 2 eexists. split; [apply jd_off; eassumption|]. split; [apply jde_val; eassumption|].
  pose proof (jd_utc_range u Hr) as J. pose proof (tai_range u) as [T1 T2]. apply IZR_le in T1, T2.
  pose proof (adj_ok (f_year (fields_of_us u)) (f_mon (fields_of_us u)) (fields_mon_range u)) as A.
  destruct (next_ym (f_year (fields_of_us u)) (f_mon (fields_of_us u))) as [y' m']. destruct A as (_ & A1 & A2).
  apply Qle_Rle in A1, A2. replace (Q2R (-34)) with (-34) in A1 by (unfold Q2R; simpl; lra).
  replace (Q2R (-30)) with (-30) in A2 by (unfold Q2R; simpl; lra). lra.
Qed.

Lemma T_range jde : 1721425 < jde < 5373485 -> -20 < T_of jde < 80.
Proof. unfold T_of. lra. Qed.

(* ---------------------------------------------------------------- the intermediate values *)
Definition sun_R (jde : R) : R := vsop_sum 0 (T_of jde / 10) sun_earth_distance_coeffs / 100000000.
Definition sun_beta (jde : R) : R := - deg (vsop_sum 0 (T_of jde / 10) heliocentric_latitude_coeffs / 100000000).
Definition sun_L (jde : R) : R :=
  Rfmod (deg (vsop_sum 0 (T_of jde / 10) heliocentric_longitude_coeffs / 100000000) + 180) 360.
Definition nut_lon (jde : R) : R := nutation_longitude (T_of jde) nut_rows.
Definition nut_obl (jde : R) : R := nutation_obliquity (T_of jde) nut_rows.
Definition sun_lambda (jde : R) : R := sun_L jde + nut_lon jde + - 20.4898 / (3600 * sun_R jde).
Definition true_obl (jde : R) : R := mean_obliquity (T_of jde / 10 / 10) + nut_obl jde.
Definition sun_alpha (jde : R) : R :=
  Rfmod (deg (Ratan2 (sind (sun_lambda jde) * cosd (true_obl jde) - tand (sun_beta jde) * sind (true_obl jde)) (cosd (sun_lambda jde)))) 360.
Definition sun_delta (jde : R) : R :=
  deg (asin (sind (sun_beta jde) * cosd (true_obl jde) + cosd (sun_beta jde) * sind (true_obl jde) * sind (sun_lambda jde))).
Definition mean_sid (jd : R) : R :=
  let c := (jd - 2451545) / 36525 in
  Rfmod (280.46061837 + 360.98564736629 * (jd - 2451545) + 0.000387933 * c * c * (1 - c / 38710000)) 360.
Definition app_sid (jd jde : R) : R := mean_sid jd + nut_lon jde * cos (true_obl jde).
Definition lib_H (lon jd jde : R) : R := Rfmod (app_sid jd jde + lon - sun_alpha jde) 360.
Definition lib_par (jde : R) : R := 8.794 * sun_R jde / 3600.
Definition lib_dalpha (x H p d : R) : R := deg (Ratan2 (- x * sind p * sind H) (cosd d - x * sind p * cosd H)).
Definition lib_dec (y H p d da : R) : R := deg (Ratan2 ((sind d - y * sind p) * cosd da) (cosd d - y * sind p * cosd H)).
Definition topo_H (lon x jd jde : R) : R :=
  lib_H lon jd jde - lib_dalpha x (lib_H lon jd jde) (lib_par jde) (sun_delta jde).
Definition topo_dec (lon x y jd jde : R) : R :=
  lib_dec y (lib_H lon jd jde) (lib_par jde) (sun_delta jde) (lib_dalpha x (lib_H lon jd jde) (lib_par jde) (sun_delta jde)).

Lemma local_hour_angle_val a b c : get_local_hour_angle (N := MathR) (Fin a) (Fin b) (Fin c) = Ok (Fin (Rfmod (a + b - c) 360)).
Proof. unfold get_local_hour_angle. rx. reflexivity. Qed.

Lemma aberration_val r : r <> 0 -> get_aberration_correction (N := MathR) (Fin r) = Ok (Fin (- 20.4898 / (3600 * r))).
Proof.
  intros H. unfold get_aberration_correction. rewrite !lit_R, mul_R.
  replace (Q2R 3600.0) with 3600 by (unfold Q2R; simpl; lra). rewrite div_R by lra.
  reflexivity.
Qed.

Lemma position_at_val lat lon el x y jd jde : sun_R jde <> 0 -> cosd (sun_beta jde) <> 0 ->
  topocentric_position_at (N := MathR) lat (Fin lon) el (Fin x) (Fin y) (Fin jd) (Fin jde)
  = Ok (Fin (topo_dec lon x y jd jde), Fin (topo_H lon x jd jde)).
Proof.
  intros HR Hb. unfold topocentric_position_at, get_julian_ephemeris_century, get_julian_ephemeris_millennium.
  rx. replace (Q2R 2451545.0) with 2451545 by (unfold Q2R; simpl; lra). replace (Q2R 36525.0) with 36525 by (unfold Q2R; simpl; lra).
  replace (Q2R 10.0) with 10 by (unfold Q2R; simpl; lra). fold (T_of jde).
  rewrite geo_latitude_val, bind_Ok, geo_longitude_val, bind_Ok, distance_val, bind_Ok.
  fold (sun_R jde) (sun_beta jde) (sun_L jde).
  rewrite aberration_val, bind_Ok, parallax_val, bind_Ok by assumption. fold (lib_par jde).
  rewrite nutation_val, bind_Ok. fold nut_rows. fold (nut_lon jde) (nut_obl jde).
  rewrite (apparent_sidereal_val jd _ _ _ (mean_sid jd)) by apply mean_sidereal_val.
  rewrite bind_Ok, obliquity_val, bind_Ok. fold (true_obl jde). fold (app_sid jd jde).
  unfold get_apparent_sun_longitude. cbn [n_longitude]. rewrite !add_R. fold (sun_lambda jde).
  cbv zeta. rewrite geo_right_ascension_val, bind_Ok, geo_declination_val, bind_Ok by assumption.
  fold (sun_alpha jde) (sun_delta jde).
  rewrite local_hour_angle_val, bind_Ok. fold (lib_H lon jd jde).
  rewrite right_ascension_parallax_val, bind_Ok. fold (lib_dalpha x (lib_H lon jd jde) (lib_par jde) (sun_delta jde)).
  unfold get_topocentric_local_hour_angle. rewrite sub_R.
  rewrite topocentric_declination_val, bind_Ok. reflexivity.
Qed.

(* ---------------------------------------------------------------- bounds *)
Lemma true_obl_range jde : 1721425 < jde < 5373485 -> 22.5 <= true_obl jde <= 24.
Proof.
  intros H. pose proof (T_range jde H) as T. unfold true_obl, nut_obl.
  destruct (nutation_bounds (T_of jde)) as (n & _ & _ & _ & _ & B). destruct (B ltac:(lra)) as [_ B2].
  apply Rabs_def2 in B2. set (u := T_of jde / 10 / 10).
  assert (U : -0.2 <= u <= 0.8) by (unfold u; lra). clearbody u.
  assert (M : 22.51 <= mean_obliquity u <= 23.9).
  { unfold mean_obliquity. split; interval with (i_bisect u, i_depth 20). }
  lra.
Qed.

Lemma sun_R_range jde : 1721425 < jde < 5373485 -> 0.96 <= sun_R jde <= 1.04.
Proof.
  intros H. pose proof (T_range jde H) as T. destruct (distance_bounds (T_of jde / 10) ltac:(lra)) as (r & E & B & _).
  rewrite distance_val in E. injection E as <-. exact B.
Qed.
Lemma sun_beta_range jde : 1721425 < jde < 5373485 -> -0.001 < sun_beta jde < 0.001.
Proof.
  intros H. pose proof (T_range jde H) as T. destruct (geo_latitude_bound (T_of jde / 10) ltac:(lra)) as (r & E & B).
  rewrite geo_latitude_val in E. injection E as <-. exact B.
Qed.

Lemma sind_le x : 0 <= x -> sind x <= x * (PI / 180).
Proof.
  intros [H|<-]; [|rewrite sind_0; lra]. rewrite sind_rad. unfold rad. left. apply sin_lt_x. pose proof PI_pos. nra.
Qed.

Lemma sin_delta_bound jde : 1721425 < jde < 5373485 -> -0.408 <= sind (sun_delta jde) <= 0.408.
Proof.
  intros H. pose proof (true_obl_range jde H) as E. pose proof (sun_beta_range jde H) as B.
  unfold sun_delta. rewrite sind_deg.
  assert (S : -0.0001 <= sind (sun_beta jde) <= 0.0001).
  { pose proof (sind_bound (sun_beta jde)). rewrite sind_rad. unfold rad. split; interval. }
  assert (O : 0 <= sind (true_obl jde) <= 0.407).
  { rewrite sind_rad. unfold rad. split; interval. }
  pose proof (cosd_bound (sun_beta jde)) as C1. pose proof (cosd_bound (true_obl jde)) as C2. pose proof (sind_bound (sun_lambda jde)) as C3.
  set (a := sind (sun_beta jde)) in *. set (b := cosd (true_obl jde)) in *. set (c := cosd (sun_beta jde)) in *.
  set (d := sind (true_obl jde)) in *. set (e := sind (sun_lambda jde)) in *.
  assert (K1 : -0.0001 <= a * b <= 0.0001) by (clearbody a b c d e; split; nra).
  assert (K2 : -1 <= c * e <= 1) by (clearbody a b c d e; split; nra).
  assert (K3 : -0.407 <= c * d * e <= 0.407).
  { replace (c * d * e) with (d * (c * e)) by ring. set (f := c * e) in *. clearbody a b c d e f. split; nra. }
  rewrite sin_asin by lra. lra.
Qed.

Lemma cos_delta_bound jde : 1721425 < jde < 5373485 -> 0.91 <= cosd (sun_delta jde) <= 1.
Proof.
  intros H. pose proof (sin_delta_bound jde H) as B. pose proof (sincosd (sun_delta jde)) as E.
  assert (0 <= cosd (sun_delta jde)) by (apply cosd_nonneg; unfold sun_delta; pose proof (deg_asin_range (sind (sun_beta jde) * cosd (true_obl jde) + cosd (sun_beta jde) * sind (true_obl jde) * sind (sun_lambda jde))); lra).
  pose proof (cosd_bound (sun_delta jde)). set (s := sind (sun_delta jde)) in *. set (c := cosd (sun_delta jde)) in *. clearbody s c.
  split; [|lra]. destruct (Rle_dec 0.91 c); [lra|]. exfalso. nra.
Qed.

Lemma sin_par_bound jde : 1721425 < jde < 5373485 -> 0 < sind (lib_par jde) < 0.0000450.
Proof.
  intros H. pose proof (sun_R_range jde H) as R. unfold lib_par. rewrite sind_rad. unfold rad.
  set (r := sun_R jde) in *. clearbody r. split; interval with (i_prec 60).
Qed.

Lemma atan2_deg_range a b : 0 < b -> -90 < deg (Ratan2 a b) < 90.
Proof.
  intros H. unfold Ratan2. destruct (Rsgn_cases b) as [[E ?]|[[E ?]|[E ?]]]; try lra. rewrite E.
  pose proof (atan_bound (a / b)) as [B1 B2]. apply deg_lt in B1, B2.
  replace (- PI / 2) with (- (PI / 2)) in B1 by lra. rewrite deg_opp in B1. rewrite deg_PI2 in B1, B2. lra.
Qed.

Lemma prod_bound y s c k : 0 <= k -> - k <= y <= k -> 0 < s < 0.000045 -> -1 <= c <= 1 -> - (k * 0.000045) <= y * s * c <= k * 0.000045.
Proof.
  intros Hk Hy Hs Hc. assert (- (k * 0.000045) <= y * s <= k * 0.000045) by (split; nra).
  set (z := y * s) in *. set (m := k * 0.000045) in *. assert (0 <= m) by (unfold m; lra). clearbody z m. split; nra.
Qed.

Lemma topo_dec_range lon x y jd jde : 1721425 < jde < 5373485 -> -20000 <= y <= 20000 -> -90 < topo_dec lon x y jd jde < 90.
Proof.
  intros H Hy. unfold topo_dec, lib_dec. apply atan2_deg_range.
  pose proof (cos_delta_bound jde H). pose proof (sin_par_bound jde H).
  pose proof (prod_bound y (sind (lib_par jde)) (cosd (lib_H lon jd jde)) 20000 ltac:(lra) Hy ltac:(lra) (cosd_bound _)). lra.
Qed.

(* ---------------------------------------------------------------- C22 *)
Lemma projected_range lat el x y x0 y0 : ellipsoid_point flat lat x0 y0 -> -100000000000 <= el <= 100000000000 ->
  x = x0 + el / 6378140 * cosd lat -> y = y0 + el / 6378140 * sind lat -> -20000 <= x <= 20000 /\ -20000 <= y <= 20000.
Proof.
  intros [E _] He -> ->. pose proof (cosd_bound lat). pose proof (sind_bound lat). pose proof flat_pos as F.
  assert (F1 : flat <= 1) by (unfold flat; lra).
  assert (X : -1 <= x0 <= 1) by (split; nra).
  assert (Y : -1 <= y0 <= 1).
  { assert (Y : -1 <= y0 / flat <= 1) by (split; nra). replace y0 with (y0 / flat * flat) by (field; lra).
    set (q := y0 / flat) in *. clearbody q. split; nra. }
  assert (K : -15679 <= el / 6378140 <= 15679) by lra. set (k := el / 6378140) in *. clearbody k. split; split; nra.
Qed.

Lemma instant_aware d u : instant d u -> aware d = Ok tt.
Proof. intros (o & tz & E & _). unfold aware. now rewrite E. Qed.

Lemma position_val lat lon d el u : instant d u -> in_range u = true -> -90 <= lat <= 90 -> -100000000000 <= el <= 100000000000 ->
  exists x y jd jde x0 y0,
    get_julian_solar_day (N := MathR) d = Ok (Fin jd) /\ get_julian_ephemeris_day (N := MathR) d = Ok (Fin jde)  /\
    1721425 < jd < 5373485 /\ 1721425 < jde < 5373485  /\
    ellipsoid_point flat lat x0 y0 /\ x = x0 + el / 6378140 * cosd lat /\ y = y0 + el / 6378140 * sind lat  /\
    get_topocentric_position (N := MathR) (Fin lat) (Fin lon) d (Fin el)
      = Ok (Fin (topo_dec lon x y jd jde), Fin (topo_H lon x jd jde))  /\
    -90 < topo_dec lon x y jd jde < 90.
Proof.
  intros Hi Hr Hlat Hel. destruct (projected_vals lat el Hlat) as (x0 & y0 & EP & Hx & Hy).
  destruct (jd_ok d u Hi Hr) as (jd & jde & Hjd & Hjde & B1 & B2).
  exists (x0 + el / 6378140 * cosd lat), (y0 + el / 6378140 * sind lat), jd, jde, x0, y0.
  repeat (split; [assumption || reflexivity|]).
  pose proof (projected_range lat el _ _ x0 y0 EP Hel eq_refl eq_refl) as [RX RY].
  split; [|now apply topo_dec_range].
  unfold get_topocentric_position. rewrite (instant_aware d u Hi), bind_Ok, Hx, bind_Ok, Hy, bind_Ok, Hjd, bind_Ok, Hjde, bind_Ok.
  apply position_at_val.
  - pose proof (sun_R_range jde B2). lra.
  - apply cosd_ne0. pose proof (sun_beta_range jde B2). lra.
Qed.

Lemma azimuth_total lat lon d el u : instant d u -> in_range u = true -> -90 <= lat <= 90 -> -100000000000 <= el <= 100000000000 ->
  exists dec ha az e,
    get_topocentric_position (N := MathR) (Fin lat) (Fin lon) d (Fin el) = Ok (Fin dec, Fin ha) /\
    -90 < dec < 90 /\
    get_topocentric_elevation_angle (N := MathR) (Fin lat) (Fin dec) (Fin ha) = Ok (Fin e) /\
    get_azimuth (N := MathR) (Fin lat) (Fin lon) d (Fin el) = Ok (Fin az) /\
    horizontal_coordinates lat (equatorial dec ha) az e /\ 0 <= az < 360 /\ -90 <= e <= 90.
Proof.
  intros Hi Hr Hlat Hel. destruct (position_val lat lon d el u Hi Hr Hlat Hel) as (x & y & jd & jde & x0 & y0 & _ & _ & _ & _ & _ & _ & _ & E & B).
  destruct (horizontal_coordinates_correct lat (topo_dec lon x y jd jde) (topo_H lon x jd jde) B) as (A & e & H1 & H2 & H3 & H4 & H5).
  exists (topo_dec lon x y jd jde), (topo_H lon x jd jde), A, e. repeat (split; [assumption|]).
  split; [|auto]. unfold get_azimuth. rewrite (instant_aware d u Hi), bind_Ok, E, bind_Ok. exact H1.
Qed.

Lemma altitude_total lat lon d el T P u : instant d u -> in_range u = true -> -90 <= lat <= 90 ->
  -100000000000 <= el <= 100000000000 -> T <> 0 ->
  exists dec ha az e,
    get_topocentric_position (N := MathR) (Fin lat) (Fin lon) d (Fin el) = Ok (Fin dec, Fin ha) /\
    horizontal_coordinates lat (equatorial dec ha) az e /\ 0 <= az < 360 /\ -90 <= e <= 90 /\
    get_azimuth (N := MathR) (Fin lat) (Fin lon) d (Fin el) = Ok (Fin az) /\
    (~ (-5.2 < e < -5) ->
     let h := e + (if Rle_dec (-0.83337) e then refraction_formula P T e else 0) in
     get_altitude (N := MathR) (Fin lat) (Fin lon) d (Fin el) (Fin T) (Fin P) = Ok (Fin h) /\
     get_position (N := MathR) (Fin lat) (Fin lon) d (Fin el) (Fin T) (Fin P) = Ok (Fin az, Fin h)).
Proof.
  intros Hi Hr Hlat Hel HT. destruct (azimuth_total lat lon d el u Hi Hr Hlat Hel) as (dec & ha & az & e & H1 & B & H2 & H3 & H4 & H5 & H6).
  exists dec, ha, az, e. repeat (split; [assumption|]). intros W h.
  assert (A : get_altitude (N := MathR) (Fin lat) (Fin lon) d (Fin el) (Fin T) (Fin P) = Ok (Fin h)).
  { unfold get_altitude. rewrite (instant_aware d u Hi), bind_Ok, H1, bind_Ok, H2, bind_Ok, refraction_ok, bind_Ok by assumption.
    rewrite add_R. reflexivity. }
  split; [exact A|]. rewrite position_pair, A, H3. reflexivity.
Qed.

(* ---------------------------------------------------------------- C15 *)
Lemma altitude_physical lat lon d el u a : instant d u -> in_range u = true -> -90 <= lat <= 90 ->
  -100000000000 <= el <= 100000000000 ->
  get_altitude (N := MathR) (Fin lat) (Fin lon) d (Fin el) standard_temperature standard_pressure = Ok a ->
  exists dec ha az e r,
    get_topocentric_position (N := MathR) (Fin lat) (Fin lon) d (Fin el) = Ok (Fin dec, Fin ha) /\
    horizontal_coordinates lat (equatorial dec ha) az e /\ -90 <= e <= 90 /\
    a = Fin (e + r) /\ -90 <= e + r <= 90 /\ Rabs r < 0.9 /\ (e < -0.83337 -> r = 0).
Proof.
  intros Hi Hr Hlat Hel HA. destruct (azimuth_total lat lon d el u Hi Hr Hlat Hel) as (dec & ha & az & e & H1 & B & H2 & H3 & H4 & H5 & H6).
  unfold get_altitude in HA. rewrite (instant_aware d u Hi), bind_Ok, H1, bind_Ok, H2, bind_Ok in HA.
  apply bind_eq_Ok in HA as (r & HR & HA). destruct (std_refraction_returns e r H6 HR) as (x & -> & B1 & B2 & B3).
  rewrite add_R in HA. injection HA as <-. exists dec, ha, az, e, x. auto 10.
Qed.

(* ---------------------------------------------------------------- C21 for datetimes *)
Lemma distance_of_datetime d u : instant d u -> in_range u = true ->
  exists jde c m r, get_julian_ephemeris_day (N := MathR) d = Ok (Fin jde) /\
    get_julian_ephemeris_century (N := MathR) (Fin jde) = Ok (Fin c) /\
    get_julian_ephemeris_millennium (N := MathR) (Fin c) = Ok (Fin m) /\
    get_sun_earth_distance (N := MathR) (Fin m) = Ok (Fin r) /\ 0.96 <= r <= 1.04 /\
    ((midnight 1000 1 1 <= u < midnight 3001 1 1)%Z -> 0.98 <= r <= 1.02).
Proof.
  intros Hi Hr. destruct (jd_ok d u Hi Hr) as (jd & jde & _ & H2 & _ & B).
  assert (E1 : get_julian_ephemeris_century (N := MathR) (Fin jde) = Ok (Fin (T_of jde))).
  { unfold get_julian_ephemeris_century. rx. do 2 f_equal. unfold T_of, Q2R; simpl. lra. }
  assert (E2 : get_julian_ephemeris_millennium (N := MathR) (Fin (T_of jde)) = Ok (Fin (T_of jde / 10))).
  { unfold get_julian_ephemeris_millennium. rx. do 2 f_equal. unfold Q2R; simpl. lra. }
  pose proof (T_range jde B) as TR. destruct (distance_bounds (T_of jde / 10) ltac:(lra)) as (r & E3 & B1 & B2).
  exists jde, (T_of jde), (T_of jde / 10), r. repeat (split; [assumption|]). intros U. apply B2.
  rewrite (jde_val d u Hi Hr) in H2. injection H2 as <-. pose proof (tai_range u) as [A1 A2]. apply IZR_le in A1, A2.
  destruct U as [U1 U2]. apply IZR_le in U1. apply IZR_lt in U2.
  assert (M1 : midnight 1000 1 1 = (364877 * 86400000000)%Z) by reflexivity.
  assert (M2 : midnight 3001 1 1 = (1095727 * 86400000000)%Z) by reflexivity.
  rewrite M1, mult_IZR in U1. rewrite M2, mult_IZR in U2. unfold T_of, jd_utc. lra.
Qed.

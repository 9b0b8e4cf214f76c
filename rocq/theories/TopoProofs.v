(* Parallax (C28), the pipeline as a whole (C55), closeness to the published algorithm (C56). *)
From Coq Require Import Reals Qreals Lra Lia Psatz.
From Flocq Require Import Core.
From Interval Require Import Tactic.
From Verif Require Import Py Num Cal CalProofs TzCheck Tables Constants SolarTime Solar RInst RTac SpecTime SpecDt SolarTimeProofs
  JulianProofs GenProofs SpecGeom SpecAstro Trig GeoProofs RefractionProofs SphereProofs SeriesProofs PositionProofs.
Local Open Scope R_scope.

(* ---------------------------------------------------------------- C28 *)
Lemma deg_minus a b : deg (a - b) = deg a - deg b.
Proof. unfold deg. lra. Qed.
Lemma sind_minus a b : sind (a - b) = sind a * cosd b - cosd a * sind b.
Proof. rewrite !sind_rad, !cosd_rad, rad_minus. apply sin_minus. Qed.
Lemma cosd_minus a b : cosd (a - b) = cosd a * cosd b + sind a * sind b.
Proof. rewrite !sind_rad, !cosd_rad, rad_minus. apply cos_minus. Qed.

Lemma sqrt_pos_of a b : 0 < b -> 0 < sqrt (b * b + a * a).
Proof. intros H. apply sqrt_lt_R0. nra. Qed.

(* the parallax in right ascension turns the hour angle into that of the shifted direction *)
Lemma dalpha_correct x p H d : 0 < cosd d - x * sind p * cosd H ->
  let da := lib_dalpha x H p d in
  exists r, 0 < r /\ cosd d * cosd H - x * sind p = r * cosd (H - da) /\ cosd d * sind H = r * sind (H - da) /\
    cosd d - x * sind p * cosd H = r * cosd da /\ - x * sind p * sind H = r * sind da /\ 0 < cosd da.
Proof.
  intros Hb da. set (b := cosd d - x * sind p * cosd H) in *. set (a := - x * sind p * sind H).
  pose proof (atan2_polar a b) as P. cbv zeta in P. destruct P as [P1 P2]. pose proof (sqrt_pos_of a b Hb) as Pr.
  set (r := sqrt (b * b + a * a)) in *. exists r. rewrite cosd_minus, sind_minus.
  unfold da, lib_dalpha. fold a b. rewrite cosd_deg, sind_deg.
  set (cc := cos (Ratan2 a b)) in *. set (ss := sin (Ratan2 a b)) in *. pose proof (sincosd H) as SC.
  split; [exact Pr|]. repeat split; try lra.
  - transitivity (cosd H * (r * cc) + sind H * (r * ss)); [|ring]. rewrite P1, P2. unfold a, b.
    transitivity (cosd d * cosd H - x * sind p * (sind H * sind H + cosd H * cosd H)); [rewrite SC; ring|ring].
  - transitivity (sind H * (r * cc) - cosd H * (r * ss)); [|ring]. rewrite P1, P2. unfold a, b. ring.
  - destruct (Rlt_dec 0 cc); [assumption|]. exfalso. nra.
Qed.

(* with the radial distance in the denominator the declination would be exact *)
Lemma fixed_declination_correct x y p H d : 0 < cosd d - x * sind p * cosd H ->
  let da := lib_dalpha x H p d in
  points_along (parallax_shift d H p x y)
    (deg (Ratan2 ((sind d - y * sind p) * cosd da) (cosd d - x * sind p * cosd H))) (H - da).
Proof.
  intros Hb da. destruct (dalpha_correct x p H d Hb) as (r & Pr & E1 & E2 & E3 & E4 & Pc). fold da in E1, E2, E3, E4, Pc.
  set (a := (sind d - y * sind p) * cosd da). set (b := cosd d - x * sind p * cosd H) in *.
  pose proof (atan2_polar a b) as P. cbv zeta in P. destruct P as [P1 P2]. pose proof (sqrt_pos_of a b Hb) as Pq.
  set (q := sqrt (b * b + a * a)) in *. unfold points_along, parallax_shift, equatorial.
  rewrite cosd_deg, sind_deg. set (cc := cos (Ratan2 a b)) in *. set (ss := sin (Ratan2 a b)) in *.
  exists (q / cosd da). split; [now apply Rdiv_lt_0_compat|].
  assert (R : r = q * cc / cosd da) by (rewrite P1, E3; field; lra).
  rewrite E1, E2. repeat split.
  - rewrite R. field. lra.
  - rewrite R. field. lra.
  - transitivity (q * ss / cosd da); [rewrite P2; unfold a; field; lra|field; lra].
Qed.

Lemma points_along_unique v d1 h1 d2 h2 : points_along v d1 h1 -> points_along v d2 h2 -> -90 <= d1 <= 90 -> -90 <= d2 <= 90 -> d1 = d2.
Proof.
  destruct v as [[a b] c]. intros (r & Pr & H) (q & Pq & K) B1 B2. unfold equatorial in *.
  destruct H as (H1 & H2 & H3). destruct K as (K1 & K2 & K3).
  pose proof (sincosd d1) as S1. pose proof (sincosd h1) as S2. pose proof (sincosd d2) as S3. pose proof (sincosd h2) as S4.
  assert (N1 : a * a + b * b + c * c = r * r).
  { rewrite H1, H2, H3. transitivity (r * r * (cosd d1 * cosd d1 * (sind h1 * sind h1 + cosd h1 * cosd h1) + sind d1 * sind d1)); [ring|].
    rewrite S2. replace (cosd d1 * cosd d1 * 1 + sind d1 * sind d1) with 1 by lra. ring. }
  assert (N2 : a * a + b * b + c * c = q * q).
  { rewrite K1, K2, K3. transitivity (q * q * (cosd d2 * cosd d2 * (sind h2 * sind h2 + cosd h2 * cosd h2) + sind d2 * sind d2)); [ring|].
    rewrite S4. replace (cosd d2 * cosd d2 * 1 + sind d2 * sind d2) with 1 by lra. ring. }
  assert (r = q) by nra. subst q. assert (E : sind d1 = sind d2) by nra.
  destruct (Rtotal_order d1 d2) as [L|[L|L]]; [|assumption|].
  - pose proof (sind_incr d1 d2 ltac:(lra) L ltac:(lra)). lra.
  - pose proof (sind_incr d2 d1 ltac:(lra) L ltac:(lra)). lra.
Qed.

Definition claim_C28 : Prop := forall x y p H d,
  -1 <= x <= 1 -> -1 <= y <= 1 -> 0 < p <= 0.003 -> -25 <= d <= 25 ->
  exists da dec,
    get_parallax_sun_right_ascension (N := MathR) (Fin x) (Fin p) (Fin H) (Fin d) = Ok (Fin da) /\
    get_topocentric_sun_declination (N := MathR) (Fin d) (Fin y) (Fin p) (Fin da) (Fin H) = Ok (Fin dec) /\
    points_along (parallax_shift d H p x y) dec (H - da).

Lemma Ratan2_pos a b : 0 < b -> Ratan2 a b = atan (a / b).
Proof. intros H. unfold Ratan2. destruct (Rsgn_cases b) as [[E ?]|[[E ?]|[E ?]]]; try lra. now rewrite E. Qed.

Lemma declination_refuted : ~ claim_C28.
Proof.
  intros C. destruct (C 1 0 0.0024 0 20) as (da & dec & H1 & H2 & H3); try lra.
  rewrite right_ascension_parallax_val in H1. injection H1 as <-.
  rewrite topocentric_declination_val in H2. injection H2 as <-.
  revert H3. rewrite sind_0, cosd_0. replace (- (1) * sind 0.0024 * 0) with 0 by ring.
  assert (P : 0 < sind 0.0024 < 0.0001) by (rewrite sind_rad; unfold rad; split; interval).
  assert (Q1 : 0.9 < cosd 20) by (rewrite cosd_rad; unfold rad; interval).
  assert (Q2 : 0.3 < sind 20) by (rewrite sind_rad; unfold rad; interval).
  assert (Z : forall b, 0 < b -> Ratan2 0 b = 0) by (intros b Hb; rewrite Ratan2_pos by assumption; unfold Rdiv; rewrite Rmult_0_l; apply atan_0).
  rewrite Z by lra. rewrite deg_0, cosd_0.
  rewrite Ratan2_pos by lra.
  replace ((sind 20 - 0 * sind 0.0024) * 1 / (cosd 20 - 0 * sind 0.0024 * 1)) with (tand 20) by (rewrite tand_def; field; lra).
  rewrite tand_rad, atan_tan by (unfold rad; pose proof PI_pos; lra). rewrite deg_rad.
  replace (0 - 0) with 0 by ring. unfold points_along, parallax_shift, equatorial. rewrite cosd_0, sind_0.
  intros (r & Pr & E1 & _ & E3). assert (r = 1) by nra. subst r. lra.
Qed.

Lemma atan_lip a b : Rabs (atan a - atan b) <= Rabs (a - b).
Proof.
  assert (M : forall u v, u < v -> 0 <= atan v - atan u <= v - u).
  { intros u v L. destruct (MVT_cor2 atan (fun x => / (1 + x * x)) u v L) as (c & E & _).
    - intros c _. replace (c * c) with (c ^ 2) by ring. apply derivable_pt_lim_atan.
    - rewrite E. assert (0 < / (1 + c * c) <= 1).
      { split; [apply Rinv_0_lt_compat; nra|]. rewrite <- Rinv_1. apply Rinv_le_contravar; nra. }
      set (k := / (1 + c * c)) in *. clearbody k. split; nra. }
  destruct (Rtotal_order a b) as [L|[L|L]].
  - pose proof (M a b L). rewrite !Rabs_left1 by lra. lra.
  - subst. replace (atan b - atan b) with 0 by ring. rewrite Rabs_R0. apply Rabs_pos.
  - pose proof (M b a L). rewrite !Rabs_pos_eq by lra. lra.
Qed.

(* denominators differing by at most k move the angle by at most k|a|/(b b') radians *)
Lemma atan2_denominator a b b' m : 0 < m -> m <= b -> m <= b' ->
  Rabs (Ratan2 a b - Ratan2 a b') <= Rabs a * Rabs (b - b') / (m * m).
Proof.
  intros Hm H1 H2. rewrite !Ratan2_pos by lra. eapply Rle_trans; [apply atan_lip|].
  replace (a / b - a / b') with (a * (- (b - b')) * / (b * b')) by (field; lra).
  rewrite !Rabs_mult, Rabs_Ropp, (Rabs_pos_eq (/ _)) by (left; apply Rinv_0_lt_compat; nra).
  unfold Rdiv. apply Rmult_le_compat_l; [apply Rmult_le_pos; apply Rabs_pos|]. apply Rinv_le_contravar; nra.
Qed.

(* the declination the library returns, against that of the shifted direction *)
Lemma declination_error x y p H d : -1.1 <= x <= 1.1 -> -1.1 <= y <= 1.1 -> 0 < p <= 0.003 -> -25 <= d <= 25 ->
  exists da dec true_dec,
    get_parallax_sun_right_ascension (N := MathR) (Fin x) (Fin p) (Fin H) (Fin d) = Ok (Fin da) /\
    get_topocentric_sun_declination (N := MathR) (Fin d) (Fin y) (Fin p) (Fin da) (Fin H) = Ok (Fin dec) /\
    points_along (parallax_shift d H p x y) true_dec (H - da) /\ -90 < true_dec < 90 /\
    Rabs (dec - true_dec) <= 0.002 * Rabs (x - y) /\
    sind dec * (cosd d - y * sind p * cosd H) = cosd dec * ((sind d - y * sind p) * cosd da).
Proof.
  intros Hx Hy Hp Hd. do 3 eexists. split; [apply right_ascension_parallax_val|]. split; [apply topocentric_declination_val|].
  fold (lib_dalpha x H p d). set (da := lib_dalpha x H p d).
  assert (P : 0 < sind p < 0.000053) by (rewrite sind_rad; unfold rad; split; [apply sin_gt_0; pose proof PI_pos; pose proof PI_4; nra|interval]).
  assert (C : 0.906 <= cosd d) by (rewrite cosd_rad; unfold rad; interval).
  assert (S : -0.4227 <= sind d <= 0.4227) by (rewrite sind_rad; unfold rad; split; interval).
  pose proof (cosd_bound H) as CH. pose proof (cosd_bound da) as CA.
  assert (Kx : -0.00006 <= x * sind p * cosd H <= 0.00006).
  { set (s := sind p) in *. assert (-0.00006 <= x * s <= 0.00006) by (clearbody s; split; nra).
    set (z := x * s) in *. clearbody z. split; nra. }
  assert (Ky : -0.00006 <= y * sind p <= 0.00006).
  { set (s := sind p) in *. clearbody s. split; nra. }
  assert (Ky2 : -0.00006 <= y * sind p * cosd H <= 0.00006).
  { set (z := y * sind p) in *. clearbody z. split; nra. }
  split; [apply fixed_declination_correct; lra|]. split; [apply atan2_deg_range; lra|].
  split.
  - rewrite <- deg_minus. unfold deg. rewrite Rabs_mult, Rabs_minus_sym.
    rewrite (Rabs_pos_eq (180 / PI)) by (left; apply Rdiv_lt_0_compat; [lra|apply PI_pos]).
    pose proof (atan2_denominator ((sind d - y * sind p) * cosd da) (cosd d - x * sind p * cosd H) (cosd d - y * sind p * cosd H) 0.9 ltac:(lra) ltac:(lra) ltac:(lra)) as D.
    assert (A : Rabs ((sind d - y * sind p) * cosd da) <= 0.423).
    { rewrite Rabs_mult. assert (Rabs (sind d - y * sind p) <= 0.423) by (apply Rabs_le; lra).
      assert (Rabs (cosd da) <= 1) by (apply Rabs_le; lra). pose proof (Rabs_pos (sind d - y * sind p)). pose proof (Rabs_pos (cosd da)). nra. }
    assert (B : Rabs (cosd d - x * sind p * cosd H - (cosd d - y * sind p * cosd H)) <= 0.000053 * Rabs (x - y)).
    { replace (cosd d - x * sind p * cosd H - (cosd d - y * sind p * cosd H)) with (- (x - y) * (sind p * cosd H)) by ring.
      rewrite Rabs_mult, Rabs_Ropp, Rmult_comm. apply Rmult_le_compat_r; [apply Rabs_pos|]. apply Rabs_le.
      set (s := sind p) in *. clearbody s. split; nra. }
    set (D1 := Ratan2 _ _ - Ratan2 _ _) in *.
    assert (E : Rabs D1 <= 0.423 * (0.000053 * Rabs (x - y)) / (0.9 * 0.9)).
    { eapply Rle_trans; [exact D|]. unfold Rdiv. apply Rmult_le_compat_r; [interval|].
      apply Rmult_le_compat; try apply Rabs_pos; assumption. }
    assert (PI_b : 0 < 180 / PI < 57.4) by (split; interval).
    pose proof (Rabs_pos D1). pose proof (Rabs_pos (x - y)). set (k := 180 / PI) in *. set (z := Rabs (x - y)) in *. clearbody k z.
    apply Rle_trans with (0.00003 * z * 57.4); [|lra]. apply Rmult_le_compat; lra.
  - pose proof (atan2_polar ((sind d - y * sind p) * cosd da) (cosd d - y * sind p * cosd H)) as P0. cbv zeta in P0.
    rewrite sind_deg, cosd_deg. destruct P0 as [P1 P2].
    set (cc := cos _) in *. set (ss := sin _) in *. set (X := (sind d - y * sind p) * cosd da) in *.
    set (Y := cosd d - y * sind p * cosd H) in *. set (r := sqrt _) in *. clearbody cc ss r X Y. subst X Y. ring.
Qed.

(* ---------------------------------------------------------------- C55: the pipeline *)
Notation lib_distance := (spa_distance sun_earth_distance_coeffs).
Notation lib_latitude := (spa_latitude heliocentric_latitude_coeffs).
Notation lib_obliquity := (spa_obliquity nut_rows).
Notation lib_apparent := (spa_apparent_longitude sun_earth_distance_coeffs heliocentric_longitude_coeffs nut_rows).
Notation lib_equatorial := (spa_equatorial sun_earth_distance_coeffs heliocentric_latitude_coeffs heliocentric_longitude_coeffs nut_rows).

Lemma pow8 : 10 ^ 8 = 100000000. Proof. lra. Qed.
Lemma sun_R_spec jde : sun_R jde = lib_distance (T_of jde).
Proof. unfold sun_R, spa_distance. now rewrite pow8. Qed.
Lemma sun_beta_spec jde : sun_beta jde = lib_latitude (T_of jde).
Proof. unfold sun_beta, spa_latitude, deg. rewrite pow8. unfold Rdiv. ring. Qed.
Lemma true_obl_spec jde : true_obl jde = lib_obliquity (T_of jde).
Proof. unfold true_obl, spa_obliquity, nut_obl. do 2 f_equal. lra. Qed.
Lemma sun_lambda_spec jde : 0 < sun_R jde -> same_angle (sun_lambda jde) (lib_apparent (T_of jde)).
Proof.
  intros H. unfold sun_lambda, spa_apparent_longitude, sun_L, spa_longitude, nut_lon. rewrite <- sun_R_spec, pow8.
  set (v := vsop_sum _ _ _ / 100000000).
  destruct (Rfmod_eq (deg v + 180) 360) as [k E]. exists (- k)%Z. rewrite E, opp_IZR. unfold deg, Q2R; simpl. field. split; [lra|apply PI_neq0].
Qed.

Lemma spherical_same a a' b : same_angle a a' -> spherical a b = spherical a' b.
Proof. intros H. unfold spherical. now rewrite (same_angle_sin a a' H), (same_angle_cos a a' H). Qed.

Lemma lib_equatorial_correct jde : 1721425 < jde < 5373485 -> lib_equatorial (T_of jde) (sun_alpha jde) (sun_delta jde).
Proof.
  intros H. pose proof (sun_beta_range jde H) as B. pose proof (sun_R_range jde H) as R.
  destruct (equatorial_coordinates_correct (sun_lambda jde) (true_obl jde) (sun_beta jde) ltac:(lra)) as (ra & dec & H1 & H2 & H3 & H4 & H5).
  rewrite geo_right_ascension_val in H1 by (apply cosd_ne0; lra). rewrite geo_declination_val in H2. injection H1 as <-. injection H2 as <-.
  fold (sun_alpha jde) (sun_delta jde) in *. split; [exact H5|].
  rewrite H3, <- true_obl_spec, <- sun_beta_spec. f_equal. apply spherical_same, sun_lambda_spec. lra.
Qed.

Lemma sin_par_pos jde : 1721425 < jde < 5373485 -> 0 < sind (lib_par jde).
Proof. intros H. apply sin_par_bound, H. Qed.

Lemma pipeline lat lon d el u : instant d u -> in_range u = true -> -90 <= lat <= 90 -> -100000000000 <= el <= 100000000000 ->
  exists jd jde m alpha delta H x0 y0 dec ha,
    get_julian_solar_day (N := MathR) d = Ok (Fin jd) /\ get_julian_ephemeris_day (N := MathR) d = Ok (Fin jde) /\
    get_mean_sidereal_time (N := MathR) (Fin jd) = Ok (Fin m) /\
    get_topocentric_position (N := MathR) (Fin lat) (Fin lon) d (Fin el) = Ok (Fin dec, Fin ha) /\
    let T := (jde - 2451545) / 36525 in
    lib_equatorial T alpha delta /\
    same_angle H (m + nutation_longitude T nut_rows * cos (lib_obliquity T) + lon - alpha) /\
    ellipsoid_point 0.99664719 lat x0 y0 /\
    let x := x0 + el / 6378140 * cosd lat in
    let y := y0 + el / 6378140 * sind lat in
    let p := 8.794 / 3600 * lib_distance T in
    (exists r, 0 < r /\ r * cosd ha = cosd delta * cosd H - x * sind p /\ r * sind ha = cosd delta * sind H) /\
    (exists r, 0 < r /\ r * cosd dec = cosd delta - y * sind p * cosd H /\
       r * sind dec = (sind delta - y * sind p) * cosd (H - ha)) /\ -90 < dec < 90 /\ 0 <= H < 360 /\ -90 < H - ha < 90.
Proof.
  intros Hi Hr Hlat Hel.
  destruct (position_val lat lon d el u Hi Hr Hlat Hel) as (x & y & jd & jde & x0 & y0 & J1 & J2 & B1 & B2 & EP & Ex & Ey & E & BD).
  exists jd, jde, (mean_sid jd), (sun_alpha jde), (sun_delta jde), (lib_H lon jd jde), x0, y0, (topo_dec lon x y jd jde), (topo_H lon x jd jde).
  repeat (split; [assumption|]). split; [apply mean_sidereal_val|]. split; [assumption|]. cbv zeta.
  fold (T_of jde). split; [now apply lib_equatorial_correct|]. split.
  { unfold lib_H. destruct (Rfmod_eq (app_sid jd jde + lon - sun_alpha jde) 360) as [k Ek]. exists (- k)%Z.
    rewrite Ek, opp_IZR. unfold app_sid. rewrite <- true_obl_spec. unfold nut_lon. ring. }
  split; [exact EP|]. rewrite <- Ex, <- Ey, <- sun_R_spec.
  replace (8.794 / 3600 * sun_R jde) with (lib_par jde) by (unfold lib_par; lra).
  pose proof (projected_range lat el x y x0 y0 EP Hel Ex Ey) as [RX RY].
  pose proof (cos_delta_bound jde B2) as CD. pose proof (sin_par_bound jde B2) as SP.
  pose proof (prod_bound x (sind (lib_par jde)) (cosd (lib_H lon jd jde)) 20000 ltac:(lra) RX ltac:(lra) (cosd_bound _)) as PX.
  pose proof (prod_bound y (sind (lib_par jde)) (cosd (lib_H lon jd jde)) 20000 ltac:(lra) RY ltac:(lra) (cosd_bound _)) as PY.
  destruct (dalpha_correct x (lib_par jde) (lib_H lon jd jde) (sun_delta jde) ltac:(lra)) as (r & Pr & E1 & E2 & E3 & E4 & Pc).
  split. { exists r. fold (topo_H lon x jd jde) in E1, E2. auto. }
  split.
  { unfold topo_dec, lib_dec, topo_H.
    replace (lib_H lon jd jde - (lib_H lon jd jde - lib_dalpha x (lib_H lon jd jde) (lib_par jde) (sun_delta jde)))
      with (lib_dalpha x (lib_H lon jd jde) (lib_par jde) (sun_delta jde)) by ring.
    set (da := lib_dalpha _ _ _ _). rewrite cosd_deg, sind_deg.
    set (a := (sind (sun_delta jde) - y * sind (lib_par jde)) * cosd da).
    set (b := cosd (sun_delta jde) - y * sind (lib_par jde) * cosd (lib_H lon jd jde)).
    pose proof (atan2_polar a b) as P. cbv zeta in P. destruct P as [P1 P2].
    exists (sqrt (b * b + a * a)). split; [apply sqrt_pos_of; unfold b; lra|]. split; assumption. }
  split; [exact BD|]. split; [unfold lib_H; apply Rfmod_range; lra|].
  unfold topo_H, lib_dalpha. ring_simplify (lib_H lon jd jde - (lib_H lon jd jde - deg (Ratan2 (- x * sind (lib_par jde) * sind (lib_H lon jd jde)) (cosd (sun_delta jde) - x * sind (lib_par jde) * cosd (lib_H lon jd jde))))).
  apply atan2_deg_range. lra.
Qed.

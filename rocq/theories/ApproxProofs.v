(* The engineering approximation of the sun's direction (get_declination, get_hour_angle) against the
   full computation, from 1901 to 2099. *)
From Coq Require Import Reals Qreals Lra Lia List Psatz.
From Flocq Require Import Core.
From Interval Require Import Tactic.
From Verif Require Import Py Num Cal TzCheck Clock Tables Constants SolarTime Solar RInst RTac SpecTime SpecDt SpecGeom SpecAstro SpecEng
  Trig GeoProofs SeriesProofs SolarTimeProofs JulianProofs PositionProofs SpaProofs FastProofs SpanProofs TopoProofs AngleLip B64Ranges B64Lift B64Final Samples ApproxNum.
Import ListNotations.
Local Open Scope R_scope.

(* ---------------------------------------------------------------- the longitude *)
Definition lon_rest : list (list (Q * Q * Q)) :=
  match heliocentric_longitude_coeffs with
  | (_ :: _ :: _ :: r0) :: (_ :: r1) :: rest => r0 :: r1 :: rest
  | _ => []
  end.
Lemma split_rows x (A B C D : Q * Q * Q) r0 r1 rest (term := fun q : Q * Q * Q => Q2R (fst (fst q)) * cos (Q2R (snd (fst q)) + Q2R (snd q) * x)) :
  vsop_sum 0 x ((A :: B :: C :: r0) :: (D :: r1) :: rest) = term A + term B + term C + x * term D + vsop_sum 0 x (r0 :: r1 :: rest).
Proof.
  destruct A as [[a1 a2] a3], B as [[b1 b2] b3], C as [[c1 c2] c3], D as [[d1 d2] d3]. cbn [vsop_sum vsop_series fold_right fst snd]. unfold term. cbn [fst snd].
  fold (vsop_series x r0) (vsop_series x r1). ring.
Qed.
Lemma lon_split x : vsop_sum 0 x heliocentric_longitude_coeffs =
  175347046 + 3341656 * cos (4.6692568 + 6283.07585 * x) + 34894 * cos (4.6261 + 12566.1517 * x) + 628331966747 * x + vsop_sum 0 x lon_rest.
Proof.
  etransitivity; [exact (split_rows x (175347046.0, 0, 0)%Q (3341656.0, 4.6692568, 6283.07585)%Q (34894.0, 4.6261, 12566.1517)%Q (628331966747.0, 0, 0)%Q _ _ _)|].
  fold lon_rest. cbn [fst snd]. match goal with |- _ + vsop_sum 0 x ?l = _ => change l with lon_rest end. generalize (vsop_sum 0 x lon_rest). intros w.
  replace (Q2R 0 + Q2R 0 * x) with 0 by (unfold Q2R; simpl; lra). rewrite cos_0.
  replace (Q2R 4.6692568) with 4.6692568 by (unfold Q2R; simpl; lra). replace (Q2R 6283.07585) with 6283.07585 by (unfold Q2R; simpl; lra).
  replace (Q2R 4.6261) with 4.6261 by (unfold Q2R; simpl; lra). replace (Q2R 12566.1517) with 12566.1517 by (unfold Q2R; simpl; lra).
  unfold Q2R; simpl. lra.
Qed.
Lemma amp_lon : amp_sum 0 0.1 lon_rest <= 50652.
Proof.
  cbn [amp_sum lon_rest heliocentric_longitude_coeffs].
  repeat match goal with |- context [amplitude ?l] => let q := eval vm_compute in (amplitude l) in replace (amplitude l) with q by (vm_compute; reflexivity) end.
  unfold Q2R; cbn [Qnum Qden pow]. lra.
Qed.
(* the mean longitude, radians *)
Definition x_mean (T : R) : R := 1.75347046 + 628.331966747 * T + PI.
Lemma lambda_main jde : -1 <= T_of jde <= 1 -> 1721425 < jde < 5373485 -> exists (k : Z) et, -0.00155 <= et <= 0.00155 /\
  rad (sun_lambda jde) = x_mean (T_of jde) + cen 1 (x_mean (T_of jde)) + et + IZR k * (2 * PI).
Proof.
  intros HT BJ. set (T := T_of jde) in *.
  destruct (nutation_bounds T) as (n & _ & _ & _ & NB & _). destruct (NB ltac:(lra)) as [N1 _].
  assert (R1 : 0.98 <= vsop_sum 0 (T / 10) sun_earth_distance_coeffs / 100000000 <= 1.02).
  { destruct (distance_bounds (T / 10) ltac:(lra)) as (r & E & _ & R1). rewrite distance_val in E. injection E as <-. exact (R1 ltac:(lra)). }
  unfold sun_lambda, sun_L, sun_R, nut_lon. fold T. set (r := vsop_sum 0 (T / 10) sun_earth_distance_coeffs / 100000000) in *.
  destruct (Rfmod_eq (deg (vsop_sum 0 (T / 10) heliocentric_longitude_coeffs / 100000000) + 180) 360) as (k & K). rewrite K.
  rewrite lon_split. pose proof (vsop_sum_bound 0 0.1 (T / 10) lon_rest ltac:(lra) ltac:(lra)) as B. pose proof amp_lon as AL.
  set (w := vsop_sum 0 (T / 10) lon_rest) in *. set (nl := nutation_longitude T nut_rows) in *.
  set (c1 := cos (4.6692568 + 6283.07585 * (T / 10))). set (c2 := cos (4.6261 + 12566.1517 * (T / 10))).
  set (x := x_mean T). set (d1 := - cos (x + 2.91578634)). set (d2 := cos (2 * x + 1.11915908)).
  assert (C1 : Rabs (c1 - d1) <= 0.024382).
  { unfold d1. rewrite <- cos_1. unfold c1. replace (x + 2.91578634 + PI) with (x + 2.91578634 - PI + 2 * PI) by ring. rewrite cos_2.
    eapply Rle_trans; [apply cos_lip|]. unfold x, x_mean. apply Rabs_le. lra. }
  assert (C2 : Rabs (c2 - d2) <= 0.048764).
  { unfold c2, d2. replace (2 * x + 1.11915908) with (2 * x + 1.11915908 - 2 * PI + 2 * PI) by ring. rewrite cos_2.
    eapply Rle_trans; [apply cos_lip|]. unfold x, x_mean. apply Rabs_le. lra. }
  apply Rabs_le_inv in C1, C2. apply Rabs_def2 in N1.
  assert (AB : 0.0055 <= 20.4898 / (3600 * r) <= 0.00581).
  { clearbody r. split; interval. }
  set (ab := 20.4898 / (3600 * r)) in *. replace (- 20.4898 / (3600 * r)) with (- ab) by (unfold ab; lra).
  exists (- k)%Z, (0.03341656 * (c1 - d1) + 0.00034894 * (c2 - d2) + w / 100000000 + rad (nl - ab)). split.
  - assert (RN : -0.0002 <= rad (nl - ab) <= 0.0000018). { assert (N2 : -0.0056 <= nl <= 0.0056) by lra. clearbody nl ab. unfold rad. split; interval. }
    lra.
  - unfold cen. fold d2. replace (- cos (x + 2.91578634)) with d1 by reflexivity. rewrite opp_IZR.
    replace (1 * - 0.03341656 * cos (x + 2.91578634)) with (0.03341656 * d1) by (unfold d1; lra).
    transitivity ((175347046 + 3341656 * c1 + 34894 * c2 + 628331966747 * (T / 10) + w) / 100000000 + PI - IZR k * (2 * PI) + rad (nl - ab)).
    + unfold rad, deg. field. apply PI_neq0.
    + unfold x, x_mean. lra.
Qed.

(* ---------------------------------------------------------------- right ascension *)
Lemma obl_modern jde : -1 <= T_of jde <= 1 -> 23.42 <= true_obl jde <= 23.46.
Proof.
  intros HT. unfold true_obl, nut_obl.
  destruct (nutation_bounds (T_of jde)) as (n & _ & _ & _ & B & _). destruct (B ltac:(lra)) as [_ B2].
  apply Rabs_def2 in B2. set (u := T_of jde / 10 / 10).
  assert (U : -0.01 <= u <= 0.01) by (unfold u; lra). clearbody u.
  assert (M : 23.425 <= mean_obliquity u <= 23.455).
  { unfold mean_obliquity. split; interval with (i_bisect u, i_depth 20). }
  lra.
Qed.

Lemma polar_eq r r' a b : 0 < r -> 0 < r' -> r * cos a = r' * cos b -> r * sin a = r' * sin b -> cos a = cos b /\ sin a = sin b.
Proof.
  intros H H' C S. pose proof (sin2_cos2 a) as A. pose proof (sin2_cos2 b) as B. unfold Rsqr in A, B.
  assert (Q : r * r = r' * r').
  { transitivity (r * cos a * (r * cos a) + r * sin a * (r * sin a)); [transitivity (r * r * (sin a * sin a + cos a * cos a)); [rewrite A|]; ring|].
    rewrite C, S. transitivity (r' * r' * (sin b * sin b + cos b * cos b)); [|rewrite B]; ring. }
  assert (E : r = r') by nra. subst r'. split; apply (Rmult_eq_reg_l r); lra.
Qed.
Lemma angle_eq a b : cos a = cos b -> sin a = sin b -> exists k : Z, a = b + IZR k * (2 * PI).
Proof.
  intros C S. destruct (same_sincos (deg a) (deg b)) as (k & K).
  - now rewrite !sind_deg.
  - now rewrite !cosd_deg.
  - exists k. apply (f_equal rad) in K. unfold rad, deg in K. replace a with (a * (180 / PI) * (PI / 180)) by (field; apply PI_neq0). rewrite K. field. apply PI_neq0.
Qed.
Lemma rho_polar ep l : 0 < ep < 90 -> exists k : Z, Ratan2 (sin l * cosd ep) (cos l) = l - rho ep l + IZR k * (2 * PI).
Proof.
  intros He. set (t := tan (ep * (PI / 360))). set (q := t ^ 2).
  assert (PI_POS := PI_RGT_0).
  assert (CP : 0 < cos (ep * (PI / 360))) by (apply cos_gt_0; nra).
  assert (T0 : 0 < t) by (apply tan_gt_0; nra).
  assert (T1 : t < 1). { rewrite <- tan_PI4. apply tan_increasing; nra. }
  assert (Q : 0 < q < 1) by (unfold q; simpl; split; nra).
  assert (CE : cosd ep * (1 + q) = 1 - q).
  { rewrite cosd_rad. unfold rad. replace (ep * (PI / 180)) with (2 * (ep * (PI / 360))) by field. rewrite cos_2a. unfold q, t, tan. field_simplify; [|lra|lra].
    pose proof (sin2_cos2 (ep * (PI / 360))) as S. unfold Rsqr in S. set (c := cos _) in *. set (s := sin _) in *.
    apply (Rmult_eq_reg_r (c ^ 2)); [|simpl; nra]. field_simplify; [|lra|lra]. replace (c ^ 4) with (c ^ 2 * (1 - s * s)) by (rewrite <- S; ring).
    replace (c ^ 2) with (1 - s * s) by (rewrite <- S; ring). ring. }
  pose proof (COS_bound (2 * l)) as CB. set (D := 1 + q * cos (2 * l)). assert (D0 : 0 < D) by (unfold D; nra).
  set (z := q * sin (2 * l) / D). change (rho ep l) with (atan z).
  assert (Z0 : 0 < sqrt (1 + z²)) by (apply sqrt_lt_R0; pose proof (Rle_0_sqr z); lra).
  assert (Z1 : D * z = q * sin (2 * l)) by (unfold z; field; lra). clearbody z.
  assert (CA : cos (atan z) = / sqrt (1 + z²)) by (rewrite cos_atan; reflexivity).
  assert (SA : sin (atan z) = z / sqrt (1 + z²)) by (rewrite sin_atan; reflexivity).
  destruct (atan2_polar (sin l * cosd ep) (cos l)) as [X Y]. cbv zeta in X, Y.
  set (w := l - atan z). set (R1 := D * sqrt (1 + z²) / (1 + q)).
  assert (R0 : 0 < R1) by (unfold R1; apply Rdiv_lt_0_compat; [apply Rmult_lt_0_compat|]; lra).
  assert (X2 : R1 * cos w = cos l).
  { unfold w, R1. rewrite cos_minus, CA, SA. transitivity ((D * cos l + D * z * sin l) / (1 + q)); [field; lra|]. rewrite Z1. unfold D. rewrite sin_2a, cos_2a.
    transitivity (cos l * (1 + q * (sin l * sin l + cos l * cos l)) / (1 + q)); [field; lra|]. pose proof (sin2_cos2 l) as S. unfold Rsqr in S. rewrite S. field. lra. }
  assert (Y2 : R1 * sin w = sin l * cosd ep).
  { replace (cosd ep) with ((1 - q) / (1 + q)) by (rewrite <- CE; field; lra).
    unfold w, R1. rewrite sin_minus, CA, SA. transitivity ((D * sin l - D * z * cos l) / (1 + q)); [field; lra|]. rewrite Z1. unfold D. rewrite sin_2a, cos_2a.
    transitivity (sin l * (1 - q * (sin l * sin l + cos l * cos l)) / (1 + q)); [field; lra|]. pose proof (sin2_cos2 l) as S. unfold Rsqr in S. rewrite S. field. lra. }
  set (r := sqrt (cos l * cos l + sin l * cosd ep * (sin l * cosd ep))) in *.
  assert (RP : 0 < r).
  { apply sqrt_lt_R0. pose proof (sin2_cos2 l) as S. unfold Rsqr in S. assert (0 < cosd ep) by (apply cosd_pos; lra).
    destruct (Req_dec (cos l) 0) as [E|E]; [rewrite E in *|]; [|nra]. assert (sin l * sin l = 1) by lra.
    replace (0 * 0 + sin l * cosd ep * (sin l * cosd ep)) with (sin l * sin l * (cosd ep * cosd ep)) by ring. rewrite H0. nra. }
  destruct (polar_eq r R1 (Ratan2 (sin l * cosd ep) (cos l)) w RP R0 ltac:(lra) ltac:(lra)) as [C S].
  exact (angle_eq _ _ C S).
Qed.
Lemma alpha_main jde : 1721425 < jde < 5373485 -> let l := rad (sun_lambda jde) in
  exists (k : Z) e, -0.0006 <= e <= 0.0006 /\ sun_alpha jde = deg (l - rho (true_obl jde) l) + e + 360 * IZR k.
Proof.
  intros BJ l. pose proof (true_obl_range jde BJ) as O. pose proof (sun_beta_range jde BJ) as B. unfold sun_alpha.
  destruct (Rfmod_eq (deg (Ratan2 (sind (sun_lambda jde) * cosd (true_obl jde) - tand (sun_beta jde) * sind (true_obl jde)) (cosd (sun_lambda jde)))) 360) as (k0 & K0).
  rewrite K0. rewrite (sind_rad (sun_lambda jde)), (cosd_rad (sun_lambda jde)). fold l. set (ep := true_obl jde) in *. set (b := sun_beta jde) in *.
  assert (SB : -0.0000075 <= tand b * sind ep <= 0.0000075).
  { clearbody b ep. rewrite sind_rad. unfold tand, rad. rewrite ?sind_rad, ?cosd_rad. unfold rad. split; interval. }
  assert (CE : 0.91 <= cosd ep <= 0.93) by (clearbody ep; rewrite cosd_rad; unfold rad; split; interval).
  destruct (atan2_near (cos l) (sin l * cosd ep) (cos l) (sin l * cosd ep - tand b * sind ep) 0.91 0.0000075) as (k1 & K1).
  - lra.
  - pose proof (sin2_cos2 l) as S. unfold Rsqr in S. replace (sin l * cosd ep * (sin l * cosd ep)) with (sin l * sin l * (cosd ep * cosd ep)) by ring.
    pose proof (Rle_0_sqr (sin l)) as S1. unfold Rsqr in S1. assert (0.91 * 0.91 <= cosd ep * cosd ep <= 1) by (split; nra). nra.
  - nra.
  - destruct (rho_polar ep l ltac:(lra)) as (k2 & K2). rewrite K2 in K1. apply Rabs_le_inv in K1.
    set (A := Ratan2 (sin l * cosd ep - tand b * sind ep) (cos l)) in *. set (r := rho ep l) in *.
    exists (k1 + k2 - k0)%Z, (deg (A - (l - r + IZR k2 * (2 * PI)) - IZR k1 * (2 * PI))). split.
    + assert (M : -0.0000083 <= A - (l - r + IZR k2 * (2 * PI)) - IZR k1 * (2 * PI) <= 0.0000083).
      { assert (0.0000075 / (0.91 - 0.0000075) <= 0.0000083) by interval. lra. }
      set (e := A - _ - _) in *. clearbody e. unfold deg. split; interval.
    + rewrite minus_IZR, plus_IZR. unfold deg. field. apply PI_neq0.
Qed.

(* ---------------------------------------------------------------- declination *)
Lemma dec_rad v : rad (masters_declination v) = dfm v.
Proof. unfold masters_declination, dfm, sind, rad. replace (360 / 365 * (v - 81) * PI / 180) with (2 * PI / 365 * (v - 81)) by field. ring. Qed.
Lemma asin_between a lo hi : -1 <= a <= 1 -> - (PI / 2) <= lo -> hi <= PI / 2 -> lo <= hi -> sin lo <= a <= sin hi -> lo <= asin a <= hi.
Proof.
  intros A L H LH [B1 B2]. pose proof (asin_bound a) as AB. rewrite <- (sin_asin a) in B1, B2 by lra. split.
  - apply sin_incr_0; lra.
  - apply sin_incr_0; lra.
Qed.
Lemma prod_le a b ka kb : - ka <= a <= ka -> - kb <= b <= kb -> - (ka * kb) <= a * b <= ka * kb.
Proof. intros A B. split; nra. Qed.
Lemma delta_gen jde x et (k : Z) df D : -1 <= T_of jde <= 1 -> 1721425 < jde < 5373485 ->
  rad (sun_lambda jde) = x + cen 1 x + et + IZR k * (2 * PI) -> -0.5 <= df <= 0.5 -> 0 <= D <= 2 ->
  sin (df - D * (PI / 180)) <= sin (true_obl jde * (PI / 180)) * sin (x + cen 1 x + et) <= sin (df + D * (PI / 180)) ->
  - D - 0.0019 <= sun_delta jde - deg df <= D + 0.0019.
Proof.
  intros HT BJ E DF HD D'. pose proof (obl_modern jde HT) as O. pose proof (sun_beta_range jde BJ) as B. unfold sun_delta.
  set (ep := true_obl jde) in *. set (b := sun_beta jde) in *.
  assert (SL : sind (sun_lambda jde) = sin (x + cen 1 x + et)).
  { rewrite sind_rad, E. replace (IZR k * (2 * PI)) with (2 * IZR k * PI) by ring. apply sin_2kPI. }
  rewrite <- SL in D'. replace (ep * (PI / 180)) with (rad ep) in D' by reflexivity. rewrite <- sind_rad in D'.
  set (sl := sind (sun_lambda jde)) in *. pose proof (sind_bound (sun_lambda jde)) as BL. fold sl in BL.
  assert (SE : 0.39 <= sind ep <= 0.40) by (clearbody ep; rewrite sind_rad; unfold rad; split; interval).
  assert (CE : 0.91 <= cosd ep <= 0.92) by (clearbody ep; rewrite cosd_rad; unfold rad; split; interval).
  assert (SB : -0.0000175 <= sind b <= 0.0000175) by (clearbody b; rewrite sind_rad; unfold rad; split; interval).
  assert (CB : 0.9999999998 <= cosd b <= 1) by (clearbody b; rewrite cosd_rad; unfold rad; split; interval).
  set (S := sind ep * sl) in *. set (S' := sind b * cosd ep + cosd b * sind ep * sl) in *.
  assert (SS : -0.000017 <= S' - S <= 0.000017).
  { unfold S', S. replace (sind b * cosd ep + cosd b * sind ep * sl - sind ep * sl) with (sind b * cosd ep + (cosd b - 1) * (sind ep * sl)) by ring.
    assert (-0.4 <= sind ep * sl <= 0.4) by (pose proof (prod_le (sind ep) sl 0.4 1); lra). assert (-0.0000161 <= sind b * cosd ep <= 0.0000161) by (pose proof (prod_le (sind b) (cosd ep) 0.0000175 0.92); lra).
    assert (-0.0000001 <= (cosd b - 1) * (sind ep * sl) <= 0.0000001) by (pose proof (prod_le (cosd b - 1) (sind ep * sl) 0.0000000002 0.4); lra). lra. }
  assert (SR : -0.4 <= S <= 0.4) by (unfold S; pose proof (prod_le (sind ep) sl 0.4 1); lra).
  pose proof PI_4 as P4. pose proof PI_RGT_0 as PP. assert (P3 : 3.14 < PI < 3.15) by (split; interval).
  assert (DD : 0 <= D * (PI / 180) <= 0.04) by nra.
  assert (AS : df - D * (PI / 180) <= asin S <= df + D * (PI / 180)) by (apply asin_between; lra).
  assert (M1 : forall a, -0.41 <= a <= 0.41 -> Rabs (asin a) <= 0.43).
  { intros a Ha. apply Rabs_le. apply asin_between; try lra. split; interval. }
  pose proof (asin_lip_inner S' S 0.43 ltac:(lra) ltac:(lra) ltac:(lra) (M1 S' ltac:(lra)) (M1 S ltac:(lra))) as L.
  assert (L2 : Rabs (asin S' - asin S) <= 0.0000305).
  { eapply Rle_trans; [exact L|]. assert (A : Rabs (S' - S) <= 0.000017) by (apply Rabs_le; lra). pose proof (Rabs_pos (S' - S)) as A0.
    set (a := Rabs (S' - S)) in *. clearbody a. interval. }
  apply Rabs_le_inv in L2.
  assert (G : - (0.0000305) - D * (PI / 180) <= asin S' - df <= 0.0000305 + D * (PI / 180)) by lra.
  replace (deg (asin S') - deg df) with (deg (asin S' - df)) by (unfold deg; ring).
  replace (- D - 0.0019) with (deg (rad (- D - 0.0019))) by (unfold deg, rad; field; lra). replace (D + 0.0019) with (deg (rad (D + 0.0019))) by (unfold deg, rad; field; lra).
  assert (MONO : forall a c, a <= c -> deg a <= deg c). { intros a c H. unfold deg. apply Rmult_le_compat_r; [|exact H]. apply Rlt_le, Rdiv_lt_0_compat; lra. }
  assert (K : 0.0000305 <= rad 0.0019) by (unfold rad; interval). unfold rad in *. split; apply MONO; nra.
Qed.

(* ---------------------------------------------------------------- parallax *)
Lemma deg_half c : -90 < deg c < 90 -> - (PI / 2) < c < PI / 2.
Proof.
  intros [A B]. pose proof PI_RGT_0 as P. assert (E : c = deg c * (PI / 180)) by (unfold deg; field; lra). rewrite E. nra.
Qed.
Lemma deg_strict c : - (PI / 2) < c < PI / 2 -> -90 < deg c < 90.
Proof.
  intros [A B]. pose proof PI_RGT_0 as P. assert (E : c = deg c * (PI / 180)) by (unfold deg; field; lra). rewrite E in A, B. split; nra.
Qed.
Lemma atan2_unit a b : -90 < deg a < 90 -> a = b -> Ratan2 (sin a) (cos a) = b.
Proof.
  intros A <-. assert (C : 0 < cos a) by (rewrite <- cosd_deg; now apply cosd_pos). rewrite Ratan2_pos by exact C. apply deg_half in A.
  replace (sin a / cos a) with (tan a) by reflexivity. apply atan_tan. lra.
Qed.
Lemma no_turn a b (k : Z) e : -90 < deg a < 90 -> -90 < deg b < 90 -> e < 1 -> Rabs (a - b - IZR k * (2 * PI)) <= e -> k = 0%Z.
Proof.
  intros A B He K. assert (P3 : 3.14 < PI < 3.15) by (split; interval).
  apply deg_half in A, B. apply Rabs_le_inv in K.
  assert (-1 < IZR k < 1) as [H1 H2] by (split; nra). apply lt_IZR in H1, H2. lia.
Qed.
Lemma parallax_small x y H p d : -1.016 <= x <= 1.016 -> -1.016 <= y <= 1.016 -> 0 < sind p < 0.000045 -> 0.91 <= cosd d <= 1 -> -90 < d < 90 ->
  -0.003 <= lib_dalpha x H p d <= 0.003 /\ -0.0048 <= lib_dec y H p d (lib_dalpha x H p d) - d <= 0.0048.
Proof.
  intros Hx Hy Hp Hc Hd. pose proof (sincosd H) as N. pose proof (sincosd d) as ND. pose proof (xk_bound x (sind p) Hx Hp) as KX. pose proof (xk_bound y (sind p) Hy Hp) as KY.
  pose proof (cosd_bound H) as CH. pose proof (sind_bound H) as SH.
  set (xk := x * sind p) in *. set (yk := y * sind p) in *.
  assert (A1 : -0.003 <= lib_dalpha x H p d <= 0.003).
  { unfold lib_dalpha. replace (- x * sind p * sind H) with (- xk * sind H) by (unfold xk; ring). fold xk.
    assert (CX : -0.000046 <= xk * cosd H <= 0.000046) by (pose proof (prod_le (xk) (cosd H) 0.000046 1); lra).
    pose proof (atan2_deg_range (- xk * sind H) (cosd d - xk * cosd H) ltac:(lra)) as R.
    destruct (atan2_near (cosd d) 0 (cosd d - xk * cosd H) (- xk * sind H) 0.91 0.000046) as (k & K).
    - lra.
    - nra.
    - replace ((cosd d - xk * cosd H - cosd d) * (cosd d - xk * cosd H - cosd d) + (- xk * sind H - 0) * (- xk * sind H - 0)) with (xk * xk * (sind H * sind H + cosd H * cosd H)) by ring.
      rewrite N. nra.
    - assert (Z0 : Ratan2 0 (cosd d) = 0) by (rewrite Ratan2_pos by lra; replace (0 / cosd d) with 0 by (field; lra); apply atan_0). rewrite Z0 in K.
      assert (E : 0.000046 / (0.91 - 0.000046) <= 0.000051) by interval.
      assert (k = 0%Z) by (eapply no_turn; [exact R| |  |exact K]; [unfold deg; lra|lra]). subst k. replace (_ - 0 - 0 * (2 * PI)) with (Ratan2 (- xk * sind H) (cosd d - xk * cosd H)) in K by ring.
      apply Rabs_le_inv in K. set (a := Ratan2 _ _) in *. clearbody a. assert (M : -0.000051 <= a <= 0.000051) by lra. unfold deg. split; interval. }
  split; [exact A1|]. set (da := lib_dalpha x H p d) in *.
  assert (CD : 0.99999 <= cosd da <= 1) by (clearbody da; rewrite cosd_rad; unfold rad; split; interval).
  unfold lib_dec. fold yk.
  assert (CY : -0.000046 <= yk * cosd H <= 0.000046) by (pose proof (prod_le (yk) (cosd H) 0.000046 1); lra). assert (SD := sind_bound d).
  assert (SY : -0.000057 <= (sind d - yk) * cosd da - sind d <= 0.000057).
  { replace ((sind d - yk) * cosd da - sind d) with (sind d * (cosd da - 1) - yk * cosd da) by ring.
    assert (-0.00001 <= sind d * (cosd da - 1) <= 0.00001) by (pose proof (prod_le (sind d) ((cosd da - 1)) 1 0.00001); lra). assert (-0.000046 <= yk * cosd da <= 0.000046) by (pose proof (prod_le (yk) (cosd da) 0.000046 1); lra). lra. }
  set (Y := (sind d - yk) * cosd da) in *. set (X := cosd d - yk * cosd H) in *.
  pose proof (atan2_deg_range Y X ltac:(unfold X; lra)) as R.
  destruct (atan2_near (cosd d) (sind d) X Y 1 0.000075) as (k & K).
  - lra.
  - lra.
  - unfold X. nra.
  - assert (Z0 : Ratan2 (sind d) (cosd d) = rad d). { rewrite sind_rad, cosd_rad. apply atan2_unit; [|reflexivity]. replace (deg (rad d)) with d by (unfold deg, rad; field; apply PI_neq0). lra. }
    rewrite Z0 in K. assert (E : 0.000075 / (1 - 0.000075) <= 0.000076) by interval.
    assert (k = 0%Z). { eapply no_turn; [exact R| | |exact K]; [replace (deg (rad d)) with d by (unfold deg, rad; field; apply PI_neq0); lra|lra]. }
    subst k. replace (_ - rad d - 0 * (2 * PI)) with (Ratan2 Y X - rad d) in K by ring. apply Rabs_le_inv in K.
    replace (deg (Ratan2 Y X) - d) with (deg (Ratan2 Y X - rad d)) by (unfold deg, rad; field; apply PI_neq0).
    set (a := Ratan2 Y X - rad d) in *. clearbody a. assert (M : -0.000076 <= a <= 0.000076) by lra. unfold deg. split; interval.
Qed.

(* ---------------------------------------------------------------- the calendar *)
(* u is day [day] of year y (1901-2099), minute 60 h + m of the day, and r in [0,1) of that minute; n
   days from noon of 1 January 2000 to midnight, 1 January of year y, less half a day *)
Lemma calendar u day h m : (midnight 1901 1 1 <= u < midnight 2100 1 1)%Z -> civil_clock u day h m ->
  exists (y n : Z) r, (1901 <= y <= 2099)%Z /\ 0 <= r < 1 /\ (1 <= day <= 366)%Z /\ (0 <= h < 24)%Z /\ (0 <= m < 60)%Z /\
    jd_utc u - 2451545 = IZR n - 1 / 2 + (IZR day - 1) + (60 * IZR h + IZR m + r) / 1440 /\
    (exists j i, y = 2000 + 4 * j + i /\ n = 1461 * j + 365 * i + (if i =? 0 then 0 else 1) /\ 0 <= i < 4)%Z.
Proof.
  intros Hu ((y & Hy & Hs) & Hh & Hm). cbv zeta in Hs. rewrite !midnight_year in *.
  assert (DB : forall z, (1901 <= z <= 2100)%Z -> (days_before_year z = 365 * (z - 1) + (z - 1) / 4 - 15)%Z).
  { intros z Hz. unfold days_before_year. assert ((z - 1) / 100 = 19 \/ (z - 1) / 100 = 20)%Z by zlia.
    assert (((z - 1) / 400 = 4 /\ (z - 1) / 100 = 19) \/ ((z - 1) / 400 = 5 /\ (z - 1) / 100 = 20) \/ ((z - 1) / 400 = 4 /\ (z - 1) / 100 = 20))%Z by zlia.
    zlia. }
  assert (MONO : forall a b, (a <= b -> days_before_year a <= days_before_year b)%Z).
  { intros a b Hab. unfold days_before_year. zlia. }
  assert (Yr : (1901 <= y <= 2099)%Z).
  { split.
    - destruct (Z_le_gt_dec 1901 y); [assumption|]. pose proof (MONO (y + 1) 1901 ltac:(zlia))%Z. zlia.
    - destruct (Z_le_gt_dec y 2099); [assumption|]. pose proof (MONO 2100 y ltac:(zlia))%Z. zlia. }
  pose proof (DB y ltac:(zlia)) as D1. pose proof (DB (y + 1)%Z ltac:(zlia)) as D2.
  set (s := (midnight y 1 1)%Z) in *.
  exists y, (days_before_year y - 730119)%Z, (IZR (u - (days_before_year y * 86400000000 + (((day - 1) * 24 + h) * 60 + m) * 60000000)) / 60000000).
  split; [exact Yr|]. rewrite D1 in *. rewrite D2 in *. clear D1 D2 DB MONO.
  assert (Q : (((y - 1) / 4) * 4 <= y - 1 < ((y - 1) / 4) * 4 + 4)%Z) by zlia. set (q := ((y - 1) / 4)%Z) in *.
  assert (Q2 : ((y + 1 - 1) / 4 <= q + 1)%Z) by (unfold q; zlia). set (q2 := ((y + 1 - 1) / 4)%Z) in *. clearbody q2.
  set (a := (u - _)%Z). assert (A : (0 <= a < 60000000)%Z) by (unfold a; zlia).
  split. { destruct A as [A1 A2]. apply IZR_le in A1. apply IZR_lt in A2. split; lra. }
  split; [zlia|]. split; [zlia|]. split; [zlia|]. split.
  - unfold jd_utc. replace u with (a + ((365 * (y - 1) + q - 15) * 86400000000 + (((day - 1) * 24 + h) * 60 + m) * 60000000))%Z at 1 by (unfold a; zlia).
    clearbody a q. rewrite !plus_IZR, !mult_IZR, !minus_IZR, !plus_IZR, !mult_IZR, !minus_IZR, !plus_IZR, !mult_IZR, !minus_IZR. lra.
  - exists ((y - 2000) / 4)%Z, ((y - 2000) mod 4)%Z. split; [zlia|]. split; [|zlia].
    assert (((y - 2000) mod 4 = 0 /\ q = 499 + (y - 2000) / 4) \/ ((y - 2000) mod 4 <> 0 /\ q = 500 + (y - 2000) / 4))%Z as [[E1 E2]|[E1 E2]] by (unfold q; zlia).
    + rewrite E1, E2. cbn [Z.eqb]. zlia.
    + rewrite E2. destruct (Z.eqb_spec ((y - 2000) mod 4) 0); [contradiction|]. zlia.
Qed.

Lemma rate_val : 0.985647359 <= deg 628.331966747 / 36525 <= 0.985647361.
Proof. unfold deg. split; interval. Qed.
Lemma phase_val : 100.466456 <= deg 1.75347046 <= 100.466457.
Proof. unfold deg. split; interval. Qed.
Lemma mean_deg T : deg (x_mean T) = deg 1.75347046 + 180 + deg 628.331966747 / 36525 * (36525 * T).
Proof. unfold x_mean, deg. pose proof PI_neq0. transitivity ((1.75347046 + 628.331966747 * T) * (180 / PI) + PI * (180 / PI)); [lra|]. replace (PI * (180 / PI)) with 180 by (field; assumption). lra. Qed.
(* f days after midnight of day [day] of year y: the mean longitude *)
Lemma phase_gen u day f y n j i tt jde : (1901 <= y <= 2099)%Z -> (1 <= day <= 366)%Z -> -0.6 <= f <= 1.6 ->
  jd_utc u - 2451545 = IZR n - 1 / 2 + (IZR day - 1) + f ->
  (y = 2000 + 4 * j + i)%Z -> (n = 1461 * j + 365 * i + (if i =? 0 then 0 else 1))%Z -> (0 <= i < 4)%Z ->
  jde = jd_utc u + tt -> 0 <= tt <= 0.00081 ->
  exists s, -0.78 <= s - 0.98564736 * f <= 1.464 /\ x_mean (T_of jde) = xm 0 (IZR day) s + IZR (y - 2000) * (2 * PI).
Proof.
  intros Hy Hd F Eu Ey En Hi Ej Ht.
  assert (ET : 36525 * T_of jde = IZR n - 1 / 2 + (IZR day - 1) + f + tt) by (unfold T_of; rewrite Ej; lra).
  assert (D : 1 <= IZR day <= 366) by (split; apply IZR_le; lia).
  set (rt := deg 628.331966747 / 36525). set (c0 := deg 1.75347046). pose proof rate_val as RV. pose proof phase_val as PV. fold rt in RV. fold c0 in PV.
  pose proof (mean_deg (T_of jde)) as MD. rewrite ET in MD. fold rt c0 in MD.
  assert (SB : -0.78 <= deg (x_mean (T_of jde)) - 280 - 0.98564736 * (IZR day - 1) - 360 * IZR (y - 2000) - 0.98564736 * f <= 1.464).
  { rewrite MD. replace (y - 2000)%Z with (4 * j + i)%Z by lia. rewrite En. clearbody rt c0.
    assert (IB : (i = 0 /\ -24 <= j <= 24 \/ i = 1 /\ -25 <= j <= 24 \/ i = 2 /\ -25 <= j <= 24 \/ i = 3 /\ -25 <= j <= 24)%Z) by lia.
    rewrite !plus_IZR, !mult_IZR.
    assert (R1 : -0.000000001 <= rt - 0.98564736 <= 0.000000001) by lra.
    assert (J : -25 <= IZR j <= 24) by (destruct IB as [[_ ?]|[[_ ?]|[[_ ?]|[_ ?]]]]; split; apply IZR_le; lia).
    assert (E : rt * (1461 * IZR j + 365 * IZR i + IZR (if (i =? 0)%Z then 0 else 1) - 1 / 2 + (IZR day - 1) + f + tt) =
      0.98564736 * (1461 * IZR j + 365 * IZR i + IZR (if (i =? 0)%Z then 0 else 1) - 1 / 2 + (IZR day - 1) + f + tt)
      + (rt - 0.98564736) * (1461 * IZR j + 365 * IZR i + IZR (if (i =? 0)%Z then 0 else 1) - 1 / 2 + (IZR day - 1) + f + tt)) by lra.
    rewrite E. clear E MD ET Ej Eu Ey En.
    destruct IB as [[-> JB]|[[-> JB]|[[-> JB]|[-> JB]]]]; destruct JB as [J1 J2]; apply IZR_le in J1, J2; cbn [Z.eqb Pos.eqb];
      (match goal with |- context [(rt - ?a) * ?b] => pose proof (prod_le (rt - a) b 0.000000001 37000 ltac:(lra) ltac:(lra)) as P; set (w := (rt - a) * b) in *; clearbody w end; lra). }
  exists (deg (x_mean (T_of jde)) - 280 - 0.98564736 * (IZR day - 1) - 360 * IZR (y - 2000)). split; [apply SB|].
  unfold xm. set (X := x_mean (T_of jde)). transitivity (rad (deg X)); [unfold rad, deg; field; apply PI_neq0|]. unfold rad. set (g := deg X). clearbody g. lra.
Qed.

Lemma eot_rad v : eotm v = rad (masters_eot v / 4).
Proof.
  unfold eotm, masters_eot, sind, cosd, rad. cbv zeta. replace (2 * (360 / 364 * (v - 81)) * PI / 180) with (2 * (2 * PI / 364 * (v - 81))) by field.
  replace (360 / 364 * (v - 81) * PI / 180) with (2 * PI / 364 * (v - 81)) by field. lra.
Qed.
(* the equation of time (degrees) of the full computation for the mean longitude X *)
Definition true_eot (ep X et : R) : R := deg (rho ep (X + cen 1 X + et) - cen 1 X - et).
(* the sun at u: its longitude, declination and hour angle from the mean longitude X *)
Lemma sun_at u lon x y jd jde o tt X (kx : Z) : 2415385.5 <= jd_utc u < 2488069.5 ->
  jd = jd_utc u + o / 86400 -> -1.9 <= o <= 2.2 -> jde = jd_utc u + tt / 86400 -> 42 <= tt <= 69.2 ->
  -1.016 <= x <= 1.016 -> -1.016 <= y <= 1.016 -> x_mean (T_of jde) = X + IZR kx * (2 * PI) ->
  let ep := true_obl jde in
  exists et (k : Z), -0.00155 <= et <= 0.00155 /\ 23.42 <= ep <= 23.46 /\
    (forall df D, -0.5 <= df <= 0.5 -> 0 <= D <= 2 ->
       sin (df - D * (PI / 180)) <= sin (ep * (PI / 180)) * sin (X + cen 1 X + et) <= sin (df + D * (PI / 180)) ->
       - D - 0.0067 <= topo_dec lon x y jd jde - deg df <= D + 0.0067) /\
    -0.026 <= topo_H lon x jd jde - (360 * (jd_utc u - 2451545) + lon + true_eot ep X et) - 360 * IZR k <= 0.015.
Proof.
  intros UB Ej Ho Ee Ht Hx Hy EX ep.
  assert (BJ : 1721425 < jde < 5373485) by (rewrite Ee; lra). assert (HT : -1 <= T_of jde <= 1) by (unfold T_of; rewrite Ee; lra).
  destruct (lambda_main jde HT BJ) as (k1 & et & Het & EL).
  assert (CX : cen 1 (x_mean (T_of jde)) = cen 1 X).
  { rewrite EX. unfold cen. f_equal; f_equal.
    - replace (X + IZR kx * (2 * PI) + 2.91578634) with (X + 2.91578634 + 2 * IZR kx * PI) by ring. apply cos_2kPI.
    - replace (2 * (X + IZR kx * (2 * PI)) + 1.11915908) with (2 * X + 1.11915908 + 2 * IZR (2 * kx) * PI) by (rewrite mult_IZR; ring). apply cos_2kPI. }
  set (k2 := (kx + k1)%Z).
  assert (EL2 : rad (sun_lambda jde) = X + cen 1 X + et + IZR k2 * (2 * PI)).
  { rewrite EL, CX, EX. unfold k2. rewrite plus_IZR. ring. }
  pose proof (obl_modern jde HT) as O. fold ep in O.
  pose proof (cos_delta_bound jde BJ) as CD. pose proof (sin_par_bound jde BJ) as SP.
  assert (DR : -90 < sun_delta jde < 90).
  { assert (B : -90 <= sun_delta jde <= 90) by (unfold sun_delta; apply deg_asin_range).
    split; [destruct (proj1 B) as [|E]; [assumption|] | destruct (proj2 B) as [|E]; [assumption|]]; exfalso.
    - rewrite <- E in CD. unfold cosd in CD. replace (-90 * PI / 180) with (- (PI / 2)) in CD by field. rewrite cos_neg, cos_PI2 in CD. lra.
    - rewrite E in CD. unfold cosd in CD. replace (90 * PI / 180) with (PI / 2) in CD by field. rewrite cos_PI2 in CD. lra. }
  destruct (parallax_small x y (lib_H lon jd jde) (lib_par jde) (sun_delta jde) Hx Hy ltac:(lra) CD DR) as [PA PD].
  destruct (alpha_main jde BJ) as (k3 & e3 & He3 & EA). cbv zeta in EA. fold ep in EA.
  assert (RH : rho ep (rad (sun_lambda jde)) = rho ep (X + cen 1 X + et)).
  { rewrite EL2. unfold rho. set (l := X + cen 1 X + et). replace (2 * (l + IZR k2 * (2 * PI))) with (2 * l + 2 * IZR (2 * k2) * PI) by (rewrite mult_IZR; ring).
    now rewrite sin_2kPI, cos_2kPI. }
  rewrite RH in EA. unfold true_eot. set (rh := rho ep (X + cen 1 X + et)) in *.
  unfold topo_H. set (da := lib_dalpha x (lib_H lon jd jde) (lib_par jde) (sun_delta jde)) in *.
  exists et. fold rh.
  destruct (Rfmod_eq (app_sid jd jde + lon - sun_alpha jde) 360) as (k4 & K4). 
  assert (EH : lib_H lon jd jde = app_sid jd jde + lon - sun_alpha jde - 360 * IZR k4) by (unfold lib_H; rewrite K4; ring). clear K4.
  unfold app_sid, mean_sid in EH. cbv zeta in EH.
  set (c := (jd - 2451545) / 36525) in EH.
  destruct (Rfmod_eq (280.46061837 + 360.98564736629 * (jd - 2451545) + 0.000387933 * c * c * (1 - c / 38710000)) 360) as (k5 & K5). rewrite K5 in EH. clear K5.
  exists (-k1 - k3 - k4 - k5)%Z. split; [exact Het|]. split; [exact O|]. split.
  { clear EH. intros df D Hdf HD SD. pose proof (delta_gen jde X et k2 df D HT BJ EL2 Hdf HD SD) as DD. unfold topo_dec. fold da. lra. }
  clear DR CD SP PD. clearbody da.
  assert (CB : -1.1 <= c <= 1.1) by (unfold c; rewrite Ej; lra).
  assert (TC : -0.0005 <= 0.000387933 * c * c * (1 - c / 38710000) <= 0.0005) by (clear - CB; clearbody c; split; interval).
  set (tc := 0.000387933 * c * c * (1 - c / 38710000)) in *. clearbody tc.
  assert (NC : -0.0056 <= nut_lon jde * cos (true_obl jde) <= 0.0056).
  { unfold nut_lon. destruct (nutation_bounds (T_of jde)) as (nn & _ & _ & _ & B & _). destruct (B ltac:(lra)) as [B1 _]. apply Rabs_def2 in B1.
    pose proof (COS_bound (true_obl jde)). pose proof (prod_le (nutation_longitude (T_of jde) nut_rows) (cos (true_obl jde)) 0.0056 1 ltac:(lra) ltac:(lra)). lra. }
  set (nc := nut_lon jde * cos (true_obl jde)) in *. clearbody nc.
  rewrite EH, EA. clear EA EH.
  set (l := rad (sun_lambda jde)) in *.
  assert (DL : deg (l - rh) = deg (x_mean (T_of jde)) - deg (rh - cen 1 X - et) + 360 * IZR k1).
  { rewrite EL, CX. unfold deg. field. apply PI_neq0. }
  rewrite DL. clear DL EL EL2 RH. rewrite mean_deg.
  assert (ET : 36525 * T_of jde = (jd_utc u - 2451545) + tt / 86400) by (unfold T_of; rewrite Ee; lra). rewrite ET.
  set (rt := deg 628.331966747 / 36525). set (c0 := deg 1.75347046). pose proof rate_val as RV. pose proof phase_val as PV. fold rt in RV. fold c0 in PV. clearbody rt c0.
  set (g := jd_utc u - 2451545) in *. assert (GB : -36600 <= g <= 36600) by (unfold g; lra).
  replace (jd - 2451545) with (g + o / 86400) by (unfold g; rewrite Ej; lra).
  pose proof (prod_le (rt - 0.98564736) (g + tt / 86400) 0.000000001 36601 ltac:(lra) ltac:(lra)) as P.
  set (w := (rt - 0.98564736) * (g + tt / 86400)) in *.
  assert (EW : rt * (g + tt / 86400) = 0.98564736 * (g + tt / 86400) + w) by (unfold w; lra). rewrite EW. clearbody w.
  set (E := deg (rh - cen 1 X - et)) in *. clearbody E.
  rewrite !minus_IZR, opp_IZR. clear - P NC TC PA He3 Ho Ht PV GB. lra.
Qed.
Lemma deg_close a b e : - (e * (PI / 180)) <= a - rad b <= e * (PI / 180) -> - e <= deg a - b <= e.
Proof.
  intros H. pose proof PI_RGT_0. assert (E : a = rad (deg a)) by (unfold rad, deg; field; lra). rewrite E in H. set (g := deg a) in *. clearbody g. unfold rad in H.
  assert (0 < PI / 180) by lra. set (q := PI / 180) in *. clearbody q. split; nra.
Qed.
Lemma approx_main u day h m lon x y jd jde o tt : (midnight 1901 1 1 <= u < midnight 2100 1 1)%Z -> civil_clock u day h m ->
  jd = jd_utc u + o / 86400 -> -1.9 <= o <= 2.2 -> jde = jd_utc u + tt / 86400 -> 42 <= tt <= 69.2 ->
  -1.016 <= x <= 1.016 -> -1.016 <= y <= 1.016 ->
  -1.867 <= topo_dec lon x y jd jde - masters_declination (IZR day) <= 1.867 /\
  exists k : Z, -0.685 <= topo_H lon x jd jde - masters_hour_angle (IZR day) (IZR h) (IZR m) lon - 360 * IZR k <= 0.925.
Proof.
  intros Hu Hc Ej Ho Ee Ht Hx Hy.
  destruct (calendar u day h m Hu Hc) as (yr & n & r & Yr & Hr & Hd & Hh & Hm & EU & j & i & Ey & En & Hi).
  assert (UB : 2415385.5 <= jd_utc u < 2488069.5).
  { change (midnight 1901 1 1) with 59958144000000000%Z in Hu. change (midnight 2100 1 1) with 66238041600000000%Z in Hu.
    destruct Hu as [U1 U2]. apply IZR_le in U1. apply IZR_lt in U2. unfold jd_utc. lra. }
  assert (F : 0 <= (60 * IZR h + IZR m + r) / 1440 <= 1).
  { assert (0 <= IZR h <= 23) by (split; apply IZR_le; lia). assert (0 <= IZR m <= 59) by (split; apply IZR_le; lia). lra. }
  destruct (phase_gen u day ((60 * IZR h + IZR m + r) / 1440) yr n j i (tt / 86400) jde Yr Hd ltac:(lra) EU Ey En Hi Ee ltac:(lra)) as (s & Hs & EX).
  destruct (sun_at u lon x y jd jde o tt _ _ UB Ej Ho Ee Ht Hx Hy EX) as (et & k & Het & O & DD & HH).
  assert (D : 1 <= IZR day <= 366) by (split; apply IZR_le; lia).
  set (v := IZR day) in *. set (ep := true_obl jde) in *. assert (BX : box s ep et) by (split; [lra|split; assumption]).
  split.
  - replace (masters_declination v) with (deg (dfm v)) by (rewrite <- dec_rad; unfold deg, rad; field; apply PI_neq0).
    assert (DF : - (0.5) <= dfm v <= 0.5).
    { rewrite <- dec_rad. unfold rad. pose proof (masters_declination_range v) as MR. set (q := masters_declination v) in *. clearbody q. split; interval. }
    pose proof (DD (dfm v) 1.86 ltac:(lra) ltac:(lra) (dec_year v s ep et D BX)). lra.
  - pose proof (eot_year v s ep et D BX) as EY. cbv zeta in EY. rewrite eot_rad in EY.
    assert (EY2 : - (0.645) <= true_eot ep (xm 0 v s) et - masters_eot v / 4 <= 0.645) by (apply deg_close; lra).
    set (E := true_eot ep (xm 0 v s) et) in *. clearbody E.
    unfold masters_hour_angle, masters_solar_time. fold v. set (me := masters_eot v) in *. clearbody me.
    exists (n + day - 1 + k)%Z. rewrite !plus_IZR, minus_IZR, plus_IZR. fold v.
    assert (G2 : 360 * (jd_utc u - 2451545) = 360 * IZR n - 180 + 360 * (v - 1) + 15 * IZR h + IZR m / 4 + r / 4) by lra.
    assert (G3 : 0 <= r / 4 <= 0.25) by lra.
    clear - EY2 G2 G3 HH. lra.
Qed.

(* ---------------------------------------------------------------- directions *)
Lemma dot_equatorial d h d' h' : dot (equatorial d h) (equatorial d' h') = cosd (d - d') - cosd d * cosd d' * (1 - cosd (h - h')).
Proof. unfold dot, equatorial. rewrite !cosd_minus. ring. Qed.
Lemma two_point_one d h d' h' (k : Z) : -1.867 <= d - d' <= 1.867 -> -0.685 <= h - h' - 360 * IZR k <= 0.925 ->
  cosd 2.1 <= dot (equatorial d h) (equatorial d' h').
Proof.
  intros D H. rewrite dot_equatorial. pose proof (cosd_bound d) as B1. pose proof (cosd_bound d') as B2.
  assert (P : -1 <= cosd d * cosd d' <= 1) by (pose proof (prod_le (cosd d) (cosd d') 1 1 ltac:(lra) ltac:(lra)); lra).
  replace (cosd (h - h')) with (cosd (h - h' - 360 * IZR k)) by (apply same_angle_cos; exists (- k)%Z; rewrite opp_IZR; ring).
  set (a := d - d') in *. set (b := h - h' - 360 * IZR k) in *. clearbody a b. pose proof (cosd_bound b) as CB.
  assert (cosd 2.1 <= cosd a + cosd b - 1) by (unfold cosd; interval with (i_bisect a, i_prec 50)). nra.
Qed.
(* directions within a of each other have elevations within a of each other *)
Lemma elevation_within w v n a e e' : dot w w = 1 -> dot v v = 1 -> dot n n = 1 -> 0 <= a <= 180 -> cosd a <= dot v w ->
  -90 <= e <= 90 -> -90 <= e' <= 90 -> sind e = dot v n -> sind e' = dot w n -> Rabs (e - e') <= a.
Proof.
  intros W V N Ha C He He' E E'.
  assert (G : forall v w e e', dot w w = 1 -> dot v v = 1 -> cosd a <= dot v w -> -90 <= e <= 90 -> -90 <= e' <= 90 -> sind e = dot v n -> sind e' = dot w n -> e' - e <= a).
  { clear - N Ha. intros [[v1 v2] v3] [[w1 w2] w3] e e' W V C He He' E E'. destruct n as [[n1 n2] n3]. unfold dot in *.
    pose proof PI_RGT_0 as P.
    assert (Z : forall x, -90 <= x <= 90 -> acos (sind x) = rad (90 - x)).
    { intros x Hx. replace (sind x) with (cos (rad (90 - x))).
      - apply acos_cos. unfold rad. split; nra.
      - rewrite sind_rad. replace (rad (90 - x)) with (PI / 2 - rad x) by (unfold rad; field). apply cos_shift. }
    assert (T : acos (sind e) <= acos (sind e') + rad a).
    { apply acos_triangle; try apply sind_bound; [unfold rad; nra|]. intros _. exists (v1 * w1 + v2 * w2 + v3 * w3).
      split; [now apply dot_unit_bound|]. split; [rewrite <- cosd_rad; exact C|].
      apply (gram n1 n2 n3 v1 v2 v3 w1 w2 w3); lra. }
    rewrite !Z in T by assumption. unfold rad in T. nra. }
  apply Rabs_le. split.
  - pose proof (G v w e e' W V C He He' E E'). lra.
  - assert (C' : cosd a <= dot w v) by (destruct v as [[? ?] ?], w as [[? ?] ?]; unfold dot in *; lra).
    pose proof (G w v e' e V W C' He' He E' E). lra.
Qed.
Lemma dot_frame lat v w : dot v w = dot v east * dot w east + dot v (north lat) * dot w (north lat) + dot v (up lat) * dot w (up lat).
Proof.
  destruct v as [[a b] c], w as [[x y] z]. unfold dot, east, north, up. pose proof (sincosd lat) as S.
  transitivity (b * y + (a * x + c * z) * (sind lat * sind lat + cosd lat * cosd lat)); [rewrite S|]; ring.
Qed.
(* azimuths of directions within 2.1 degrees of each other *)
Lemma azimuth_within lat v w A e A' e' : horizontal_coordinates lat v A e -> horizontal_coordinates lat w A' e' -> cosd 2.1 <= dot v w ->
  -60 <= e <= 60 -> -62.1 <= e' <= 62.1 -> exists k : Z, Rabs (A - A' - 360 * IZR k) <= 4.4.
Proof.
  intros (E1 & E2 & E3) (F1 & F2 & F3) C He He'. rewrite (dot_frame lat), E1, E2, E3, F1, F2, F3 in C.
  assert (Q : cosd 2.1 <= cosd (e - e') - cosd e * cosd e' * (1 - cosd (A - A'))) by (rewrite !cosd_minus; lra).
  destruct (turns_real (rad (A - A'))) as (k & K). exists k.
  set (g := A - A' - 360 * IZR k). assert (CG : cosd (A - A') = cosd g) by (apply same_angle_cos; exists k; unfold g; ring).
  assert (G : -180 <= g <= 180).
  { pose proof PI_RGT_0. replace (rad (A - A') - IZR k * (2 * PI)) with (g * (PI / 180)) in K by (unfold g, rad; field). assert (0 < PI / 180) by lra.
    split; apply Rmult_le_reg_r with (PI / 180); try lra; replace (180 * (PI / 180)) with PI by field; replace (-180 * (PI / 180)) with (- PI) by field; lra. }
  rewrite CG in Q. pose proof (cosd_bound (e - e')) as B.
  assert (CE : 0.4999 <= cosd e) by (unfold cosd; interval). assert (CE' : 0.4679 <= cosd e') by (unfold cosd; interval).
  assert (0.2339 <= cosd e * cosd e') by nra. pose proof (cosd_bound g).
  assert (D : 1 - cosd g <= 0.00292).
  { assert (0.99932 <= cosd 2.1) by (unfold cosd; interval). set (p := cosd e * cosd e') in *. clearbody p. set (q := 1 - cosd g) in *. assert (0 <= q) by (unfold q; lra). clearbody q. nra. }
  apply Rnot_lt_le. intros N. assert (C2 : cosd g <= cosd 4.4).
  { rewrite (acos_abs g). rewrite !cosd_rad. pose proof PI_RGT_0. assert (Rabs g <= 180) by (apply Rabs_le; lra). apply cos_decr_1; unfold rad; nra. }
  assert (cosd 4.4 <= 0.99706) by (unfold cosd; interval). lra.
Qed.

(* ---------------------------------------------------------------- C80 - C82 *)
Lemma modern_in_range u : (midnight 1901 1 1 <= u < midnight 2100 1 1)%Z -> in_range u = true.
Proof.
  intros H. change (midnight 1901 1 1) with 59958144000000000%Z in H. change (midnight 2100 1 1) with 66238041600000000%Z in H.
  unfold in_range. apply andb_true_intro. split; [apply Z.leb_le; lia|]. apply Z.ltb_lt. apply Z.lt_trans with 66427344000000000%Z; [lia|vm_compute; reflexivity].
Qed.
Lemma fast_direction d u day h m lat lon el : instant d u -> (midnight 1901 1 1 <= u < midnight 2100 1 1)%Z -> civil_clock u day h m ->
  -90 <= lat <= 90 -> -100000 <= el <= 100000 ->
  exists decl hf dec ha (k : Z),
    get_declination (N := MathR) (Fin (IZR day)) = Ok (Fin decl) /\ get_hour_angle (N := MathR) (C := clock_math MathR) d (Fin lon) = Ok (Fin hf) /\
    get_topocentric_position (N := MathR) (Fin lat) (Fin lon) d (Fin el) = Ok (Fin dec, Fin ha) /\
    Rabs (dec - decl) <= 1.867 /\ -0.685 <= ha - hf - 360 * IZR k <= 0.925 /\ cosd 2.1 <= dot (equatorial dec ha) (equatorial decl hf).
Proof.
  intros Hi Hu Hc Hlat Hel. pose proof (modern_in_range u Hu) as Hr.
  destruct (position_val lat lon d el u Hi Hr Hlat ltac:(lra)) as (x & y & jd & jde & x0 & y0 & E1 & E2 & B1 & B2 & EP & -> & -> & E & _).
  rewrite (jd_off d u Hi Hr) in E1. rewrite (jde_val d u Hi Hr) in E2. apply Ok_inj in E1, E2. injection E1 as E1. injection E2 as E2.
  destruct (observer_bounds lat el x0 y0 EP Hel) as [BX BY].
  pose proof (tai_range u) as [T1 T2]. apply IZR_le in T1, T2.
  pose proof (adj_ok (f_year (fields_of_us u)) (f_mon (fields_of_us u)) (fields_mon_range u)) as A.
  destruct (next_ym (f_year (fields_of_us u)) (f_mon (fields_of_us u))) as [y' m']. destruct A as (_ & A1 & A2).
  apply Qle_Rle in A1, A2. replace (Q2R (-34)) with (-34) in A1 by (unfold Q2R; simpl; lra).
  replace (Q2R (-30)) with (-30) in A2 by (unfold Q2R; simpl; lra).
  destruct (approx_main u day h m lon _ _ jd jde _ _ Hu Hc (eq_sym E1) ltac:(lra) (eq_sym E2) ltac:(lra) BX BY) as (D & k & K).
  exists (masters_declination (IZR day)), (masters_hour_angle (IZR day) (IZR h) (IZR m) lon). do 2 eexists. exists k.
  split; [apply declination_val|]. split; [now apply hour_angle_val with u|]. split; [exact E|]. split; [apply Rabs_le; lra|]. split; [exact K|].
  exact (two_point_one _ _ _ _ k D K).
Qed.
Lemma dot_up lat : dot (up lat) (up lat) = 1.
Proof. unfold dot, up. pose proof (sincosd lat). lra. Qed.
Lemma dot_eq d h : dot (equatorial d h) (equatorial d h) = 1.
Proof. unfold dot, equatorial. apply equatorial_unit. Qed.
Lemma fast_altitude d u lat lon el : instant d u -> (midnight 1901 1 1 <= u < midnight 2100 1 1)%Z ->
  -90 <= lat <= 90 -> -100000 <= el <= 100000 ->
  exists f dec ha e,
    get_altitude_fast (N := MathR) (C := clock_math MathR) (Fin lat) (Fin lon) d = Ok (Fin f) /\
    get_topocentric_position (N := MathR) (Fin lat) (Fin lon) d (Fin el) = Ok (Fin dec, Fin ha) /\
    get_topocentric_elevation_angle (N := MathR) (Fin lat) (Fin dec) (Fin ha) = Ok (Fin e) /\ Rabs (f - e) <= 2.1 /\
    (forall a, get_altitude (N := MathR) (Fin lat) (Fin lon) d (Fin el) standard_temperature standard_pressure = Ok a ->
       exists a', a = Fin a' /\ Rabs (f - a') <= 3).
Proof.
  intros Hi Hu Hlat Hel. pose proof (modern_in_range u Hu) as Hr. destruct (civil_clock_exists u) as (day & h & m & Hc).
  destruct (fast_direction d u day h m lat lon el Hi Hu Hc Hlat Hel) as (decl & hf & dec & ha & k & E1 & E2 & E3 & _ & _ & C).
  destruct (altitude_fast_val d u day h m lat lon Hi Hr Hc) as (Hb & Ea). rewrite declination_val in E1. rewrite (hour_angle_val d u day h m lon Hi Hr Hc) in E2.
  apply Ok_inj in E1, E2. injection E1 as <-. injection E2 as <-.
  destruct (azimuth_total lat lon d el u Hi Hr Hlat ltac:(lra)) as (dec' & ha' & az & e & F1 & _ & F2 & _ & F3 & _ & F5).
  rewrite E3 in F1. apply Ok_inj in F1. injection F1 as <- <-.
  set (v := equatorial (masters_declination (IZR day)) (masters_hour_angle (IZR day) (IZR h) (IZR m) lon)) in *.
  set (f := deg (asin (dot v (up lat)))) in *. exists f, dec, ha, e.
  assert (K : Rabs (f - e) <= 2.1).
  { rewrite Rabs_minus_sym. apply (elevation_within v (equatorial dec ha) (up lat) 2.1 e f (dot_eq _ _) (dot_eq _ _) (dot_up lat)).
    - lra.
    - exact C.
    - exact F5.
    - apply deg_asin_range.
    - symmetry. apply F3.
    - unfold f. rewrite sind_deg. apply sin_asin. exact Hb. }
  do 4 (split; [assumption|]). intros a HA.
  destruct (altitude_physical lat lon d el u a Hi Hr Hlat ltac:(lra) HA) as (dec2 & ha2 & az2 & e2 & r & G1 & G2 & G3 & -> & _ & G4 & _).
  rewrite E3 in G1. apply Ok_inj in G1. injection G1 as <- <-. exists (e2 + r). split; [reflexivity|].
  assert (e2 = e).
  { destruct F3 as (_ & _ & F3). destruct G2 as (_ & _ & G2). rewrite F3 in G2.
    destruct (Rtotal_order e2 e) as [L|[L|L]]; [|exact L|]; [pose proof (sind_incr e2 e ltac:(lra) L ltac:(lra))|pose proof (sind_incr e e2 ltac:(lra) L ltac:(lra))]; lra. }
  subst e2. apply Rabs_def2 in G4. apply Rabs_le_inv in K. apply Rabs_le. lra.
Qed.
Lemma fast_azimuth d u lat lon el f : instant d u -> (midnight 1901 1 1 <= u < midnight 2100 1 1)%Z ->
  -90 < lat < 90 -> -100000 <= el <= 100000 ->
  get_altitude_fast (N := MathR) (C := clock_math MathR) (Fin lat) (Fin lon) d = Ok (Fin f) -> -60 <= f <= 60 ->
  exists A B (k : Z), get_azimuth_fast (N := MathR) (C := clock_math MathR) (Fin lat) (Fin lon) d = Ok (Fin A) /\
    get_azimuth (N := MathR) (Fin lat) (Fin lon) d (Fin el) = Ok (Fin B) /\ Rabs (A - B - 360 * IZR k) <= 4.4.
Proof.
  intros Hi Hu Hlat Hel Hf Bf. pose proof (modern_in_range u Hu) as Hr. destruct (civil_clock_exists u) as (day & h & m & Hc).
  destruct (fast_direction d u day h m lat lon el Hi Hu Hc ltac:(lra) Hel) as (decl & hf & dec & ha & _ & E1 & E2 & E3 & _ & _ & C).
  destruct (fast_correct d u day h m lat lon Hi Hr Hc Hlat) as (D1 & D2 & e & D3 & De & Ds & D4 & _). rewrite D3 in Hf. apply Ok_inj in Hf. injection Hf as ->.
  destruct (D4 ltac:(lra)) as (A & D5 & _ & D6). rewrite D1 in E1. rewrite D2 in E2. apply Ok_inj in E1, E2. injection E1 as <-. injection E2 as <-.
  destruct (fast_altitude d u lat lon el Hi Hu ltac:(lra) Hel) as (f' & dec' & ha' & e' & G1 & G2 & G3 & G4 & _).
  rewrite D3 in G1. apply Ok_inj in G1. injection G1 as <-. rewrite E3 in G2. apply Ok_inj in G2. injection G2 as <- <-.
  destruct (azimuth_total lat lon d el u Hi Hr ltac:(lra) ltac:(lra)) as (dec' & ha' & az & e2 & F1 & _ & F2 & F3 & F4 & _ & F5).
  rewrite E3 in F1. apply Ok_inj in F1. injection F1 as <- <-. rewrite G3 in F2. apply Ok_inj in F2. injection F2 as <-.
  apply Rabs_le_inv in G4.
  assert (C' : cosd 2.1 <= dot (equatorial (masters_declination (IZR day)) (masters_hour_angle (IZR day) (IZR h) (IZR m) lon)) (equatorial dec ha)).
  { eapply Rle_trans; [exact C|]. right. unfold dot, equatorial. ring. }
  destruct (azimuth_within lat _ _ A f az e' D6 F4 C' Bf ltac:(lra)) as (k & K).
  exists A, az, k. auto.
Qed.

(* a case for C82: latitude 60 *)
Lemma sample_1901 : (midnight 1901 1 1 <= sample_u < midnight 2100 1 1)%Z.
Proof. vm_compute. split; [discriminate|reflexivity]. Qed.
Lemma sample_low : exists f, get_altitude_fast (N := MathR) (C := clock_math MathR) (Fin 60) (Fin (-75)) sample_dt = Ok (Fin f) /\ -60 <= f <= 60.
Proof.
  destruct (altitude_fast_val sample_dt sample_u 173 17 0 60 (-75) sample_instant sample_in_range sample_clock) as (B & E). cbv zeta in *.
  eexists. split; [exact E|]. clear E. revert B. generalize (masters_hour_angle (IZR 173) (IZR 17) (IZR 0) (-75)). intros ha.
  pose proof (masters_declination_range (IZR 173)) as R. revert R. generalize (masters_declination (IZR 173)). intros de R. unfold dot, equatorial, up.
  pose proof (cosd_bound ha) as C. pose proof (sind_bound ha) as S. intros B.
  assert (K : -0.86 <= cosd de * cosd ha * cosd 60 + - (cosd de * sind ha) * 0 + sind de * sind 60 <= 0.86).
  { set (c := cosd ha) in *. clearbody c. assert (-0.4 <= sind de <= 0.4) by (unfold sind; split; interval). pose proof (cosd_bound de).
    assert (0.499 <= cosd 60 <= 0.5001) by (unfold cosd; split; interval). assert (0.866 <= sind 60 <= 0.8661) by (unfold sind; split; interval).
    pose proof (prod_le (cosd de) c 1 1 ltac:(lra) ltac:(lra)). pose proof (prod_le (cosd de * c) (cosd 60) 1 0.5001 ltac:(lra) ltac:(lra)).
    pose proof (prod_le (sind de) (sind 60) 0.4 0.8661 ltac:(lra) ltac:(lra)). lra. }
  set (q := _ + _ + _) in *. clearbody q. assert (P : 3.14 < PI < 3.15) by (split; interval).
  assert (A : - (PI / 3) <= asin q <= PI / 3) by (apply asin_between; try lra; split; interval).
  unfold deg. assert (Q : PI / 3 * (180 / PI) = 60) by (field; lra). assert (0 < 180 / PI) by (apply Rdiv_lt_0_compat; lra). set (w := 180 / PI) in *. clearbody w. split; nra.
Qed.

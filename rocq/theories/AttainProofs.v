(* Every elevation between -60 and 60 degrees is attained: at any instant some place on the equator
   sees the sun there.  Used to show that theorems about altitudes are not vacuous, and to refute. *)
From Coq Require Import Reals Qreals Lra Lia.
From Coquelicot Require Import Coquelicot.
From Interval Require Import Tactic.
From Verif Require Import Py Num Cal TzCheck Constants SolarTime Solar RInst RTac SpecTime SpecDt SpecGeom SpecAstro
  Trig GeoProofs RefractionProofs SphereProofs SeriesProofs PositionProofs TopoProofs SpanProofs.
Local Open Scope R_scope.

Section Arc.
Variables (sd cd sp : R).
Hypothesis Hcd : 0.9 <= cd.
Hypothesis Hsp : 0 < sp < 0.000045.

Definition arc_A (t : R) : R := atan (- sp * sin t / (cd - sp * cos t)).
Definition arc (t : R) : R := cos (atan (sd * cos (arc_A t) / cd)) * cos (t - arc_A t).

Lemma arc_den t : 0 < cd - sp * cos t.
Proof. pose proof (COS_bound t). nra. Qed.

Lemma continuity_atan t : continuity_pt atan t.
Proof. apply derivable_continuous_pt, derivable_pt_atan. Qed.

Lemma arc_A_continuous : continuity arc_A.
Proof.
  intros t. unfold arc_A. apply (continuity_pt_comp (fun t => - sp * sin t / (cd - sp * cos t)) atan); [|apply continuity_atan].
  apply continuity_pt_div.
  - apply continuity_pt_mult; [apply continuity_pt_const; now intros ? ?|apply continuity_sin].
  - apply continuity_pt_minus; [apply continuity_pt_const; now intros ? ?|].
    apply continuity_pt_mult; [apply continuity_pt_const; now intros ? ?|apply continuity_cos].
  - pose proof (arc_den t). lra.
Qed.

Lemma arc_continuous : continuity arc.
Proof.
  intros t. unfold arc. apply continuity_pt_mult.
  - apply (continuity_pt_comp (fun t => atan (sd * cos (arc_A t) / cd)) cos); [|apply continuity_cos].
    apply (continuity_pt_comp (fun t => sd * cos (arc_A t) / cd) atan); [|apply continuity_atan].
    apply continuity_pt_div; [|apply continuity_pt_const; now intros ? ?|lra].
    apply continuity_pt_mult; [apply continuity_pt_const; now intros ? ?|].
    apply (continuity_pt_comp arc_A cos); [apply arc_A_continuous|apply continuity_cos].
  - apply (continuity_pt_comp (fun t => t - arc_A t) cos); [|apply continuity_cos].
    apply continuity_pt_minus; [apply derivable_continuous_pt, derivable_pt_id|apply arc_A_continuous].
Qed.

Lemma arc_ends : sd * sd + cd * cd = 1 -> 0.9 <= arc 0 /\ arc PI <= -0.9.
Proof.
  intros E. assert (A0 : arc_A 0 = 0).
  { unfold arc_A. rewrite sin_0. replace (- sp * 0 / (cd - sp * cos 0)) with 0 by (pose proof (arc_den 0); field; lra). apply atan_0. }
  assert (A1 : arc_A PI = 0).
  { unfold arc_A. rewrite sin_PI. replace (- sp * 0 / (cd - sp * cos PI)) with 0 by (pose proof (arc_den PI); field; lra). apply atan_0. }
  assert (C : cos (atan (sd * 1 / cd)) = cd).
  { rewrite cos_atan. unfold Rsqr. replace (1 + sd * 1 / cd * (sd * 1 / cd)) with (/ cd * / cd).
    - rewrite sqrt_square; [field; lra|]. left. apply Rinv_0_lt_compat. lra.
    - field_simplify; [|lra..]. replace (cd ^ 2 + sd ^ 2) with 1 by (rewrite <- E; ring). reflexivity. }
  unfold arc. rewrite A0, A1, !Rminus_0_r, cos_0, cos_PI, C. lra.
Qed.

Lemma arc_attains y : sd * sd + cd * cd = 1 -> -0.9 <= y <= 0.9 -> exists t, 0 <= t <= PI /\ arc t = y.
Proof.
  intros E Hy. destruct (arc_ends E) as [B0 B1].
  destruct (IVT_gen arc 0 PI y arc_continuous) as (t & Ht & Et).
  - rewrite Rmin_right, Rmax_left by lra. lra.
  - exists t. pose proof PI_RGT_0. rewrite Rmin_left, Rmax_right in Ht by lra. auto.
Qed.
End Arc.

Lemma equator_point x0 y0 : ellipsoid_point flat 0 x0 y0 -> x0 = 1 /\ y0 = 0.
Proof.
  intros [E (k & Hk & -> & Y)]. rewrite sind_0, cosd_0 in *. pose proof flat_pos as F.
  assert (y0 = 0). { replace y0 with (y0 / flat ^ 2 * flat ^ 2) by (field; lra). rewrite Y. ring. }
  subst y0. split; [|reflexivity]. replace (0 / flat) with 0 in E by (field; lra). nra.
Qed.

Lemma sun_at_elevation d u e : instant d u -> in_range u = true -> -60 <= e <= 60 ->
  exists lon dec ha, -180 <= lon < 180 /\
    get_topocentric_position (N := MathR) (Fin 0) (Fin lon) d (Fin 0) = Ok (Fin dec, Fin ha) /\
    get_topocentric_elevation_angle (N := MathR) (Fin 0) (Fin dec) (Fin ha) = Ok (Fin e).
Proof.
  intros Hi Hr He. destruct (jd_ok d u Hi Hr) as (jd & jde & Ejd & Ejde & B1 & B2).
  pose proof (cos_delta_bound jde B2) as C. pose proof (sin_par_bound jde B2) as P.
  assert (Sy : -0.9 <= sind e <= 0.9).
  { split; unfold sind; interval. }
  destruct (arc_attains (sind (sun_delta jde)) (cosd (sun_delta jde)) (sind (lib_par jde)) ltac:(lra) ltac:(lra) (sind e)
    ltac:(pose proof (sincosd (sun_delta jde)); lra) Sy) as (t & Ht & Et).
  assert (Hh : 0 <= deg t < 360).
  { destruct Ht as [[T0 | <-] T1]; [|rewrite deg_0; lra]. apply deg_lt in T0. rewrite deg_0 in T0. split; [lra|].
    destruct T1 as [T1 | ->]; [apply deg_lt in T1|]; rewrite deg_PI in *; lra. }
  destruct (choose_longitude (app_sid jd jde) (sun_alpha jde) (deg t) Hh) as (lon & Hlon & EH).
  destruct (position_val 0 lon d 0 u Hi Hr ltac:(lra) ltac:(lra)) as (x & y & jd' & jde' & x0 & y0 & E1 & E2 & _ & _ & EP & Ex & Ey & Epos & Bd).
  rewrite Ejd in E1. rewrite Ejde in E2. injection E1 as <-. injection E2 as <-.
  apply equator_point in EP as [-> ->]. rewrite cosd_0 in Ex. rewrite sind_0 in Ey.
  assert (x = 1) by lra. assert (y = 0) by lra. clear Ex Ey. subst x y.
  exists lon, (topo_dec lon 1 0 jd jde), (topo_H lon 1 jd jde). split; [exact Hlon|]. split; [exact Epos|].
  destruct (horizontal_coordinates_correct 0 _ (topo_H lon 1 jd jde) Bd) as (A & e' & _ & H2 & H3 & _ & H5).
  rewrite H2. do 2 f_equal. destruct H3 as (_ & _ & K). unfold dot, equatorial, up in K. rewrite sind_0, cosd_0 in K.
  assert (Q : sind e' = sind e).
  { rewrite <- K, <- Et. unfold arc. set (dl := sun_delta jde) in *. set (p := lib_par jde) in *.
    assert (DA : lib_dalpha 1 (deg t) p dl = deg (arc_A (cosd dl) (sind p) t)).
    { unfold lib_dalpha, arc_A. rewrite sind_deg, cosd_deg.
      replace (cosd dl - 1 * sind p * cos t) with (cosd dl - sind p * cos t) by ring.
      replace (- (1) * sind p * sin t) with (- sind p * sin t) by ring.
      rewrite Ratan2_pos; [reflexivity|]. pose proof (COS_bound t). nra. }
    unfold topo_H, topo_dec, lib_H. rewrite EH. fold dl p. rewrite DA. unfold lib_dec.
    rewrite cosd_deg. set (a := arc_A (cosd dl) (sind p) t).
    replace (sind dl - 0 * sind p) with (sind dl) by ring.
    replace (cosd dl - 0 * sind p * cosd (deg t)) with (cosd dl) by ring.
    rewrite Ratan2_pos by lra. rewrite cosd_deg, <- deg_minus, cosd_deg. ring. }
  destruct (Rtotal_order e' e) as [L|[L|L]]; [|exact L|].
  - pose proof (sind_incr e' e ltac:(lra) L ltac:(lra)). lra.
  - pose proof (sind_incr e e' ltac:(lra) L ltac:(lra)). lra.
Qed.

Lemma altitude_at_elevation d u e T P : instant d u -> in_range u = true -> -0.83337 <= e <= 60 -> T <> 0 ->
  exists lon, -180 <= lon < 180 /\
    get_altitude (N := MathR) (Fin 0) (Fin lon) d (Fin 0) (Fin T) (Fin P) = Ok (Fin (e + refraction_formula P T e)).
Proof.
  intros Hi Hr He HT. destruct (sun_at_elevation d u e Hi Hr ltac:(lra)) as (lon & dec & ha & Hl & Ep & Ee).
  exists lon. split; [exact Hl|]. unfold get_altitude. rewrite (instant_aware d u Hi), bind_Ok, Ep, bind_Ok, Ee, bind_Ok, refraction_ok, bind_Ok by (assumption || lra).
  rewrite add_R. destruct (Rle_dec (-0.83337) e); [reflexivity|lra].
Qed.

Lemma altitude_below d u e T P : instant d u -> in_range u = true -> -60 <= e < -0.83337 -> ~ (-5.2 < e < -5) -> T <> 0 ->
  exists lon, -180 <= lon < 180 /\
    get_altitude (N := MathR) (Fin 0) (Fin lon) d (Fin 0) (Fin T) (Fin P) = Ok (Fin e).
Proof.
  intros Hi Hr He Hw HT. destruct (sun_at_elevation d u e Hi Hr ltac:(lra)) as (lon & dec & ha & Hl & Ep & Ee).
  exists lon. split; [exact Hl|]. unfold get_altitude. rewrite (instant_aware d u Hi), bind_Ok, Ep, bind_Ok, Ee, bind_Ok, refraction_ok, bind_Ok by (assumption || lra).
  rewrite add_R. destruct (Rle_dec (-0.83337) e); [lra|]. now rewrite Rplus_0_r.
Qed.

(* at every instant there is a place on the equator where the refraction formula divides by 0 *)
Lemma altitude_raises d u : instant d u -> in_range u = true -> exists lon, -180 <= lon < 180 /\ forall T P,
  get_altitude (N := MathR) (Fin 0) (Fin lon) d (Fin 0) (Fin T) (Fin P) = Err ZeroDivisionError /\
  get_position (N := MathR) (Fin 0) (Fin lon) d (Fin 0) (Fin T) (Fin P) = Err ZeroDivisionError.
Proof.
  intros Hi Hr. destruct (sun_at_elevation d u (-5.11) Hi Hr ltac:(lra)) as (lon & dec & ha & Hl & Ep & Ee).
  exists lon. split; [exact Hl|]. intros T P. unfold get_altitude, get_position.
  rewrite (instant_aware d u Hi), !bind_Ok, Ep, !bind_Ok, Ee, !bind_Ok, refraction_raises. split; reflexivity.
Qed.

(* ---------------------------------------------------------------- concrete cases *)
Lemma sun_up d u : instant d u -> in_range u = true -> exists lon a, -180 <= lon < 180 /\ 45 < a < 45.02 /\
  get_altitude (N := MathR) (Fin 0) (Fin lon) d (Fin 0) standard_temperature standard_pressure = Ok (Fin a).
Proof.
  intros Hi Hr. destruct (altitude_at_elevation d u 45 288.15 101325 Hi Hr ltac:(lra) ltac:(lra)) as (lon & Hl & Ea).
  exists lon. eexists. split; [exact Hl|]. split; [|rewrite <- Ea; f_equal; unfold standard_temperature, standard_pressure; rx; f_equal; lra].
  unfold refraction_formula, refraction_argument, cosd, sind. split; interval.
Qed.

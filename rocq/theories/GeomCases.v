(* Concrete cases for the examples of PropGeom.v. *)
From Coq Require Import Reals Qreals Lra Lia.
From Interval Require Import Tactic.
From Verif Require Import Py Num Cal TzCheck Constants SolarTime Solar RInst RTac SpecTime SpecDt SpecGeom SpecAstro SpecEng
  Trig GeoProofs RefractionProofs SphereProofs SeriesProofs PositionProofs TopoProofs GenProofs AttainProofs Samples.
Local Open Scope R_scope.

Lemma position_case : exists lon a alt, -180 <= lon < 180 /\
  get_position (N := MathR) (Fin 0) (Fin lon) sample_dt (Fin 0) standard_temperature standard_pressure = Ok (Fin a, Fin alt) /\
  0 <= a < 360 /\ 45 < alt < 45.02.
Proof.
  destruct (sun_up _ _ sample_instant sample_in_range) as (lon & h & Hl & Hh & Eh).
  destruct (altitude_total 0 lon sample_dt 0 288.15 101325 sample_u sample_instant sample_in_range ltac:(lra) ltac:(lra) ltac:(lra))
    as (dec & ha & az & e & _ & _ & Ha & _ & Ea & _).
  exists lon, az, h. split; [exact Hl|]. split; [|lra]. rewrite position_pair, Eh, Ea. reflexivity.
Qed.
Lemma refraction_case : 0.47 < refraction_formula 101325 288.15 0 < 0.48 /\ 0.015 < refraction_formula 101325 288.15 45 < 0.017.
Proof. unfold refraction_formula, refraction_argument, cosd, sind. repeat split; interval. Qed.

(* e + 10.3 / (e + 5.11) = -180 *)
Lemma tangent_zero : exists e, -5.2 < e < -5 /\ e <> -5.11 /\ sind (refraction_argument e) = 0.
Proof.
  pose (D := (180 - 5.11) ^ 2 - 4 * (10.3 * 1)).
  pose (w := (- (180 - 5.11) + sqrt D) / 2).
  assert (HD : 0 < D) by (unfold D; lra).
  assert (W : w * w + (180 - 5.11) * w + 10.3 = 0). { unfold w. pose proof (sqrt_sqrt D ltac:(lra)). unfold D in H at 3. nra. }
  assert (B : -0.06 < w < -0.05) by (unfold w, D; split; interval).
  exists (w - 5.11). split; [lra|]. split; [lra|].
  assert (E : refraction_argument (w - 5.11) = -180). { unfold refraction_argument. replace (w - 5.11 + 5.11) with w by lra.
    assert (V : 10.3 / w = - w - (180 - 5.11)); [|lra].
    apply (Rmult_eq_reg_r w); [|lra]. unfold Rdiv. rewrite Rmult_assoc, Rinv_l by lra. lra. }
  rewrite E. unfold sind. replace (-180 * PI / 180) with (- PI) by lra. rewrite sin_neg, sin_PI. ring.
Qed.
Lemma ellipsoid_case : exists x y, ellipsoid_point 0.99664719 45 x y /\ -1.1 <= x <= 1.1 /\ -1.1 <= y <= 1.1 /\ x <> y.
Proof.
  destruct (ellipsoid_correct 45 0 ltac:(lra)) as (x & y & E & _). exists x, y. split; [exact E|].
  destruct E as (E & k & Hk & X & Y). set (b := 0.99664719) in *. assert (Hb : b = 0.99664719) by reflexivity. clearbody b.
  assert (S : sind 45 = cosd 45) by (unfold sind, cosd; replace (45 * PI / 180) with (PI / 4) by lra; rewrite sin_PI4, cos_PI4; reflexivity).
  assert (C : 0.7 < cosd 45 < 0.71) by (unfold cosd; split; interval).
  rewrite S in Y. assert (Ey : y = b ^ 2 * x). { assert (V : y / b ^ 2 = x) by lra. rewrite <- V. field. lra. }
  assert (E' : x * x * (1 + b * b) = 1). { rewrite Ey in E. replace (b ^ 2 * x / b) with (b * x) in E by (field; lra). nra. }
  assert (0 < x) by (rewrite X; nra). assert (x <= 1) by nra. subst y. rewrite Hb in *.
  split; [nra|]. split; [nra|]. nra.
Qed.
Lemma incidence_case : dot (enu 180 60) (enu (180 + 0) 60) = 1.
Proof.
  rewrite Rplus_0_r. unfold dot, enu. pose proof (sincosd 180). pose proof (sincosd 60). nra.
Qed.

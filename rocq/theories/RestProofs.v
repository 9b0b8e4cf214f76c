(* rest.py over the real model: transmittances (C52), optical masses (C53). *)
From Coq Require Import Reals Qreals Lra Lia Psatz.
From Flocq Require Import Core.
From Interval Require Import Tactic.
From Verif Require Import Py Num Constants Rest RInst RTac SpecGeom SpecEng Trig.
Local Open Scope R_scope.

Lemma ratio_unit a b : 0 < a <= b -> 0 < a / b <= 1.
Proof.
  intros H. assert (0 < b) by lra. split; [apply Rdiv_lt_0_compat; lra|].
  apply (Rmult_le_reg_r b); [assumption|]. unfold Rdiv. rewrite Rmult_assoc, Rinv_l by lra. lra.
Qed.
Lemma ratio_mono a b c d : 0 < b -> 0 < d -> a * d <= c * b -> a / b <= c / d.
Proof.
  intros Hb Hd H. apply (Rmult_le_reg_r (b * d)); [nra|].
  replace (a / b * (b * d)) with (a * d) by (field; lra). replace (c / d * (b * d)) with (c * b) by (field; lra). exact H.
Qed.

(* ---------------------------------------------------------------- Rayleigh *)
Lemma rayleigh_high m : 0 <= m ->
  exists x, transmits (get_rayleigh_transmittance (N := MathR) high (Fin m)) x /\ (m = 0 -> x = 1) /\ (0 < m -> x < 1).
Proof.
  intros H. unfold get_rayleigh_transmittance. change (is_high high) with true. cbv iota. rx. rewrite ?div_R by nra.
  eexists. split; [split; [reflexivity|apply ratio_unit; nra]|]. split.
  - intros ->. field. 
  - intros P. apply (Rmult_lt_reg_r (1 + 2.063 * m + 0.31978 * m ^ 2)); [nra|].
    unfold Rdiv. rewrite Rmult_assoc, Rinv_l by nra. nra.
Qed.
Lemma rayleigh_low m : 0 <= m <= 94 ->
  exists x, transmits (get_rayleigh_transmittance (N := MathR) low (Fin m)) x /\ (m = 0 -> x = 1) /\ (0 < m -> x < 1).
Proof.
  intros H. unfold get_rayleigh_transmittance. change (is_high low) with false. cbv iota. rx. rewrite ?div_R by nra.
  eexists. split; [split; [reflexivity|apply ratio_unit; split; nra]|]. split.
  - intros ->. field.
  - intros P. apply (Rmult_lt_reg_r (1 - 0.00011042 * m ^ 2)); [nra|].
    unfold Rdiv. rewrite Rmult_assoc, Rinv_l by nra. nra.
Qed.

(* ---------------------------------------------------------------- mixed gases *)
Lemma gas_high m : 0 <= m ->
  exists x, transmits (get_gas_transmittance (N := MathR) high (Fin m)) x /\ (m = 0 -> x = 1) /\ (0 < m -> x < 1).
Proof.
  intros H. unfold get_gas_transmittance. change (is_high high) with true. cbv iota. rx. rewrite ?div_R by nra.
  eexists. split; [split; [reflexivity|apply ratio_unit; nra]|]. split.
  - intros ->. field.
  - intros P. apply (Rmult_lt_reg_r (1 + 0.96321 * m + 0.015455 * m ^ 2)); [nra|].
    unfold Rdiv. rewrite Rmult_assoc, Rinv_l by nra. nra.
Qed.
Lemma gas_low m : 0 <= m <= 400 ->
  exists x, transmits (get_gas_transmittance (N := MathR) low (Fin m)) x /\ (m = 0 -> x = 1) /\ (0 < m -> x < 1).
Proof.
  intros H. unfold get_gas_transmittance. change (is_high low) with false. cbv iota. rx. rewrite ?div_R by nra.
  eexists. split; [split; [reflexivity|apply ratio_unit; split; nra]|]. split.
  - intros ->. field.
  - intros P. apply (Rmult_lt_reg_r (1 + 0.30306 * m)); [nra|].
    unfold Rdiv. rewrite Rmult_assoc, Rinv_l by nra. nra.
Qed.

(* ---------------------------------------------------------------- ozone *)
Lemma ozone_high m u : 0 <= m <= 50 -> 0 <= u <= 0.5 ->
  exists x, transmits (get_ozone_transmittance (N := MathR) high (Fin m) (Fin u)) x /\ (m = 0 -> x = 1) /\ (u = 0 -> x = 1).
Proof.
  intros Hm Hu. unfold get_ozone_transmittance. change (is_high high) with true. cbv iota. rx.
  assert (D1 : 0 < 1 + 2.0115 * u + 40.189 * u ^ 2) by nra.
  assert (D2 : 0 < 1 - 2.4857 * u + 13.942 * u ^ 2) by nra.
  assert (D3 : 0 < 1 + 1.6784 * u + 42.406 * u ^ 2) by nra.
  rewrite !div_R by lra. rx.
  set (f1 := u * (10.979 - 8.5421 * u) / _). set (f2 := u * (_ - 0.005138 * u) / _). set (f3 := u * (10.995 - 5.5001 * u) / _).
  assert (P1 : 0 <= f1) by (apply Rle_mult_inv_pos; [nra|assumption]).
  assert (P3 : f1 <= f3).
  { apply ratio_mono; try assumption.
    assert (E : 0 <= u * ((10.995 - 5.5001 * u) * (1 + 2.0115 * u + 40.189 * u ^ 2) - (10.979 - 8.5421 * u) * (1 + 1.6784 * u + 42.406 * u ^ 2))).
    { apply Rmult_le_pos; [lra|].
      interval with (i_bisect u, i_prec 60). }
    nra. }
  assert (P2 : f2 <= 0 /\ - f1 <= 50 * f2).
  { split.
    - unfold f2, Rdiv. apply Rinv_0_lt_compat in D2. assert (u * (-0.027589 - 0.005138 * u) <= 0) by nra. nra.
    - unfold f1, f2. 
      replace (50 * (u * (-0.027589 - 0.005138 * u) / (1 - 2.4857 * u + 13.942 * u ^ 2)))
        with (- (50 * (u * (0.027589 + 0.005138 * u)) / (1 - 2.4857 * u + 13.942 * u ^ 2))) by (unfold Q2R; simpl; field; unfold Q2R in D2; simpl in D2; lra).
      apply Ropp_le_contravar. apply ratio_mono; try assumption.
      assert (E : 0 <= u * ((10.979 - 8.5421 * u) * (1 - 2.4857 * u + 13.942 * u ^ 2) - 50 * (0.027589 + 0.005138 * u) * (1 + 2.0115 * u + 40.189 * u ^ 2))).
      { apply Rmult_le_pos; [lra|]. interval with (i_bisect u, i_prec 60). }
      nra. }
  assert (N : 0 < 1 + f1 * m + f2 * m ^ 2).
  { assert (0 <= m * (f1 + f2 * m)); [|nra]. apply Rmult_le_pos; [lra|]. nra. }
  rewrite div_R by nra. eexists. split; [split; [reflexivity|apply ratio_unit; split; [exact N|nra]]|]. split.
  - intros ->. field.
  - intros U. assert (E1 : f1 = 0) by (unfold f1; rewrite U; field; lra). assert (E2 : f2 = 0) by (unfold f2; rewrite U; field; lra).
    assert (E3 : f3 = 0) by (unfold f3; rewrite U; field; lra). rewrite E1, E2, E3. field.
Qed.
Lemma ozone_low m u : get_ozone_transmittance (N := MathR) low m u = Ok (Fin 1).
Proof. unfold get_ozone_transmittance. change (is_high low) with false. cbv iota. rx. do 2 f_equal. unfold Q2R; simpl; lra. Qed.

(* ---------------------------------------------------------------- nitrogen dioxide *)
Lemma nitrogen_high m n : 0 <= m <= 500 ->
  exists x, transmits (get_nitrogen_transmittance (N := MathR) high (Fin m) n) x /\ (m = 0 -> x = 1).
Proof.
  intros Hm. unfold get_nitrogen_transmittance. change (is_high high) with true. cbv iota. unfold un. rx.
  set (g1 := (0.17499 + _ - _) / _). set (g2 := 0.0003 * _ / _). set (g3 := (0.17499 + _ + _) / _).
  assert (G1 : 0.18 <= g1 <= 0.19) by (unfold g1; split; interval).
  assert (G2 : -0.00036 <= g2 <= 0) by (unfold g2; split; interval).
  assert (G3 : 0.19 <= g3 <= 0.2) by (unfold g3; split; interval).
  rewrite ?div_R by nra. rx. clearbody g1 g2 g3. assert (N : 0 < 1 + g1 * m + g2 * m ^ 2).
  { assert (0 <= m * (g1 + g2 * m)); [|nra]. apply Rmult_le_pos; [lra|]. nra. }
  assert (D : 0 < 1 + g3 * m) by nra. set (q := (1 + g1 * m + g2 * m ^ 2) / (1 + g3 * m)).
  assert (Q : 0 < q <= 1) by (apply ratio_unit; split; [exact N|nra]).
  exists q. split.
  - split; [|exact Q]. unfold Rbool_lt. destruct (Rlt_dec q 1); [reflexivity|]. do 2 f_equal. lra.
  - intros ->. unfold q. field.
Qed.
Lemma nitrogen_low m n : get_nitrogen_transmittance (N := MathR) low m n = Ok (Fin 1).
Proof. unfold get_nitrogen_transmittance. change (is_high low) with false. cbv iota. rx. do 2 f_equal. unfold Q2R; simpl; lra. Qed.

(* ---------------------------------------------------------------- water vapour *)
Lemma water_high m w : 0 <= m -> 0 <= w ->
  exists x, transmits (get_water_vapor_transmittance (N := MathR) high (Fin m) (Fin w)) x /\ (m = 0 -> x = 1) /\ (w = 0 -> x = 1) /\
    (0 < m -> 0 < w -> x < 1).
Proof.
  intros Hm Hw. unfold get_water_vapor_transmittance. change (is_high high) with true. cbv iota. unfold water_coeffs_high. rx. rewrite ?div_R by lra.
  rx. set (h1 := w * (_ + 0.00029901 * w) / _). set (h2 := w * (_ + 0.0013218 * w) / _).
  assert (P1 : 0 <= h1) by (apply Rle_mult_inv_pos; [nra|lra]).
  assert (P2 : h1 <= h2) by (apply ratio_mono; [lra|lra|nra]).
  rewrite div_R by nra. eexists. split; [split; [reflexivity|apply ratio_unit; split; nra]|]. split; [|split].
  - intros ->. field.
  - intros W. assert (E1 : h1 = 0) by (unfold h1; rewrite W; field). assert (E2 : h2 = 0) by (unfold h2; rewrite W; field).
    rewrite E1, E2. field.
  - intros M W. assert (P3 : h1 < h2).
    { unfold h1, h2. apply (Rmult_lt_reg_r ((1 + 1.2728 * w) * (1 + 1.2008 * w))); [nra|].
      replace (w * (0.065445 + 0.00029901 * w) / (1 + 1.2728 * w) * ((1 + 1.2728 * w) * (1 + 1.2008 * w)))
        with (w * (0.065445 + 0.00029901 * w) * (1 + 1.2008 * w)) by (field; lra).
      replace (w * (0.065687 + 0.0013218 * w) / (1 + 1.2008 * w) * ((1 + 1.2728 * w) * (1 + 1.2008 * w)))
        with (w * (0.065687 + 0.0013218 * w) * (1 + 1.2728 * w)) by (field; lra). nra. }
    apply (Rmult_lt_reg_r (1 + h2 * m)); [nra|]. unfold Rdiv. rewrite Rmult_assoc, Rinv_l by nra. nra.
Qed.

Lemma mul_le_of_diff a b u : 0 <= u -> a <= b -> u * a <= u * b.
Proof. intros; nra. Qed.

Lemma water_low m w : 0 <= m -> 0 <= w ->
  exists x, transmits (get_water_vapor_transmittance (N := MathR) low (Fin m) (Fin w)) x /\ (m = 0 -> x = 1) /\ (w = 0 -> x = 1).
Proof.
  intros Hm Hw. unfold get_water_vapor_transmittance. change (is_high low) with false. cbv iota. unfold water_coeffs_low. rx.
  pose proof (pow2_ge_0 w) as W2. rewrite ?div_R by lra. rx. rewrite ?div_R by lra. rx.
  set (c1 := w * (19.566 - _ + _) / _). set (c2 := w * (0.50158 - _ + _) / _). set (c3 := w * (21.286 - _ + _) / _). set (c4 := w * (0.70992 - _ + _) / _).
  assert (D1 : 0 < 1 + 5.4248 * w + 1.6005 * w ^ 2) by lra. assert (D2 : 0 < 1 + 1.1811 * w + 1.0699 * w ^ 2) by lra.
  assert (D3 : 0 < 1 + 4.8318 * w + 1.412 * w ^ 2) by lra. assert (D4 : 0 < 1 + 0.44907 * w + 0.75425 * w ^ 2) by lra.
  assert (P1 : 0 <= c1). { apply Rle_mult_inv_pos; [|assumption]. apply Rmult_le_pos; [lra|]. nra. }
  assert (P2 : 0 <= c2). { apply Rle_mult_inv_pos; [|assumption]. apply Rmult_le_pos; [lra|]. nra. }
  assert (W3 : 0 <= w ^ 3) by (apply pow_le; lra). assert (W4 : 0 <= w ^ 4) by (apply pow_le; lra).
  assert (P3 : c1 <= c3).
  { apply ratio_mono; [assumption|assumption|]. rewrite !Rmult_assoc. apply mul_le_of_diff; [lra|]. ring_simplify. lra. }
  assert (P4 : c2 <= c4).
  { apply ratio_mono; [assumption|assumption|]. rewrite !Rmult_assoc. apply mul_le_of_diff; [lra|].
    assert (0 <= w ^ 2 * (w - 1) ^ 2) by (apply Rmult_le_pos; [lra|apply pow2_ge_0]). ring_simplify. ring_simplify in H. lra. }
  pose proof (pow2_ge_0 m) as M2.
  assert (0 <= c1 * m /\ 0 <= c2 * m ^ 2 /\ c1 * m <= c3 * m /\ c2 * m ^ 2 <= c4 * m ^ 2) by (repeat split; nra).
  rewrite div_R by lra. eexists. split; [split; [reflexivity|apply ratio_unit; lra]|]. split.
  - intros ->. field.
  - intros W.
    assert (E1 : c1 = 0) by (unfold c1; rewrite W; field). assert (E2 : c2 = 0) by (unfold c2; rewrite W; field).
    assert (E3 : c3 = 0) by (unfold c3; rewrite W; field). assert (E4 : c4 = 0) by (unfold c4; rewrite W; field).
    rewrite E1, E2, E3, E4. field.
Qed.

(* ---------------------------------------------------------------- aerosols *)
Lemma exp_unit x : 0 <= x -> 0 < exp (- x) <= 1.
Proof.
  intros H. split; [apply exp_pos|]. rewrite <- exp_0. destruct H as [H| <-]; [left; apply exp_increasing; lra|right; f_equal; lra].
Qed.
Lemma big_float : 1 < float_overflow.
Proof. unfold float_overflow. interval with (i_prec 60). Qed.
Lemma nexp_le1 x : x <= 0 -> @nexp MathR (Fin x) = Ok (Fin (exp x)).
Proof. intros H. apply nexp_R. pose proof big_float. pose proof (exp_unit (- x) ltac:(lra)) as E. rewrite Ropp_involutive in E. lra. Qed.

Lemma aerosol_transmittance b m tau : 0 <= m -> 0 <= tau ->
  transmits (get_aerosol_transmittance (N := MathR) b (Fin m) (Fin tau)) (exp (- (m * tau))).
Proof.
  intros Hm Ht. unfold get_aerosol_transmittance. rx. assert (0 <= m * tau) by nra. split; [|now apply exp_unit].
  rewrite nexp_le1 by lra. do 3 f_equal. lra.
Qed.
Lemma scattering_transmittance b m tau : b = high \/ b = low -> 0 <= m -> 0 <= tau ->
  exists x, transmits (get_aerosol_scattering_transmittance (N := MathR) b (Fin m) (Fin tau)) x /\ exp (- (m * tau)) <= x.
Proof.
  intros Hb Hm Ht. unfold get_aerosol_scattering_transmittance. assert (0 <= m * tau) by nra.
  assert (W : exists w, @albedo MathR b = Ok (Fin w) /\ 0 < w < 1).
  { destruct Hb as [-> | ->]; eexists; (split; [reflexivity|lra]). }
  destruct W as (w & -> & Hw). rx. assert (0 <= w * (m * tau) <= m * tau) by nra.
  rewrite nexp_le1 by nra. exists (exp (- (w * (m * tau)))). split; [split|].
  - do 3 f_equal. ring.
  - apply exp_unit. lra.
  - destruct (Req_dec (m * tau) (w * (m * tau))) as [E|E]; [rewrite <- E; lra|left; apply exp_increasing; lra].
Qed.

(* ---------------------------------------------------------------- optical masses *)
Lemma powf_0 a : 0 < a -> @powf MathR (Fin 0) (Fin a) = Ok (Fin 0).
Proof.
  intros H. cbn. rewrite Rbool_lt_false, Req_bool_true, Rbool_lt_false by lra. unfold Rpow_pos.
  rewrite Req_bool_true by lra. rewrite Req_bool_false by lra. reflexivity.
Qed.

(* Z ** a for 0 <= Z *)
Definition zpow (z a : R) : R := if Req_bool z 0 then 0 else Rpower z a.
Lemma powf_zpow z a : 0 <= z -> 0 < a -> @powf MathR (Fin z) (Fin a) = Ok (Fin (zpow z a)).
Proof.
  intros Hz Ha. unfold zpow. destruct (Req_dec z 0) as [->|Hn].
  - rewrite Req_bool_true by reflexivity. now apply powf_0.
  - rewrite Req_bool_false by assumption. apply powf_R. lra.
Qed.
Lemma zpow_nonneg z a : 0 <= zpow z a.
Proof. unfold zpow. destruct (Req_bool z 0); [lra|]. left. apply exp_pos. Qed.
Lemma zpow_pos z a : 0 < z -> 0 < zpow z a.
Proof. intros H. unfold zpow. rewrite Req_bool_false by lra. apply exp_pos. Qed.

Definition mass_formula (k a b d alt : R) : R :=
  Rpower (b - rad (90 - alt)) d / (sind alt + k * zpow (rad (90 - alt)) a).

Lemma rad_bound x : 0 <= x <= 90 -> 0 <= rad x < 2.
Proof. intros H. unfold rad. pose proof PI_pos. split; [nra|interval]. Qed.
Lemma cos_compl x : cos (rad (90 - x)) = sind x.
Proof. rewrite rad_minus, rad_90, cos_minus, cos_PI2, sin_PI2, <- sind_rad. lra. Qed.

Lemma mass_denominator k a alt : 0 < k -> 0 <= alt <= 90 -> 0 < sind alt + k * zpow (rad (90 - alt)) a.
Proof.
  intros Hk Ha. destruct (Req_dec alt 90) as [->|Hn].
  - rewrite sind_90. pose proof (zpow_nonneg (rad (90 - 90)) a). nra.
  - pose proof (sind_nonneg alt ltac:(lra)). assert (0 < rad (90 - alt)) by (unfold rad; pose proof PI_pos; nra).
    pose proof (zpow_pos _ a H0). nra.
Qed.

Lemma optical_mass_val k a b d alt : 0 < Q2R k -> 0 < Q2R a -> 2 <= Q2R b -> 0 <= alt <= 90 ->
  optical_mass (N := MathR) k a b d (Fin alt) = Ok (Fin (mass_formula (Q2R k) (Q2R a) (Q2R b) (Q2R d) alt)) /\
  0 < mass_formula (Q2R k) (Q2R a) (Q2R b) (Q2R d) alt.
Proof.
  intros Hk Ha Hb Halt. unfold optical_mass. rx. pose proof (rad_bound (90 - alt) ltac:(lra)) as R.
  rewrite powf_zpow by lra. rx. rewrite cos_compl. pose proof (mass_denominator (Q2R k) (Q2R a) alt Hk Halt) as D.
  set (den := sind alt + Q2R k * zpow (rad (90 - alt)) (Q2R a)) in *.
  pose proof (exp_pos (Q2R d * ln (Q2R b - rad (90 - alt)))) as P. fold (Rpower (Q2R b - rad (90 - alt)) (Q2R d)) in P.
  unfold mass_formula. fold den. set (num := Rpower _ _) in *. 
  rewrite (div_R den num) by lra. rx. assert (0 < den / num) by now apply Rdiv_lt_0_compat.
  rewrite div_R by lra. split; [do 2 f_equal; unfold Q2R; simpl; field; lra|now apply Rdiv_lt_0_compat].
Qed.

Lemma rayleigh_mass_val alt p : 0 <= alt <= 90 ->
  get_optical_mass_rayleigh (N := MathR) (Fin alt) (Fin p) = Ok (Fin (p / 1013.25 * mass_formula 0.48353 0.095846 96.741 1.754 alt)) /\
  0 < mass_formula 0.48353 0.095846 96.741 1.754 alt.
Proof.
  intros Halt. unfold get_optical_mass_rayleigh, standard_pressure_millibars. rx. pose proof (rad_bound (90 - alt) ltac:(lra)) as R.
  rewrite powf_zpow by lra. rx. rewrite cos_compl. pose proof (mass_denominator 0.48353 0.095846 alt ltac:(lra) Halt) as D.
  unfold mass_formula. set (den := sind alt + 0.48353 * zpow (rad (90 - alt)) 0.095846) in *.
  pose proof (exp_pos (1.754 * ln (96.741 - rad (90 - alt)))) as P. fold (Rpower (96.741 - rad (90 - alt)) 1.754) in P.
  set (num := Rpower _ _) in *. rewrite (div_R den num) by lra. rx. assert (0 < den / num) by now apply Rdiv_lt_0_compat.
  rewrite div_R by lra. split; [do 2 f_equal; field; split; lra|now apply Rdiv_lt_0_compat].
Qed.

Lemma mass_zenith k a b d : mass_formula k a b d 90 = Rpower b d.
Proof.
  unfold mass_formula. replace (90 - 90) with 0 by lra. rewrite rad_0, sind_90. unfold zpow. rewrite Req_bool_true by reflexivity.
  replace (b - 0) with b by lra. field.
Qed.

(* C53: false by a factor of thousands *)
Lemma zenith_masses :
  exists mR mo mw ma,
    get_optical_mass_rayleigh (N := MathR) (Fin 90) standard_pressure_millibars = Ok (Fin mR) /\ 3000 < mR < 3080 /\
    get_optical_mass_ozone (N := MathR) (Fin 90) = Ok (Fin mo) /\ 35000 < mo < 37000 /\
    get_optical_mass_water (N := MathR) (Fin 90) = Ok (Fin mw) /\ 6000 < mw < 6300 /\
    get_optical_mass_aerosol (N := MathR) (Fin 90) = Ok (Fin ma) /\ 7300 < ma < 7450.
Proof.
  pose proof (rayleigh_mass_val 90 1013.25 ltac:(lra)) as [ER _].
  pose proof (optical_mass_val 1.0651 0.6379 101.8 2.2694 90 ltac:(lra) ltac:(lra) ltac:(lra) ltac:(lra)) as [EO _].
  pose proof (optical_mass_val 0.10648 0.11423 93.781 1.9203 90 ltac:(lra) ltac:(lra) ltac:(lra) ltac:(lra)) as [EW _].
  pose proof (optical_mass_val 0.16851 0.18198 95.318 1.9542 90 ltac:(lra) ltac:(lra) ltac:(lra) ltac:(lra)) as [EA _].
  rewrite mass_zenith in ER, EO, EW, EA.
  do 4 eexists. split; [exact ER|]. split; [unfold Rpower; split; interval|]. 
  split; [exact EO|]. split; [unfold Rpower; split; interval|].
  split; [exact EW|]. split; [unfold Rpower; split; interval|].
  split; [exact EA|]. unfold Rpower; split; interval.
Qed.

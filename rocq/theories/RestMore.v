(* rest.py over the real model: the remaining component functions, and their published values. *)
From Coq Require Import Reals Qreals Lra Lia Psatz List.
Import ListNotations.
From Flocq Require Import Core.
From Interval Require Import Tactic.
From Verif Require Import Py Num Constants Rest RInst RTac SpecGeom SpecEng SpecRest Trig RestProofs.
Local Open Scope R_scope.

Ltac polys := unfold rat, poly; cbn [fold_right].

Lemma TR1_val m : 0 <= m -> get_rayleigh_transmittance (N := MathR) high (Fin m) = Ok (Fin (rest2_TR1 m)).
Proof.
  intros H. unfold get_rayleigh_transmittance. change (is_high high) with true. cbv iota. rx. rewrite ?div_R by nra.
  do 2 f_equal. unfold rest2_TR1. polys. f_equal; lra.
Qed.
Lemma TR2_val m : 0 <= m <= 94 -> get_rayleigh_transmittance (N := MathR) low (Fin m) = Ok (Fin (rest2_TR2 m)).
Proof.
  intros H. unfold get_rayleigh_transmittance. change (is_high low) with false. cbv iota. rx. rewrite ?div_R by nra.
  do 2 f_equal. unfold rest2_TR2. polys. f_equal; lra.
Qed.
Lemma Tg1_val m : 0 <= m -> get_gas_transmittance (N := MathR) high (Fin m) = Ok (Fin (rest2_Tg1 m)).
Proof.
  intros H. unfold get_gas_transmittance. change (is_high high) with true. cbv iota. rx. rewrite ?div_R by nra.
  do 2 f_equal. unfold rest2_Tg1. polys. f_equal; lra.
Qed.
Lemma Tg2_val m : 0 <= m -> get_gas_transmittance (N := MathR) low (Fin m) = Ok (Fin (rest2_Tg2 m)).
Proof.
  intros H. unfold get_gas_transmittance. change (is_high low) with false. cbv iota. rx. rewrite ?div_R by nra.
  do 2 f_equal. unfold rest2_Tg2. polys. f_equal; lra.
Qed.

(* x / y = x' / y' and u * (x / y) = x' / y', the components compared as polynomials *)
Lemma div_eq a b c d : a = c -> b = d -> a / b = c / d.
Proof. now intros -> ->. Qed.
Lemma mul_div_eq u a b c d : u * a = c -> b = d -> u * (a / b) = c / d.
Proof. intros <- ->. unfold Rdiv. ring. Qed.
Ltac poly_eq := polys; first [apply div_eq; lra | apply mul_div_eq; lra].

Lemma To1_val m u : 0 <= m -> 0 <= u <= 1.99 -> get_ozone_transmittance (N := MathR) high (Fin m) (Fin u) = Ok (Fin (rest2_To1 m u)).
Proof.
  intros H Hu. unfold get_ozone_transmittance. change (is_high high) with true. cbv iota. rx.
  assert (D1 : 0 < 1 + 2.0115 * u + 40.189 * u ^ 2) by nra.
  assert (D2 : 0 < 1 - 2.4857 * u + 13.942 * u ^ 2) by nra.
  assert (D3 : 0 < 1 + 1.6784 * u + 42.406 * u ^ 2) by nra.
  rewrite !div_R by lra. rx.
  set (f1 := u * (10.979 - 8.5421 * u) / _). set (f2 := u * (_ - 0.005138 * u) / _). set (f3 := u * (10.995 - 5.5001 * u) / _).
  assert (P3 : 0 <= f3) by (apply Rle_mult_inv_pos; [nra|assumption]).
  rewrite div_R by nra. do 2 f_equal. unfold rest2_To1.
  replace (u * rat [10.979; -8.5421] _ u) with f1 by (symmetry; unfold f1; poly_eq).
  replace (u * rat [-0.027589; _] _ u) with f2 by (symmetry; unfold f2; poly_eq).
  replace (u * rat [10.995; _] _ u) with f3 by (symmetry; unfold f3; poly_eq). symmetry. poly_eq.
Qed.

Lemma Tw1_val m w : 0 <= m -> 0 <= w -> get_water_vapor_transmittance (N := MathR) high (Fin m) (Fin w) = Ok (Fin (rest2_Tw1 m w)).
Proof.
  intros Hm Hw. unfold get_water_vapor_transmittance, water_coeffs_high. change (is_high high) with true. cbv iota. rx.
  repeat (rewrite div_R by nra; rx).
  set (h1 := w * (0.065445 + _) / _). set (h2 := w * (0.065687 + _) / _).
  assert (P : 0 <= h2) by (apply Rle_mult_inv_pos; nra).
  rewrite div_R by nra. do 2 f_equal. unfold rest2_Tw1.
  replace (w * rat [0.065445; _] _ w) with h1 by (symmetry; unfold h1; poly_eq).
  replace (w * rat [0.065687; _] _ w) with h2 by (symmetry; unfold h2; poly_eq). symmetry. poly_eq.
Qed.

Lemma Tw2_val m w : 0 <= m -> 0 <= w -> get_water_vapor_transmittance (N := MathR) low (Fin m) (Fin w) = Ok (Fin (rest2_Tw2 m w)).
Proof.
  intros Hm Hw. unfold get_water_vapor_transmittance, water_coeffs_low. change (is_high low) with false. cbv iota. rx.
  repeat (rewrite div_R by nra; rx).
  set (c1 := w * (19.566 - _ + _) / _). set (c2 := w * (0.50158 - _ + _) / _). set (c3 := w * (21.286 - _ + _) / _). set (c4 := w * (0.70992 - _ + _) / _).
  assert (P3 : 0 <= c3) by (apply Rle_mult_inv_pos; [apply Rmult_le_pos|]; nra).
  assert (P4 : 0 <= c4) by (apply Rle_mult_inv_pos; [apply Rmult_le_pos|]; nra).
  rewrite div_R by nra. do 2 f_equal. unfold rest2_Tw2.
  replace (w * rat [19.566; _; _] _ w) with c1 by (symmetry; unfold c1; poly_eq).
  replace (w * rat [0.50158; _; _] _ w) with c2 by (symmetry; unfold c2; poly_eq).
  replace (w * rat [21.286; _; _] _ w) with c3 by (symmetry; unfold c3; poly_eq).
  replace (w * rat [0.70992; _; _] _ w) with c4 by (symmetry; unfold c4; poly_eq). symmetry. poly_eq.
Qed.

(* nitrogen: the amount passed in is ignored, 0.0003 atm-cm is used *)
Lemma Tn1_val m n : 0 <= m -> get_nitrogen_transmittance (N := MathR) high (Fin m) n = Ok (Fin (rest2_Tn1 m 0.0003)).
Proof.
  intros Hm. unfold get_nitrogen_transmittance, un. change (is_high high) with true. cbv iota. rx.
  rx.
  set (g1 := (0.17499 + _ - _) / _). set (g2 := 0.0003 * (_ + 59.324 * 0.0003) / _). set (g3 := (0.17499 + _ + _) / _).
  assert (P3 : 0 < g3) by (apply Rdiv_lt_0_compat; lra).
  unfold rest2_Tn1.
  replace (rat [_; _; -2146.4] _ 0.0003) with g1 by (symmetry; unfold g1; poly_eq).
  replace (0.0003 * rat [_; _] _ 0.0003) with g2 by (symmetry; unfold g2; poly_eq).
  replace (rat [_; _; 9196.4] _ 0.0003) with g3 by (symmetry; unfold g3; poly_eq).
  replace (rat [1; g1; g2] [1; g3] m) with ((1 + g1 * m + g2 * m ^ 2) / (1 + g3 * m)) by poly_eq.
  set (q := _ / _). unfold Rmin. destruct (Rle_dec 1 q).
  - rewrite Rbool_lt_false by lra. rx. reflexivity.
  - rewrite Rbool_lt_true by lra. reflexivity.
Qed.

Lemma rhos1_val a b : 0 <= a <= 9 -> 0 <= b -> get_sky_albedo (N := MathR) high (Fin a) (Fin b) = Ok (Fin (rest2_rhos1 a b)).
Proof.
  intros Ha Hb. unfold get_sky_albedo. change (is_high high) with true. cbv iota. rx. repeat (rewrite div_R by nra; rx).
  set (q1 := b * (0.37567 + _) / _). set (q2 := b * (0.84057 + _) / _).
  assert (0 <= q2) by (apply Rle_mult_inv_pos; nra).
  rewrite div_R by nra. do 2 f_equal. unfold rest2_rhos1.
  replace (b * rat [0.37567; _] _ a) with q1 by (symmetry; unfold q1; poly_eq).
  replace (b * rat [0.84057; _] _ a) with q2 by (symmetry; unfold q2; poly_eq). symmetry. poly_eq.
Qed.
Lemma rhos2_val a b : 0 <= a <= 5 -> 0 <= b -> get_sky_albedo (N := MathR) low (Fin a) (Fin b) = Ok (Fin (rest2_rhos2 a b)).
Proof.
  intros Ha Hb. unfold get_sky_albedo. change (is_high low) with false. cbv iota. rx. repeat (rewrite div_R by nra; rx).
  set (q1 := b * (0.14618 + _) / _). set (q2 := b * (0.58101 + _) / _).
  assert (0 <= q2) by (apply Rle_mult_inv_pos; nra).
  rewrite div_R by nra. do 2 f_equal. unfold rest2_rhos2.
  replace (b * rat [0.14618; _] _ a) with q1 by (symmetry; unfold q1; poly_eq).
  replace (b * rat [0.58101; _] _ a) with q2 by (symmetry; unfold q2; poly_eq). symmetry. poly_eq.
Qed.

Lemma BR1_val m : get_rayleigh_extinction_forward_scattering_fraction (N := MathR) high (Fin m) = Ok (Fin (rest2_BR1 m)).
Proof.
  unfold get_rayleigh_extinction_forward_scattering_fraction. change (is_high high) with true. cbv iota. rx.
  do 2 f_equal. unfold rest2_BR1. polys. lra.
Qed.
Lemma BR2_val m : get_rayleigh_extinction_forward_scattering_fraction (N := MathR) low m = Ok (Fin (1 / 2)).
Proof. unfold get_rayleigh_extinction_forward_scattering_fraction. change (is_high low) with false. cbv iota. rx. do 2 f_equal. unfold Q2R; simpl; lra. Qed.

Lemma F1_val m tau : 0 <= m -> 0 <= tau <= 19 ->
  get_aerosol_scattering_correction_factor (N := MathR) high (Fin m) (Fin tau) = Ok (Fin (rest2_F1 m tau)).
Proof.
  intros Hm Ht. unfold get_aerosol_scattering_correction_factor. change (is_high high) with true. cbv iota. rx. repeat (rewrite div_R by nra; rx).
  set (g0 := (3.715 + _ + _) / _). set (g1 := (_ - _ + 0.20701 * _) / _). set (g2 := (_ + 0.31902 * _ + _) / _).
  assert (P : -0.052288 <= g2).
  { assert (D : 0 < 1 + 0.0069592 * m ^ 2) by nra. unfold g2. apply (Rmult_le_reg_r (1 + 0.0069592 * m ^ 2)); [exact D|].
    unfold Rdiv. rewrite Rmult_assoc, Rinv_l by lra. nra. }
  rewrite div_R by nra. do 2 f_equal. unfold rest2_F1.
  replace (rat [3.715; _; _] _ m) with g0 by (symmetry; unfold g0; poly_eq).
  replace (rat [_; _; 0.20701] _ m) with g1 by (symmetry; unfold g1; poly_eq).
  replace (rat [_; _; 0.17871] _ m) with g2 by (symmetry; unfold g2; poly_eq). symmetry. poly_eq.
Qed.

Lemma pow15 m : 0 < m -> @powf MathR (Fin m) (Fin 1.5) = Ok (Fin (m * sqrt m)).
Proof.
  intros H. rewrite powf_R by exact H. do 2 f_equal. replace 1.5 with (1 + / 2) by lra.
  rewrite Rpower_plus, Rpower_1, Rpower_sqrt by exact H. reflexivity.
Qed.
Lemma F2_val m tau : 0 < m -> 0 <= tau ->
  get_aerosol_scattering_correction_factor (N := MathR) low (Fin m) (Fin tau) = Ok (Fin (rest2_F2 m tau)).
Proof.
  intros Hm Ht. unfold get_aerosol_scattering_correction_factor. change (is_high low) with false. cbv iota.
  rewrite powi_R, bind_Ok, (lit_R 1.5), pow15, bind_Ok by exact Hm. pose proof (sqrt_pos m). set (p := m * sqrt m).
  assert (0 <= p) by (unfold p; nra). rx. repeat (rewrite div_R by nra; rx).
  set (h0 := (3.4352 + _ + _) / _). set (h1 := (1.231 - _ + _) / _). set (h2 := (0.8889 - _ + _) / _).
  assert (P : 0 <= h2) by (apply Rle_mult_inv_pos; nra).
  rewrite div_R by nra. do 2 f_equal. unfold rest2_F2. fold p.
  replace (poly [3.4352; _; _] m / _) with h0 by (symmetry; unfold h0; poly_eq).
  replace (poly [1.231; _; _] m / _) with h1 by (symmetry; unfold h1; poly_eq).
  replace (poly [0.8889; _; _] m / _) with h2 by (symmetry; unfold h2; poly_eq). symmetry. poly_eq.
Qed.

(* ---------------------------------------------------------------- ranges *)
Lemma BR_range m : 0 <= m <= 18 -> 0 < rest2_BR1 m < 1 / 2.
Proof. intros H. unfold rest2_BR1. polys. split; nra. Qed.

Lemma rhos1_range a b : 0 <= a <= 2.5 -> 0 <= b -> 0 < rest2_rhos1 a b < 1.
Proof.
  intros Ha Hb. unfold rest2_rhos1. polys.
  set (q1 := (0.37567 + _) / _). set (q2 := (0.84057 + _) / _).
  assert (P1 : 0 <= q1) by (apply Rle_mult_inv_pos; nra).
  assert (P2 : q1 <= q2) by (apply ratio_mono; nra).
  assert (0 <= b * q1 <= b * q2) by nra.
  split; [apply Rdiv_lt_0_compat; nra|]. apply (Rmult_lt_reg_r (1 + b * q2)); [nra|].
  unfold Rdiv. rewrite Rmult_assoc, Rinv_l by nra. nra.
Qed.
Lemma rhos2_range a b : 0 <= a <= 2.5 -> 0 <= b -> 0 < rest2_rhos2 a b < 1.
Proof.
  intros Ha Hb. unfold rest2_rhos2. polys.
  set (q1 := (0.14618 + _) / _). set (q2 := (0.58101 + _) / _).
  assert (P1 : 0 <= q1) by (apply Rle_mult_inv_pos; nra).
  assert (P2 : q1 <= q2) by (apply ratio_mono; nra).
  assert (0 <= b * q1 <= b * q2) by nra.
  split; [apply Rdiv_lt_0_compat; nra|]. apply (Rmult_lt_reg_r (1 + b * q2)); [nra|].
  unfold Rdiv. rewrite Rmult_assoc, Rinv_l by nra. nra.
Qed.

Lemma sky_albedo_range bd a b : bd = high \/ bd = low -> 0 <= a <= 2.5 -> 0 <= b ->
  exists r, get_sky_albedo (N := MathR) bd (Fin a) (Fin b) = Ok (Fin r) /\ 0 < r < 1.
Proof.
  intros [-> | ->] Ha Hb; eexists.
  - split; [apply rhos1_val; lra|now apply rhos1_range].
  - split; [apply rhos2_val; lra|now apply rhos2_range].
Qed.

Lemma backscatter_fixpoint bd Eb Ed a b : bd = high \/ bd = low -> 0 <= a <= 2.5 -> 0 <= b -> 0 <= Eb + Ed ->
  exists rs x, get_sky_albedo (N := MathR) bd (Fin a) (Fin b) = Ok (Fin rs) /\
    get_backscattered_diffuse_irradiance_by_band (N := MathR) bd (Fin Eb) (Fin Ed) (Fin a) (Fin b) = Ok (Fin x) /\
    x = 0.15 * rs * (Eb + Ed + x) /\ 0 <= x <= 3 / 17 * (Eb + Ed).
Proof.
  intros Hbd Ha Hb HE. destruct (sky_albedo_range bd a b Hbd Ha Hb) as (r & Er & Hr).
  exists r. unfold get_backscattered_diffuse_irradiance_by_band, get_ground_albedo. rewrite Er, bind_Ok. rx.
  try (rewrite div_R by nra). eexists. split; [reflexivity|]. split; [reflexivity|].
  replace (Q2R 0.150) with 0.15 by (unfold Q2R; simpl; lra). split; [field; nra|]. split.
  - apply Rle_mult_inv_pos; nra.
  - apply (Rmult_le_reg_r (1 - 0.15 * r)); [nra|]. unfold Rdiv at 1. rewrite Rmult_assoc, Rinv_l by nra. nra.
Qed.

Lemma forward_scatterance alt : 
  get_aerosol_forward_scatterance_factor (N := MathR) (Fin alt) = Ok (Fin (1 - exp (- 0.6931 - 1.8326 * sind alt))).
Proof.
  unfold get_aerosol_forward_scatterance_factor. rx. rewrite powf_R by apply exp_pos. rx. do 3 f_equal.
  unfold Rpower. rewrite ln_exp, cos_compl. f_equal. lra.
Qed.
Lemma forward_scatterance_range alt : 0 <= alt <= 90 -> 0.499 < 1 - exp (- 0.6931 - 1.8326 * sind alt) < 0.921.
Proof.
  intros H. pose proof (sind_nonneg alt ltac:(lra)). pose proof (sind_bound alt). set (s := sind alt) in *. split; interval.
Qed.
Lemma forward_scatterance_increasing a b : 0 <= a < b -> b <= 90 ->
  1 - exp (- 0.6931 - 1.8326 * sind a) < 1 - exp (- 0.6931 - 1.8326 * sind b).
Proof.
  intros H Hb. pose proof (sind_incr a b ltac:(lra) ltac:(lra) Hb).
  pose proof (exp_increasing (- 0.6931 - 1.8326 * sind b) (- 0.6931 - 1.8326 * sind a) ltac:(lra)). lra.
Qed.

(* Angstrom's law: tau * wavelength ^ alpha = beta *)
Lemma optical_depth_law beta wl alpha : 0 < wl ->
  exists tau, get_aerosol_optical_depth (N := MathR) (Fin beta) (Fin wl) (Fin alpha) = Ok (Fin tau) /\ tau * Rpower wl alpha = beta.
Proof.
  intros H. unfold get_aerosol_optical_depth. rx. eexists. split; [reflexivity|].
  rewrite Rmult_assoc, <- Rpower_plus. replace (- alpha + alpha) with 0 by lra. rewrite Rpower_O by exact H. lra.
Qed.

Lemma F1_pos m tau : 0 <= m -> 0 <= tau <= 3 -> 0 < rest2_F1 m tau.
Proof.
  intros Hm Ht. unfold rest2_F1. polys.
  assert (D0 : 0 < 1 + m * (0 + m * (0.0009391 + m * 0))) by nra.
  assert (D1 : 0 < 1 + m * (0 + m * (0.001901 + m * 0))) by nra.
  assert (D2 : 0 < 1 + m * (0 + m * (0.0069592 + m * 0))) by nra.
  set (g0 := (3.715 + _) / _). set (g1 := (-0.164 + _) / _). set (g2 := (-0.052288 + _) / _).
  assert (P0 : 3.7 <= g0). { apply (Rmult_le_reg_r _ _ _ D0). unfold g0, Rdiv. rewrite Rmult_assoc, Rinv_l by lra. nra. }
  assert (P1 : -1 <= g1). { apply (Rmult_le_reg_r _ _ _ D1). unfold g1, Rdiv. rewrite Rmult_assoc, Rinv_l by lra. pose proof (pow2_ge_0 (m - 1.75)). nra. }
  assert (P2 : -0.06 <= g2). { apply (Rmult_le_reg_r _ _ _ D2). unfold g2, Rdiv. rewrite Rmult_assoc, Rinv_l by lra. nra. }
  apply Rdiv_lt_0_compat; nra.
Qed.
Lemma F2_pos m tau : 0 < m -> 0 <= tau <= 1 -> 0 < rest2_F2 m tau.
Proof.
  intros Hm Ht. unfold rest2_F2. polys. pose proof (sqrt_lt_R0 m Hm) as S. pose proof (sqrt_sqrt m ltac:(lra)) as E.
  set (s := sqrt m) in *. set (p := m * s). assert (Hp : 0 < p) by (unfold p; nra).
  set (h0 := (3.4352 + _) / _). set (h1 := (1.231 + _) / _). set (h2 := (0.8889 + _) / _).
  assert (P2 : 0 <= h2) by (apply Rle_mult_inv_pos; nra).
  assert (0 < h0 + h1 * tau).
  2:{ apply Rdiv_lt_0_compat; nra. }
  assert (P0 : 0 < h0) by (apply Rdiv_lt_0_compat; nra).
  destruct (Rle_dec 0 h1); [nra|]. assert (0 < h0 + h1); [|nra].
  assert (N0 : 3.4352 <= 3.4352 + m * (0.65267 + m * (0.00034328 + m * 0))) by nra.
  assert (N1 : -2.5 <= 1.231 + m * (-1.63853 + m * (0.20667 + m * 0))) by (pose proof (pow2_ge_0 (m - 4)); nra).
  unfold h0, h1. set (n0 := 3.4352 + _) in *. set (n1 := 1.231 + _) in *.
  replace (n0 / (1 + 0.034388 * p) + n1 / (1 + 0.1451 * p))
    with ((n0 * (1 + 0.1451 * p) + n1 * (1 + 0.034388 * p)) / ((1 + 0.034388 * p) * (1 + 0.1451 * p))) by (field; nra).
  apply Rdiv_lt_0_compat; nra.
Qed.

(* ---------------------------------------------------------------- the nitrogen amount *)
Lemma nitrogen_ignored {N : Num} b (m n n' : T N) : get_nitrogen_transmittance b m n = get_nitrogen_transmittance b m n'.
Proof. reflexivity. Qed.
Lemma nitrogen_zero m : 0 <= m -> rest2_Tn1 m 0 = 1.
Proof.
  intros H. unfold rest2_Tn1. polys. replace (_ / _) with 1; [apply Rmin_left; lra|]. field. nra.
Qed.
Lemma nitrogen_refuted : exists x, get_nitrogen_transmittance (N := MathR) high (Fin 1) (Fin 0) = Ok (Fin x) /\ x < 0.995 /\ rest2_Tn1 1 0 = 1.
Proof.
  eexists. split; [apply Tn1_val; lra|]. split; [|apply nitrogen_zero; lra].
  unfold rest2_Tn1. eapply Rle_lt_trans; [apply Rmin_r|]. polys. interval.
Qed.

(* ---------------------------------------------------------------- collected *)
Lemma forward_fractions : 
  (forall alt, 0 <= alt <= 90 -> exists x, get_aerosol_forward_scatterance_factor (N := MathR) (Fin alt) = Ok (Fin x) /\ 0.499 < x < 0.921) /\
  (forall a b x y, 0 <= a < b -> b <= 90 -> get_aerosol_forward_scatterance_factor (N := MathR) (Fin a) = Ok (Fin x) ->
     get_aerosol_forward_scatterance_factor (N := MathR) (Fin b) = Ok (Fin y) -> x < y) /\
  (forall bd m, bd = high \/ bd = low -> 0 <= m <= 18 ->
     exists x, get_rayleigh_extinction_forward_scattering_fraction (N := MathR) bd (Fin m) = Ok (Fin x) /\ 0 < x <= 1 / 2).
Proof.
  split; [|split].
  - intros alt H. eexists. split; [apply forward_scatterance|now apply forward_scatterance_range].
  - intros a b x y H Hb. rewrite !forward_scatterance. intros [= <-] [= <-]. now apply forward_scatterance_increasing.
  - intros bd m [-> | ->] H; eexists.
    + split; [apply BR1_val|]. pose proof (BR_range m H). lra.
    + split; [apply BR2_val|lra].
Qed.
Lemma correction_positive bd m tau : bd = high \/ bd = low -> 0 < m -> 0 <= tau <= 1 ->
  exists x, get_aerosol_scattering_correction_factor (N := MathR) bd (Fin m) (Fin tau) = Ok (Fin x) /\ 0 < x.
Proof.
  intros [-> | ->] Hm Ht; eexists.
  - split; [apply F1_val; lra|apply F1_pos; lra].
  - split; [apply F2_val; lra|apply F2_pos; lra].
Qed.
Lemma rest2_published :
  (forall m, 0 <= m -> get_rayleigh_transmittance (N := MathR) high (Fin m) = Ok (Fin (rest2_TR1 m))) /\
  (forall m, 0 <= m <= 94 -> get_rayleigh_transmittance (N := MathR) low (Fin m) = Ok (Fin (rest2_TR2 m))) /\
  (forall m, 0 <= m -> get_gas_transmittance (N := MathR) high (Fin m) = Ok (Fin (rest2_Tg1 m))) /\
  (forall m, 0 <= m -> get_gas_transmittance (N := MathR) low (Fin m) = Ok (Fin (rest2_Tg2 m))) /\
  (forall m u, 0 <= m -> 0 <= u <= 1.99 -> get_ozone_transmittance (N := MathR) high (Fin m) (Fin u) = Ok (Fin (rest2_To1 m u))) /\
  (forall m w, 0 <= m -> 0 <= w -> get_water_vapor_transmittance (N := MathR) high (Fin m) (Fin w) = Ok (Fin (rest2_Tw1 m w))) /\
  (forall m w, 0 <= m -> 0 <= w -> get_water_vapor_transmittance (N := MathR) low (Fin m) (Fin w) = Ok (Fin (rest2_Tw2 m w))) /\
  (forall m tau, 0 <= m -> 0 <= tau <= 19 -> get_aerosol_scattering_correction_factor (N := MathR) high (Fin m) (Fin tau) = Ok (Fin (rest2_F1 m tau))) /\
  (forall m tau, 0 < m -> 0 <= tau -> get_aerosol_scattering_correction_factor (N := MathR) low (Fin m) (Fin tau) = Ok (Fin (rest2_F2 m tau))) /\
  (forall a b, 0 <= a <= 9 -> 0 <= b -> get_sky_albedo (N := MathR) high (Fin a) (Fin b) = Ok (Fin (rest2_rhos1 a b))) /\
  (forall a b, 0 <= a <= 5 -> 0 <= b -> get_sky_albedo (N := MathR) low (Fin a) (Fin b) = Ok (Fin (rest2_rhos2 a b))) /\
  (forall m, get_rayleigh_extinction_forward_scattering_fraction (N := MathR) high (Fin m) = Ok (Fin (rest2_BR1 m))) /\
  (forall m, get_rayleigh_extinction_forward_scattering_fraction (N := MathR) low m = Ok (Fin (1 / 2))) /\
  (forall alt, get_aerosol_forward_scatterance_factor (N := MathR) (Fin alt) = Ok (Fin (1 - exp (- 0.6931 - 1.8326 * sind alt)))).
Proof.
  exact (conj TR1_val (conj TR2_val (conj Tg1_val (conj Tg2_val (conj To1_val (conj Tw1_val (conj Tw2_val (conj F1_val (conj F2_val
    (conj rhos1_val (conj rhos2_val (conj BR1_val (conj BR2_val forward_scatterance))))))))))))).
Qed.
Lemma albedo_sample : 0 <= 1.3 <= 2.5 /\ 0 <= 0.6 /\ 0.25 < rest2_rhos1 1.3 0.6 < 0.3.
Proof. split; [lra|]. split; [lra|]. unfold rest2_rhos1. polys. split; interval. Qed.
Lemma published_samples : 0.84 < rest2_TR1 1 < 0.85 /\ 0.95 < rest2_To1 1.2 0.35 < 0.97 /\ 0.8 < rest2_Tw2 1 1 < 0.82.
Proof. unfold rest2_TR1, rest2_To1, rest2_Tw2. polys. repeat split; interval. Qed.

(* Beer's law for aerosols, with the single-scattering albedos of the two bands *)
Lemma aerosol_published : forall m tau, 0 <= m -> 0 <= tau ->
  get_aerosol_transmittance (N := MathR) high (Fin m) (Fin tau) = Ok (Fin (exp (- (m * tau)))) /\
  get_aerosol_transmittance (N := MathR) low (Fin m) (Fin tau) = Ok (Fin (exp (- (m * tau)))) /\
  get_aerosol_scattering_transmittance (N := MathR) high (Fin m) (Fin tau) = Ok (Fin (exp (- (0.92 * m * tau)))) /\
  get_aerosol_scattering_transmittance (N := MathR) low (Fin m) (Fin tau) = Ok (Fin (exp (- (0.84 * m * tau)))).
Proof.
  intros m tau Hm Ht. assert (P : 0 <= m * tau) by nra. split; [apply aerosol_transmittance; assumption|]. split; [apply aerosol_transmittance; assumption|].
  unfold get_aerosol_scattering_transmittance. replace (@albedo MathR high) with (@Ok Rx (Fin 0.92)) by reflexivity. replace (@albedo MathR low) with (@Ok Rx (Fin 0.84)) by reflexivity.
  rx. split; rewrite nexp_le1 by nra; do 3 f_equal; ring.
Qed.

(* C127: the component functions of rest.py in double precision. *)
From Coq Require Import Reals Lra Lia ZArith.
From Verif Require Import Py Num Rest RInst SpecEng SpecRest RestMore B64 SpecB64 SpecClose B64Lemmas B64Lift B64Witness Trig SpecGeom B64Rest B64RestPow.
Local Open Scope R_scope.

(* ------------------------------------------------------------------------------- C127 *)
(* rest2_...: the published formulas (SpecRest.v); x, y: doubles that are the numbers m, u, ... *)
Theorem C127_rest2_doubles : forall L, accurate L ->
  (forall x m, val x m -> 0 <= m <= 40 ->
    within 4.1e-11 (get_rayleigh_transmittance (N := B64 L) high x) (rest2_TR1 m) /\
    within 7e-16 (get_rayleigh_transmittance (N := B64 L) low x) (rest2_TR2 m) /\
    within 1.9e-12 (get_gas_transmittance (N := B64 L) high x) (rest2_Tg1 m) /\
    within 5.7e-14 (get_gas_transmittance (N := B64 L) low x) (rest2_Tg2 m) /\
    within 6e-16 (get_rayleigh_extinction_forward_scattering_fraction (N := B64 L) high x) (rest2_BR1 m) /\
    (forall y, within 6.4e-14 (get_nitrogen_transmittance (N := B64 L) high x y) (rest2_Tn1 m 0.0003)) /\
    (forall y u, val y u -> 0 <= u <= 0.5 -> within 3.2e-11 (get_ozone_transmittance (N := B64 L) high x y) (rest2_To1 m u)) /\
    (forall y w, val y w -> 0 <= w <= 6 -> within 1.1e-12 (get_water_vapor_transmittance (N := B64 L) high x y) (rest2_Tw1 m w) /\
      within 8.1e-7 (get_water_vapor_transmittance (N := B64 L) low x y) (rest2_Tw2 m w)) /\
    (forall y t, val y t -> 0 <= t <= 1 -> within 9.8e-10 (get_aerosol_scattering_correction_factor (N := B64 L) high x y) (rest2_F1 m t))) /\
  (forall x a y b, val x a -> 0 <= a <= 2.5 -> val y b -> 0 <= b <= 1 ->
    within 5.3e-15 (get_sky_albedo (N := B64 L) high x y) (rest2_rhos1 a b) /\
    within 1.9e-15 (get_sky_albedo (N := B64 L) low x y) (rest2_rhos2 a b)).
Proof. exact rest64. Qed.
Print Assumptions C127_rest2_doubles.
(* Beer's law for aerosols, with the single-scattering albedos of the two bands *)
Theorem C127_aerosols : forall L, accurate L -> forall x m y t, val x m -> 0 <= m <= 40 -> val y t -> 0 <= t <= 1 ->
  (forall b, within 2.1e-14 (get_aerosol_transmittance (N := B64 L) b x y) (exp (- (m * t)))) /\
  within 2.1e-14 (get_aerosol_scattering_transmittance (N := B64 L) high x y) (exp (- (0.92 * m * t))) /\
  within 2.1e-14 (get_aerosol_scattering_transmittance (N := B64 L) low x y) (exp (- (0.84 * m * t))).
Proof. exact aerosol64. Qed.
Print Assumptions C127_aerosols.
(* Angstrom's law of turbidity, the forward-scattered fraction, and the low band's correction factor *)
Theorem C127_powers : forall L, accurate L ->
  (forall x b y w z a, val x b -> 0 <= b <= 1 -> val y w -> 0.2 <= w <= 2 -> val z a -> 0 <= a <= 2.5 ->
    within 2e-14 (get_aerosol_optical_depth (N := B64 L) x y z) (b * Rpower w (- a))) /\
  (forall x a, val x a -> 0 <= a <= 90 ->
    within 2e-15 (get_aerosol_forward_scatterance_factor (N := B64 L) x) (1 - exp (- 0.6931 - 1.8326 * sind a))) /\
  (forall x m y t, val x m -> 0 < m <= 40 -> val y t -> 0 <= t <= 1 ->
    within 7.9e-9 (get_aerosol_scattering_correction_factor (N := B64 L) low x y) (rest2_F2 m t)).
Proof. exact rest_pow64. Qed.
Print Assumptions C127_powers.
(* one air mass, one cm of water *)
Example C127_case : accurate exact_libm /\ val (flit 1) 1 /\ 0.84 < rest2_TR1 1 < 0.85 /\ 0.8 < rest2_Tw2 1 1 < 0.82.
Proof. destruct published_samples as (A & _ & B). exact (conj (cr_accurate _ exact_libm_correct) (conj (val_int 1 ltac:(discriminate)) (conj A B))). Qed.
(* turbidity 0.5 at half a micron with exponent 1.5; the sun overhead; one air mass with an optical depth of one half *)
Example C127_powers_case : val (flit 0.5) 0.5 /\ val (flit 1.5) 1.5 /\ val (flit 1) 1 /\
  1.414 < 0.5 * Rpower 0.5 (- (1.5)) < 1.415 /\ 0.9 < 1 - exp (- 0.6931 - 1.8326 * sind 90) < 0.921 /\ 2 < rest2_F2 1 0.5 < 3.
Proof. exact (conj lit05 (conj lit15 (conj (val_int 1 ltac:(discriminate)) pow_sample))). Qed.

(* The extraterrestrial irradiance at 42 N 71 W on 21 June 2020, 17:00 UTC. *)
From Coq Require Import Reals Qreals Lra Lia ZArith.
From Interval Require Import Tactic.
From Verif Require Import Py Num Cal TzCheck Clock Constants Util RInst RTac SpecTime SpecDt SpecGeom SpecEng Samples IrradianceProofs.
Local Open Scope R_scope.

Lemma sample_irradiance : exists r', extraterrestrial_irrad (N := MathR) (C := clock_math MathR) (fun d => d) (Fin 42) (Fin (-71)) sample_dt SC_default = Ok (Fin r') /\ 1200 <= r'.
Proof.
  assert (TY : SC_default (N := MathR) = Fin 1367) by (unfold SC_default; rewrite lit_R; f_equal; unfold Q2R; simpl; lra). rewrite TY.
  eexists. split; [exact (irradiance_val sample_dt sample_u 173 17 0 42 (-71) 1367 sample_instant eq_refl sample_clock)|].
  set (z := dot _ _). assert (Z : 0.92 <= z).
  { unfold z, dot, equatorial, up, masters_hour_angle, masters_solar_time, masters_declination, masters_eot, sind, cosd. cbv zeta. interval. }
  pose proof (eccentricity_range 173). rewrite Rbool_lt_true by lra. set (c := spencer_eccentricity 173) in *. clearbody z c. nra.
Qed.

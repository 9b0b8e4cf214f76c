(* The repository's own assertions in binary64. *)
From Coq Require Import Reals Lra List.
From Flocq Require Import IEEE754.BinarySingleNaN.
From Verif Require Import Py Num SolarTime Solar Elevation B64 SpecB64 B64Lemmas B64Lift B64Witness Tests SpecTests TestsProofs.
Local Open Scope R_scope.

(* ------------------------------------------------------------------------------- C117 *)
Theorem C117_test_suite64 : forall L, accurate L ->
  (exists d, setup_date L = Ok d /\ passes L (test_solar d)) /\ passes L test_elevation /\ passes L test_get_position /\
  passes L test_get_altitude /\ passes L test_get_azimuth /\ passes L test_get_altitude_fast /\ passes L test_get_azimuth_fast /\
  passes L test_hour_angle.
Proof. exact suite_ok. Qed.
Print Assumptions C117_test_suite64.
(* a library; and an assertion that does not hold *)
Example C117_case : accurate exact_libm /\ ~ holds exact_libm (Places (N := B64 exact_libm) (flit 1) (flit 0) 0).
Proof. exact (conj (cr_accurate _ exact_libm_correct) (one_is_not_zero exact_libm)). Qed.

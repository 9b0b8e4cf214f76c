(* Continuity within a month, what it forces every day, and the demonstration loops (C107 - C112). *)
From Coq Require Import Reals Lra ZArith List Sorted.
From Flocq Require IEEE754.BinarySingleNaN.
From Verif Require Import Py Num Cal Clock SolarTime Solar Radiation Simulate Elevation RInst Constants Demo SpecTime SpecDt SpecDemo B64 SpecB64 B64Witness B64Lift
  Samples MoveProofs MotionProofs CrossProofs DemoProofs DemoText B64Crash.
Import ListNotations.
Local Open Scope R_scope.

(* ------------------------------------------------------------------------------- C107 *)
(* D: days between the two instants *)
Theorem C107_lipschitz : forall d d' u u' lat lon el dec ha dec' ha' e e', instant d u -> instant d' u' -> in_range u = true -> in_range u' = true ->
  same_month u u' -> -90 <= lat <= 90 -> -100000 <= el <= 100000 ->
  get_topocentric_position (N := MathR) (Fin lat) (Fin lon) d (Fin el) = Ok (Fin dec, Fin ha) ->
  get_topocentric_elevation_angle (N := MathR) (Fin lat) (Fin dec) (Fin ha) = Ok (Fin e) ->
  get_topocentric_position (N := MathR) (Fin lat) (Fin lon) d' (Fin el) = Ok (Fin dec', Fin ha') ->
  get_topocentric_elevation_angle (N := MathR) (Fin lat) (Fin dec') (Fin ha') = Ok (Fin e') ->
  let D := IZR (u' - u) / 86400000000 in
  (exists k : Z, Rabs (ha' - ha - 360 * D - 360 * IZR k) <= 0.19 * Rabs D) /\ Rabs (dec' - dec) <= 0.475 * Rabs D /\ Rabs (e' - e) <= 360.67 * Rabs D.
Proof. exact lipschitz. Qed.
Print Assumptions C107_lipschitz.
(* two instants of one day are of one month; positions exist everywhere (C86_case) *)
Example C107_case : same_month 63703929600000000 63703933200000000.
Proof. apply (same_day_month 737314); Lia.lia. Qed.

(* ------------------------------------------------------------------------------- C108 *)
Theorem C108_every_level : forall n lat lon el v, (0 <= n < 3652059)%Z -> -65 <= lat <= 65 -> -100000 <= el <= 100000 -> -0.7 <= v <= 0.7 ->
  exists u, (n * 86400000000 <= u < (n + 1) * 86400000000)%Z /\
    forall d, instant d u -> exists dec ha e, get_topocentric_position (N := MathR) (Fin lat) (Fin lon) d (Fin el) = Ok (Fin dec, Fin ha) /\
      get_topocentric_elevation_angle (N := MathR) (Fin lat) (Fin dec) (Fin ha) = Ok (Fin e) /\ Rabs (e - v) <= 0.0000000042.
Proof. exact every_level. Qed.
Print Assumptions C108_every_level.
Example C108_case : (0 <= 737314 < 3652059)%Z /\ -65 <= 42.3 <= 65 /\ -100000 <= 0 <= 100000 /\ -0.7 <= -0.57 <= 0.7.
Proof. split; [Lia.lia|lra]. Qed.

(* ------------------------------------------------------------------------------- C109 *)
(* "the direct irradiance of the altitude reported for a moment can always be evaluated" fails on every day of the calendar *)
Theorem C109_irradiance_refuted : forall n lat lon, (0 <= n < 3652059)%Z -> -65 <= lat <= 65 ->
  exists u, (n * 86400000000 <= u < (n + 1) * 86400000000)%Z /\
    forall d, instant d u -> exists alt,
      get_altitude (N := MathR) (Fin lat) (Fin lon) d (Fin 0) standard_temperature standard_pressure = Ok (Fin alt) /\ -0.011 <= alt < 0 /\
      get_radiation_direct (N := MathR) (C := clock_math MathR) d (Fin alt) = Err OverflowError.
Proof. exact crash_each_day. Qed.
Print Assumptions C109_irradiance_refuted.
(* what holds; missing: a value for every altitude of (-0.017, 0) *)
Theorem C109_irradiance_partial : forall d u lat lon alt, instant d u -> in_range u = true -> -90 <= lat <= 90 ->
  get_altitude (N := MathR) (Fin lat) (Fin lon) d (Fin 0) standard_temperature standard_pressure = Ok (Fin alt) ->
  -90 <= alt <= 90 /\
  (0 < alt -> exists p, get_radiation_direct (N := MathR) (C := clock_math MathR) d (Fin alt) = Ok (Fin p) /\ 0 < p < 1235) /\
  (alt <= -0.017 \/ alt = 0 -> get_radiation_direct (N := MathR) (C := clock_math MathR) d (Fin alt) = Ok (Fin 0)) /\
  (-0.017 < alt < 0 -> get_radiation_direct (N := MathR) (C := clock_math MathR) d (Fin alt) = Ok (Fin 0) \/
    get_radiation_direct (N := MathR) (C := clock_math MathR) d (Fin alt) = Err OverflowError).
Proof. exact altitude_irradiance. Qed.
Print Assumptions C109_irradiance_partial.
(* its hypotheses are met on every day, by the instant of C109_irradiance_refuted *)
Example C109_case : exists u d alt, instant d u /\ in_range u = true /\
  get_altitude (N := MathR) (Fin 42.364908) (Fin (-71.112828)) d (Fin 0) standard_temperature standard_pressure = Ok (Fin alt).
Proof.
  destruct (crash_each_day 737314 42.364908 (-71.112828) ltac:(Lia.lia) ltac:(lra)) as (u & Hu & P). exists u, (utc_datetime u).
  destruct (P _ (utc_instant u)) as (alt & E & _). exists alt. split; [apply utc_instant|]. split; [apply (day_in_range 737314); Lia.lia|exact E].
Qed.

(* ------------------------------------------------------------------------------- C110 *)
(* m: rounds completed; ks: the rounds that print; moment k is u + k * 30 min *)
Theorem C110_solar_test : forall u, in_range u = true ->
  let moment k := (u + 1800000000 * Z.of_nat k)%Z in
  let g := solar_test (N := MathR) (utc_datetime u) in
  exists m ks, (m <= 48)%nat /\
  (forall k, (k < m)%nat -> in_range (moment k) = true /\ exists alt az p, shows (utc_datetime (moment k)) alt az p) /\
  StronglySorted Nat.lt ks /\
  (forall k, In k ks <-> (k < m)%nat /\ exists alt az p, shows (utc_datetime (moment k)) alt az p /\ 0 < alt) /\
  Forall2 (fun k (r : row MathR) => exists alt az p, shows (utc_datetime (moment k)) alt az p /\
      r = mkrow (utc_datetime (moment k)) (Fin alt : T MathR) (Fin az) (Fin p) /\ 0 < alt <= 90 /\ 0 <= az < 360 /\ 0 < p < 1235) ks (g_items g) /\
  ((m = 48%nat /\ in_range (moment 48%nat) = true /\ g_end g = Ok tt) \/
   (in_range (moment m) = false /\ g_end g = Err OverflowError) \/
   (exists x, (m < 48)%nat /\ in_range (moment m) = true /\ fails (utc_datetime (moment m)) x /\ (x = ZeroDivisionError \/ x = OverflowError) /\ g_end g = Err x)).
Proof. exact solar_test_outcome. Qed.
Print Assumptions C110_solar_test.
(* the demonstration does not always run to its end: on every day it can be started so that it prints nothing and raises *)
Theorem C110_can_fail_at_once : forall n, (0 <= n < 3652059)%Z -> exists u, (n * 86400000000 <= u < (n + 1) * 86400000000)%Z /\
  solar_test (N := MathR) (utc_datetime u) = mkgen [] (Err OverflowError).
Proof. exact solar_test_crash. Qed.
Print Assumptions C110_can_fail_at_once.
Example C110_case : in_range 63703929600000000 = true.
Proof. reflexivity. Qed.

(* ------------------------------------------------------------------------------- C111 *)
Theorem C111_elevation_test :
  elevation_test (N := MathR) int_R = mkgen (printed_lines elevation_lines) (Ok tt) /\
  (forall L, accurate L -> elevation_test (N := B64 L) int_64 = mkgen (printed_lines elevation_lines) (Ok tt)).
Proof. exact (conj elevation_test_R elevation_test_64). Qed.
Print Assumptions C111_elevation_test.
Example C111_case : accurate exact_libm.
Proof. exact (cr_accurate _ exact_libm_correct). Qed.

(* ------------------------------------------------------------------------------- C112 *)
Theorem C112_overflow64 : forall L, correctly_rounded L -> forall n lat lon (x xo : T (B64 L)), (0 <= n < 3652059)%Z ->
  val x lat -> val xo lon -> -65 <= lat <= 65 -> -360 <= lon <= 360 ->
  exists u, (n * 86400000000 <= u < (n + 1) * 86400000000)%Z /\
    forall d, instant d u -> exists q a,
      get_altitude_default (N := B64 L) x xo d = Ok q /\ val q a /\ -0.011 <= a < 0 /\
      (exists z, get_azimuth_default (N := B64 L) x xo d = Ok z) /\
      get_radiation_direct (N := B64 L) (C := clock_math (B64 L)) d q = Err OverflowError.
Proof. exact crash_each_day64. Qed.
Print Assumptions C112_overflow64.
Theorem C112_solar_test64 : forall L, correctly_rounded L -> forall n, (0 <= n < 3652059)%Z -> exists u, (n * 86400000000 <= u < (n + 1) * 86400000000)%Z /\
  solar_test (N := B64 L) (utc_datetime u) = mkgen [] (Err OverflowError).
Proof. exact solar_test_crash64. Qed.
Print Assumptions C112_solar_test64.
Example C112_case : correctly_rounded exact_libm /\ val (BinarySingleNaN.B754_zero false : T (B64 exact_libm)) 0.
Proof. split; [exact exact_libm_correct|split; reflexivity]. Qed.

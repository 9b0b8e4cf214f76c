(* Properties C92-: the quick formulas and the irradiance in IEEE binary64, against exact arithmetic.  [accurate L]
   (SpecB64.v): the C library's functions are within a relative error of 2^-52 of the
   mathematical ones; a correctly rounded library is one such. *)
From Coq Require Import Reals Lra List QArith.QArith_base.
From Verif Require Import Py Num Cal TzCheck Clock Constants SolarTime Solar Radiation RInst SpecTime SpecDt SpecEng SpecGeom Trig Samples
  B64 SpecB64 B64Lemmas B64Witness B64Lift B64Final B64Fast B64FastAz B64Rad ApproxProofs.
Local Open Scope R_scope.

(* ------------------------------------------------------------------------------- C92 *)
(* declination (degrees), equation of time (minutes), hour angle (degrees) *)
Theorem C92_quick_quantities64 : forall L, accurate L -> forall lat lon x xo dt u day h m, instant dt u -> in_range u = true -> civil_clock u day h m ->
  val x lat -> val xo lon -> -90 <= lat <= 90 -> -360 <= lon <= 360 ->
  exists qd qe qh d e t d' e' t',
    get_declination (N := B64 L) (flit (inject_Z day)) = Ok qd /\ val qd d /\ get_declination (N := MathR) (Fin (IZR day)) = Ok (Fin d') /\ Rabs (d - d') <= 1.2e-13 /\
    equation_of_time (N := B64 L) (flit (inject_Z day)) = Ok qe /\ val qe e /\ equation_of_time (N := MathR) (Fin (IZR day)) = Ok (Fin e') /\ Rabs (e - e') <= 1.7e-13 /\
    get_hour_angle (N := B64 L) (C := clock_math (B64 L)) dt xo = Ok qh /\ val qh t /\
    get_hour_angle (N := MathR) (C := clock_math MathR) dt (Fin lon) = Ok (Fin t') /\ Rabs (t - t') <= 7.4e-13.
Proof. exact fast_parts64. Qed.
Print Assumptions C92_quick_quantities64.
(* E: the exact altitude *)
Theorem C92_quick_altitude64 : forall L, accurate L -> forall lat lon x xo dt u, instant dt u -> in_range u = true ->
  val x lat -> val xo lon -> -90 <= lat <= 90 -> -360 <= lon <= 360 ->
  exists E, get_altitude_fast (N := MathR) (C := clock_math MathR) (Fin lat) (Fin lon) dt = Ok (Fin E) /\
    ((exists q a, get_altitude_fast (N := B64 L) (C := clock_math (B64 L)) x xo dt = Ok q /\ val q a /\ Rabs (a - E) <= 1.9e-5 /\ (Rabs E <= 89 -> Rabs (a - E) <= 1.2e-10)) \/
     (get_altitude_fast (N := B64 L) (C := clock_math (B64 L)) x xo dt = Err ValueError /\ 89.99998 < Rabs E)).
Proof. exact altitude_fast64. Qed.
Print Assumptions C92_quick_altitude64.
Example C92_case : accurate exact_libm /\ instant sample_dt sample_u /\ in_range sample_u = true /\ civil_clock sample_u 173 17 0 /\ val (flit 60) 60 /\ val (flit (-75)) (-75).
Proof. exact (conj (cr_accurate _ exact_libm_correct) (conj sample_instant (conj sample_in_range (conj sample_clock (conj (val_int 60 ltac:(discriminate)) (val_int (-75) ltac:(discriminate))))))). Qed.

(* ------------------------------------------------------------------------------- C93 *)
(* A: the exact azimuth.  The arcsine taken by the code loses half its digits at due east and
   west; that is where cosd A is small, and the only place where ValueError can come from. *)
Theorem C93_quick_azimuth64 : forall L, accurate L -> forall lat lon x xo dt u E, instant dt u -> in_range u = true ->
  val x lat -> val xo lon -> -89.999 <= lat <= 89.999 -> -360 <= lon <= 360 ->
  get_altitude_fast (N := MathR) (C := clock_math MathR) (Fin lat) (Fin lon) dt = Ok (Fin E) -> Rabs E <= 89 ->
  exists A, get_azimuth_fast (N := MathR) (C := clock_math MathR) (Fin lat) (Fin lon) dt = Ok (Fin A) /\
    ((exists q a (k : Z), get_azimuth_fast (N := B64 L) (C := clock_math (B64 L)) x xo dt = Ok q /\ val q a /\ Rabs (a - A - 360 * IZR k) <= 0.0015 /\
       (0.01 <= Rabs (cosd A) -> Rabs (a - A - 360 * IZR k) <= 1.3e-6)) \/
     (get_azimuth_fast (N := B64 L) (C := clock_math (B64 L)) x xo dt = Err ValueError /\ Rabs (cosd A) <= 1.7e-5)).
Proof. exact azimuth_fast64. Qed.
Print Assumptions C93_quick_azimuth64.
Example C93_case : exists E, get_altitude_fast (N := MathR) (C := clock_math MathR) (Fin 60) (Fin (-75)) sample_dt = Ok (Fin E) /\ -60 <= E <= 60.
Proof. exact sample_low. Qed.

(* ------------------------------------------------------------------------------- C94 *)
(* watts per square metre *)
Theorem C94_irradiance64_day : forall L, accurate L -> forall dt u x a, instant dt u -> in_range u = true -> val x a -> 1e-270 <= a <= 90 ->
  exists q r r', get_radiation_direct (N := B64 L) (C := clock_math (B64 L)) dt x = Ok q /\ val q r /\
    get_radiation_direct (N := MathR) (C := clock_math MathR) dt (Fin a) = Ok (Fin r') /\ Rabs (r - r') <= 3e-12.
Proof. exact radiation64. Qed.
Print Assumptions C94_irradiance64_day.
Theorem C94_irradiance64_night : forall L, accurate L -> forall dt u x a, instant dt u -> in_range u = true -> val x a -> -90 <= a <= -0.0175 ->
  exists q, get_radiation_direct (N := B64 L) (C := clock_math (B64 L)) dt x = Ok q /\ val q 0 /\
    get_radiation_direct (N := MathR) (C := clock_math MathR) dt (Fin a) = Ok (Fin 0).
Proof. exact radiation_night64. Qed.
Print Assumptions C94_irradiance64_night.
Example C94_case : instant sample_dt sample_u /\ in_range sample_u = true /\ val (flit 30) 30 /\ val (flit (-1)) (-1) /\ 1e-270 <= 30 <= 90 /\ -90 <= -1 <= -0.0175.
Proof. repeat split; try exact sample_instant; try exact sample_in_range; try apply (val_int 30 ltac:(discriminate)); try apply (val_int (-1) ltac:(discriminate)); lra. Qed.

(* ------------------------------------------------------------------------------- C95 *)
Theorem C95_irradiance_smooth : forall dt u a b, instant dt u -> in_range u = true -> 0 < a <= 90 -> 0 < b <= 90 -> exists ra rb,
  get_radiation_direct (N := MathR) (C := clock_math MathR) dt (Fin a) = Ok (Fin ra) /\
  get_radiation_direct (N := MathR) (C := clock_math MathR) dt (Fin b) = Ok (Fin rb) /\ Rabs (ra - rb) <= 84.1 * Rabs (a - b).
Proof. exact radiation_lip. Qed.
Print Assumptions C95_irradiance_smooth.
(* the double returned for an altitude that is itself e degrees off *)
Theorem C95_irradiance64_of_inexact_altitude : forall L, accurate L -> forall dt u x a a' e, instant dt u -> in_range u = true ->
  val x a -> 1e-270 <= a <= 90 -> 0 < a' <= 90 -> Rabs (a - a') <= e ->
  exists q r r', get_radiation_direct (N := B64 L) (C := clock_math (B64 L)) dt x = Ok q /\ val q r /\
    get_radiation_direct (N := MathR) (C := clock_math MathR) dt (Fin a') = Ok (Fin r') /\ Rabs (r - r') <= 84.1 * e + 3e-12.
Proof. exact radiation_near64. Qed.
Print Assumptions C95_irradiance64_of_inexact_altitude.
Example C95_case : val (flit 30) 30 /\ 0 < 30 <= 90 /\ 0 < 30.25 <= 90 /\ Rabs (30 - 30.25) <= 0.25.
Proof. repeat split; try apply (val_int 30 ltac:(discriminate)); try lra. rewrite Rabs_left; lra. Qed.

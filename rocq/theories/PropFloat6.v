(* Properties of whole calculations in binary64: altitude then irradiance, incidence, standard atmosphere. *)
From Coq Require Import Reals Lra QArith.QArith_base.
From Verif Require Import Py Num Cal TzCheck Clock Constants SolarTime Solar Radiation Elevation RInst SpecTime SpecDt SpecGeom SpecB64 Samples
  B64 B64Lemmas B64Lift B64Witness B64End B64Incid B64Elev.
Local Open Scope R_scope.

(* ------------------------------------------------------------------------------- C101 *)
(* the irradiance of the computed altitude, sun up *)
Theorem C101_day : forall L, accurate L -> forall lat lon el x xo xe dt u xT T xP P dec ha E, instant dt u -> in_range u = true ->
  val x lat -> val xo lon -> val xe el -> -90 <= lat <= 90 -> -360 <= lon <= 360 -> -100000 <= el <= 100000 ->
  val xT T -> val xP P -> 180 <= T <= 340 -> 0 <= P <= 110000 ->
  get_topocentric_position (N := MathR) (Fin lat) (Fin lon) dt (Fin el) = Ok (Fin dec, Fin ha) ->
  get_topocentric_elevation_angle (N := MathR) (Fin lat) (Fin dec) (Fin ha) = Ok (Fin E) -> 0.00001 <= E <= 89 ->
  exists q a' p r r', get_altitude (N := B64 L) x xo dt xe xT xP = Ok q /\ get_radiation_direct (N := B64 L) (C := clock_math (B64 L)) dt q = Ok p /\ val p r /\
    get_altitude (N := MathR) (Fin lat) (Fin lon) dt (Fin el) (Fin T) (Fin P) = Ok (Fin a') /\
    get_radiation_direct (N := MathR) (C := clock_math MathR) dt (Fin a') = Ok (Fin r') /\
    Rabs (r - r') <= 2.4e-4 /\ ((midnight 1834 1 1 <= u < midnight 2106 1 1)%Z -> Rabs (r - r') <= 3.9e-5).
Proof. exact irradiance64. Qed.
Print Assumptions C101_day.
(* sun down (the stretch near -5.1 degrees is the pole of the refraction formula, C17) *)
Theorem C101_night : forall L, accurate L -> forall lat lon el x xo xe dt u xT T xP P dec ha E, instant dt u -> in_range u = true ->
  val x lat -> val xo lon -> val xe el -> -90 <= lat <= 90 -> -360 <= lon <= 360 -> -100000 <= el <= 100000 ->
  val xT T -> val xP P -> 180 <= T <= 340 -> 0 <= P <= 110000 ->
  get_topocentric_position (N := MathR) (Fin lat) (Fin lon) dt (Fin el) = Ok (Fin dec, Fin ha) ->
  get_topocentric_elevation_angle (N := MathR) (Fin lat) (Fin dec) (Fin ha) = Ok (Fin E) -> E <= -0.8334 -> ~ (-5.21 < E < -4.99) -> -89.9 <= E ->
  exists q p, get_altitude (N := B64 L) x xo dt xe xT xP = Ok q /\ get_radiation_direct (N := B64 L) (C := clock_math (B64 L)) dt q = Ok p /\ val p 0.
Proof. exact dark64. Qed.
Print Assumptions C101_night.
(* the north pole at the sample instant (in June) *)
Example C101_case : instant sample_dt sample_u /\ in_range sample_u = true /\ exists dec ha,
  get_topocentric_position (N := MathR) (Fin 90) (Fin 0) sample_dt (Fin 0) = Ok (Fin dec, Fin ha) /\
  get_topocentric_elevation_angle (N := MathR) (Fin 90) (Fin dec) (Fin ha) = Ok (Fin dec) /\ 0.00001 <= dec <= 89.
Proof. exact (conj sample_instant (conj sample_in_range june_pole)). Qed.

(* ------------------------------------------------------------------------------- C102 *)
(* i is the exact incidence angle; the call in doubles can only raise when the sun is within 0.00001
   degree of the surface normal or of its opposite (C72) *)
Theorem C102_incidence64 : forall L, accurate L -> forall (z s o a : T (B64 L)) rz rs ro ra,
  val z rz -> val s rs -> val o ro -> val a ra -> Rabs rz <= 360 -> Rabs rs <= 360 -> Rabs ro <= 360 -> Rabs ra <= 360 ->
  exists i, get_incidence_angle (N := MathR) (Fin rz) (Fin rs) (Fin ro) (Fin ra) = Ok (Fin i) /\
    ((exists y r, get_incidence_angle (N := B64 L) z s o a = Ok y /\ val y r /\ Rabs (r - i) <= 1.28e-5 /\ (10 <= i <= 170 -> Rabs (r - i) <= 7e-12)) \/
     ((i < 0.00001 \/ 179.99999 < i) /\ get_incidence_angle (N := B64 L) z s o a = Err ValueError)).
Proof. exact incidence64. Qed.
Print Assumptions C102_incidence64.
Example C102_case : accurate exact_libm /\ val (flit 30) 30 /\ val (flit (-45)) (-45) /\ Rabs (-45) <= 360.
Proof.
  split; [exact (cr_accurate _ exact_libm_correct)|]. split; [exact (val_int 30 ltac:(discriminate))|]. split; [exact (val_int (-45) ltac:(discriminate))|].
  rewrite Rabs_left; lra.
Qed.

(* ------------------------------------------------------------------------------- C103 *)
(* with the default arguments: the pressure, whether the call warns, and the temperature *)
Theorem C103_standard_atmosphere64 : forall L, accurate L -> forall (x : T (B64 L)) h, val x h -> -20000 <= h <= 20000 ->
  exists q p p' w, get_pressure_with_elevation_w (N := B64 L) x standard_pressure standard_temperature
      earth_temperature_lapse_rate (lit 0.0) air_gas_constant earth_gravity earth_atmosphere_molar_mass = Ok (q, w) /\ (w = true <-> 11000 < h) /\
    val q p /\ pressure_default (N := MathR) (Fin h) = Ok (Fin p') /\ 0 < p' /\ Rabs (p - p') <= 2.1e-14 * p' /\
    exists t, val (temperature_default (N := B64 L) x) t /\ Rabs (t - (288.15 - 0.0065 * h)) <= 1.1e-13.
Proof. exact elevation64. Qed.
Print Assumptions C103_standard_atmosphere64.
Example C103_case : val (flit 8848) 8848 /\ -20000 <= 8848 <= 20000.
Proof. split; [exact (val_int 8848 ltac:(discriminate))|lra]. Qed.

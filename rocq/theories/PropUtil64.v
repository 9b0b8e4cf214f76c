(* C126: the irradiance and sky functions of util.py in double precision. *)
From Coq Require Import Reals Lra Lia ZArith.
From Verif Require Import Py Num Cal TzCheck Clock SolarTime Solar Constants Util RInst SpecTime SpecDt SpecGeom SpecEng B64 SpecB64 SpecNear Samples B64Lemmas B64Lift B64Witness B64End B64Util B64Clear B64UtilCase.
Local Open Scope R_scope.

(* ------------------------------------------------------------------------------- C126 *)
Theorem C126_extraterrestrial : forall L, accurate L -> forall lat lon S0 x xo xs dt u, instant dt u -> in_range u = true -> val x lat -> val xo lon -> val xs S0 ->
  -90 <= lat <= 90 -> -360 <= lon <= 360 -> 0 <= S0 <= 2000 ->
  near 1.4e-10 (extraterrestrial_irrad (N := B64 L) (C := clock_math (B64 L)) (fun d => d) x xo dt xs)
    (extraterrestrial_irrad (N := MathR) (C := clock_math MathR) (fun d => d) (Fin lat) (Fin lon) dt (Fin S0)).
Proof. exact extraterrestrial64. Qed.
Print Assumptions C126_extraterrestrial.

Theorem C126_clear_index : forall L, accurate L -> forall g lat lon xg x xo dt u, instant dt u -> in_range u = true -> val xg g -> val x lat -> val xo lon ->
  -2000 <= g <= 2000 -> -90 <= lat <= 90 -> -360 <= lon <= 360 ->
  forall r', extraterrestrial_irrad (N := MathR) (C := clock_math MathR) (fun d => d) (Fin lat) (Fin lon) dt SC_default = Ok (Fin r') -> 1 <= r' ->
  near 2.9e-7 (clear_index (N := B64 L) (C := clock_math (B64 L)) (fun d => d) xg x xo dt)
    (clear_index (N := MathR) (C := clock_math MathR) (fun d => d) (Fin g) (Fin lat) (Fin lon) dt).
Proof. exact clear_index64. Qed.
Print Assumptions C126_clear_index.

(* with the sun up, dec, ha and E being its exact position *)
Theorem C126_sky_functions : forall L, accurate L -> forall lat lon el x xo xe dt u xT T xP P xt TL dec ha E, instant dt u -> in_range u = true ->
  val x lat -> val xo lon -> val xe el -> -90 <= lat <= 90 -> -360 <= lon <= 360 -> -100000 <= el <= 100000 ->
  val xT T -> val xP P -> 180 <= T <= 340 -> 0 <= P <= 110000 -> val xt TL -> -10 <= TL <= 10 ->
  get_topocentric_position (N := MathR) (Fin lat) (Fin lon) dt (Fin el) = Ok (Fin dec, Fin ha) ->
  get_topocentric_elevation_angle (N := MathR) (Fin lat) (Fin dec) (Fin ha) = Ok (Fin E) -> 0.00001 <= E <= 89 ->
  sky_functions_near L lat lon el x xo xe dt xT xP xt T P TL 6.01e-6 2.83e-6 1.38e-3 1.61e-3 /\
  ((midnight 1834 1 1 <= u < midnight 2106 1 1)%Z -> sky_functions_near L lat lon el x xo xe dt xT xP xt T P TL 9.9e-7 4.7e-7 2.3e-4 2.7e-4) /\
  near 2.2e-13 (Ok (diffuse_transmittance (N := B64 L) xt)) (Ok (diffuse_transmittance (N := MathR) (Fin TL))).
Proof. exact sky64. Qed.
Print Assumptions C126_sky_functions.

Theorem C126_direct : forall L, accurate L -> forall lat lon el x xo xe dt u xT T xP P xm AM xt TL dec ha E, instant dt u -> in_range u = true ->
  val x lat -> val xo lon -> val xe el -> -90 <= lat <= 90 -> -360 <= lon <= 360 -> -100000 <= el <= 100000 ->
  val xT T -> val xP P -> 180 <= T <= 340 -> 0 <= P <= 110000 -> val xm AM -> -5 <= AM <= 5 -> val xt TL -> -5 <= TL <= 5 ->
  get_topocentric_position (N := MathR) (Fin lat) (Fin lon) dt (Fin el) = Ok (Fin dec, Fin ha) ->
  get_topocentric_elevation_angle (N := MathR) (Fin lat) (Fin dec) (Fin ha) = Ok (Fin E) -> 0.00001 <= E <= 89 ->
  exists d', declination_degree (N := MathR) dt TY_default = Ok (Fin d') /\
    near 1e-13 (declination_degree (N := B64 L) dt TY_default) (declination_degree (N := MathR) dt TY_default) /\
    near (3.83e-3 * exp (-0.8662 * AM * TL * d')) (direct_underclear (N := B64 L) x xo dt TY_default xm xt xe xT xP)
      (direct_underclear (N := MathR) (Fin lat) (Fin lon) dt TY_default (Fin AM) (Fin TL) (Fin el) (Fin T) (Fin P)) /\
    ((midnight 1834 1 1 <= u < midnight 2106 1 1)%Z ->
     near (6.3e-4 * exp (-0.8662 * AM * TL * d')) (direct_underclear (N := B64 L) x xo dt TY_default xm xt xe xT xP)
      (direct_underclear (N := MathR) (Fin lat) (Fin lon) dt TY_default (Fin AM) (Fin TL) (Fin el) (Fin T) (Fin P))).
Proof. exact direct64. Qed.
Print Assumptions C126_direct.

(* the temperature and pressure passed are ignored (C46) *)
Theorem C126_global_clear : forall L, accurate L -> forall lat lon el x xo xe dt u xT T xP P xm AM xt TL dec ha E, instant dt u -> in_range u = true ->
  val x lat -> val xo lon -> val xe el -> -90 <= lat <= 90 -> -360 <= lon <= 360 -> -100000 <= el <= 100000 ->
  val xm AM -> -5 <= AM <= 5 -> val xt TL -> -5 <= TL <= 5 ->
  get_topocentric_position (N := MathR) (Fin lat) (Fin lon) dt (Fin el) = Ok (Fin dec, Fin ha) ->
  get_topocentric_elevation_angle (N := MathR) (Fin lat) (Fin dec) (Fin ha) = Ok (Fin E) -> 0.00001 <= E <= 89 ->
  exists d', declination_degree (N := MathR) dt TY_default = Ok (Fin d') /\
    near (3.85e-3 * exp (-0.8662 * AM * TL * d') + 1.82e-4) (global_irradiance_clear (N := B64 L) x xo dt TY_default xm xt xe xT xP)
      (global_irradiance_clear (N := MathR) (Fin lat) (Fin lon) dt TY_default (Fin AM) (Fin TL) (Fin el) T P).
Proof. exact global_clear64. Qed.
Print Assumptions C126_global_clear.

(* the sun is up at the north pole on 21 June 2020, and the irradiance at 42 N 71 W is then above 1200 W/m2 *)
Example C126_case : (exists dec ha, get_topocentric_position (N := MathR) (Fin 90) (Fin 0) sample_dt (Fin 0) = Ok (Fin dec, Fin ha) /\
    get_topocentric_elevation_angle (N := MathR) (Fin 90) (Fin dec) (Fin ha) = Ok (Fin dec) /\ 0.00001 <= dec <= 89) /\
  (exists r', extraterrestrial_irrad (N := MathR) (C := clock_math MathR) (fun d => d) (Fin 42) (Fin (-71)) sample_dt SC_default = Ok (Fin r') /\ 1200 <= r').
Proof. split; [exact june_pole|exact sample_irradiance]. Qed.
(* C46_clear_sky_sum_partial's hypothesis: global_irradiance_clear returns there, for any temperature and pressure *)
Example C46_case : forall t p, exists v, global_irradiance_clear (N := MathR) (Fin 90) (Fin 0) sample_dt TY_default (Fin 2) (Fin 1) (Fin 0) t p = Ok v.
Proof.
  intros t p. destruct june_pole as (dec & ha & P1 & P2 & P3).
  destruct (global_clear64 exact_libm (cr_accurate _ exact_libm_correct) 90 0 0 (flit 90) (flit 0) (flit 0) sample_dt sample_u (flit 0) t (flit 0) p (flit 2) 2 (flit 1) 1 dec ha dec
    sample_instant sample_in_range (val_int 90 ltac:(discriminate)) (val_int 0 ltac:(discriminate)) (val_int 0 ltac:(discriminate)) ltac:(lra) ltac:(lra) ltac:(lra)
    (val_int 2 ltac:(discriminate)) ltac:(lra) (val_int 1 ltac:(discriminate)) ltac:(lra) P1 P2 P3) as (d' & _ & q & v & v' & _ & _ & E & _).
  exists (Fin v'). exact E.
Qed.

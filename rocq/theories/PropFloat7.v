(* Properties of simulate_span in binary64. *)
From Coq Require Import Reals Lra List.
From Verif Require Import Py Num Cal TzCheck Clock Constants SolarTime Solar Radiation Simulate RInst SpecTime SpecDt SpecGeom SpecB64 Samples
  B64 B64Lemmas B64Ranges B64Lift B64Witness B64End B64Span.
Local Open Scope R_scope.

(* ------------------------------------------------------------------------------- C116 *)
(* whatever the arguments: doubles, infinities, nan *)
Theorem C116_horizon_in_bounds64 : forall L lat lon horizon start stop step el T P, atan2_in_range L ->
  (361 <= List.length horizon)%nat ->
  g_end (datetime_range start stop step) <> Err IndexError ->
  g_end (simulate_span (N := B64 L) (C := clock_math (B64 L)) (fun d => d) lat lon horizon start stop step el T P) <> Err IndexError.
Proof. exact span_no_index64. Qed.
Print Assumptions C116_horizon_in_bounds64.
(* a row with the sun up: a, b, r are the altitude, azimuth and irradiance in it, a', b', r' the exact
   ones; h is the entry of the horizon nearest to the azimuth, in pixels from the top of a picture of
   380, and the sun is shaded when it stands lower than h *)
Theorem C116_row_day64 : forall L, accurate L -> forall lat lon el x xo xe dt u xT T xP P dec ha E horizon,
  atan2_in_range L -> instant dt u -> in_range u = true ->
  val x lat -> val xo lon -> val xe el -> -90 <= lat <= 90 -> -360 <= lon <= 360 -> -100000 <= el <= 100000 ->
  val xT T -> val xP P -> 180 <= T <= 340 -> 0 <= P <= 110000 ->
  get_topocentric_position (N := MathR) (Fin lat) (Fin lon) dt (Fin el) = Ok (Fin dec, Fin ha) ->
  get_topocentric_elevation_angle (N := MathR) (Fin lat) (Fin dec) (Fin ha) = Ok (Fin E) -> 0.00001 <= E <= 89 ->
  (361 <= List.length horizon)%nat ->
  exists q a a' z b b' (k i m : Z) p r r' h,
    simulate_one (N := B64 L) (C := clock_math (B64 L)) (fun d => d) x xo horizon xe xT xP dt = Ok (dt, q, z, p, h) /\
    get_altitude (N := MathR) (Fin lat) (Fin lon) dt (Fin el) (Fin T) (Fin P) = Ok (Fin a') /\
    get_azimuth (N := MathR) (Fin lat) (Fin lon) dt (Fin el) = Ok (Fin b') /\
    get_radiation_direct (N := MathR) (C := clock_math MathR) dt (Fin a') = Ok (Fin r') /\
    val q a /\ Rabs (a - a') <= 2.8e-6 /\
    val z b /\ 0 <= b < 360 /\ Rabs (b - b' - 360 * IZR k) <= 2e-6 / cosd E /\
    nth_error horizon (Z.to_nat i) = Some h /\ (0 <= i)%Z /\ Rabs (IZR i - b) <= 0.5 /\
    Rabs (IZR m - 380 * (1 - sind a')) <= 0.50002 /\
    val p r /\
    (forall hv, val h hv -> hv < IZR m -> r = 0) /\
    (forall hv, val h hv -> IZR m <= hv -> Rabs (r - r') <= 2.4e-4).
Proof. exact row64. Qed.
Print Assumptions C116_row_day64.
Theorem C116_row_night64 : forall L, accurate L -> forall lat lon el x xo xe dt u xT T xP P dec ha E horizon,
  atan2_in_range L -> instant dt u -> in_range u = true ->
  val x lat -> val xo lon -> val xe el -> -90 <= lat <= 90 -> -360 <= lon <= 360 -> -100000 <= el <= 100000 ->
  val xT T -> val xP P -> 180 <= T <= 340 -> 0 <= P <= 110000 ->
  get_topocentric_position (N := MathR) (Fin lat) (Fin lon) dt (Fin el) = Ok (Fin dec, Fin ha) ->
  get_topocentric_elevation_angle (N := MathR) (Fin lat) (Fin dec) (Fin ha) = Ok (Fin E) -> E <= -0.8334 -> ~ (-5.21 < E < -4.99) -> -89.9 <= E ->
  (361 <= List.length horizon)%nat ->
  exists q z b p (i : Z) h,
    simulate_one (N := B64 L) (C := clock_math (B64 L)) (fun d => d) x xo horizon xe xT xP dt = Ok (dt, q, z, p, h) /\ val p 0 /\
    get_altitude (N := B64 L) x xo dt xe xT xP = Ok q /\ get_azimuth (N := B64 L) x xo dt xe = Ok z /\ val z b /\
    nth_error horizon (Z.to_nat i) = Some h /\ (0 <= i)%Z /\ Rabs (IZR i - b) <= 0.5.
Proof. exact row_night64. Qed.
Print Assumptions C116_row_night64.
(* a library, a horizon and the two poles in June *)
Example C116_case : accurate exact_libm /\ atan2_in_range exact_libm /\ instant sample_dt sample_u /\ in_range sample_u = true /\
  val (flit 90) 90 /\ val (flit (-90)) (-90) /\ (361 <= List.length (repeat (flit 0) 361))%nat /\
  (exists dec ha, get_topocentric_position (N := MathR) (Fin 90) (Fin 0) sample_dt (Fin 0) = Ok (Fin dec, Fin ha) /\
   get_topocentric_elevation_angle (N := MathR) (Fin 90) (Fin dec) (Fin ha) = Ok (Fin dec) /\ 0.00001 <= dec <= 89) /\
  (exists dec ha E, get_topocentric_position (N := MathR) (Fin (-90)) (Fin 0) sample_dt (Fin 0) = Ok (Fin dec, Fin ha) /\
   get_topocentric_elevation_angle (N := MathR) (Fin (-90)) (Fin dec) (Fin ha) = Ok (Fin E) /\ E <= -0.8334 /\ ~ (-5.21 < E < -4.99) /\ -89.9 <= E).
Proof.
  exact (conj (cr_accurate _ exact_libm_correct) (conj atan2_range_exact (conj sample_instant (conj sample_in_range
    (conj (val_int 90 ltac:(discriminate)) (conj (val_int (-90) ltac:(discriminate)) (conj long_horizon (conj june_pole june_south_pole)))))))).
Qed.

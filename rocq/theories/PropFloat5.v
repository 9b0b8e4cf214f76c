(* Properties of the numpy back end in binary64: [Np64 L] for single numbers ([mknf b x]: the double x, a
   numpy.float64 if b, else a Python float), [Arr64 I L] for arrays indexed by I. *)
From Coq Require Import Reals Lra QArith.QArith_base.
From Verif Require Import Py Num Cal TzCheck Clock Constants SolarTime Solar Radiation Util RInst SpecTime SpecDt SpecGeom SpecEng Trig Samples
  B64 SpecB64 B64Lemmas B64Witness B64Final B64Np SpecNp NpProofs64 NpCases64.
Local Open Scope R_scope.

(* ------------------------------------------------------------------------------- C97 *)
(* [same64 m n]: if the math call returns the double x, the numpy call returns x; L is the library both
   use.  [fl] says which arguments are numpy.float64. *)
Theorem C97_position : forall L, pow_std L -> forall (fl : nat -> bool) lat lon d el t p,
  let n i x := mknf (fl i) x in
  same64_pair (get_topocentric_position (N := B64 L) lat lon d el) (get_topocentric_position (N := Np64 L) (n 0%nat lat) (n 1%nat lon) d (n 2%nat el)) /\
  same64 (get_azimuth (N := B64 L) lat lon d el) (get_azimuth (N := Np64 L) (n 0%nat lat) (n 1%nat lon) d (n 2%nat el)) /\
  same64 (get_altitude (N := B64 L) lat lon d el t p) (get_altitude (N := Np64 L) (n 0%nat lat) (n 1%nat lon) d (n 2%nat el) (n 3%nat t) (n 4%nat p)) /\
  same64_pair (get_position (N := B64 L) lat lon d el t p) (get_position (N := Np64 L) (n 0%nat lat) (n 1%nat lon) d (n 2%nat el) (n 3%nat t) (n 4%nat p)).
Proof. exact position_np64. Qed.
Print Assumptions C97_position.
Theorem C97_fast : forall L, pow_std L -> forall (fl : nat -> bool) lat lon d u, instant d u -> in_range u = true -> whole_minute_offset d ->
  let n i x := mknf (fl i) x in
  same64 (get_solar_time (C := clock_math (B64 L)) lon d) (get_solar_time (C := clock_numpy (Np64 L)) (n 1%nat lon) d) /\
  same64 (get_hour_angle (C := clock_math (B64 L)) d lon) (get_hour_angle (C := clock_numpy (Np64 L)) d (n 1%nat lon)) /\
  same64 (get_altitude_fast (C := clock_math (B64 L)) lat lon d) (get_altitude_fast (C := clock_numpy (Np64 L)) (n 0%nat lat) (n 1%nat lon) d) /\
  same64 (get_azimuth_fast (C := clock_math (B64 L)) lat lon d) (get_azimuth_fast (C := clock_numpy (Np64 L)) (n 0%nat lat) (n 1%nat lon) d).
Proof. exact fast_np64. Qed.
Print Assumptions C97_fast.
Theorem C97_sunrise : forall L, pow_std L -> forall (fl : nat -> bool) lat lon d x,
  get_sunrise_sunset_transit (N := B64 L) lat lon d = Ok x ->
  get_sunrise_sunset_transit (N := Np64 L) (mknf (fl 0%nat) lat) (mknf (fl 1%nat) lon) d = Ok x.
Proof. exact sunrise_np64. Qed.
Print Assumptions C97_sunrise.
(* element i of the array result is the double the math call returns on the elements i *)
Theorem C97_arrays : forall L, pow_std L -> forall I (i : I),
  (forall (lat lon el t p : I -> f64) d,
    elt64 i (get_azimuth (N := B64 L) (lat i) (lon i) d (el i)) (get_azimuth (N := Arr64 I L) lat lon d el) /\
    elt64 i (get_altitude (N := B64 L) (lat i) (lon i) d (el i) (t i) (p i)) (get_altitude (N := Arr64 I L) lat lon d el t p)) /\
  (forall (lat lon : I -> f64) d w, instant d (w i) -> in_range (w i) = true ->
    elt64 i (get_altitude_fast (C := clock_math (B64 L)) (lat i) (lon i) d) (get_altitude_fast (C := clock_array64 I L) lat lon w) /\
    elt64 i (get_azimuth_fast (C := clock_math (B64 L)) (lat i) (lon i) d) (get_azimuth_fast (C := clock_array64 I L) lat lon w)) /\
  (forall (lat lon : I -> f64) d u, instant d u -> in_range u = true -> whole_minute_offset d ->
    elt64 i (get_altitude_fast (C := clock_math (B64 L)) (lat i) (lon i) d) (get_altitude_fast (C := clock_numpy (Arr64 I L)) lat lon d) /\
    elt64 i (get_azimuth_fast (C := clock_math (B64 L)) (lat i) (lon i) d) (get_azimuth_fast (C := clock_numpy (Arr64 I L)) lat lon d)).
Proof. exact (fun L HP I i => conj (position_arr64 L HP i) (conj (fast_arr64 L HP i) (fast_one64 L HP i))). Qed.
Print Assumptions C97_arrays.
(* arrays never raise, whatever the library and the elements (nan and infinities included) *)
Theorem C97_arrays_total : forall L I (lat lon el t p alt : I -> f64),
  (forall d u, instant d u -> in_range u = true ->
    (exists v, get_azimuth (N := Arr64 I L) lat lon d el = Ok v) /\
    (exists v, get_altitude (N := Arr64 I L) lat lon d el t p = Ok v) /\
    (exists v w, get_position (N := Arr64 I L) lat lon d el t p = Ok (v, w))) /\
  (forall w,
    (exists v, get_altitude_fast (C := clock_array64 I L) lat lon w = Ok v) /\
    (exists v, get_azimuth_fast (C := clock_array64 I L) lat lon w = Ok v) /\
    (exists v, get_radiation_direct (C := clock_array64 I L) w alt = Ok v)).
Proof. exact (fun L I lat lon el t p alt => conj (arrays_total64 L I lat lon el t p) (fast_arrays_total64 L I lat lon alt)). Qed.
Print Assumptions C97_arrays_total.
(* so the error bounds C76 and C77 hold for numpy; here L may be numpy's own library *)
Theorem C97_accuracy : forall L, accurate L -> pow_std L -> forall (fl : nat -> bool) lat lon el x xo xe dt u, instant dt u ->
  val x lat -> val xo lon -> val xe el -> -90 <= lat <= 90 -> -360 <= lon <= 360 -> -100000 <= el <= 100000 ->
  forall e1 e2, in_range u = true /\ e1 = 1.7e-8 /\ e2 = 1.35e-6 \/ (midnight 1834 1 1 <= u < midnight 2106 1 1)%Z /\ e1 = 8.1e-10 /\ e2 = 2.25e-7 ->
  exists b c qd qh dec ha dec' ha' (k : Z),
    get_topocentric_position (N := Np64 L) (mknf (fl 0%nat) x) (mknf (fl 1%nat) xo) dt (mknf (fl 2%nat) xe) = Ok (mknf b qd, mknf c qh) /\ val qd dec /\ val qh ha /\
    get_topocentric_position (N := MathR) (Fin lat) (Fin lon) dt (Fin el) = Ok (Fin dec', Fin ha') /\
    Rabs (dec - dec') <= e1 /\ Rabs (ha - ha' - 360 * IZR k) <= e2.
Proof. exact numpy_accuracy64. Qed.
Print Assumptions C97_accuracy.
Theorem C97_accuracy_arrays : forall L, accurate L -> pow_std L -> forall I (i : I) (x xo xe : I -> f64) lat lon el dt u dec ha E, instant dt u ->
  val (x i) lat -> val (xo i) lon -> val (xe i) el -> -90 <= lat <= 90 -> -360 <= lon <= 360 -> -100000 <= el <= 100000 ->
  get_topocentric_position (N := MathR) (Fin lat) (Fin lon) dt (Fin el) = Ok (Fin dec, Fin ha) ->
  get_topocentric_elevation_angle (N := MathR) (Fin lat) (Fin dec) (Fin ha) = Ok (Fin E) -> 1e-5 <= cosd E ->
  forall c, in_range u = true /\ c = 2e-6 \/ (midnight 1834 1 1 <= u < midnight 2106 1 1)%Z /\ c = 3.3e-7 ->
  exists v a a' (k : Z), get_azimuth (N := Arr64 I L) x xo dt xe = Ok v /\ val (v i) a /\
    get_azimuth (N := MathR) (Fin lat) (Fin lon) dt (Fin el) = Ok (Fin a') /\ Rabs (a - a' - 360 * IZR k) <= c / cosd E.
Proof. exact array_accuracy64. Qed.
Print Assumptions C97_accuracy_arrays.
Example C97_case : pow_std std_libm /\ accurate std_libm /\ instant sample_dt sample_u /\ in_range sample_u = true /\ whole_minute_offset sample_dt /\ val (flit 52) 52.
Proof. exact (conj std_pow (conj std_accurate (conj sample_instant (conj sample_in_range (conj sample_whole (val_int 52 ltac:(discriminate))))))). Qed.

(* ------------------------------------------------------------------------------- C98 *)
(* FALSE: at altitude -0.0, with a library that has the special values of the C standard, math gives
   zero and numpy nan *)
Theorem C98_irradiance_same_refuted : forall L, accurate L ->
  l_sin L nzero = nzero -> l_exp L (BinarySingleNaN.B754_infinity false) = BinarySingleNaN.B754_infinity false -> l_exp L (BinarySingleNaN.B754_infinity true) = BinarySingleNaN.B754_zero false ->
  forall d u, pow_std L -> instant d u -> in_range u = true -> whole_minute_offset d ->
  (exists q, get_radiation_direct (C := clock_math (B64 L)) d nzero = Ok q /\ val q 0) /\
  forall b, get_radiation_direct (C := clock_numpy (Np64 L)) d (mknf b nzero) = Ok (mknf true BinarySingleNaN.B754_nan).
Proof. exact radiation_nzero. Qed.
Print Assumptions C98_irradiance_same_refuted.
(* it is the only way: where the sine of the altitude is not zero the two agree *)
Theorem C98_irradiance_same_partial : forall L, pow_std L -> forall (fl : nat -> bool) d u alt, instant d u -> in_range u = true -> whole_minute_offset d ->
  is_zero (l_sin L (radians (n := B64 L) alt)) = false ->
  same64 (get_radiation_direct (C := clock_math (B64 L)) d alt) (get_radiation_direct (C := clock_numpy (Np64 L)) d (mknf (fl 2%nat) alt)).
Proof. exact radiation_np64. Qed.
Print Assumptions C98_irradiance_same_partial.
Theorem C98_irradiance_accuracy_partial : forall L, accurate L -> forall b d u x a, pow_std L -> instant d u -> in_range u = true -> whole_minute_offset d ->
  val x a -> 1e-270 <= a <= 90 ->
  exists c q r r', get_radiation_direct (C := clock_numpy (Np64 L)) d (mknf b x) = Ok (mknf c q) /\ val q r /\
    get_radiation_direct (N := MathR) (C := clock_math MathR) d (Fin a) = Ok (Fin r') /\ Rabs (r - r') <= 3e-12.
Proof. exact radiation_np_accuracy. Qed.
Print Assumptions C98_irradiance_accuracy_partial.
Example C98_case : pow_std std_libm /\ accurate std_libm /\ l_sin std_libm nzero = nzero /\
  l_exp std_libm (BinarySingleNaN.B754_infinity false) = BinarySingleNaN.B754_infinity false /\ l_exp std_libm (BinarySingleNaN.B754_infinity true) = BinarySingleNaN.B754_zero false /\
  is_zero (l_sin std_libm (radians (n := B64 std_libm) (flit 30))) = false.
Proof.
  exact (conj std_pow (conj std_accurate (conj (proj1 std_special) (conj (proj1 (proj2 std_special)) (conj (proj2 (proj2 std_special))
    (sine_not_zero std_libm std_accurate (flit 30) 30 (val_int 30 ltac:(discriminate)) ltac:(rewrite Rabs_pos_eq; lra))))))).
Qed.

(* simulate_span in binary64: no IndexError with 361 entries, and what a row holds. *)
From Coq Require Import Reals Qreals Lra Lia List.
From Flocq Require Import Core IEEE754.BinarySingleNaN.
From Interval Require Import Tactic.
From Verif Require Import Py Num Cal CalProofs TzCheck Clock Tables Constants SolarTime Solar Radiation Simulate RInst RTac
  SpecTime SpecDt SpecGeom SpecEng SpecB64 Trig GeoProofs SimulateProofs RefractionProofs PositionProofs SpanProofs
  SunriseProofs SpaProofs Absint AbsintSound B64 B64Lemmas B64Ranges B64Lift B64FastAz B64Final B64Rad B64Refr B64Sunrise AngleLip B64End Samples MotionProofs SeasonProofs.
Local Open Scope R_scope.

Section L.
Variable L : libm.
Notation N := (B64 L).

Lemma nb_div a b : noidx (@div N a b). Proof. cbn. destruct (is_zero b); discriminate. Qed.
Lemma nb_math1 e f x : e <> IndexError -> noidx (math_1 e f x).
Proof. intros H. unfold math_1, noidx. repeat match goal with |- context [if ?b then _ else _] => destruct b end; congruence. Qed.
Lemma nb_math2 f x y : noidx (math_2 f x y).
Proof. unfold math_2, noidx. cbv zeta. repeat match goal with |- context [if ?b then _ else _] => destruct b end; congruence. Qed.
Lemma nb_pow x y : noidx (py_pow L x y).
Proof. unfold py_pow, noidx. cbv zeta. repeat match goal with |- context [if ?b then _ else _] => destruct b end; congruence. Qed.
Lemma nb_fmod x y : noidx (@fmod N x y).
Proof. cbn [fmod B64]. unfold py_fmod, noidx. cbv zeta. repeat match goal with |- context [if ?b then _ else _] => destruct b end; congruence. Qed.
Lemma nb_sin a : noidx (@nsin N a). Proof. apply nb_math1. discriminate. Qed.
Lemma nb_cos a : noidx (@ncos N a). Proof. apply nb_math1. discriminate. Qed.
Lemma nb_tan a : noidx (@ntan N a). Proof. apply nb_math1. discriminate. Qed.
Lemma nb_atan a : noidx (@natan N a). Proof. apply nb_math1. discriminate. Qed.
Lemma nb_asin a : noidx (@nasin N a). Proof. apply nb_math1. discriminate. Qed.
Lemma nb_exp a : noidx (@nexp N a). Proof. apply nb_math1. discriminate. Qed.
Lemma nb_atan2 a b : noidx (@natan2 N a b). Proof. apply nb_math2. Qed.
Lemma nb_powi a b : noidx (@powi N a b). Proof. apply nb_pow. Qed.
Lemma nb_round a : noidx (@round_int N a). Proof. destruct a; discriminate. Qed.
Lemma nb_truth a : noidx (@truth N a). Proof. discriminate. Qed.
Local Hint Resolve nb_div nb_fmod nb_sin nb_cos nb_tan nb_atan nb_asin nb_exp nb_atan2 nb_powi nb_round nb_truth : noidx.

Lemma nb_timestamp d : noidx (timestamp (N := N) d).
Proof.
  unfold timestamp, timestamp_us. apply noidx_bind; [|intros; discriminate]. destruct (dt_tz d); [|discriminate].
  apply noidx_bind; [apply noidx_utcoffset|]. intros [o|]; discriminate.
Qed.
Lemma nb_jd d : noidx (get_julian_solar_day (N := N) d).
Proof. unfold get_julian_solar_day, get_delta_t. pose proof (nb_timestamp d). pose proof (noidx_leap d). pose proof (noidx_delta_t_q d). noidx. Qed.
Lemma nb_jde d : noidx (get_julian_ephemeris_day (N := N) d).
Proof. unfold get_julian_ephemeris_day. pose proof (nb_timestamp d). pose proof (noidx_leap d). noidx. Qed.
Lemma nb_coeff t l : noidx (get_coeff (N := N) t l).
Proof.
  unfold get_coeff. apply noidx_bind; [|intros; discriminate]. apply noidx_fold_left; [|discriminate].
  intros r a Hr. noidx. unfold coeff_line. apply noidx_fold_left; [|discriminate].
  intros r' [[a' b'] c'] Hr'. noidx.
Qed.
Lemma nb_nutation t : noidx (get_nutation (N := N) t).
Proof.
  unfold get_nutation, get_nutation_st. cbn [get_aberration_coeffs fst]. unfold get_nutation_from.
  assert (noidx (nutation_args (N := N) aberration_coeffs_table t)).
  { unfold nutation_args. apply noidx_fold_right; [|discriminate]. intros k r Hr. pose proof (noidx_dict k aberration_coeffs_table).
    noidx. destruct a as [[[? ?] ?] ?]. unfold cubic. noidx. }
  noidx. unfold nutation_terms. apply noidx_fold_right; [|discriminate]. intros [[[[a0 a1] a2] a3] y] r Hr. unfold nutation_term. noidx.
Qed.
Local Hint Resolve nb_jd nb_jde nb_coeff nb_nutation : noidx.
Lemma nb_position lat lon d el : noidx (get_topocentric_position (N := N) lat lon d el).
Proof.
  unfold get_topocentric_position. noidx.
  - unfold get_projected_radial_distance, get_flattened_latitude. noidx.
  - unfold get_projected_axial_distance, get_flattened_latitude. noidx.
  - unfold topocentric_position_at, get_julian_ephemeris_century, get_julian_ephemeris_millennium, get_geocentric_latitude,
      get_geocentric_longitude, get_heliocentric_latitude, get_heliocentric_longitude, get_sun_earth_distance,
      get_aberration_correction, get_equatorial_horizontal_parallax, get_apparent_sidereal_time, get_mean_sidereal_time, get_julian_century,
      get_true_ecliptic_obliquity, get_geocentric_sun_right_ascension, get_geocentric_sun_declination, get_local_hour_angle,
      get_parallax_sun_right_ascension, get_topocentric_sun_declination. noidx.
Qed.
Local Hint Resolve nb_position : noidx.
Lemma nb_altitude lat lon d el T P : noidx (get_altitude (N := N) lat lon d el T P).
Proof.
  unfold get_altitude, get_topocentric_elevation_angle, get_refraction_correction. noidx.
Qed.
Lemma nb_azimuth lat lon d el : noidx (get_azimuth (N := N) lat lon d el).
Proof. unfold get_azimuth, get_topocentric_azimuth_angle. noidx. Qed.
Lemma nb_yday d : noidx (tm_yday (clock_math N) d).
Proof.
  cbn [clock_math tm_yday]. apply noidx_rmap. unfold tm_yday_math. apply noidx_bind; [|intros; discriminate].
  destruct (utctimetuple_cases d) as [(u & _ & ->)|[H _]]; [discriminate|exact H].
Qed.
Lemma nb_radiation d alt : noidx (get_radiation_direct (N := N) (C := clock_math N) d alt).
Proof.
  unfold get_radiation_direct, get_apparent_extraterrestrial_flux, get_optical_depth. pose proof (nb_yday d). noidx.
  unfold get_air_mass_ratio.
  assert (K : noidx (s <- @nsin N (radians alt) ;; div (lit 1) s)) by noidx.
  destruct (bind _ _) as [x|e]; [discriminate|]. destruct e; try discriminate. exact (noidx_Err _ K).
Qed.

Lemma round64 x v : val x v -> py_round x = Ok (ZnearestE v).
Proof.
  intros [F V]. assert (E : Btrunc (Bnearbyint mode_NE x) = ZnearestE v).
  { rewrite btrunc. destruct (Bnearbyint_correct 53 1024 emax1024 mode_NE x) as [Q _]. rewrite Q, V. cbn [round_mode]. rewrite round_int_R. apply Ztrunc_IZR. }
  rewrite <- E. destruct x; try discriminate; reflexivity.
Qed.

Lemma one_no_index64 lat lon horizon el T P t : atan2_in_range L -> (361 <= List.length horizon)%nat ->
  simulate_one (N := N) (C := clock_math N) (fun d => d) lat lon horizon el T P t <> Err IndexError.
Proof.
  intros HA Hh. unfold simulate_one. apply noidx_bind; [apply nb_altitude|]. intros alt.
  destruct (get_azimuth (N := N) lat lon t el) as [z|e] eqn:EZ; cbn [bind].
  2:{ pose proof (nb_azimuth lat lon t el) as K. rewrite EZ in K. exact (noidx_Err _ K). }
  destruct (proj1 (proj2 (azimuths64 L HA)) _ _ _ _ _ EZ) as [Nz|(v & V & B)].
  { destruct z; try discriminate. }
  cbn [round_int B64]. rewrite (round64 z v V). cbn [bind]. pose proof (round_range v B) as R.
  destruct (py_index_in_bounds horizon (ZnearestE v) ltac:(lia)) as (s & ->). cbn [bind].
  apply noidx_bind; [apply nb_sin|]. intros s0. apply noidx_bind; [apply nb_round|]. intros r. apply noidx_bind; [apply nb_truth|]. intros b.
  apply noidx_bind; [|discriminate]. destruct b; [discriminate|apply nb_radiation].
Qed.
Lemma span_no_index64 lat lon horizon start stop step el T P : atan2_in_range L ->
  (361 <= List.length horizon)%nat ->
  g_end (datetime_range start stop step) <> Err IndexError ->
  g_end (simulate_span (N := N) (C := clock_math N) (fun d => d) lat lon horizon start stop step el T P) <> Err IndexError.
Proof.
  intros HA Hh Hr. pose proof (simulate_span_spec (N := N) (C := clock_math N) (fun d => d) lat lon horizon start stop step el T P) as S.
  cbv zeta in S. destruct S as (dn & td & _ & _ & S). destruct td as [|t td]; [now rewrite S|].
  destruct S as (e & S1 & ->). intros [= ->]. now apply (one_no_index64 lat lon horizon el T P t) in S1.
Qed.

(* ---------------------------------------------------------------- the contents of a row *)
Hypothesis HL : accurate L.

Lemma radians64 x a : val x a -> Rabs a <= 90 -> exists v, val (radians (n := N) x) v /\ Rabs (v - rad a) <= 1e-14.
Proof.
  intros V B. destruct d2r_c as [VC EC]. set (c := B2R deg_to_rad) in *.
  assert (EC' : Rabs (c - PI / 180) <= 1e-17) by (eapply Rle_trans; [exact EC|]; unfold zr, d2r_e, SC; interval with (i_prec 200)).
  assert (CB : Rabs c <= 0.02) by (apply Rabs_le_inv in EC'; assert (0.017 <= PI / 180 <= 0.018) by (split; interval); apply Rabs_le; lra).
  assert (M : Rabs (a * c) <= 1.8) by (rewrite Rabs_mult; replace 1.8 with (90 * 0.02) by lra; apply Rmult_le_compat; try apply Rabs_pos; assumption).
  exists (rnd (a * c)). split; [apply val_mul; [exact V|exact VC|apply big_num; lra]|].
  pose proof (B64Refr.rnd_up _ _ M) as E. unfold rad.
  replace (rnd (a * c) - a * (PI / 180)) with ((rnd (a * c) - a * c) + a * (c - PI / 180)) by ring.
  eapply Rle_trans; [apply Rabs_triang|]. rewrite (Rabs_mult a). pose proof (Rmult_le_compat _ _ _ _ (Rabs_pos a) (Rabs_pos (c - PI / 180)) B EC'). lra.
Qed.
Lemma sine380 x a : val x a -> Rabs a <= 90 -> exists s w,
  nsin (n := N) (radians (n := N) x) = Ok s /\ val (mul (n := N) (lit (n := N) 380) s) w /\ Rabs (w - 380 * sind a) <= 1e-11.
Proof.
  intros V B. destruct (radians64 x a V B) as (v & VR & ER). set (xr := radians (n := N) x) in *.
  pose proof (ac_sin L HL xr v VR) as C. pose proof (math1_close ValueError _ _ _ C) as MS. destruct C as (s & VS & ES).
  exists (l_sin L xr), (rnd (380 * s)). split; [exact MS|].
  change (bpow radix2 (-52)) with (/ 4503599627370496) in ES.
  assert (T : bpow radix2 (-1074) <= 1e-20).
  { apply Rle_trans with (bpow radix2 (-114)); [apply bpow_le; lia|]. change (bpow radix2 (-114)) with (/ IZR (2 ^ 114)). interval. }
  set (tiny := bpow radix2 (-1074)) in *. clearbody tiny.
  assert (S1 : Rabs (sin v) <= 1) by (apply Rabs_le; pose proof (SIN_bound v); lra).
  pose proof (sin_lip v (rad a)) as SL. rewrite <- sind_rad in SL.
  assert (E1 : Rabs (s - sind a) <= 2e-14).
  { replace (s - sind a) with ((s - sin v) + (sin v - sind a)) by ring. eapply Rle_trans; [apply Rabs_triang|]. lra. }
  assert (SB : Rabs s <= 2) by (apply Rabs_le_inv in E1; pose proof (sind_bound a); apply Rabs_le; lra).
  assert (M : Rabs (380 * s) <= 760) by (rewrite Rabs_mult, Rabs_pos_eq by lra; lra).
  split; [apply val_mul; [apply (val_int 380); lia|exact VS|apply big_num; lra]|].
  pose proof (B64Refr.rnd_up _ _ M) as E. replace (rnd (380 * s) - 380 * sind a) with ((rnd (380 * s) - 380 * s) + 380 * (s - sind a)) by ring.
  eapply Rle_trans; [apply Rabs_triang|]. rewrite Rabs_mult, (Rabs_pos_eq 380) by lra. lra.
Qed.

Lemma row64 lat lon el x xo xe dt u xT T xP P dec ha E horizon : atan2_in_range L -> instant dt u -> in_range u = true ->
  val x lat -> val xo lon -> val xe el -> -90 <= lat <= 90 -> -360 <= lon <= 360 -> -100000 <= el <= 100000 ->
  val xT T -> val xP P -> 180 <= T <= 340 -> 0 <= P <= 110000 ->
  get_topocentric_position (N := MathR) (Fin lat) (Fin lon) dt (Fin el) = Ok (Fin dec, Fin ha) ->
  get_topocentric_elevation_angle (N := MathR) (Fin lat) (Fin dec) (Fin ha) = Ok (Fin E) -> 0.00001 <= E <= 89 ->
  (361 <= List.length horizon)%nat ->
  exists q a a' z b b' (k i m : Z) p r r' h,
    simulate_one (N := N) (C := clock_math N) (fun d => d) x xo horizon xe xT xP dt = Ok (dt, q, z, p, h) /\
    get_altitude (N := MathR) (Fin lat) (Fin lon) dt (Fin el) (Fin T) (Fin P) = Ok (Fin a') /\
    get_azimuth (N := MathR) (Fin lat) (Fin lon) dt (Fin el) = Ok (Fin b') /\
    get_radiation_direct (N := MathR) (C := clock_math MathR) dt (Fin a') = Ok (Fin r') /\
    val q a /\ Rabs (a - a') <= 2.8e-6 /\
    val z b /\ 0 <= b < 360 /\ Rabs (b - b' - 360 * IZR k) <= 2e-6 / cosd E /\
    nth_error horizon (Z.to_nat i) = Some h /\ (0 <= i)%Z /\ Rabs (IZR i - b) <= 0.5 /\
    Rabs (IZR m - 380 * (1 - sind a')) <= 0.50002 /\
    val p r /\
    (forall hv, val h hv -> hv < IZR m -> r = 0) /\
    (forall hv, val h hv -> IZR m <= hv -> Rabs (r - r') <= 2.4e-4).
Proof.
  intros HA Hi Hr Vx Vo Ve Hlat Hlon Hel VT VP HT HP E1 E2 HE Hh.
  assert (W : ~ (-5.21 < E < -4.99)) by lra. assert (G : 1e-5 <= Rabs (E + 0.83337)) by (rewrite Rabs_pos_eq; lra).
  assert (A89 : Rabs E <= 89) by (rewrite Rabs_pos_eq; lra).
  destruct (altitude_accuracy64 L HL lat lon el x xo xe dt u xT T xP P dec ha E Hi Hr Vx Vo Ve Hlat Hlon Hel VT VP HT HP E1 E2 W G)
    as [(q & a & a' & Q1 & V & Q2 & _ & B1 & _)|(_ & NN)]; [|rewrite Rabs_pos_eq in NN; lra].
  specialize (B1 A89).
  destruct (irradiance64 L HL lat lon el x xo xe dt u xT T xP P dec ha E Hi Hr Vx Vo Ve Hlat Hlon Hel VT VP HT HP E1 E2 HE)
    as (q2 & a2 & p & r & r' & P1 & P2 & P3 & P4 & P5 & P6 & _).
  rewrite Q1 in P1. apply Ok_inj in P1. subst q2. rewrite Q2 in P4. apply Ok_inj, Fin_inj in P4. subst a2.
  destruct (azimuth_accuracy64 L HL lat lon el x xo xe dt u dec ha E Hi Vx Vo Ve Hlat Hlon Hel E1 E2) with (c := 2e-6) as (z & b & b' & k & Z1 & VZ & Z2 & Z3).
  { unfold cosd. interval. }
  { left. auto. }
  destruct (proj1 (proj2 (azimuths64 L HA)) _ _ _ _ _ Z1) as [Nz|(b2 & VZ2 & BZ)].
  { destruct (val_fin _ _ VZ) as [F _]. rewrite F in Nz. discriminate. }
  rewrite <- (val_unique _ _ _ VZ VZ2) in BZ. clear b2 VZ2.
  pose proof (round_range b BZ) as RR.
  destruct (py_index_in_bounds horizon (ZnearestE b) ltac:(lia)) as (h & HI).
  assert (HA' : a' = E + refraction_formula P T E).
  { unfold get_altitude in Q2. rewrite (instant_aware dt u Hi), bind_Ok, E1, bind_Ok, E2, bind_Ok, refraction_above, bind_Ok, add_R in Q2 by lra.
    now apply Ok_inj, Fin_inj in Q2. }
  pose proof (apparent_up P T E HP HT ltac:(lra)) as UP. rewrite <- HA' in UP. pose proof (Rabs_le_inv _ _ B1) as BB.
  destruct (sine380 q a V) as (s & w & S1 & S2 & S3); [apply Rabs_le; lra|].
  set (n := ZnearestE w). pose proof (nearest_half w) as NH. fold n in NH.
  assert (SA : Rabs (sind a - sind a') <= 5.1e-8).
  { rewrite !sind_rad. eapply Rle_trans; [apply sin_lip|]. unfold rad. replace (a * (PI / 180) - a' * (PI / 180)) with ((a - a') * (PI / 180)) by ring.
    rewrite Rabs_mult, (Rabs_pos_eq (PI / 180)) by interval. assert (PI / 180 <= 0.018) by interval. assert (0 <= PI / 180) by interval.
    pose proof (Rmult_le_compat _ _ _ _ (Rabs_pos (a - a')) H0 B1 H). lra. }
  assert (NB : (Z.abs n <= 1000)%Z).
  { apply le_IZR. rewrite abs_IZR. pose proof (sind_bound a). apply Rabs_le_inv in S3. apply Rabs_le_inv in NH. apply Rabs_le. lra. }
  assert (VM : val (sub (n := N) (lit (n := N) 380) (ofZ (N := N) n)) (IZR (380 - n))).
  { replace (IZR (380 - n)) with (rnd (380 - IZR n)).
    - apply val_sub; [apply (val_int 380); lia|apply val_int; lia|apply big_num]. rewrite <- minus_IZR, <- abs_IZR. apply Rle_trans with (IZR 2000); [apply IZR_le; lia|lra].
    - rewrite <- minus_IZR. apply round_generic; [apply valid_rnd_N|]. 
      apply generic_format_FLT. exists (Float radix2 (380 - n) 0); cbn [Fnum Fexp].
      + unfold F2R; cbn. ring.
      + apply Z.lt_le_trans with 2000%Z; [lia|]. now vm_compute.
      + lia. }
  assert (GO : simulate_one (N := N) (C := clock_math N) (fun d => d) x xo horizon xe xT xP dt =
    rad0 <- (if Bltb h (sub (n := N) (lit (n := N) 380) (ofZ (N := N) n)) then Ok (lit (n := N) 0) else Ok p) ;; Ok (dt, q, z, rad0, h)).
  { unfold simulate_one. rewrite Q1, bind_Ok, Z1, bind_Ok. cbn [round_int B64]. rewrite (round64 z b VZ), bind_Ok, HI, bind_Ok.
    rewrite S1, bind_Ok.
    rewrite (round64 _ w S2), bind_Ok. fold n. cbn [truth B64]. rewrite bind_Ok. cbn [lt B64]. destruct (Bltb _ _); [reflexivity|]. now rewrite P2. }
  assert (IX : nth_error horizon (Z.to_nat (ZnearestE b)) = Some h) by exact (proj1 (py_index_nonneg horizon _ h (proj1 RR)) HI).
  assert (NHB : Rabs (IZR (ZnearestE b) - b) <= 0.5) by (pose proof (nearest_half b); lra).
  assert (MM : Rabs (IZR (380 - n) - 380 * (1 - sind a')) <= 0.50002).
  { rewrite minus_IZR. apply Rabs_le_inv in NH. apply Rabs_le_inv in S3. apply Rabs_le_inv in SA. apply Rabs_le. lra. }
  destruct (Bltb h (sub (n := N) (lit (n := N) 380) (ofZ (N := N) n))) eqn:EB.
  - exists q, a, a', z, b, b', k, (ZnearestE b), (380 - n)%Z, (lit (n := N) 0), 0, r', h.
    rewrite GO. cbn [bind]. repeat (split; [first [reflexivity|assumption|apply RR]|]).
    split; [exact (val_int 0 ltac:(lia))|]. split; [reflexivity|]. intros hv HV HB. rewrite (val_lt _ _ _ _ HV VM) in EB.
    destruct (Rlt_bool_spec hv (IZR (380 - n))); [lra|discriminate].
  - exists q, a, a', z, b, b', k, (ZnearestE b), (380 - n)%Z, p, r, r', h.
    rewrite GO. cbn [bind]. repeat (split; [first [reflexivity|assumption|apply RR]|]).
    split; [|intros; assumption]. intros hv HV HB. rewrite (val_lt _ _ _ _ HV VM) in EB.
    destruct (Rlt_bool_spec hv (IZR (380 - n))); [discriminate|lra].
Qed.

(* after dark the row says zero whatever the horizon *)
Lemma row_night64 lat lon el x xo xe dt u xT T xP P dec ha E horizon : atan2_in_range L -> instant dt u -> in_range u = true ->
  val x lat -> val xo lon -> val xe el -> -90 <= lat <= 90 -> -360 <= lon <= 360 -> -100000 <= el <= 100000 ->
  val xT T -> val xP P -> 180 <= T <= 340 -> 0 <= P <= 110000 ->
  get_topocentric_position (N := MathR) (Fin lat) (Fin lon) dt (Fin el) = Ok (Fin dec, Fin ha) ->
  get_topocentric_elevation_angle (N := MathR) (Fin lat) (Fin dec) (Fin ha) = Ok (Fin E) -> E <= -0.8334 -> ~ (-5.21 < E < -4.99) -> -89.9 <= E ->
  (361 <= List.length horizon)%nat ->
  exists q z b p (i : Z) h,
    simulate_one (N := N) (C := clock_math N) (fun d => d) x xo horizon xe xT xP dt = Ok (dt, q, z, p, h) /\ val p 0 /\
    get_altitude (N := N) x xo dt xe xT xP = Ok q /\ get_azimuth (N := N) x xo dt xe = Ok z /\ val z b /\
    nth_error horizon (Z.to_nat i) = Some h /\ (0 <= i)%Z /\ Rabs (IZR i - b) <= 0.5.
Proof.
  intros HA Hi Hr Vx Vo Ve Hlat Hlon Hel VT VP HT HP E1 E2 HE W H89 Hh.
  assert (G : 1e-5 <= Rabs (E + 0.83337)) by (rewrite Rabs_left1; lra).
  destruct (altitude_accuracy64 L HL lat lon el x xo xe dt u xT T xP P dec ha E Hi Hr Vx Vo Ve Hlat Hlon Hel VT VP HT HP E1 E2 W G)
    as [(q & a & a' & Q1 & V & Q2 & B & _)|(_ & NN)]; [|rewrite Rabs_left1 in NN; lra].
  assert (HA' : a' = E).
  { unfold get_altitude in Q2. rewrite (instant_aware dt u Hi), bind_Ok, E1, bind_Ok, E2, bind_Ok in Q2.
    destruct (get_refraction_correction (N := MathR) (Fin P) (Fin T) (Fin E)) as [r|ex] eqn:Er; [|discriminate Q2].
    rewrite (refraction_returns_below (Fin P) (Fin T) E r ltac:(lra) Er), bind_Ok, add_R, Rplus_0_r in Q2. now apply Ok_inj, Fin_inj in Q2. }
  rewrite HA' in B. apply Rabs_le_inv in B.
  destruct (dark64 L HL lat lon el x xo xe dt u xT T xP P dec ha E Hi Hr Vx Vo Ve Hlat Hlon Hel VT VP HT HP E1 E2 HE W H89) as (q2 & p & P1 & P2 & P3).
  rewrite Q1 in P1. apply Ok_inj in P1. subst q2.
  destruct (azimuth_accuracy64 L HL lat lon el x xo xe dt u dec ha E Hi Vx Vo Ve Hlat Hlon Hel E1 E2) with (c := 2e-6) as (z & b & b' & k & Z1 & VZ & _ & _).
  { unfold cosd. interval. }
  { left. auto. }
  destruct (proj1 (proj2 (azimuths64 L HA)) _ _ _ _ _ Z1) as [Nz|(b2 & VZ2 & BZ)].
  { destruct (val_fin _ _ VZ) as [F _]. rewrite F in Nz. discriminate. }
  rewrite <- (val_unique _ _ _ VZ VZ2) in BZ. clear b2 VZ2.
  pose proof (round_range b BZ) as RR.
  destruct (py_index_in_bounds horizon (ZnearestE b) ltac:(lia)) as (h & HI).
  destruct (sine380 q a V) as (s & w & S1 & S2 & _); [apply Rabs_le; lra|]. set (n := ZnearestE w).
  assert (GO : simulate_one (N := N) (C := clock_math N) (fun d => d) x xo horizon xe xT xP dt =
    rad0 <- (if Bltb h (sub (n := N) (lit (n := N) 380) (ofZ (N := N) n)) then Ok (lit (n := N) 0) else Ok p) ;; Ok (dt, q, z, rad0, h)).
  { unfold simulate_one. rewrite Q1, bind_Ok, Z1, bind_Ok. cbn [round_int B64]. rewrite (round64 z b VZ), bind_Ok, HI, bind_Ok.
    rewrite S1, bind_Ok. rewrite (round64 _ w S2), bind_Ok. fold n. cbn [truth B64]. rewrite bind_Ok. cbn [lt B64]. destruct (Bltb _ _); [reflexivity|]. now rewrite P2. }
  assert (IX : nth_error horizon (Z.to_nat (ZnearestE b)) = Some h) by exact (proj1 (py_index_nonneg horizon _ h (proj1 RR)) HI).
  assert (NHB : Rabs (IZR (ZnearestE b) - b) <= 0.5) by (pose proof (nearest_half b); lra).
  exists q, z, b, (if Bltb h (sub (n := N) (lit (n := N) 380) (ofZ (N := N) n)) then lit (n := N) 0 else p), (ZnearestE b), h.
  rewrite GO. assert (V0 : val (lit (n := N) 0) 0) by exact (val_int 0 ltac:(discriminate)).
  destruct (Bltb _ _); cbn [bind]; repeat (split; [first [reflexivity|assumption|apply RR]|]); exact NHB.
Qed.
End L.

(* cases: the poles on 21 June 2020 *)
Lemma june_south_pole : exists dec ha E, get_topocentric_position (N := MathR) (Fin (-90)) (Fin 0) sample_dt (Fin 0) = Ok (Fin dec, Fin ha) /\
  get_topocentric_elevation_angle (N := MathR) (Fin (-90)) (Fin dec) (Fin ha) = Ok (Fin E) /\ E <= -0.8334 /\ ~ (-5.21 < E < -4.99) /\ -89.9 <= E.
Proof.
  pose proof ApproxProofs.sample_1901 as U.
  destruct (poles sample_dt sample_u 173 17 0 0 0 sample_instant U sample_clock ltac:(lra)) as (_ & (dec & ha & E1 & E2 & _)).
  exists dec, ha, (- dec). split; [exact E1|]. split; [exact E2|].
  destruct (seasons sample_dt sample_u 173 17 0 (-90) 0 0 dec ha sample_instant U sample_clock ltac:(lra) ltac:(lra) E1) as (_ & _ & S & _). specialize (S ltac:(lia)).
  destruct (tropics sample_dt sample_u (-90) 0 0 dec ha (- dec) sample_instant U ltac:(lra) ltac:(lra) E1 E2) as (TD & _). apply Rabs_le_inv in TD. lra.
Qed.
Lemma long_horizon : (361 <= List.length (repeat (flit 0) 361))%nat.
Proof. rewrite repeat_length. lia. Qed.

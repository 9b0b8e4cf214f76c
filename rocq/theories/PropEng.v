(* Properties C11, C31-C39, C42-C47, C51-C54, C57: the fast functions, radiation, sunrise,
   simulation, elevation, irradiance, REST2, arrays and back ends.  [MathR]: real numbers with
   the exceptions of the math back end; [NumpyR]: numpy's scalars; [ArrR I]: arrays indexed by I. *)
From Coq Require Import Reals Qreals Lra Lia.
From Flocq Require Import Core.
From Interval Require Import Tactic.
From Verif Require Import Py Num Cal TzCheck Clock Constants SolarTime Solar Radiation Elevation Util Simulate Rest Arr
  RInst RTac SpecTime SpecDt SpecSpan SpecGeom SpecEng Samples Trig GenProofs FastProofs RadiationProofs SunriseProofs IrradianceProofs
  SimulateProofs SpanProofs RestProofs ArrayProofs BackendProofs MiscProofs BetweenProofs.
Local Open Scope R_scope.

(* ------------------------------------------------------------------------------- C11 *)
(* FALSE as a whole: get_radiation_direct takes a naive datetime for UTC and returns a positive
   number for every sun above the horizon. *)
Theorem C11_naive_radiation_refuted : forall d alt, naive d -> valid_dt d -> 0 < alt <= 90 ->
  exists day h m, civil_clock (dt_local d) day h m /\
    get_radiation_direct (N := MathR) (C := clock_math MathR) d (Fin alt) = Ok (Fin (masters_beam (IZR day) alt)) /\
    0 < masters_beam (IZR day) alt.
Proof. exact naive_radiation. Qed.
Print Assumptions C11_naive_radiation_refuted.

(* [rejects r]: r = Err (NoTimeZoneInfoError "when").  Every other function, in any arithmetic: *)
Theorem C11_naive_rejected_partial : forall (N : Num) d, naive d ->
  rejects (get_leap_seconds d) /\ rejects (get_delta_t (N := N) d) /\
  rejects (get_julian_solar_day (N := N) d) /\ rejects (get_julian_ephemeris_day (N := N) d) /\
  (forall lat lon el, rejects (get_topocentric_position (N := N) lat lon d el)) /\
  (forall lat lon el t p, rejects (get_position (N := N) lat lon d el t p)) /\
  (forall lat lon el t p, rejects (get_altitude (N := N) lat lon d el t p)) /\
  (forall lat lon el, rejects (get_azimuth (N := N) lat lon d el)) /\
  (forall lat lon, rejects (get_sunrise_sunset_transit (N := N) lat lon d)) /\
  (forall lat lon, rejects (get_sunrise_sunset (N := N) lat lon d)) /\
  (forall lat lon, rejects (get_sunrise_time (N := N) lat lon d)) /\
  (forall lat lon, rejects (get_sunset_time (N := N) lat lon d)) /\
  (forall lat lon, rejects (get_transit_time (N := N) lat lon d)) /\
  rejects (mean_earth_sun_distance (N := N) d) /\
  (forall TY, rejects (declination_degree (N := N) d TY)) /\
  (forall lat lon t p el, rejects (solarelevation_function_clear (N := N) lat lon d t p el)) /\
  (forall lat lon el t p, rejects (solarelevation_function_overcast (N := N) lat lon d el t p)) /\
  (forall lat lon el t p TL, rejects (diffuse_underclear (N := N) lat lon d el t p TL)) /\
  (forall lat lon el t p TL, rejects (diffuse_underovercast (N := N) lat lon d el t p TL)) /\
  (forall lat lon TY AM TL el t p, rejects (direct_underclear (N := N) lat lon d TY AM TL el t p)) /\
  (forall lat lon TY AM TL el t p, rejects (global_irradiance_clear (N := N) lat lon d TY AM TL el t p)) /\
  (forall lat lon el t p, rejects (global_irradiance_overcast (N := N) lat lon d el t p)).
Proof. exact naive_rejected. Qed.
Print Assumptions C11_naive_rejected_partial.

(* the functions reading the back end's clock, for both back ends (and any clock that checks) *)
Theorem C11_naive_rejected_clock_partial : forall (N : Num) (C : Clock N) (toD : datetime -> D C) d,
  aware_check C (toD d) = aware d -> naive d ->
  (forall lon, rejects (get_solar_time (N := N) lon (toD d))) /\
  (forall lon, rejects (get_hour_angle (N := N) (toD d) lon)) /\
  (forall lat lon, rejects (get_altitude_fast (N := N) lat lon (toD d))) /\
  (forall lat lon sc, rejects (extraterrestrial_irrad (N := N) toD lat lon d sc)) /\
  (forall ghi lat lon, rejects (clear_index (N := N) toD ghi lat lon d)).
Proof. exact naive_rejected_clock. Qed.
Print Assumptions C11_naive_rejected_clock_partial.

Theorem C11_naive_azimuth_fast_partial : forall d lat lon, naive d -> valid_dt d ->
  rejects (get_azimuth_fast (N := MathR) (C := clock_math MathR) lat lon d) /\
  (forall lat lon, rejects (get_azimuth_fast (N := NumpyR) (C := clock_numpy NumpyR) lat lon d)).
Proof. exact naive_azimuth_fast. Qed.
Print Assumptions C11_naive_azimuth_fast_partial.

Theorem C11_naive_simulate_partial : forall (N : Num) (C : Clock N) (toD : datetime -> D C) lat lon horizon start stop step el t p,
  naive start -> g_items (datetime_range start stop step) <> [] ->
  simulate_span (N := N) toD lat lon horizon start stop step el t p = mkgen [] (Err (NoTimeZoneInfoError "when")).
Proof. exact naive_simulate. Qed.
Print Assumptions C11_naive_simulate_partial.

Example C11_case : naive sample_naive /\ valid_dt sample_naive /\
  aware_check (clock_math MathR) sample_naive = aware sample_naive /\
  aware_check (clock_numpy NumpyR) sample_naive = aware sample_naive /\
  g_items (datetime_range sample_naive (mk 2020 6 21 14 0 0 0 None) (StepInt 60)) <> [].
Proof. repeat split; try (vm_compute; reflexivity). vm_compute. discriminate. Qed.

(* ------------------------------------------------------------------------------- C31 *)
(* [civil_clock u day h m]: the instant u falls in minute m of hour h (UTC) of day number [day];
   [masters_declination], [masters_hour_angle]: the published formulas *)
Theorem C31_fast_position : forall d u day h m lat lon,
  instant d u -> in_range u = true -> civil_clock u day h m -> -90 < lat < 90 ->
  let decl := masters_declination (IZR day) in
  let ha := masters_hour_angle (IZR day) (IZR h) (IZR m) lon in
  get_declination (N := MathR) (Fin (IZR day)) = Ok (Fin decl) /\
  get_hour_angle (N := MathR) (C := clock_math MathR) d (Fin lon) = Ok (Fin ha) /\
  exists e, get_altitude_fast (N := MathR) (C := clock_math MathR) (Fin lat) (Fin lon) d = Ok (Fin e) /\
    -90 <= e <= 90 /\ sind e = dot (equatorial decl ha) (up lat) /\
    (-90 < e < 90 -> exists A,
      get_azimuth_fast (N := MathR) (C := clock_math MathR) (Fin lat) (Fin lon) d = Ok (Fin A) /\
      0 <= A < 360 /\ horizontal_coordinates lat (equatorial decl ha) A e) /\
    (e = 90 \/ e = -90 ->
      get_azimuth_fast (N := MathR) (C := clock_math MathR) (Fin lat) (Fin lon) d = Err ZeroDivisionError).
Proof. exact fast_correct. Qed.
Print Assumptions C31_fast_position.

Example C31_case : instant sample_dt sample_u /\ in_range sample_u = true /\ civil_clock sample_u 173 17 0 /\ -90 < 40 < 90 /\
  0.9 < dot (equatorial (masters_declination 173) (masters_hour_angle 173 17 0 (-75))) (up 40) < 1.
Proof.
  repeat split; try exact sample_instant; try apply sample_clock; try lra;
    unfold dot, equatorial, masters_declination, masters_hour_angle, masters_solar_time, masters_eot, up, sind, cosd, rad; interval.
Qed.

(* ------------------------------------------------------------------------------- C32 *)
Theorem C32_ranges :
  (forall day, exists x, get_declination (N := MathR) (Fin day) = Ok (Fin x) /\ -23.45 <= x <= 23.45) /\
  (forall k, get_declination (N := MathR) (Fin (81 + 365 / 2 * IZR k)) = Ok (Fin 0)) /\
  (forall day, get_declination (N := MathR) (Fin day) = Ok (Fin (masters_declination day))) /\
  (forall day, exists x, equation_of_time (N := MathR) (Fin day) = Ok (Fin x) /\
     x = masters_eot day /\ -14.7 <= x <= 16.5) /\
  (forall d u, instant d u -> in_range u = true -> forall lon dlon,
     exists t t', get_solar_time (N := MathR) (C := clock_math MathR) (Fin lon) d = Ok (Fin t) /\
       get_solar_time (N := MathR) (C := clock_math MathR) (Fin (lon + dlon)) d = Ok (Fin t') /\
       t' = t + 4 * dlon / 60 /\
       get_hour_angle (N := MathR) (C := clock_math MathR) d (Fin lon) = Ok (Fin (15 * (t - 12)))) /\
  (forall d u day h m lon, instant d u -> in_range u = true -> civil_clock u day h m ->
     get_solar_time (N := MathR) (C := clock_math MathR) (Fin lon) d =
       Ok (Fin (masters_solar_time (IZR day) (IZR h) (IZR m) lon))).
Proof. exact ranges_correct. Qed.
Print Assumptions C32_ranges.

(* 17:00 UTC at 75 W on 21 June: close to noon *)
Example C32_case : 23.4 < masters_declination 173 < 23.46 /\ 11.9 < masters_solar_time 173 17 0 (-75) < 12.
Proof. unfold masters_declination, masters_solar_time, masters_eot, sind, cosd, rad. split; split; interval. Qed.

(* ------------------------------------------------------------------------------- C33 *)
Definition C33_claim : Prop := forall d u alt, instant d u -> in_range u = true -> -90 <= alt <= 0 ->
  get_radiation_direct (N := MathR) (C := clock_math MathR) d (Fin alt) = Ok (Fin 0).
(* FALSE: just below the horizon the math back end raises OverflowError and the numpy back end
   returns nan (an infinity times False). *)
Theorem C33_radiation_night_refuted :
  (forall d u alt, instant d u -> in_range u = true -> -0.011 <= alt < 0 ->
     get_radiation_direct (N := MathR) (C := clock_math MathR) d (Fin alt) = Err OverflowError) /\
  (forall d u alt, instant d u -> whole_minute_offset d -> in_range u = true -> -0.011 <= alt < 0 ->
     exists x, get_radiation_direct (N := NumpyR) (C := clock_numpy NumpyR) d (mknx false (Fin alt)) = Ok x /\ vx x = NaN).
Proof. exact radiation_night_refuted. Qed.
Print Assumptions C33_radiation_night_refuted.

Theorem C33_claim_refuted : ~ C33_claim.
Proof.
  exact (fun H => eq_ind (Err OverflowError) (fun r => match r with Err _ => True | Ok _ => False end) Logic.I _
    (eq_trans (eq_sym (proj1 radiation_night_refuted sample_dt sample_u (-0.01) sample_instant sample_in_range ltac:(lra)))
       (H sample_dt sample_u (-0.01) sample_instant sample_in_range ltac:(lra)))).
Qed.
Print Assumptions C33_claim_refuted.

Theorem C33_radiation_night_partial : forall d u alt, instant d u -> in_range u = true ->
  (-90 <= alt <= -0.017 \/ alt = 0 ->
     get_radiation_direct (N := MathR) (C := clock_math MathR) d (Fin alt) = Ok (Fin 0)) /\
  (-90 <= alt <= 0 ->
     get_radiation_direct (N := MathR) (C := clock_math MathR) d (Fin alt) = Ok (Fin 0) \/
     get_radiation_direct (N := MathR) (C := clock_math MathR) d (Fin alt) = Err OverflowError).
Proof. exact radiation_night_partial. Qed.
Print Assumptions C33_radiation_night_partial.

(* exactly when *)
Theorem C33_radiation_night_exact : forall d u day h m alt,
  instant d u -> in_range u = true -> civil_clock u day h m -> -90 <= alt <= 0 ->
  let r := get_radiation_direct (N := MathR) (C := clock_math MathR) d (Fin alt) in
  (r = Err OverflowError <-> alt < 0 /\ float_overflow <= exp (masters_depth (IZR day) / sind (- alt))) /\
  (r = Ok (Fin 0) <-> alt = 0 \/ exp (masters_depth (IZR day) / sind (- alt)) < float_overflow).
Proof. exact (fun d u day h m alt H1 H2 H3 => radiation_night d u day h m H1 H2 H3 alt). Qed.
Print Assumptions C33_radiation_night_exact.

Example C33_case : instant sample_dt sample_u /\ in_range sample_u = true /\ whole_minute_offset sample_dt /\ -0.011 <= -0.01 < 0.
Proof. repeat split; try exact sample_instant; try exact sample_whole; lra. Qed.

(* ------------------------------------------------------------------------------- C34 *)
Theorem C34_radiation_day : forall d u day h m, instant d u -> in_range u = true -> civil_clock u day h m ->
  let radiation alt := get_radiation_direct (N := MathR) (C := clock_math MathR) d (Fin alt) in
  (forall alt, 0 < alt <= 90 -> exists r f, radiation alt = Ok (Fin r) /\
     get_apparent_extraterrestrial_flux (N := MathR) (Fin (IZR day)) = Ok (Fin f) /\
     r = masters_beam (IZR day) alt /\ 0 < r < f /\ r < 1235) /\
  (forall a b, 0 < a -> a < b -> b <= 90 -> exists ra rb,
     radiation a = Ok (Fin ra) /\ radiation b = Ok (Fin rb) /\ ra < rb).
Proof. exact radiation_day. Qed.
Print Assumptions C34_radiation_day.

Example C34_case : instant sample_dt sample_u /\ in_range sample_u = true /\ civil_clock sample_u 173 17 0 /\
  850 < masters_beam 173 60 < 860.
Proof.
  split; [exact sample_instant|]. split; [reflexivity|]. split; [exact sample_clock|].
  unfold masters_beam, masters_flux, masters_depth, sind, rad. split; interval.
Qed.

(* ------------------------------------------------------------------------------- C35 *)
(* [ordered d sr ss tr]: sr <= tr <= ss, tr is the midpoint to the microsecond, same tzinfo *)
Theorem C35_sunrise_ordered :
  (forall lat lon d sr ss tr, get_sunrise_sunset_transit (N := MathR) lat lon d = Ok (sr, ss, tr) -> ordered d sr ss tr) /\
  (forall lat lon d sr ss tr, get_sunrise_sunset_transit (N := NumpyR) lat lon d = Ok (sr, ss, tr) -> ordered d sr ss tr).
Proof. exact (conj sunrise_ordered sunrise_ordered_np). Qed.
Print Assumptions C35_sunrise_ordered.

Theorem C35_wrappers : forall (N : Num) (lat lon : T N) d,
  get_sunrise_sunset lat lon d = rmap fst (get_sunrise_sunset_transit lat lon d) /\
  get_sunrise_time lat lon d = rmap (fun t => fst (fst t)) (get_sunrise_sunset_transit lat lon d) /\
  get_sunset_time lat lon d = rmap (fun t => snd (fst t)) (get_sunrise_sunset_transit lat lon d) /\
  get_transit_time lat lon d = rmap snd (get_sunrise_sunset_transit lat lon d).
Proof. exact wrappers. Qed.
Print Assumptions C35_wrappers.

(* ------------------------------------------------------------------------------- C36 *)
(* [rises_at lat decl H]: H hours from transit the sun's centre is 0.833 degrees below the horizon;
   [hours_after l r t]: t is r hours after the midnight of l, to the microsecond *)
Theorem C36_sunrise_equation : forall d u day h m lat lon sr ss tr,
  instant d u -> civil_clock (dt_local d) day h m -> -90 < lat < 90 ->
  get_sunrise_sunset_transit (N := MathR) (Fin lat) (Fin lon) d = Ok (sr, ss, tr) ->
  let decl := fourier_declination (IZR day) in
  let noon := transit_hours (dt_local d - u) lon (IZR day) in
  exists H, 0 <= H <= 12 /\ rises_at lat decl H /\
    (forall H', 0 <= H' <= 12 -> rises_at lat decl H' -> H' = H) /\
    hours_after (dt_local d) (noon - H) (dt_local sr) /\
    hours_after (dt_local d) (noon + H) (dt_local ss) /\
    hours_after (dt_local d) noon (dt_local tr).
Proof. exact sunrise_solution. Qed.
Print Assumptions C36_sunrise_equation.

(* ------------------------------------------------------------------------------- C37 *)
Theorem C37_raises_iff_no_sunrise : forall d u day h m lat lon,
  instant d u -> civil_clock (dt_local d) day h m -> -90 < lat < 90 -> -180 <= lon <= 180 -> inside_calendar d ->
  ((exists H, rises_at lat (fourier_declination (IZR day)) H) <->
   exists r, get_sunrise_sunset_transit (N := MathR) (Fin lat) (Fin lon) d = Ok r) /\
  (~ (exists H, rises_at lat (fourier_declination (IZR day)) H) <->
   get_sunrise_sunset_transit (N := MathR) (Fin lat) (Fin lon) d = Err ValueError).
Proof. exact sunrise_raises_iff. Qed.
Print Assumptions C37_raises_iff_no_sunrise.

(* with numpy: no sunrise -> ValueError (from timedelta(nan)); a sunrise -> the math result *)
Theorem C37_numpy_raises : forall d u day h m lat lon,
  instant d u -> civil_clock (dt_local d) day h m -> -90 < lat < 90 ->
  ~ (exists H, rises_at lat (fourier_declination (IZR day)) H) ->
  get_sunrise_sunset_transit (N := NumpyR) (mknx false (Fin lat)) (mknx false (Fin lon)) d = Err ValueError.
Proof. exact sunrise_numpy. Qed.
Print Assumptions C37_numpy_raises.
Theorem C37_numpy_same : forall fl lat lon d x,
  get_sunrise_sunset_transit (N := MathR) lat lon d = Ok x ->
  get_sunrise_sunset_transit (N := NumpyR) (mknx (fl 0%nat) lat) (mknx (fl 1%nat) lon) d = Ok x.
Proof. exact backend_sunrise. Qed.
Print Assumptions C37_numpy_same.
(* at the poles themselves *)
Theorem C37_poles : forall d u lat lon, instant d u -> cosd lat = 0 ->
  get_sunrise_sunset_transit (N := MathR) (Fin lat) (Fin lon) d = Err ZeroDivisionError.
Proof. exact sunrise_pole. Qed.
Print Assumptions C37_poles.

(* ------------------------------------------------------------------------------- C38 *)
(* [same_moment o o' a a']: same instant to the microsecond; exactly if o - o' is even *)
Theorem C38_sunrise_timezone_free : forall d d' o o' lat lon sr ss tr sr' ss' tr',
  fixed_offset d o -> fixed_offset d' o' -> day_start (dt_local d) = day_start (dt_local d') -> -90 < lat < 90 ->
  get_sunrise_sunset_transit (N := MathR) (Fin lat) (Fin lon) d = Ok (sr, ss, tr) ->
  get_sunrise_sunset_transit (N := MathR) (Fin lat) (Fin lon) d' = Ok (sr', ss', tr') ->
  same_moment o o' sr sr' /\ same_moment o o' ss ss' /\ same_moment o o' tr tr'.
Proof. exact sunrise_timezone_free. Qed.
Print Assumptions C38_sunrise_timezone_free.

(* ------------------------------------------------------------------------------- C39 *)
Theorem C39_transit_same_day : forall d u lat lon sr ss tr, instant d u -> -90 < lat < 90 ->
  get_sunrise_sunset_transit (N := MathR) (Fin lat) (Fin lon) d = Ok (sr, ss, tr) ->
  Rabs (IZR (dt_local d - u) / 3600000000 - lon / 15) <= 11 ->
  day_start (dt_local tr) = day_start (dt_local d).
Proof. exact transit_same_day. Qed.
Print Assumptions C39_transit_same_day.

(* at 40 N, 75 W on the sample day the sun does rise: all the hypotheses of C35-C39 hold, and at
   80 N it does not *)
Example C35_C39_case :
  instant sample_dt sample_u /\ civil_clock (dt_local sample_dt) 173 12 0 /\ inside_calendar sample_dt /\
  fixed_offset sample_dt (-18000 * 1000000) /\
  (exists r, get_sunrise_sunset_transit (N := MathR) (Fin 40) (Fin (-75)) sample_dt = Ok r) /\
  Rabs (IZR (dt_local sample_dt - sample_u) / 3600000000 - (-75) / 15) <= 11 /\
  get_sunrise_sunset_transit (N := MathR) (Fin 80) (Fin (-75)) sample_dt = Err ValueError.
Proof. exact sunrise_samples. Qed.

(* ------------------------------------------------------------------------------- C42 *)
(* [sample ...]: the five components of a yielded tuple, in terms of get_altitude, get_azimuth, the
   horizon entry at the rounded azimuth and get_radiation_direct (SpecDt.v).  Any arithmetic; the
   samples are those of the datetime_range instants in order, up to the first instant whose
   computation raises. *)
Theorem C42_simulate_span : forall (N : Num) (C : Clock N) (toD : datetime -> D C) lat lon horizon start stop step el temp pres,
  let g := simulate_span toD lat lon horizon start stop step el temp pres in
  let r := datetime_range start stop step in
  exists done todo, g_items r = done ++ todo /\
    Forall2 (sample toD lat lon horizon el temp pres) done (g_items g) /\
    match todo with
    | [] => g_end g = g_end r
    | t :: _ => exists e, simulate_one toD lat lon horizon el temp pres t = Err e /\ g_end g = Err e
    end.
Proof. exact @simulate_span_spec. Qed.
Print Assumptions C42_simulate_span.

Theorem C42_horizon_in_bounds : forall lat lon horizon start stop step el T P,
  (361 <= List.length horizon)%nat ->
  g_end (datetime_range start stop step) <> Err IndexError ->
  g_end (simulate_span (N := MathR) (C := clock_math MathR) (fun d => d) lat lon horizon start stop step el T P) <> Err IndexError.
Proof. exact span_no_index. Qed.
Print Assumptions C42_horizon_in_bounds.
Theorem C42_range_no_index : forall start stop step, g_end (datetime_range start stop (StepInt step)) <> Err IndexError.
Proof. exact range_no_index. Qed.
Print Assumptions C42_range_no_index.

Example C42_case :
  List.length (g_items (datetime_range sample_dt (mk 2020 6 21 18 0 0 0 (Some sample_tz)) (StepInt 60))) = 6%nat /\
  g_end (datetime_range sample_dt (mk 2020 6 21 18 0 0 0 (Some sample_tz)) (StepInt 60)) = Ok tt.
Proof. vm_compute. split; reflexivity. Qed.

(* ------------------------------------------------------------------------------- C43 *)
(* FALSE: with 360 entries, at every instant some place on earth sees the sun at an azimuth that
   rounds to 360, and there simulate_span raises IndexError *)
Theorem C43_short_horizon_refuted : forall start stop m span u T P horizon,
  valid_dt start -> dt_fold start = false -> instant start u -> in_range u = true ->
  between start stop span -> (0 < m)%Z -> (m * minute_us <= span)%Z -> timedelta_ok (m * minute_us) = true ->
  (dt_local start + span <= max_us)%Z -> T <> 0 -> List.length horizon = 360%nat ->
  exists lat lon, -90 <= lat <= 90 /\ -180 <= lon < 180 /\
    simulate_span (N := MathR) (C := clock_math MathR) (fun d => d) (Fin lat) (Fin lon) horizon start stop (StepInt m) (Fin 0) (Fin T) (Fin P)
    = mkgen [] (Err IndexError).
Proof. exact (fun start stop m span u T P horizon V F I R S => span_short_horizon start stop m span u T P horizon V F I R (between_sub _ _ _ S)). Qed.
Print Assumptions C43_short_horizon_refuted.

(* what is true: the IndexError occurs exactly for azimuths of 359.5 degrees and more *)
Theorem C43_short_horizon_partial : forall lat lon horizon el T P t, List.length horizon = 360%nat ->
  simulate_one (N := MathR) (C := clock_math MathR) (fun d => d) lat lon horizon el T P t = Err IndexError <->
  exists alt az, get_altitude (N := MathR) lat lon t el T P = Ok alt /\ get_azimuth (N := MathR) lat lon t el = Ok (Fin az) /\ 359.5 <= az.
Proof. exact short_horizon_iff. Qed.
Print Assumptions C43_short_horizon_partial.

Example C43_case : let stop := mk 2020 6 21 18 0 0 0 (Some sample_tz) in
  valid_dt sample_dt /\ dt_fold sample_dt = false /\ between sample_dt stop (6 * 3600000000)%Z /\
  timedelta_ok (60 * minute_us) = true /\ (60 * minute_us <= 6 * 3600000000)%Z /\
  (dt_local sample_dt + 6 * 3600000000 <= max_us)%Z.
Proof. exact short_horizon_samples. Qed.

(* ------------------------------------------------------------------------------- C44 *)
(* for arbitrary parameters the pressure solves dP/dh = -(g M / R) P / T(h) with P(Hb) = Ps *)
Theorem C44_hydrostatic : forall Ps Ts Tl Hb Rg g M, 0 < Ts -> Tl <> 0 -> Rg <> 0 ->
  exists P : R -> R,
    (forall h, 0 < Ts + Tl * (h - Hb) ->
       get_pressure_with_elevation (N := MathR) (Fin h) (Fin Ps) (Fin Ts) (Fin Tl) (Fin Hb) (Fin Rg) (Fin g) (Fin M) = Ok (Fin (P h)) /\
       derivable_pt_lim P h (- (g * M / Rg) * P h / (Ts + Tl * (h - Hb)))) /\
    P Hb = Ps.
Proof. exact pressure_hydrostatic. Qed.
Print Assumptions C44_hydrostatic.

Theorem C44_standard_atmosphere :
  (forall h, h < 44330.7 -> exists p t,
     pressure_default (N := MathR) (Fin h) = Ok (Fin p) /\ temperature_default (N := MathR) (Fin h) = Fin t /\
     t = 288.15 - 0.0065 * h /\ 0 < t /\ 0 < p /\
     p = 101325 * Rpower (t / 288.15) (9.80665 * 0.0289644 / (8.31432 * 0.0065)) /\
     exists w, get_pressure_with_elevation_w (N := MathR) (Fin h) standard_pressure standard_temperature
       earth_temperature_lapse_rate (lit 0.0) air_gas_constant earth_gravity earth_atmosphere_molar_mass = Ok (Fin p, w) /\
       (w = true <-> 11000 < h)) /\
  pressure_default (N := MathR) (Fin 0) = Ok (Fin 101325) /\
  (forall h h', h < h' -> h' < 44330.7 -> exists p p',
     pressure_default (N := MathR) (Fin h) = Ok (Fin p) /\ pressure_default (N := MathR) (Fin h') = Ok (Fin p') /\ p' < p).
Proof. exact pressure_default_correct. Qed.
Print Assumptions C44_standard_atmosphere.

Theorem C44_top : pressure_default (N := MathR) (Fin (288.15 / 0.0065)) = Err ZeroDivisionError.
Proof. exact pressure_default_top. Qed.
Print Assumptions C44_top.

Example C44_case : 0 < 288.15 /\ -0.0065 <> 0 /\ 0 < 288.15 + -0.0065 * (5000 - 0) /\
  54000 < 101325 * Rpower ((288.15 - 0.0065 * 5000) / 288.15) (9.80665 * 0.0289644 / (8.31432 * 0.0065)) < 54100.
Proof. unfold Rpower. repeat split; try lra; interval. Qed.

(* ------------------------------------------------------------------------------- C45 *)
Theorem C45_irradiance : forall d u day h m lat lon, instant d u -> in_range u = true -> civil_clock u day h m ->
  exists e, get_altitude_fast (N := MathR) (C := clock_math MathR) (Fin lat) (Fin lon) d = Ok (Fin e) /\
  forall SC, exists v,
    extraterrestrial_irrad (N := MathR) (C := clock_math MathR) (fun d => d) (Fin lat) (Fin lon) d (Fin SC) = Ok (Fin v) /\
    (e <= 0 -> v = 0) /\
    (0 < e -> v = SC * sind e * spencer_eccentricity (IZR day)) /\
    (0 <= SC -> 0 <= v <= 1.0364 * SC) /\ (0 < SC -> 0 < e -> 0 < v).
Proof. exact irradiance_correct. Qed.
Print Assumptions C45_irradiance.

Example C45_case : instant sample_dt sample_u /\ in_range sample_u = true /\ civil_clock sample_u 173 17 0 /\
  0.96 < spencer_eccentricity 173 < 0.97.
Proof.
  split; [exact sample_instant|]. split; [reflexivity|]. split; [exact sample_clock|].
  unfold spencer_eccentricity, sind, cosd, rad. split; interval.
Qed.

(* ------------------------------------------------------------------------------- C46 *)
(* C46_clear_sky_inputs_refuted (PropTime.v) shows that temperature and pressure are ignored; what
   is returned instead: both parts at the standard 288.15 K and 101325 Pa, the diffuse part at
   turbidity 1.0 *)
Theorem C46_clear_sky_sum_partial : forall (N : Num) lat lon d TY AM TL el t p v,
  global_irradiance_clear (N := N) lat lon d TY AM TL el t p = Ok v ->
  exists a b, direct_underclear lat lon d TY AM TL el (lit 288.15) (lit 101325.00) = Ok a /\
    diffuse_underclear lat lon d el (lit 288.15) (lit 101325.00) (lit 1.0) = Ok b /\ v = add a b.
Proof. exact clear_sky_sum. Qed.
Print Assumptions C46_clear_sky_sum_partial.

(* ------------------------------------------------------------------------------- C47 *)
(* FALSE: the value is 1 on every day *)
Theorem C47_distance_constant_refuted : forall d u, instant d u -> in_range u = true ->
  mean_earth_sun_distance (N := MathR) d = Ok (Fin 1).
Proof. exact distance_constant. Qed.
Print Assumptions C47_distance_constant_refuted.

(* [distance_claim]: within 0.03 of the published correction 1 - 0.0335 sin(360 (n - 94) / 365) *)
Theorem C47_claim_refuted : ~ distance_claim.
Proof. exact distance_refuted. Qed.
Print Assumptions C47_claim_refuted.

Theorem C47_distance_partial : forall d u day h m, instant d u -> in_range u = true -> civil_clock u day h m ->
  exists x, mean_earth_sun_distance (N := MathR) d = Ok (Fin x) /\ Rabs (x - esra_correction (IZR day)) <= 0.0335.
Proof. exact distance_error. Qed.
Print Assumptions C47_distance_partial.

Example C47_case : instant sample_dt sample_u /\ in_range sample_u = true /\ civil_clock sample_u 173 17 0.
Proof. split; [exact sample_instant|]. split; [reflexivity|exact sample_clock]. Qed.

(* ------------------------------------------------------------------------------- C51 *)
(* what the five functions do instead (C51_rest2_broadband_refuted, PropTime.v): *)
Theorem C51_rest2_exceptions_partial : forall alt p oz ni w al be am bd, 0 <= alt <= 90 ->
  get_broadband_direct_normal_irradiance (N := MathR) (Fin alt) (Fin p) oz ni w al be = Err (AttributeError "log") /\
  get_beam_broadband_irradiance (N := MathR) (Fin alt) (Fin p) oz ni w al be = Err (AttributeError "log") /\
  get_global_broadband_irradiance (N := MathR) (Fin alt) (Fin p) oz ni w al be = Err (AttributeError "log") /\
  get_diffuse_broadband_irradiance (N := MathR) am al be = Err (NameError "altitude_deg") /\
  get_backscattered_diffuse_broadband_irradiance (N := MathR) bd al be =
    Err (NameError "get_backscattered_diffuse_broadband_irradiance_by_band").
Proof. exact rest2_exceptions. Qed.
Print Assumptions C51_rest2_exceptions_partial.

(* ------------------------------------------------------------------------------- C52 *)
(* [transmits r x]: r returned x and 0 < x <= 1 *)
Theorem C52_rayleigh :
  (forall m, 0 <= m -> exists x, transmits (get_rayleigh_transmittance (N := MathR) high (Fin m)) x /\ (m = 0 -> x = 1) /\ (0 < m -> x < 1)) /\
  (forall m, 0 <= m <= 94 -> exists x, transmits (get_rayleigh_transmittance (N := MathR) low (Fin m)) x /\ (m = 0 -> x = 1) /\ (0 < m -> x < 1)).
Proof. exact (conj rayleigh_high rayleigh_low). Qed.
Print Assumptions C52_rayleigh.
Theorem C52_gas :
  (forall m, 0 <= m -> exists x, transmits (get_gas_transmittance (N := MathR) high (Fin m)) x /\ (m = 0 -> x = 1) /\ (0 < m -> x < 1)) /\
  (forall m, 0 <= m <= 400 -> exists x, transmits (get_gas_transmittance (N := MathR) low (Fin m)) x /\ (m = 0 -> x = 1) /\ (0 < m -> x < 1)).
Proof. exact (conj gas_high gas_low). Qed.
Print Assumptions C52_gas.
Theorem C52_ozone :
  (forall m u, 0 <= m <= 50 -> 0 <= u <= 0.5 ->
     exists x, transmits (get_ozone_transmittance (N := MathR) high (Fin m) (Fin u)) x /\ (m = 0 -> x = 1) /\ (u = 0 -> x = 1)) /\
  (forall m u, get_ozone_transmittance (N := MathR) low m u = Ok (Fin 1)).
Proof. exact (conj ozone_high ozone_low). Qed.
Print Assumptions C52_ozone.
Theorem C52_nitrogen :
  (forall m n, 0 <= m <= 500 -> exists x, transmits (get_nitrogen_transmittance (N := MathR) high (Fin m) n) x /\ (m = 0 -> x = 1)) /\
  (forall m n, get_nitrogen_transmittance (N := MathR) low m n = Ok (Fin 1)).
Proof. exact (conj nitrogen_high nitrogen_low). Qed.
Print Assumptions C52_nitrogen.
Theorem C52_water :
  (forall m w, 0 <= m -> 0 <= w -> exists x, transmits (get_water_vapor_transmittance (N := MathR) high (Fin m) (Fin w)) x /\
     (m = 0 -> x = 1) /\ (w = 0 -> x = 1) /\ (0 < m -> 0 < w -> x < 1)) /\
  (forall m w, 0 <= m -> 0 <= w -> exists x, transmits (get_water_vapor_transmittance (N := MathR) low (Fin m) (Fin w)) x /\
     (m = 0 -> x = 1) /\ (w = 0 -> x = 1)).
Proof. exact (conj water_high water_low). Qed.
Print Assumptions C52_water.
Theorem C52_aerosol :
  (forall b m tau, 0 <= m -> 0 <= tau -> transmits (get_aerosol_transmittance (N := MathR) b (Fin m) (Fin tau)) (exp (- (m * tau)))) /\
  (forall b m tau, b = high \/ b = low -> 0 <= m -> 0 <= tau ->
     exists x, transmits (get_aerosol_scattering_transmittance (N := MathR) b (Fin m) (Fin tau)) x /\ exp (- (m * tau)) <= x).
Proof. exact (conj aerosol_transmittance scattering_transmittance). Qed.
Print Assumptions C52_aerosol.
Example C52_case : 0 <= 38 <= 50 /\ 0 <= 0.35 <= 0.5 /\ high <> low.
Proof. repeat split; try lra. discriminate. Qed.

(* ------------------------------------------------------------------------------- C53 *)
(* FALSE: [zenith_claim] says all four are within 1 percent of 1; they are in the thousands (a
   misplaced parenthesis makes the power a factor of the mass instead of its denominator's second term) *)
Theorem C53_claim_refuted : ~ zenith_claim.
Proof. exact zenith_refuted. Qed.
Print Assumptions C53_claim_refuted.
Theorem C53_zenith_masses_refuted : exists mR mo mw ma,
    get_optical_mass_rayleigh (N := MathR) (Fin 90) standard_pressure_millibars = Ok (Fin mR) /\ 3000 < mR < 3080 /\
    get_optical_mass_ozone (N := MathR) (Fin 90) = Ok (Fin mo) /\ 35000 < mo < 37000 /\
    get_optical_mass_water (N := MathR) (Fin 90) = Ok (Fin mw) /\ 6000 < mw < 6300 /\
    get_optical_mass_aerosol (N := MathR) (Fin 90) = Ok (Fin ma) /\ 7300 < ma < 7450.
Proof. exact zenith_masses. Qed.
Print Assumptions C53_zenith_masses_refuted.
Theorem C53_masses_positive_partial : forall alt, 0 <= alt <= 90 ->
  (forall p, 0 < p -> exists m, get_optical_mass_rayleigh (N := MathR) (Fin alt) (Fin p) = Ok (Fin m) /\ 0 < m) /\
  (exists m, get_optical_mass_ozone (N := MathR) (Fin alt) = Ok (Fin m) /\ 0 < m) /\
  (exists m, get_optical_mass_water (N := MathR) (Fin alt) = Ok (Fin m) /\ 0 < m) /\
  (exists m, get_optical_mass_aerosol (N := MathR) (Fin alt) = Ok (Fin m) /\ 0 < m).
Proof. exact masses_positive. Qed.
Print Assumptions C53_masses_positive_partial.
(* what is computed: z is the zenith distance in radians *)
Theorem C53_values_partial : forall alt, 0 <= alt < 90 ->
  let z := (90 - alt) * PI / 180 in
  let coded k a b d := Rpower (b - z) d / (cos z + k * Rpower z a) in
  (forall p, get_optical_mass_rayleigh (N := MathR) (Fin alt) (Fin p) = Ok (Fin (p / 1013.25 * coded 0.48353 0.095846 96.741 1.754))) /\
  get_optical_mass_ozone (N := MathR) (Fin alt) = Ok (Fin (coded 1.0651 0.6379 101.8 2.2694)) /\
  get_optical_mass_water (N := MathR) (Fin alt) = Ok (Fin (coded 0.10648 0.11423 93.781 1.9203)) /\
  get_optical_mass_aerosol (N := MathR) (Fin alt) = Ok (Fin (coded 0.16851 0.18198 95.318 1.9542)).
Proof. exact mass_values. Qed.
Print Assumptions C53_values_partial.
Example C53_case : 0 <= 30 < 90.
Proof. lra. Qed.

(* ------------------------------------------------------------------------------- C54 *)
(* [elementwise arr one]: the array call returns an array whose element i is what the scalar call
   at i returns.  Arrays of times: w i is the datetime64 value of the aware datetime d i. *)
Theorem C54_arrays_of_times : forall (I : Type) (lat lon alt : I -> Rx) (w : I -> Z) (d : I -> datetime),
  (forall i, dt_tz (d i) <> None /\ datetime64_us (d i) = Ok (w i)) ->
  let CA := clock_array I in let CN := clock_numpy NumpyR in
  elementwise (get_solar_time (C := CA) lon w) (fun i => get_solar_time (C := CN) (elt lon i) (d i)) /\
  elementwise (get_hour_angle (C := CA) w lon) (fun i => get_hour_angle (C := CN) (d i) (elt lon i)) /\
  elementwise (get_altitude_fast (C := CA) lat lon w) (fun i => get_altitude_fast (C := CN) (elt lat i) (elt lon i) (d i)) /\
  elementwise (get_azimuth_fast (C := CA) lat lon w) (fun i => get_azimuth_fast (C := CN) (elt lat i) (elt lon i) (d i)) /\
  elementwise (get_radiation_direct (C := CA) w alt) (fun i => get_radiation_direct (C := CN) (d i) (elt alt i)).
Proof.
  exact (fun I lat lon alt w d H => conj (solar_time_elt lon w d H) (conj (hour_angle_elt lon w d H)
    (conj (altitude_fast_elt lat lon w d H) (conj (azimuth_fast_elt lat lon w d H) (radiation_elt alt w d H))))).
Qed.
Print Assumptions C54_arrays_of_times.

(* one datetime, arrays of locations *)
Theorem C54_arrays_of_locations : forall (I : Type) (lat lon alt : I -> Rx) d u,
  dt_tz d <> None -> datetime64_us d = Ok u ->
  let CA := clock_numpy (ArrR I) in let CN := clock_numpy NumpyR in
  elementwise (get_solar_time (C := CA) lon d) (fun i => get_solar_time (C := CN) (elt lon i) d) /\
  elementwise (get_hour_angle (C := CA) d lon) (fun i => get_hour_angle (C := CN) d (elt lon i)) /\
  elementwise (get_altitude_fast (C := CA) lat lon d) (fun i => get_altitude_fast (C := CN) (elt lat i) (elt lon i) d) /\
  elementwise (get_azimuth_fast (C := CA) lat lon d) (fun i => get_azimuth_fast (C := CN) (elt lat i) (elt lon i) d) /\
  elementwise (get_radiation_direct (C := CA) d alt) (fun i => get_radiation_direct (C := CN) d (elt alt i)).
Proof.
  exact (fun I lat lon alt d u H1 H2 => conj (solar_time_one lon d u H1 H2) (conj (hour_angle_one lon d u H1 H2)
    (conj (altitude_fast_one lat lon d u H1 H2) (conj (azimuth_fast_one lat lon d u H1 H2) (radiation_one alt d u H2))))).
Qed.
Print Assumptions C54_arrays_of_locations.

Theorem C54_refraction : forall (I : Type) (p t e : I -> Rx),
  elementwise (get_refraction_correction (N := ArrR I) p t e)
    (fun i => get_refraction_correction (N := NumpyR) (elt p i) (elt t i) (elt e i)) /\
  elementwise_where (get_refraction_correction (N := ArrR I) p t e)
    (fun i => get_refraction_correction (N := NumpyR) (mknx false (p i)) (mknx false (t i)) (mknx false (e i))).
Proof. exact (fun I p t e => conj (refraction_elt p t e) (refraction_float p t e)). Qed.
Print Assumptions C54_refraction.

(* the full position functions over arrays of locations: at every index where the math back end
   returns a number for the scalars, the array holds that number *)
Theorem C54_position_arrays : forall (I : Type) (lat lon el t p : I -> Rx) d i,
  (forall x, get_azimuth (N := MathR) (lat i) (lon i) d (el i) = Ok x ->
     exists v, get_azimuth (N := ArrR I) lat lon d el = Ok v /\ v i = x) /\
  (forall x, get_altitude (N := MathR) (lat i) (lon i) d (el i) (t i) (p i) = Ok x ->
     exists v, get_altitude (N := ArrR I) lat lon d el t p = Ok v /\ v i = x).
Proof. exact @arrays_math. Qed.
Print Assumptions C54_position_arrays.

Example C54_case : dt_tz sample_dt <> None /\ datetime64_us sample_dt = Ok sample_u.
Proof. split; [discriminate|vm_compute; reflexivity]. Qed.

(* ------------------------------------------------------------------------------- C57 *)
(* [same_value m n]: if the math call returns x, the numpy call returns x.  [fl] says which
   arguments are numpy.float64 rather than Python floats. *)
Theorem C57_position : forall (fl : nat -> bool) lat lon d el t p,
  let n i x := mknx (fl i) x in
  same_pair (get_topocentric_position (N := MathR) lat lon d el) (get_topocentric_position (N := NumpyR) (n 0%nat lat) (n 1%nat lon) d (n 2%nat el)) /\
  same_value (get_azimuth (N := MathR) lat lon d el) (get_azimuth (N := NumpyR) (n 0%nat lat) (n 1%nat lon) d (n 2%nat el)) /\
  same_value (get_altitude (N := MathR) lat lon d el t p)
    (get_altitude (N := NumpyR) (n 0%nat lat) (n 1%nat lon) d (n 2%nat el) (n 3%nat t) (n 4%nat p)) /\
  same_pair (get_position (N := MathR) lat lon d el t p)
    (get_position (N := NumpyR) (n 0%nat lat) (n 1%nat lon) d (n 2%nat el) (n 3%nat t) (n 4%nat p)).
Proof. exact backend_position. Qed.
Print Assumptions C57_position.

Theorem C57_fast : forall (fl : nat -> bool) lat lon d alt sc ghi u,
  instant d u -> in_range u = true -> whole_minute_offset d ->
  let n i x := mknx (fl i) x in
  same_value (get_solar_time (C := clock_math MathR) lon d) (get_solar_time (C := clock_numpy NumpyR) (n 1%nat lon) d) /\
  same_value (get_hour_angle (C := clock_math MathR) d lon) (get_hour_angle (C := clock_numpy NumpyR) d (n 1%nat lon)) /\
  same_value (get_altitude_fast (C := clock_math MathR) lat lon d) (get_altitude_fast (C := clock_numpy NumpyR) (n 0%nat lat) (n 1%nat lon) d) /\
  same_value (get_azimuth_fast (C := clock_math MathR) lat lon d) (get_azimuth_fast (C := clock_numpy NumpyR) (n 0%nat lat) (n 1%nat lon) d) /\
  same_value (get_radiation_direct (C := clock_math MathR) d alt) (get_radiation_direct (C := clock_numpy NumpyR) d (n 2%nat alt)) /\
  same_value (extraterrestrial_irrad (C := clock_math MathR) (fun d => d) lat lon d sc)
    (extraterrestrial_irrad (C := clock_numpy NumpyR) (fun d => d) (n 0%nat lat) (n 1%nat lon) d (n 2%nat sc)) /\
  same_value (clear_index (C := clock_math MathR) (fun d => d) ghi lat lon d)
    (clear_index (C := clock_numpy NumpyR) (fun d => d) (n 2%nat ghi) (n 0%nat lat) (n 1%nat lon) d).
Proof. exact backend_clock. Qed.
Print Assumptions C57_fast.
Example C57_case : instant sample_dt sample_u /\ in_range sample_u = true /\ whole_minute_offset sample_dt.
Proof. split; [exact sample_instant|]. split; [reflexivity|exact sample_whole]. Qed.

(* Properties C01-C12 (time scales, time zones, structure) and C40-C42, C46, C48-C51. *)
From Coq Require Import Reals Qreals Lra Lia.
From Verif Require Import Py Num Cal CalProofs TzCheck Clock Tables Constants SolarTime Solar Radiation
  Elevation Util Simulate Rest Numeric RInst SpecTime GenProofs SolarTimeProofs JulianProofs TzCheckProofs
  NumericProofs SimulateProofs SpecDt SpecSpan Samples BetweenProofs.
Local Open Scope Z_scope.

(* ------------------------------------------------------------------------------- C01 *)
(* Two aware datetimes denoting the same instant.  For every arithmetic [N] (so also for
   IEEE doubles with any libm), every function that depends on time through an instant gives
   the same outcome: value, warnings, or exception. *)
Theorem C01_timezone_invariance : forall (N : Num) (d d' : datetime), same_instant d d' ->
  get_leap_seconds_w d = get_leap_seconds_w d' /\
  get_leap_seconds d = get_leap_seconds d' /\
  get_delta_t (N := N) d = get_delta_t d' /\
  get_julian_solar_day (N := N) d = get_julian_solar_day d' /\
  get_julian_ephemeris_day (N := N) d = get_julian_ephemeris_day d' /\
  (forall lat lon el, get_topocentric_position (N := N) lat lon d el = get_topocentric_position lat lon d' el) /\
  (forall lat lon el t p, get_position (N := N) lat lon d el t p = get_position lat lon d' el t p) /\
  (forall lat lon el t p, get_altitude (N := N) lat lon d el t p = get_altitude lat lon d' el t p) /\
  (forall lat lon el, get_azimuth (N := N) lat lon d el = get_azimuth lat lon d' el) /\
  mean_earth_sun_distance (N := N) d = mean_earth_sun_distance d' /\
  (forall TY, declination_degree (N := N) d TY = declination_degree d' TY) /\
  (forall lat lon t p el, solarelevation_function_clear (N := N) lat lon d t p el = solarelevation_function_clear lat lon d' t p el) /\
  (forall lat lon el t p, solarelevation_function_overcast (N := N) lat lon d el t p = solarelevation_function_overcast lat lon d' el t p) /\
  (forall lat lon el t p TL, diffuse_underclear (N := N) lat lon d el t p TL = diffuse_underclear lat lon d' el t p TL) /\
  (forall lat lon el t p TL, diffuse_underovercast (N := N) lat lon d el t p TL = diffuse_underovercast lat lon d' el t p TL) /\
  (forall lat lon TY AM TL el t p, direct_underclear (N := N) lat lon d TY AM TL el t p = direct_underclear lat lon d' TY AM TL el t p) /\
  (forall lat lon TY AM TL el t p, global_irradiance_clear (N := N) lat lon d TY AM TL el t p = global_irradiance_clear lat lon d' TY AM TL el t p) /\
  (forall lat lon el t p, global_irradiance_overcast (N := N) lat lon d el t p = global_irradiance_overcast lat lon d' el t p) /\
  (* math back end: solar time, hour angle, fast altitude/azimuth, radiation, extraterrestrial, clear index *)
  fast_functions_agree N (clock_math N) (fun d => d) d d'.
Proof. exact timezone_invariance. Qed.
Print Assumptions C01_timezone_invariance.

(* numpy back end: the same for the functions that go through numpy's datetime64, whose
   conversion drops seconds of the UTC offset, hence the whole-minute hypothesis *)
Theorem C01_timezone_invariance_numpy : forall (N : Num) (d d' : datetime), same_instant d d' ->
  whole_minute_offset d -> whole_minute_offset d' ->
  fast_functions_agree N (clock_numpy N) (fun d => d) d d'.
Proof. exact fast_agree_numpy. Qed.
Print Assumptions C01_timezone_invariance_numpy.

(* 2020-01-01 05:30 in India is 2019-12-31 19:00 in New York *)
Example C01_case : same_instant (mk 2020 1 1 5 30 0 0 (Some (fixed_tz (19800 * 1000000))))
                                (mk 2019 12 31 19 0 0 0 (Some (fixed_tz (-18000 * 1000000)))).
Proof. eexists. split; do 2 eexists; (split; [reflexivity|]); (split; [reflexivity|]); (split; [reflexivity|vm_compute; reflexivity]). Qed.

(* ------------------------------------------------------------------------------- C02 *)
(* get_position is get_azimuth paired with get_altitude; when one of them raises, so does
   get_position (the altitude's exception first). For every arithmetic. *)
Theorem C02_position_is_azimuth_and_altitude : forall (N : Num) lat lon d el t p,
  get_position (N := N) lat lon d el t p =
    match get_altitude lat lon d el t p, get_azimuth lat lon d el with
    | Ok h, Ok a => Ok (a, h)
    | Err e, _ => Err e
    | Ok _, Err e => Err e
    end.
Proof. exact position_pair. Qed.
Print Assumptions C02_position_is_azimuth_and_altitude.

(* the altitude's exception comes first: without a time zone both raise *)
Example C02_case : forall N lat lon el t p,
  get_position (N := N) lat lon (mk 2020 1 1 0 0 0 0 None) el t p = Err (NoTimeZoneInfoError "when") /\
  get_altitude (N := N) lat lon (mk 2020 1 1 0 0 0 0 None) el t p = Err (NoTimeZoneInfoError "when").
Proof. intros. split; reflexivity. Qed.

(* ------------------------------------------------------------------------------- C03 *)
(* get_leap_seconds is the official TAI-UTC at every representable UTC instant, any timezone;
   the spec counts IERS announcements by date ([SpecTime.tai_minus_utc]). *)
Theorem C03_leap_seconds_official : forall d u, instant d u -> in_range u = true ->
  get_leap_seconds d = Ok (tai_minus_utc u) /\
  (u < midnight 1972 1 1 -> get_leap_seconds d = Ok 10) /\
  (midnight 2017 1 1 <= u -> get_leap_seconds d = Ok 37).
Proof. exact leap_seconds_official. Qed.
Print Assumptions C03_leap_seconds_official.

Example C03_case : get_leap_seconds (mk 2015 6 30 23 59 59 999999 (Some utc)) = Ok 35 /\
                   get_leap_seconds (mk 2015 7 1 2 0 0 0 (Some (fixed_tz (7200 * 1000000)))) = Ok 36.
Proof. vm_compute. split; reflexivity. Qed.

(* ------------------------------------------------------------------------------- C04 *)
(* a warning is issued exactly from 2026-07-01 UTC on, exactly one, and the value is the same
   function of the instant on both sides *)
Theorem C04_leap_warning_exact : forall d u, instant d u -> in_range u = true ->
  exists w, get_leap_seconds_w d = Ok (tai_minus_utc u, w) /\
    (w <> [] <-> midnight 2026 7 1 <= u) /\ (List.length w <= 1)%nat.
Proof. exact leap_warning_exact. Qed.
Print Assumptions C04_leap_warning_exact.

Example C04_case : get_leap_seconds_w (mk 2026 6 30 23 59 59 0 (Some utc)) = Ok (37, []) /\
                   get_leap_seconds_w (mk 2026 7 1 0 0 0 0 (Some utc)) = Ok (37, [2025]).
Proof. vm_compute. split; reflexivity. Qed.

(* ------------------------------------------------------------------------------- C05 *)
(* [dt_entry y m] is the table's entry for year y, month m (rows start in 1973, the first row
   in February).  The function returns the entry of the UTC month clamped to the table. *)
Theorem C05_delta_t_total : forall d u, instant d u -> in_range u = true ->
  let y := f_year (fields_of_us u) in
  let m := f_mon (fields_of_us u) in
  exists q, get_delta_t_q d = Ok q /\
    (u < midnight 1973 2 1 -> dt_entry 1973 2 = Some q) /\
    (midnight 1973 2 1 <= u < midnight 2014 5 1 -> dt_entry y m = Some q) /\
    (midnight 2014 5 1 <= u -> exists m', 1 <= m' <= 4 /\ dt_entry 2014 m' = Some q).
Proof. exact delta_t_total. Qed.
Print Assumptions C05_delta_t_total.

Example C05_case : get_delta_t_q (mk 2000 1 1 0 0 0 0 (Some utc)) = Ok 63.8285%Q /\
                   dt_entry 2000 1 = Some 63.8285%Q /\ dt_entry 2014 4 = Some 67.3890%Q /\ dt_entry 2014 5 = None.
Proof. vm_compute. repeat split; reflexivity. Qed.

(* ------------------------------------------------------------------------------- C06 *)
(* The claim "after the table ends the last value is returned" is FALSE of the code: *)
Theorem C06_delta_t_after_table_refuted :
  ~ (forall d u, instant d u -> in_range u = true -> midnight 2014 5 1 <= u -> get_delta_t_q d = Ok 67.3890%Q).
Proof. exact delta_t_after_table_refuted. Qed.
Print Assumptions C06_delta_t_after_table_refuted.

(* what holds: it is the last value from April to December of every year from 2014 on; in
   January, February and March it is that month's value of 2014 *)
Theorem C06_delta_t_after_table_partial : forall d u, instant d u -> in_range u = true ->
  midnight 2014 4 1 <= u ->
  get_delta_t_q d = Ok match f_mon (fields_of_us u) with
                       | 1 => 67.2810%Q | 2 => 67.3136%Q | 3 => 67.3457%Q | _ => 67.3890%Q
                       end.
Proof. exact delta_t_after_table. Qed.
Print Assumptions C06_delta_t_after_table_partial.

Example C06_case : get_delta_t_q (mk 2020 1 15 0 0 0 0 (Some utc)) = Ok 67.2810%Q.
Proof. vm_compute. reflexivity. Qed.

(* ------------------------------------------------------------------------------- C07 *)
Theorem C07_tables_consistent : forall d u, instant d u -> midnight 1973 2 1 <= u < midnight 2014 5 1 ->
  exists n q, get_leap_seconds d = Ok n /\ get_delta_t_q d = Ok q /\
    (-0.9 < inject_Z n + 32.184 - q /\ inject_Z n + 32.184 - q < 0.9)%Q /\ (43 < q /\ q < 68)%Q.
Proof. exact tables_consistent. Qed.
Print Assumptions C07_tables_consistent.

Example C07_case : let d := mk 2000 1 1 0 0 0 0 (Some utc) in
  instant d (midnight 2000 1 1) /\ get_leap_seconds d = Ok 32 /\ get_delta_t_q d = Ok 63.8285%Q /\
  (32 + 32.184 - 63.8285 == 0.3555)%Q.
Proof. cbv zeta. split; [do 2 eexists; repeat (split; [reflexivity|]); vm_compute; reflexivity|]. vm_compute. auto. Qed.

(* ------------------------------------------------------------------------------- C08 *)
(* The datetime reads y-m-d h:mi:s.us in UTC.  Over the reals (math back end). *)
Theorem C08_julian_ephemeris_day : forall dt y m d h mi s us,
  let u := midnight y m d + ((h * 60 + mi) * 60 + s) * 1000000 + us in
  1 <= m <= 12 -> instant dt u -> in_range u = true ->
  get_julian_ephemeris_day (N := MathR) dt =
    Ok (Fin (IZR (meeus_day y m d) - 1/2
             + (IZR h * 3600 + IZR mi * 60 + IZR s + IZR us / 1000000) / 86400
             + (IZR (tai_minus_utc u) + 32.184) / 86400))%R.
Proof. exact julian_ephemeris_day_meeus. Qed.
Print Assumptions C08_julian_ephemeris_day.

(* 2000-01-01 12:00 UTC: Meeus gives JD 2451545.0 *)
Example C08_case : (IZR (meeus_day 2000 1 1) - 1/2 + (IZR 12 * 3600 + IZR 0 * 60 + IZR 0 + IZR 0 / 1000000) / 86400 = 2451545)%R
  /\ instant (mk 2000 1 1 12 0 0 0 (Some utc)) (midnight 2000 1 1 + ((12 * 60 + 0) * 60 + 0) * 1000000 + 0).
Proof.
  split.
  - change (meeus_day 2000 1 1) with 2451545. lra.
  - do 2 eexists. split; [reflexivity|]. split; [reflexivity|]. split; [reflexivity|]. vm_compute. reflexivity.
Qed.

(* ------------------------------------------------------------------------------- C09 *)
Theorem C09_julian_ephemeris_day_increasing : forall d1 d2 u1 u2, instant d1 u1 -> instant d2 u2 ->
  in_range u1 = true -> in_range u2 = true -> u1 < u2 ->
  exists j1 j2, get_julian_ephemeris_day (N := MathR) d1 = Ok (Fin j1) /\
    get_julian_ephemeris_day (N := MathR) d2 = Ok (Fin j2) /\ (j1 < j2)%R /\
    (IZR (u2 - u1) / 86400000000 <= j2 - j1)%R.
Proof. exact jde_increasing. Qed.
Print Assumptions C09_julian_ephemeris_day_increasing.

(* across the leap second at the end of 2016: one microsecond of UTC labels apart *)
Example C09_case : let d1 := mk 2016 12 31 23 59 59 999999 (Some utc) in
  let d2 := mk 2017 1 1 1 0 0 0 (Some (fixed_tz 3600000000)) in
  instant d1 (midnight 2017 1 1 - 1) /\ instant d2 (midnight 2017 1 1) /\
  get_leap_seconds d1 = Ok 36 /\ get_leap_seconds d2 = Ok 37.
Proof. cbv zeta. split; [|split]; [do 2 eexists; repeat (split; [reflexivity|]); vm_compute; reflexivity..|]. vm_compute. auto. Qed.

(* ------------------------------------------------------------------------------- C10 *)
(* "A later instant has a larger UT Julian day" is FALSE: Delta-T jumps at month boundaries. *)
Theorem C10_julian_day_increasing_refuted :
  ~ (forall d1 d2 u1 u2, instant d1 u1 -> instant d2 u2 -> in_range u1 = true -> in_range u2 = true ->
     u1 < u2 -> exists j1 j2, get_julian_solar_day (N := MathR) d1 = Ok (Fin j1) /\
       get_julian_solar_day (N := MathR) d2 = Ok (Fin j2) /\ (j1 < j2)%R).
Proof. exact jd_increasing_refuted. Qed.
Print Assumptions C10_julian_day_increasing_refuted.

(* what holds: strictly increasing, at the rate of UTC, within a UTC month; and strictly
   increasing between any two instants at least 0.11 s apart *)
Theorem C10_julian_day_increasing_partial : forall d1 d2 u1 u2, instant d1 u1 -> instant d2 u2 ->
  in_range u1 = true -> in_range u2 = true -> u1 < u2 ->
  (f_year (fields_of_us u1) = f_year (fields_of_us u2) /\ f_mon (fields_of_us u1) = f_mon (fields_of_us u2)) \/
    u1 + 110000 <= u2 ->
  exists j1 j2, get_julian_solar_day (N := MathR) d1 = Ok (Fin j1) /\
    get_julian_solar_day (N := MathR) d2 = Ok (Fin j2) /\ (j1 < j2)%R /\
    (f_year (fields_of_us u1) = f_year (fields_of_us u2) -> f_mon (fields_of_us u1) = f_mon (fields_of_us u2) ->
     (j2 - j1 = IZR (u2 - u1) / 86400000000)%R).
Proof. exact jd_increasing_partial. Qed.
Print Assumptions C10_julian_day_increasing_partial.

(* same month, one microsecond apart; and different years, 0.11 s apart *)
Example C10_case :
  let same u v := f_year (fields_of_us u) = f_year (fields_of_us v) /\ f_mon (fields_of_us u) = f_mon (fields_of_us v) in
  same (midnight 1999 2 28) (midnight 1999 2 28 + 1) /\
  ~ same (midnight 2000 1 1 - 1) (midnight 2000 1 1 + 109999) /\
  midnight 2000 1 1 - 1 + 110000 <= midnight 2000 1 1 + 109999.
Proof. vm_compute. intuition discriminate. Qed.

(* ------------------------------------------------------------------------------- C12 *)
(* Transparent: if every checked parameter is bound to an array or an aware datetime, the
   wrapper is the function.  Sound: otherwise the function is not called (the result does not
   depend on it) and the error names the first offending parameter. *)
Theorem C12_decorator : forall names spec (A : Type) (func : list pyval -> kwdict -> res A) args kw,
  wf_spec spec ->
  (all_acceptable spec args kw names -> check_aware_dt names spec func args kw = func args kw) /\
  (forall pre name post v, names = (pre ++ name :: post)%list -> all_acceptable spec args kw pre ->
     is_parameter spec name -> binds spec args kw name v -> ~ acceptable v ->
     check_aware_dt names spec func args kw = Err (rejection name v)).
Proof. exact decorator_correct. Qed.
Print Assumptions C12_decorator.

(* f(lat, lon, when): called as f(1, 2, when=naive) and as f(1, 2, aware) *)
Example C12_case :
  let spec := Build_argspec ["lat"; "lon"; "when"]%string [] in
  let naive := mk 2020 1 1 0 0 0 0 None in
  let good := mk 2020 1 1 0 0 0 0 (Some utc) in
  wf_spec spec /\
  (binds spec [VOther 1; VOther 2] [("when"%string, VDatetime naive)] "when" (VDatetime naive) /\ ~ acceptable (VDatetime naive)) /\
  (binds spec [VOther 1; VOther 2; VDatetime good] [] "when" (VDatetime good) /\ acceptable (VDatetime good)).
Proof.
  cbv zeta. split; [|split; split].
  - split; repeat constructor; simpl; intuition discriminate.
  - apply bind_keyword; [|reflexivity]. intros [|[|[|i]]]; simpl; intros H; try discriminate; try lia.
  - simpl. tauto.
  - apply (bind_positional _ _ _ _ _ 2%nat); reflexivity.
  - simpl. discriminate.
Qed.

(* ------------------------------------------------------------------------------- C40 *)
(* span = stop - start (wall-clock difference within one tzinfo, UTC difference otherwise).  The yielded instants are exactly the wall-clock times
   start + n*step with n >= 0 and start + (n+1)*step <= start + span, in order, without
   repetition; all lie in [start, start + span). *)
Theorem C40_datetime_range : forall start stop m span,
  valid_dt start -> between start stop span -> 0 < m -> timedelta_ok (m * minute_us) = true ->
  dt_local start + span <= max_us ->
  let k := Z.max 0 (span / (m * minute_us)) in
  exists l, datetime_range start stop (StepInt m) = mkgen l (Ok tt) /\
    Z.of_nat (List.length l) = k /\
    (forall i, 0 <= i < k -> nth_error l (Z.to_nat i) = Some (nth_time start m i)) /\
    (forall i t, nth_error l i = Some t ->
       dt_local start <= dt_local t < dt_local start + span /\ dt_tz t = dt_tz start) /\
    (span <= 0 -> l = []).
Proof. exact (fun start stop m span V S => datetime_range_correct start stop m span V (between_sub _ _ _ S)). Qed.
Print Assumptions C40_datetime_range.

Example C40_case : 
  let a := mk 2020 2 28 23 0 0 0 (Some utc) in
  let b := mk 2020 2 29 2 0 0 0 (Some utc) in
  let c := mk 2020 2 28 21 0 0 0 (Some sample_tz) in
  (valid_dt a /\ between a b (3 * 3600 * 1000000) /\ between a c (3 * 3600 * 1000000) /\ timedelta_ok (60 * minute_us) = true) /\
  map dt_local (g_items (datetime_range a b (StepInt 60))) =
  map dt_local [mk 2020 2 28 23 0 0 0 None; mk 2020 2 29 0 0 0 0 None; mk 2020 2 29 1 0 0 0 None].
Proof. exact range_samples. Qed.

(* ------------------------------------------------------------------------------- C41 *)
(* FALSE twice over: a float step always raises TypeError, and the last partial step is
   dropped, so times before the end can be missing. *)
Theorem C41_fractional_steps_refuted :
  (forall start stop span us, between start stop span ->
     datetime_range start stop (StepFloat (Ok us) false) = mkgen [] (Err TypeError)) /\
  ~ (forall start stop m n, valid_dt start -> valid_dt stop -> dt_tz start = dt_tz stop -> 0 < m ->
       timedelta_ok (m * minute_us) = true -> 0 <= n ->
       dt_local start + n * (m * minute_us) < dt_local stop ->
       In (nth_time start m n) (g_items (datetime_range start stop (StepInt m)))).
Proof. exact (conj (fun start stop span us S => proj1 fractional_steps_refuted start stop span us (between_sub _ _ _ S)) (proj2 fractional_steps_refuted)). Qed.
Print Assumptions C41_fractional_steps_refuted.

(* what holds: with an integer step that divides the span, every start + n*step before the
   end is produced *)
Theorem C41_coverage_partial : forall start stop m n span,
  valid_dt start -> between start stop span -> 0 < m -> timedelta_ok (m * minute_us) = true ->
  dt_local start + span <= max_us -> span mod (m * minute_us) = 0 -> 0 <= n ->
  dt_local start + n * (m * minute_us) < dt_local start + span ->
  In (nth_time start m n) (g_items (datetime_range start stop (StepInt m))).
Proof. exact (fun start stop m n span V S => coverage_partial start stop m n span V (between_sub _ _ _ S)). Qed.
Print Assumptions C41_coverage_partial.

Example C41_case : let a := mk 2020 3 1 0 0 0 0 (Some utc) in let b := mk 2020 3 1 1 0 0 0 (Some utc) in
  valid_dt a /\ between a b 3600000000 /\ 3600000000 mod (15 * minute_us) = 0 /\
  dt_local (nth_time a 15 3) = dt_local (mk 2020 3 1 0 45 0 0 (Some utc)) /\ dt_local (nth_time a 15 3) < dt_local b.
Proof. exact coverage_samples. Qed.

(* ------------------------------------------------------------------------------- C48 *)
(* FALSE for `where`: use_math() does not restore it (numeric.py 130). *)
Theorem C48_switch_history_refuted :
  ~ (forall b h name, In name names -> ns_get name (run_history b h) = expected (last_switch b h) name).
Proof. exact switch_history_refuted. Qed.
Print Assumptions C48_switch_history_refuted.

(* every other name follows the last switch after any history; `where` is numpy's exactly
   when numpy was selected at some point *)
Theorem C48_switch_history_partial : forall b h,
  (forall name, In name names -> name <> "where"%string ->
     ns_get name (run_history b h) = expected (last_switch b h) name) /\
  (ns_get "where" (run_history b h) = Some ("numpy", "where")%string <->
     b = true \/ In UseNumpy h) /\
  (ns_get "where" (run_history b h) = Some ("pysolar", "where_math")%string <->
     b = false /\ ~ In UseNumpy h).
Proof. exact switch_history_partial. Qed.
Print Assumptions C48_switch_history_partial.

Example C48_case : let ns := run_history false [UseNumpy; UseMath] in
  ns_get "sin" ns = Some ("math", "sin")%string /\ ns_get "where" ns = Some ("numpy", "where")%string /\
  ns_get "where" (run_history false [UseMath]) = Some ("pysolar", "where_math")%string.
Proof. vm_compute. auto. Qed.

(* ------------------------------------------------------------------------------- C49 *)
Theorem C49_date_decompositions_agree : forall d u, instant d u -> whole_minute_offset d -> in_range u = true ->
  exists y h m, tm_yday_math d = Ok y /\ tm_yday_numpy d = Ok y /\
    tm_hour_math d = Ok h /\ tm_hour_numpy d = Ok h /\
    tm_min_math d = Ok m /\ tm_min_numpy d = Ok m /\
    1 <= y <= 366 /\ 0 <= h < 24 /\ 0 <= m < 60.
Proof. exact date_decompositions_agree. Qed.
Print Assumptions C49_date_decompositions_agree.

Example C49_case : whole_minute_offset (mk 2020 12 31 18 45 10 0 (Some (fixed_tz (-20700 * 1000000)))) /\
  tm_yday_numpy (mk 2020 12 31 18 45 10 0 (Some (fixed_tz (-20700 * 1000000)))) = Ok 1 /\
  tm_hour_math (mk 2020 12 31 18 45 10 0 (Some (fixed_tz (-20700 * 1000000)))) = Ok 0.
Proof. split; [exists (fixed_tz (-20700 * 1000000)), (-345); split; reflexivity|]. vm_compute. split; reflexivity. Qed.

(* the whole-minute hypothesis is needed: with an offset of 30 seconds the two disagree *)
Theorem C49_date_decompositions_seconds_refuted :
  exists d u, instant d u /\ in_range u = true /\ tm_yday_math d <> tm_yday_numpy d.
Proof. exact date_decompositions_seconds_refuted. Qed.
Print Assumptions C49_date_decompositions_seconds_refuted.

(* ------------------------------------------------------------------------------- C50 *)
(* after any sequence of nutation calls since import, a further call gives the result of a
   fresh process, and get_aberration_coeffs the same dictionary *)
Theorem C50_cache_transparent : forall (N : Num) (calls : list (T N)) (x : T N),
  fst (get_nutation_st (after_calls calls None) x) = get_nutation x /\
  fst (get_aberration_coeffs (after_calls calls None)) = fst (get_aberration_coeffs None).
Proof. exact @nutation_cache_transparent. Qed.
Print Assumptions C50_cache_transparent.

(* one call fills the cache *)
Example C50_case : after_calls (N := MathR) [Fin 0] None <> None /\ @after_calls MathR [] None = None.
Proof. split; [discriminate|reflexivity]. Qed.

(* ------------------------------------------------------------------------------- C46 *)
(* FALSE: global_irradiance_clear ignores temperature and pressure altogether (whatever the
   arithmetic), and passes no turbidity to its diffuse part. *)
Theorem C46_clear_sky_inputs_refuted : forall (N : Num) lat lon d TY AM TL el t p t' p',
  global_irradiance_clear (N := N) lat lon d TY AM TL el t p =
  global_irradiance_clear lat lon d TY AM TL el t' p'.
Proof. exact @clear_sky_inputs_refuted. Qed.
Print Assumptions C46_clear_sky_inputs_refuted.

(* ------------------------------------------------------------------------------- C51 *)
(* FALSE: in every arithmetic and for every input, none of the broadband REST2 functions
   ever returns a number. *)
Theorem C51_rest2_broadband_refuted : forall (N : Num) alt p oz ni w a b, 
  (forall v, Rest.get_broadband_direct_normal_irradiance (N := N) alt p oz ni w a b <> Ok v) /\
  (forall v, Rest.get_beam_broadband_irradiance (N := N) alt p oz ni w a b <> Ok v) /\
  (forall v, Rest.get_global_broadband_irradiance (N := N) alt p oz ni w a b <> Ok v) /\
  (forall am v, Rest.get_diffuse_broadband_irradiance (N := N) am a b <> Ok v) /\
  (forall bd v, Rest.get_backscattered_diffuse_broadband_irradiance (N := N) bd a b <> Ok v).
Proof. exact @rest2_broadband_refuted. Qed.
Print Assumptions C51_rest2_broadband_refuted.

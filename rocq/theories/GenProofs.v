(* Structural facts that hold for every arithmetic instance (in particular bit for bit in
   any float arithmetic with any libm): dependence on the datetime only through the instant,
   get_position = azimuth + altitude, rejection of naive datetimes, the decorator, the
   nutation cache. *)
From Coq Require Import Lia ZifyBool.
From Verif Require Import Py Num Cal CalProofs TzCheck Clock Tables Constants SolarTime Solar
  Radiation Elevation Util Simulate Rest SpecDt.
Local Open Scope Z_scope.

(* ---------------------------------------------------------------- instants *)
Lemma instant_aware d u : instant d u -> aware d = Ok tt.
Proof. intros (tz & o & H & _). unfold aware. now rewrite H. Qed.

Lemma instant_offset d u : instant d u -> utcoffset d = Ok (Some (dt_local d - u)).
Proof.
  intros (tz & o & H1 & H2 & H3 & ->). unfold utcoffset. rewrite H1, H2.
  destruct (Z.abs o <? us_per_day) eqn:E; [|lia]. do 2 f_equal. lia.
Qed.

Lemma instant_utctimetuple d u : instant d u ->
  utctimetuple d = if in_range u then Ok (fields_of_us u) else Err OverflowError.
Proof.
  intros H. unfold utctimetuple. rewrite (instant_offset d u H). simpl.
  replace (dt_local d - (dt_local d - u)) with u by lia. reflexivity.
Qed.

Lemma instant_timestamp d u : instant d u -> timestamp_us d = Ok (u - epoch_us).
Proof.
  intros H. unfold timestamp_us. pose proof H as (tz & o & H1 & _). rewrite H1.
  rewrite (instant_offset d u H). simpl. f_equal. lia.
Qed.

Lemma instant_dt64 d u : instant d u -> whole_minute_offset d -> datetime64_us d = Ok u.
Proof.
  intros (tz & o & H1 & H2 & H3 & ->) (tz' & m & H1' & H2').
  rewrite H1 in H1'. injection H1' as <-. rewrite H2 in H2'. injection H2' as ->.
  unfold datetime64_us. rewrite H1, H2. f_equal. rewrite Z.quot_mul by lia. lia.
Qed.

Section SameInstant.
Context {N : Num} (d d' : datetime) (Hs : same_instant d d').

Lemma same_aware : aware d = aware d'.
Proof. destruct Hs as (u & H & H'). rewrite (instant_aware d u), (instant_aware d' u); auto. Qed.
Lemma same_tuple : utctimetuple d = utctimetuple d'.
Proof. destruct Hs as (u & H & H'). rewrite (instant_utctimetuple d u), (instant_utctimetuple d' u); auto. Qed.
Lemma same_ts : timestamp_us d = timestamp_us d'.
Proof. destruct Hs as (u & H & H'). rewrite (instant_timestamp d u), (instant_timestamp d' u); auto. Qed.

Lemma same_leap : get_leap_seconds_w d = get_leap_seconds_w d'.
Proof. unfold get_leap_seconds_w. now rewrite same_aware, same_tuple. Qed.
Lemma same_delta : get_delta_t_q d = get_delta_t_q d'.
Proof. unfold get_delta_t_q. now rewrite same_aware, same_tuple. Qed.
Lemma same_jd : get_julian_solar_day (N := N) d = get_julian_solar_day d'.
Proof.
  unfold get_julian_solar_day, timestamp, get_leap_seconds, get_delta_t.
  now rewrite same_aware, same_ts, same_leap, same_delta.
Qed.
Lemma same_jde : get_julian_ephemeris_day (N := N) d = get_julian_ephemeris_day d'.
Proof.
  unfold get_julian_ephemeris_day, timestamp, get_leap_seconds.
  now rewrite same_aware, same_ts, same_leap.
Qed.
Lemma same_topo lat lon el : get_topocentric_position (N := N) lat lon d el = get_topocentric_position lat lon d' el.
Proof. unfold get_topocentric_position. now rewrite same_aware, same_jd, same_jde. Qed.
Lemma same_position lat lon el t p : get_position (N := N) lat lon d el t p = get_position lat lon d' el t p.
Proof. unfold get_position. now rewrite same_aware, same_topo. Qed.
Lemma same_altitude lat lon el t p : get_altitude (N := N) lat lon d el t p = get_altitude lat lon d' el t p.
Proof. unfold get_altitude. now rewrite same_aware, same_topo. Qed.
Lemma same_azimuth lat lon el : get_azimuth (N := N) lat lon d el = get_azimuth lat lon d' el.
Proof. unfold get_azimuth. now rewrite same_aware, same_topo. Qed.

(* any clock whose fields depend on the instant only *)
Section Clk.
Context {C : Clock N} (e e' : D C)
  (Ha : aware_check C e = aware_check C e') (Hy : tm_yday C e = tm_yday C e')
  (Hh : tm_hour C e = tm_hour C e') (Hm : tm_min C e = tm_min C e').
Lemma clk_solar_time lon : get_solar_time (N := N) lon e = get_solar_time lon e'.
Proof. unfold get_solar_time. now rewrite Ha, Hy, Hh, Hm. Qed.
Lemma clk_hour_angle lon : get_hour_angle (N := N) e lon = get_hour_angle e' lon.
Proof. unfold get_hour_angle. now rewrite Ha, clk_solar_time. Qed.
Lemma clk_altitude_fast lat lon : get_altitude_fast (N := N) lat lon e = get_altitude_fast lat lon e'.
Proof. unfold get_altitude_fast. now rewrite Ha, Hy, clk_hour_angle. Qed.
Lemma clk_azimuth_fast lat lon : get_azimuth_fast (N := N) lat lon e = get_azimuth_fast lat lon e'.
Proof. unfold get_azimuth_fast. now rewrite Hy, clk_hour_angle, clk_altitude_fast. Qed.
Lemma clk_radiation_direct alt : get_radiation_direct (N := N) e alt = get_radiation_direct e' alt.
Proof. unfold get_radiation_direct. now rewrite Hy. Qed.
End Clk.

Lemma same_mean_distance : mean_earth_sun_distance (N := N) d = mean_earth_sun_distance d'.
Proof. unfold mean_earth_sun_distance, utc_yday. now rewrite same_aware, same_tuple. Qed.
Lemma same_declination_degree TY : declination_degree (N := N) d TY = declination_degree d' TY.
Proof. unfold declination_degree, utc_yday. now rewrite same_aware, same_tuple. Qed.

Lemma same_clear_sky :
  (forall lat lon t p el, solarelevation_function_clear (N := N) lat lon d t p el = solarelevation_function_clear lat lon d' t p el) /\
  (forall lat lon el t p, solarelevation_function_overcast (N := N) lat lon d el t p = solarelevation_function_overcast lat lon d' el t p) /\
  (forall lat lon el t p TL, diffuse_underclear (N := N) lat lon d el t p TL = diffuse_underclear lat lon d' el t p TL) /\
  (forall lat lon el t p TL, diffuse_underovercast (N := N) lat lon d el t p TL = diffuse_underovercast lat lon d' el t p TL) /\
  (forall lat lon TY AM TL el t p, direct_underclear (N := N) lat lon d TY AM TL el t p = direct_underclear lat lon d' TY AM TL el t p) /\
  (forall lat lon TY AM TL el t p, global_irradiance_clear (N := N) lat lon d TY AM TL el t p = global_irradiance_clear lat lon d' TY AM TL el t p) /\
  (forall lat lon el t p, global_irradiance_overcast (N := N) lat lon d el t p = global_irradiance_overcast lat lon d' el t p).
Proof.
  repeat split; intros;
    unfold solarelevation_function_clear, solarelevation_function_overcast, global_irradiance_clear,
      global_irradiance_overcast, direct_underclear, diffuse_underclear, diffuse_underovercast;
    rewrite ?same_aware, ?same_mean_distance, ?same_declination_degree, ?same_altitude; reflexivity.
Qed.
End SameInstant.

Lemma fast_agree N C (toD : datetime -> D C) d d' : same_instant d d' ->
  aware_check C (toD d) = aware_check C (toD d') -> tm_yday C (toD d) = tm_yday C (toD d') ->
  tm_hour C (toD d) = tm_hour C (toD d') -> tm_min C (toD d) = tm_min C (toD d') ->
  fast_functions_agree N C toD d d'.
Proof.
  intros Hs Ha Hy Hh Hm.
  assert (E : forall lat lon sc, extraterrestrial_irrad (N := N) toD lat lon d sc = extraterrestrial_irrad toD lat lon d' sc).
  { intros. unfold extraterrestrial_irrad, utc_yday.
    rewrite (same_aware d d' Hs), (same_tuple d d' Hs), (clk_hour_angle _ _ Ha Hy Hh Hm). reflexivity. }
  repeat split; intros.
  - now apply clk_solar_time.
  - now apply clk_hour_angle.
  - now apply clk_altitude_fast.
  - now apply clk_azimuth_fast.
  - now apply clk_radiation_direct.
  - apply E.
  - unfold clear_index. now rewrite (same_aware d d' Hs), E.
Qed.

Lemma fast_agree_math N d d' : same_instant d d' ->
  fast_functions_agree N (clock_math N) (fun d => d) d d'.
Proof.
  intros Hs. apply fast_agree; auto; simpl.
  - now apply same_aware.
  - unfold tm_yday_math. now rewrite (same_tuple d d' Hs).
  - unfold tm_hour_math. now rewrite (same_tuple d d' Hs).
  - unfold tm_min_math. now rewrite (same_tuple d d' Hs).
Qed.

Lemma fast_agree_numpy N d d' : same_instant d d' ->
  whole_minute_offset d -> whole_minute_offset d' ->
  fast_functions_agree N (clock_numpy N) (fun d => d) d d'.
Proof.
  intros Hs W W'. pose proof Hs as (u & Hu & Hu').
  pose proof (instant_dt64 d u Hu W) as E. pose proof (instant_dt64 d' u Hu' W') as E'.
  apply fast_agree; auto; simpl.
  - now apply same_aware.
  - unfold tm_yday_numpy. now rewrite E, E'.
  - unfold tm_hour_numpy. now rewrite E, E'.
  - unfold tm_min_numpy. now rewrite E, E'.
Qed.

(* ---------------------------------------------------------------- get_position *)
Lemma position_spec N lat lon d el t p :
  get_position (N := N) lat lon d el t p =
    (h <- get_altitude lat lon d el t p ;; a <- get_azimuth lat lon d el ;; Ok (a, h)).
Proof.
  unfold get_position, get_altitude, get_azimuth.
  destruct (aware d) as [[]|e] eqn:Ea; simpl; [|reflexivity].
  destruct (get_topocentric_position lat lon d el) as [[tsd tlha]|e]; simpl; [|reflexivity].
  destruct (get_topocentric_elevation_angle _ _ _); simpl; [|reflexivity].
  destruct (get_refraction_correction _ _ _); simpl; [|reflexivity].
  reflexivity.
Qed.

(* ---------------------------------------------------------------- naive datetimes *)
Lemma naive_aware d : naive d -> aware d = Err (NoTimeZoneInfoError "when").
Proof. intros H. unfold aware. now rewrite H. Qed.

(* ---------------------------------------------------------------- cache *)
Definition valid_cache (st : cache) : Prop := st = None \/ st = Some aberration_coeffs_table.

Lemma valid_cache_step {N : Num} st (x : T N) : valid_cache st ->
  valid_cache (snd (get_nutation_st st x)) /\ fst (get_nutation_st st x) = get_nutation_from aberration_coeffs_table x.
Proof. intros [->| ->]; (split; [right|]; reflexivity). Qed.

Lemma valid_cache_calls {N : Num} (calls : list (T N)) : forall st, valid_cache st -> valid_cache (after_calls calls st).
Proof. induction calls; simpl; intros st H; auto. apply IHcalls, valid_cache_step, H. Qed.

Lemma nutation_cache_transparent {N : Num} (calls : list (T N)) (x : T N) :
  fst (get_nutation_st (after_calls calls None) x) = get_nutation x /\
  fst (get_aberration_coeffs (after_calls calls None)) = fst (get_aberration_coeffs None).
Proof.
  assert (V : valid_cache (after_calls calls None)) by (apply valid_cache_calls; left; reflexivity).
  split. apply valid_cache_step, V. destruct V as [->| ->]; reflexivity.
Qed.

(* ---------------------------------------------------------------- calendar, two back ends *)
Lemma tm_yday_dt64_spec u : tm_yday_dt64 u = f_yday (fields_of_us u).
Proof.
  rewrite fields_of_us_yday. unfold tm_yday_dt64, fields_of_us.
  destruct (ord2ymd _) as [[y m] d]. cbn [f_year]. lia.
Qed.
Lemma tm_hour_dt64_spec u : tm_hour_dt64 u = f_hour (fields_of_us u).
Proof.
  unfold tm_hour_dt64, fields_of_us, us_per_day. destruct (ord2ymd _) as [[y m] d]. cbn [f_hour].
  Z.to_euclidean_division_equations. lia.
Qed.
Lemma tm_min_dt64_spec u : tm_min_dt64 u = f_min (fields_of_us u).
Proof.
  unfold tm_min_dt64, fields_of_us, us_per_day. destruct (ord2ymd _) as [[y m] d]. cbn [f_min].
  Z.to_euclidean_division_equations. lia.
Qed.

Lemma fields_ranges u :
  1 <= f_yday (fields_of_us u) <= 366 /\ 0 <= f_hour (fields_of_us u) < 24 /\ 0 <= f_min (fields_of_us u) < 60.
Proof.
  destruct (us_of_fields_inv u) as [_ (V & Hh & Hm & _)].
  pose proof (yday_range _ _ _ V) as Y. unfold f_yday, year_len in *. destruct (is_leap _); lia.
Qed.

Lemma clocks_agree d u : instant d u -> whole_minute_offset d -> in_range u = true ->
  tm_yday_numpy d = tm_yday_math d /\ tm_hour_numpy d = tm_hour_math d /\ tm_min_numpy d = tm_min_math d.
Proof.
  intros Hi Hw Hr.
  unfold tm_yday_numpy, tm_hour_numpy, tm_min_numpy, tm_yday_math, tm_hour_math, tm_min_math.
  rewrite (instant_dt64 d u Hi Hw), (instant_utctimetuple d u Hi), Hr. simpl.
  rewrite tm_yday_dt64_spec, tm_hour_dt64_spec, tm_min_dt64_spec. auto.
Qed.

Lemma timezone_invariance : forall (N : Num) (d d' : datetime), same_instant d d' ->
  get_leap_seconds_w d = get_leap_seconds_w d' /\
  get_leap_seconds d = get_leap_seconds d' /\
  get_delta_t (N := N) d = get_delta_t d' /\
  get_julian_solar_day (N := N) d = get_julian_solar_day d' /\
  get_julian_ephemeris_day (N := N) d = get_julian_ephemeris_day d' /\
  (forall lat lon el, get_topocentric_position (N := N) lat lon d el = get_topocentric_position lat lon d' el) /\
  (forall lat lon el t p, get_position (N := N) lat lon d el t p = get_position lat lon d' el t p) /\
  (forall lat lon el t p, get_altitude (N := N) lat lon d el t p = get_altitude lat lon d' el t p) /\
  (forall lat lon el, get_azimuth (N := N) lat lon d el = get_azimuth lat lon d' el) /\
  mean_earth_sun_distance (N := N) d = mean_earth_sun_distance d' /\
  (forall TY, declination_degree (N := N) d TY = declination_degree d' TY) /\
  (forall lat lon t p el, solarelevation_function_clear (N := N) lat lon d t p el = solarelevation_function_clear lat lon d' t p el) /\
  (forall lat lon el t p, solarelevation_function_overcast (N := N) lat lon d el t p = solarelevation_function_overcast lat lon d' el t p) /\
  (forall lat lon el t p TL, diffuse_underclear (N := N) lat lon d el t p TL = diffuse_underclear lat lon d' el t p TL) /\
  (forall lat lon el t p TL, diffuse_underovercast (N := N) lat lon d el t p TL = diffuse_underovercast lat lon d' el t p TL) /\
  (forall lat lon TY AM TL el t p, direct_underclear (N := N) lat lon d TY AM TL el t p = direct_underclear lat lon d' TY AM TL el t p) /\
  (forall lat lon TY AM TL el t p, global_irradiance_clear (N := N) lat lon d TY AM TL el t p = global_irradiance_clear lat lon d' TY AM TL el t p) /\
  (forall lat lon el t p, global_irradiance_overcast (N := N) lat lon d el t p = global_irradiance_overcast lat lon d' el t p) /\
  fast_functions_agree N (clock_math N) (fun d => d) d d'.
Proof.
  intros N d d' Hs.
  split; [now apply same_leap|]. split; [unfold get_leap_seconds; now rewrite (same_leap d d' Hs)|].
  split; [unfold get_delta_t; now rewrite (same_delta d d' Hs)|].
  split; [now apply same_jd|]. split; [now apply same_jde|].
  split; [intros; now apply same_topo|]. split; [intros; now apply same_position|].
  split; [intros; now apply same_altitude|]. split; [intros; now apply same_azimuth|].
  split; [now apply same_mean_distance|]. split; [intros; now apply same_declination_degree|].
  destruct (same_clear_sky (N := N) d d' Hs) as (H1 & H2 & H3 & H4 & H5 & H6 & H7).
  repeat (split; [assumption|]). now apply fast_agree_math.
Qed.

Lemma position_pair N lat lon d el t p :
  get_position (N := N) lat lon d el t p =
    match get_altitude lat lon d el t p, get_azimuth lat lon d el with
    | Ok h, Ok a => Ok (a, h)
    | Err e, _ => Err e
    | Ok _, Err e => Err e
    end.
Proof. rewrite position_spec. destruct (get_altitude _ _ _ _ _ _); simpl; [destruct (get_azimuth _ _ _ _)|]; reflexivity. Qed.

Lemma clear_sky_inputs_refuted N lat lon d TY AM TL el t p t' p' :
  global_irradiance_clear (N := N) lat lon d TY AM TL el t p =
  global_irradiance_clear lat lon d TY AM TL el t' p'.
Proof. reflexivity. Qed.

(* more precisely: the result is the sum of the two parts at standard conditions, the diffuse
   part with the default turbidity *)
Lemma clear_sky_is N lat lon d TY AM TL el t p :
  global_irradiance_clear (N := N) lat lon d TY AM TL el t p =
    (aware d ;;
     a <- direct_underclear lat lon d TY AM TL el standard_temperature standard_pressure ;;
     b <- diffuse_underclear lat lon d el standard_temperature standard_pressure TL_default ;;
     Ok (add a b)).
Proof. reflexivity. Qed.

Lemma by_band_never N bd alt p oz ni w a b v :
  Rest.get_direct_normal_irradiance_by_band (N := N) bd alt p oz ni w a b <> Ok v.
Proof.
  intros H. unfold get_direct_normal_irradiance_by_band in H.
  apply bind_eq_Ok in H as (ma & _ & H). apply bind_eq_Ok in H as (mo & _ & H).
  apply bind_eq_Ok in H as (mR & _ & H). apply bind_eq_Ok in H as (mR' & _ & H).
  apply bind_eq_Ok in H as (mw & _ & H). discriminate H.
Qed.

Lemma rest2_broadband_refuted N alt p oz ni w a b :
  (forall v, Rest.get_broadband_direct_normal_irradiance (N := N) alt p oz ni w a b <> Ok v) /\
  (forall v, Rest.get_beam_broadband_irradiance (N := N) alt p oz ni w a b <> Ok v) /\
  (forall v, Rest.get_global_broadband_irradiance (N := N) alt p oz ni w a b <> Ok v) /\
  (forall am v, Rest.get_diffuse_broadband_irradiance (N := N) am a b <> Ok v) /\
  (forall bd v, Rest.get_backscattered_diffuse_broadband_irradiance (N := N) bd a b <> Ok v).
Proof.
  assert (K : forall v, Rest.get_broadband_direct_normal_irradiance (N := N) alt p oz ni w a b <> Ok v).
  { intros v H. apply bind_eq_Ok in H as (x & H & _). eapply by_band_never, H. }
  repeat split; intros; auto; intros H.
  - apply bind_eq_Ok in H as (x & H & _). eapply K, H.
  - apply bind_eq_Ok in H as (x & H & _). apply bind_eq_Ok in H as (y & H & _). eapply by_band_never, H.
  - discriminate H.
  - discriminate H.
Qed.

Lemma date_decompositions_agree d u : instant d u -> whole_minute_offset d -> in_range u = true ->
  exists y h m, tm_yday_math d = Ok y /\ tm_yday_numpy d = Ok y /\
    tm_hour_math d = Ok h /\ tm_hour_numpy d = Ok h /\
    tm_min_math d = Ok m /\ tm_min_numpy d = Ok m /\
    1 <= y <= 366 /\ 0 <= h < 24 /\ 0 <= m < 60.
Proof.
  intros Hi Hw Hr. destruct (clocks_agree d u Hi Hw Hr) as (-> & -> & ->).
  unfold tm_yday_math, tm_hour_math, tm_min_math. rewrite (instant_utctimetuple d u Hi), Hr. cbn [bind].
  do 3 eexists. repeat (split; [reflexivity|]). apply fields_ranges.
Qed.

Lemma date_decompositions_seconds_refuted :
  exists d u, instant d u /\ in_range u = true /\ tm_yday_math d <> tm_yday_numpy d.
Proof.
  exists (mk 2020 1 1 0 0 10 0 (Some (fixed_tz 30000000))), (us_of_fields (mkfields 2019 12 31 23 59 40 0)).
  split; [|split].
  - do 2 eexists. split; [reflexivity|]. split; [reflexivity|]. split; [reflexivity|]. vm_compute. reflexivity.
  - vm_compute. reflexivity.
  - vm_compute. discriminate.
Qed.

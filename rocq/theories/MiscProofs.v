(* C11 (naive datetimes), C46, C47, C51 and C53: what is true where the full claim is not. *)
From Coq Require Import Reals Qreals Lra Lia.
From Interval Require Import Tactic.
From Flocq Require Import Core.
From Verif Require Import Py Num Cal TzCheck Clock RInst Constants SolarTime Solar Radiation Elevation Util Simulate Rest
  RTac SpecTime SpecDt SpecGeom SpecEng Trig GenProofs CalProofs FastProofs IrradianceProofs RadiationProofs RestProofs ArrayProofs SunriseProofs Samples.
Local Open Scope R_scope.

(* ---------------------------------------------------------------- C11 *)
Lemma naive_rejected (N : Num) d : naive d ->
  rejects (get_leap_seconds d) /\ rejects (get_delta_t (N := N) d) /\
  rejects (get_julian_solar_day (N := N) d) /\ rejects (get_julian_ephemeris_day (N := N) d) /\
  (forall lat lon el, rejects (get_topocentric_position (N := N) lat lon d el)) /\
  (forall lat lon el t p, rejects (get_position (N := N) lat lon d el t p)) /\
  (forall lat lon el t p, rejects (get_altitude (N := N) lat lon d el t p)) /\
  (forall lat lon el, rejects (get_azimuth (N := N) lat lon d el)) /\
  (forall lat lon, rejects (get_sunrise_sunset_transit (N := N) lat lon d)) /\
  (forall lat lon, rejects (get_sunrise_sunset (N := N) lat lon d)) /\
  (forall lat lon, rejects (get_sunrise_time (N := N) lat lon d)) /\
  (forall lat lon, rejects (get_sunset_time (N := N) lat lon d)) /\
  (forall lat lon, rejects (get_transit_time (N := N) lat lon d)) /\
  rejects (mean_earth_sun_distance (N := N) d) /\
  (forall TY, rejects (declination_degree (N := N) d TY)) /\
  (forall lat lon t p el, rejects (solarelevation_function_clear (N := N) lat lon d t p el)) /\
  (forall lat lon el t p, rejects (solarelevation_function_overcast (N := N) lat lon d el t p)) /\
  (forall lat lon el t p TL, rejects (diffuse_underclear (N := N) lat lon d el t p TL)) /\
  (forall lat lon el t p TL, rejects (diffuse_underovercast (N := N) lat lon d el t p TL)) /\
  (forall lat lon TY AM TL el t p, rejects (direct_underclear (N := N) lat lon d TY AM TL el t p)) /\
  (forall lat lon TY AM TL el t p, rejects (global_irradiance_clear (N := N) lat lon d TY AM TL el t p)) /\
  (forall lat lon el t p, rejects (global_irradiance_overcast (N := N) lat lon d el t p)).
Proof.
  intros H. pose proof (naive_aware d H) as E. unfold rejects.
  repeat split; intros;
    unfold get_leap_seconds, get_delta_t, get_leap_seconds_w, get_delta_t_q, get_julian_solar_day, get_julian_ephemeris_day,
      get_topocentric_position, get_position, get_altitude, get_azimuth, get_sunrise_sunset_transit, get_sunrise_sunset,
      get_sunrise_time, get_sunset_time, get_transit_time, mean_earth_sun_distance, declination_degree,
      solarelevation_function_clear, solarelevation_function_overcast, diffuse_underclear, diffuse_underovercast,
      direct_underclear, global_irradiance_clear, global_irradiance_overcast;
    rewrite E; reflexivity.
Qed.

Lemma naive_rejected_clock (N : Num) (C : Clock N) (toD : datetime -> D C) d :
  aware_check C (toD d) = aware d -> naive d ->
  (forall lon, rejects (get_solar_time (N := N) lon (toD d))) /\
  (forall lon, rejects (get_hour_angle (N := N) (toD d) lon)) /\
  (forall lat lon, rejects (get_altitude_fast (N := N) lat lon (toD d))) /\
  (forall lat lon sc, rejects (extraterrestrial_irrad (N := N) toD lat lon d sc)) /\
  (forall ghi lat lon, rejects (clear_index (N := N) toD ghi lat lon d)).
Proof.
  intros A H. pose proof (naive_aware d H) as E. unfold rejects.
  unfold get_solar_time, get_hour_angle, get_altitude_fast, extraterrestrial_irrad, clear_index.
  rewrite A, E. repeat split; intros; reflexivity.
Qed.

(* get_azimuth_fast is not decorated, but calls get_hour_angle, which is *)
Lemma naive_azimuth_fast d lat lon : naive d -> valid_dt d ->
  rejects (get_azimuth_fast (N := MathR) (C := clock_math MathR) lat lon d) /\
  (forall lat lon, rejects (get_azimuth_fast (N := NumpyR) (C := clock_numpy NumpyR) lat lon d)).
Proof.
  intros H V. pose proof (naive_aware d H) as E. unfold rejects.
  split.
  - unfold get_azimuth_fast. unfold get_hour_angle. change (aware_check (clock_math MathR) d) with (aware d). rewrite E.
    assert (K : exists z, tm_yday (clock_math MathR) d = Ok (Fin (Q2R (inject_Z z)))).
    { simpl. unfold tm_yday_math, utctimetuple, utcoffset. rewrite H. simpl. rewrite Z.sub_0_r, V. eexists; reflexivity. }
    destruct K as (z & ->). rewrite bind_Ok, declination_val, bind_Ok. reflexivity.
  - intros a b. unfold get_azimuth_fast. unfold get_hour_angle. change (aware_check (clock_numpy NumpyR) d) with (aware d). rewrite E.
    assert (K : exists z, tm_yday (clock_numpy NumpyR) d = Ok z).
    { simpl. unfold tm_yday_numpy, datetime64_us. rewrite H. simpl. eexists; reflexivity. }
    destruct K as (z & ->). rewrite bind_Ok. destruct (declination_total z) as [v ->]. reflexivity.
Qed.

(* get_radiation_direct is not decorated and treats a naive datetime as UTC *)
Lemma naive_radiation d alt : naive d -> valid_dt d -> 0 < alt <= 90 ->
  exists day h m, civil_clock (dt_local d) day h m /\
    get_radiation_direct (N := MathR) (C := clock_math MathR) d (Fin alt) = Ok (Fin (masters_beam (IZR day) alt)) /\
    0 < masters_beam (IZR day) alt.
Proof.
  intros H V Ha. destruct (civil_clock_exists (dt_local d)) as (day & h & m & C). exists day, h, m. split; [exact C|].
  set (d' := mkdt (dt_local d) false (Some {| tz_id := 0; tz_utcoffset := fun _ _ => Some 0%Z |})).
  assert (I : instant d' (dt_local d)) by (do 2 eexists; repeat split; simpl; try reflexivity; lia).
  destruct (clock_vals d' (dt_local d) day h m I V C) as (E & _).
  assert (K : tm_yday (clock_math MathR) d = tm_yday (clock_math MathR) d').
  { simpl. unfold tm_yday_math, utctimetuple, utcoffset. rewrite H. simpl. reflexivity. }
  split; [|apply beam_range; exact Ha].
  unfold get_radiation_direct. rewrite K, <- (day_val d' (dt_local d) day h m I V C alt Ha). reflexivity.
Qed.

(* simulate_span over naive times never yields anything *)
Lemma naive_simulate (N : Num) (C : Clock N) (toD : datetime -> D C) lat lon horizon start stop step el t p :
  naive start -> g_items (datetime_range start stop step) <> [] ->
  simulate_span (N := N) toD lat lon horizon start stop step el t p = mkgen [] (Err (NoTimeZoneInfoError "when")).
Proof.
  intros H Hne. unfold simulate_span, gen_for.
  assert (A : forall x, In x (g_items (datetime_range start stop step)) -> naive x).
  { unfold datetime_range. intros x.
    destruct (span <- dt_sub stop start ;; _) as [[dt ns]|e]; [|intros []].
    induction ns as [|n ns IH]; [intros []|]. cbn [gen_map].
    destruct (d <- timedelta_us (dt * n) ;; dt_add start d) as [y|] eqn:E; [|intros []].
    cbn [g_items]. intros [<-|Hx]; [|now apply IH].
    apply bind_eq_Ok in E as (k & _ & E). unfold dt_add in E. destruct (in_range _); [|discriminate]. injection E as <-. exact H. }
  destruct (g_items (datetime_range start stop step)) as [|x l]; [congruence|].
  assert (E : simulate_one toD lat lon horizon el t p x = Err (NoTimeZoneInfoError "when")).
  { unfold simulate_one, get_altitude. rewrite (naive_aware x (A x (or_introl eq_refl))). reflexivity. }
  cbn [gen_map]. rewrite E. reflexivity.
Qed.

(* ---------------------------------------------------------------- C46 *)
Lemma clear_sky_sum (N : Num) lat lon d TY AM TL el t p v :
  global_irradiance_clear (N := N) lat lon d TY AM TL el t p = Ok v ->
  exists a b, direct_underclear lat lon d TY AM TL el (lit 288.15) (lit 101325.00) = Ok a /\
    diffuse_underclear lat lon d el (lit 288.15) (lit 101325.00) (lit 1.0) = Ok b /\ v = add a b.
Proof.
  unfold global_irradiance_clear. intros H. apply bind_eq_Ok in H as (_ & _ & H).
  apply bind_eq_Ok in H as (a & Ha & H). apply bind_eq_Ok in H as (b & Hb & H). injection H as <-. exists a, b. auto.
Qed.

(* ---------------------------------------------------------------- C47 *)
Lemma esra_range n : 0.9665 <= esra_correction n <= 1.0335.
Proof. unfold esra_correction. pose proof (sind_bound (360 * (n - 94) / 365)). lra. Qed.

Lemma distance_error d u day h m : instant d u -> in_range u = true -> civil_clock u day h m ->
  exists x, mean_earth_sun_distance (N := MathR) d = Ok (Fin x) /\ Rabs (x - esra_correction (IZR day)) <= 0.0335.
Proof.
  intros H1 H2 H3. exists 1. split; [now apply distance_constant with u|].
  pose proof (esra_range (IZR day)). apply Rabs_le. lra.
Qed.

Definition distance_claim : Prop := forall d u day h m, instant d u -> in_range u = true -> civil_clock u day h m ->
  exists x, mean_earth_sun_distance (N := MathR) d = Ok (Fin x) /\ Rabs (x - esra_correction (IZR day)) <= 0.03.

Lemma distance_refuted : ~ distance_claim.
Proof.
  intros H.
  set (u := midnight 2020 1 3). set (d := mkdt u false (Some {| tz_id := 0; tz_utcoffset := fun _ _ => Some 0%Z |})).
  assert (I : instant d u) by (do 2 eexists; repeat split; simpl; try reflexivity; lia).
  assert (R : in_range u = true) by (vm_compute; reflexivity).
  assert (C : civil_clock u 3 0 0) by (split; [exists 2020%Z; vm_compute; intuition discriminate|lia]).
  destruct (H d u 3%Z 0%Z 0%Z I R C) as (x & E & B). rewrite (distance_constant d u I R) in E. injection E as <-.
  revert B. apply Rlt_not_le. unfold esra_correction, sind, rad. interval.
Qed.

(* ---------------------------------------------------------------- C51 *)
Lemma by_band_raises b alt p oz ni w al be : 0 <= alt <= 90 ->
  get_direct_normal_irradiance_by_band (N := MathR) b (Fin alt) (Fin p) oz ni w al be = Err (AttributeError "log").
Proof.
  intros H. unfold get_direct_normal_irradiance_by_band, get_optical_mass_aerosol, get_optical_mass_ozone, get_optical_mass_water.
  destruct (optical_mass_val 0.16851 0.18198 95.318 1.9542 alt) as [-> _]; try lra.
  destruct (optical_mass_val 1.0651 0.6379 101.8 2.2694 alt) as [-> _]; try lra.
  destruct (optical_mass_val 0.10648 0.11423 93.781 1.9203 alt) as [-> _]; try lra.
  destruct (rayleigh_mass_val alt p H) as [-> _]. rewrite !bind_Ok. unfold standard_pressure_millibars. rx. reflexivity.
Qed.

Lemma rest2_exceptions alt p oz ni w al be am bd : 0 <= alt <= 90 ->
  get_broadband_direct_normal_irradiance (N := MathR) (Fin alt) (Fin p) oz ni w al be = Err (AttributeError "log") /\
  get_beam_broadband_irradiance (N := MathR) (Fin alt) (Fin p) oz ni w al be = Err (AttributeError "log") /\
  get_global_broadband_irradiance (N := MathR) (Fin alt) (Fin p) oz ni w al be = Err (AttributeError "log") /\
  get_diffuse_broadband_irradiance (N := MathR) am al be = Err (NameError "altitude_deg") /\
  get_backscattered_diffuse_broadband_irradiance (N := MathR) bd al be =
    Err (NameError "get_backscattered_diffuse_broadband_irradiance_by_band").
Proof.
  intros H. unfold get_beam_broadband_irradiance, get_global_broadband_irradiance, get_beam_irradiance_by_band,
    get_broadband_direct_normal_irradiance. rewrite !(by_band_raises _ alt p oz ni w al be H). repeat split.
Qed.

(* ---------------------------------------------------------------- C53 *)
Definition zenith_claim : Prop :=
  exists mR mo mw ma,
    get_optical_mass_rayleigh (N := MathR) (Fin 90) standard_pressure_millibars = Ok (Fin mR) /\ 0.99 <= mR <= 1.01 /\
    get_optical_mass_ozone (N := MathR) (Fin 90) = Ok (Fin mo) /\ 0.99 <= mo <= 1.01 /\
    get_optical_mass_water (N := MathR) (Fin 90) = Ok (Fin mw) /\ 0.99 <= mw <= 1.01 /\
    get_optical_mass_aerosol (N := MathR) (Fin 90) = Ok (Fin ma) /\ 0.99 <= ma <= 1.01.

Lemma zenith_refuted : ~ zenith_claim.
Proof.
  intros (mR & _ & _ & _ & E & B & _). destruct zenith_masses as (mR' & _ & _ & _ & E' & B' & _).
  rewrite E in E'. injection E' as <-. lra.
Qed.

Lemma masses_positive alt : 0 <= alt <= 90 ->
  (forall p, 0 < p -> exists m, get_optical_mass_rayleigh (N := MathR) (Fin alt) (Fin p) = Ok (Fin m) /\ 0 < m) /\
  (exists m, get_optical_mass_ozone (N := MathR) (Fin alt) = Ok (Fin m) /\ 0 < m) /\
  (exists m, get_optical_mass_water (N := MathR) (Fin alt) = Ok (Fin m) /\ 0 < m) /\
  (exists m, get_optical_mass_aerosol (N := MathR) (Fin alt) = Ok (Fin m) /\ 0 < m).
Proof.
  intros H. unfold get_optical_mass_aerosol, get_optical_mass_ozone, get_optical_mass_water.
  repeat split.
  - intros p Hp. destruct (rayleigh_mass_val alt p H) as [E P]. eexists. split; [exact E|].
    apply Rmult_lt_0_compat; [|exact P]. apply Rdiv_lt_0_compat; lra.
  - eexists. apply optical_mass_val; lra.
  - eexists. apply optical_mass_val; lra.
  - eexists. apply optical_mass_val; lra.
Qed.

Lemma mass_values alt : 0 <= alt < 90 ->
  let z := (90 - alt) * PI / 180 in
  let coded k a b d := Rpower (b - z) d / (cos z + k * Rpower z a) in
  (forall p, get_optical_mass_rayleigh (N := MathR) (Fin alt) (Fin p) = Ok (Fin (p / 1013.25 * coded 0.48353 0.095846 96.741 1.754))) /\
  get_optical_mass_ozone (N := MathR) (Fin alt) = Ok (Fin (coded 1.0651 0.6379 101.8 2.2694)) /\
  get_optical_mass_water (N := MathR) (Fin alt) = Ok (Fin (coded 0.10648 0.11423 93.781 1.9203)) /\
  get_optical_mass_aerosol (N := MathR) (Fin alt) = Ok (Fin (coded 0.16851 0.18198 95.318 1.9542)).
Proof.
  intros H z coded. assert (Z0 : 0 < z) by (unfold z; pose proof PI_pos; nra). assert (RZ : rad (90 - alt) = z) by (unfold rad, z; field).
  assert (E : forall k a b d, mass_formula k a b d alt = coded k a b d).
  { intros. unfold mass_formula, coded, zpow. rewrite <- cos_compl, RZ, Req_bool_false by lra. reflexivity. }
  split; [intros p; destruct (rayleigh_mass_val alt p ltac:(lra)) as [-> _]; now rewrite E|].
  unfold get_optical_mass_aerosol, get_optical_mass_ozone, get_optical_mass_water.
  destruct (optical_mass_val 1.0651 0.6379 101.8 2.2694 alt) as [Q1 _]; [lra|lra|lra|lra|].
  destruct (optical_mass_val 0.10648 0.11423 93.781 1.9203 alt) as [Q2 _]; [lra|lra|lra|lra|].
  destruct (optical_mass_val 0.16851 0.18198 95.318 1.9542 alt) as [Q3 _]; [lra|lra|lra|lra|].
  rewrite Q1, Q2, Q3, !E. split; [reflexivity|]. split; reflexivity.
Qed.

(* ---------------------------------------------------------------- samples for C35-C39 *)
Lemma sunrise_samples :
  instant sample_dt sample_u /\ civil_clock (dt_local sample_dt) 173 12 0 /\ inside_calendar sample_dt /\
  fixed_offset sample_dt (-18000 * 1000000) /\
  (exists r, get_sunrise_sunset_transit (N := MathR) (Fin 40) (Fin (-75)) sample_dt = Ok r) /\
  Rabs (IZR (dt_local sample_dt - sample_u) / 3600000000 - (-75) / 15) <= 11 /\
  get_sunrise_sunset_transit (N := MathR) (Fin 80) (Fin (-75)) sample_dt = Err ValueError.
Proof.
  split; [exact sample_instant|]. split; [exact sample_local_clock|]. split; [exact sample_inside|]. split; [exact sample_fixed|].
  assert (D : 22 < fourier_declination 173 < 24) by (unfold fourier_declination, sind, cosd, rad; split; interval).
  split; [|split].
  - apply (sunrise_raises_iff _ _ _ _ _ 40 (-75) sample_instant sample_local_clock ltac:(lra) ltac:(lra) sample_inside).
    apply has_solution; [lra..|]. apply asin_ok_iff. unfold cos_H, tand, cosd, sind, rad.
    revert D. generalize (fourier_declination 173). intros x D. split; interval.
  - replace (dt_local sample_dt - sample_u)%Z with (-18000000000)%Z by (vm_compute; reflexivity). interval.
  - apply (sunrise_raises_iff _ _ _ _ _ 80 (-75) sample_instant sample_local_clock ltac:(lra) ltac:(lra) sample_inside).
    intros [H E]. apply rises_cos in E; [|lra..]. revert E. pose proof (cosd_bound (15 * H)) as B. 
    intros E. rewrite E in B. destruct B as [B _]. revert B. apply Rlt_not_le. unfold cos_H, tand, cosd, sind, rad.
    revert D. generalize (fourier_declination 173). intros x D. interval.
Qed.

(* C124: with an aware datetime the only exceptions are arithmetic ones. *)
From Coq Require Import Reals Lia List.
From Flocq Require Import Core IEEE754.BinarySingleNaN.
From Verif Require Import Py Num Cal TzCheck Clock Tables Constants SolarTime Solar Radiation Util
  SpecTime SpecDt SpecErr GenProofs SolarTimeProofs RInst B64 B64Np.
Local Open Scope Z_scope.

Lemma ar_bind {A B} (r : res A) (f : A -> res B) : arithmetic r -> (forall a, arithmetic (f a)) -> arithmetic (bind r f).
Proof. destruct r; cbn; auto. Qed.
Lemma ar_rmap {A B} (f : A -> B) (r : res A) : arithmetic r -> arithmetic (rmap f r).
Proof. destruct r; cbn; auto. Qed.
Lemma ar_Ok {A} (a : A) : arithmetic (Ok a). Proof. exact Logic.I. Qed.
Lemma ar_ov {A} : arithmetic (Err OverflowError : res A). Proof. cbn. tauto. Qed.
Lemma ar_fold_left {A B} (f : res B -> A -> res B) l : (forall r a, arithmetic r -> arithmetic (f r a)) ->
  forall r, arithmetic r -> arithmetic (fold_left f l r).
Proof. intros H. induction l as [|a l IH]; intros r Hr; [exact Hr|]. cbn [fold_left]. apply IH. now apply H. Qed.
Lemma ar_fold_right {A B} (f : A -> res B -> res B) l r : (forall a r, arithmetic r -> arithmetic (f a r)) -> arithmetic r -> arithmetic (fold_right f r l).
Proof. intros H Hr. induction l as [|a l IH]; [exact Hr|]. cbn [fold_right]. now apply H. Qed.

Create HintDb ar.
#[local] Hint Resolve ar_Ok ar_ov : ar.
Ltac ar := cbv zeta; repeat match goal with
  | |- arithmetic (bind _ _) => apply ar_bind; [|intros]
  | |- arithmetic (rmap _ _) => apply ar_rmap
  | |- arithmetic (let '(_, _) := ?x in _) => destruct x
  | |- arithmetic (if ?b then _ else _) => destruct b
  | |- arithmetic (Ok _) => exact Logic.I
  end; auto with ar.

Section Time.
Variables (d : datetime) (u : Z).
Hypothesis Hd : instant d u.

Lemma ar_aware : arithmetic (aware d). Proof. rewrite (GenProofs.instant_aware d u Hd). exact Logic.I. Qed.
Lemma ar_utc : arithmetic (utctimetuple d).
Proof. rewrite (instant_utctimetuple d u Hd). destruct (in_range u); [exact Logic.I|apply ar_ov]. Qed.
Lemma ar_leap : arithmetic (get_leap_seconds d).
Proof.
  unfold get_leap_seconds, get_leap_seconds_w. apply ar_rmap, ar_bind; [apply ar_aware|]. intros _.
  rewrite (instant_utctimetuple d u Hd). destruct (in_range u) eqn:E; [|apply ar_ov]. cbn [bind].
  fold (leap_at (f_year (fields_of_us u)) (f_mon (fields_of_us u))).
  rewrite leap_at_spec by apply fields_mon_range. exact Logic.I.
Qed.
Lemma ar_delta : arithmetic (get_delta_t_q d).
Proof.
  destruct (in_range u) eqn:E.
  - destruct (delta_t_total d u Hd E) as (q & -> & _). exact Logic.I.
  - unfold get_delta_t_q. apply ar_bind; [apply ar_aware|]. intros _. rewrite (instant_utctimetuple d u Hd), E. apply ar_ov.
Qed.
Lemma ar_offset : arithmetic (utcoffset d).
Proof. rewrite (GenProofs.instant_offset d u Hd). exact Logic.I. Qed.
Lemma ar_dt64 : arithmetic (datetime64_us d).
Proof. destruct Hd as (tz & o & E1 & E2 & _). unfold datetime64_us. rewrite E1, E2. exact Logic.I. Qed.
End Time.
Lemma ar_add d x : arithmetic (dt_add d x).
Proof. unfold dt_add. ar. Qed.

Section N.
Variable N : Num.
Hypothesis HN : arithmetic_num N.
Let q_div := ar_div N HN. Let q_fmod := ar_fmod N HN. Let q_sin := ar_sin N HN. Let q_cos := ar_cos N HN.
Let q_tan := ar_tan N HN. Let q_asin := ar_asin N HN. Let q_acos := ar_acos N HN. Let q_atan := ar_atan N HN.
Let q_atan2 := ar_atan2 N HN. Let q_exp := ar_exp N HN. Let q_truth := ar_truth N HN. Let q_hours := ar_hours N HN.
Lemma q_powi a n : (n <= 10)%nat -> arithmetic (@powi N a n). Proof. apply (ar_powi N HN). Qed.
Ltac pw := match goal with |- arithmetic (powi _ _) => apply q_powi; repeat constructor end.
Ltac go := repeat (progress (ar; try pw)).
#[local] Hint Resolve q_div q_fmod q_sin q_cos q_tan q_asin q_acos q_atan q_atan2 q_exp q_truth q_hours ar_add : ar.

Lemma ar_dict k : In k ["MeanElongationOfMoon"; "MeanAnomalyOfSun"; "MeanAnomalyOfMoon"; "ArgumentOfLatitudeOfMoon"; "LongitudeOfAscendingNode"]%string ->
  arithmetic (dict_get k aberration_coeffs_table).
Proof. cbn [In]. intros [<-|[<-|[<-|[<-|[<-|[]]]]]]; vm_compute; exact Logic.I. Qed.
Lemma ar_cubic c x : arithmetic (cubic (N := N) c x).
Proof. destruct c as [[[? ?] ?] ?]. unfold cubic. go. Qed.
Lemma ar_coeff t l : arithmetic (get_coeff (N := N) t l).
Proof.
  unfold get_coeff. apply ar_bind; [|intros; exact Logic.I]. apply ar_fold_left; [|exact Logic.I].
  intros r a Hr. ar. unfold coeff_line. apply ar_fold_left; [|exact Logic.I].
  intros r' [[a' b'] c'] Hr'. ar.
Qed.
Lemma ar_nutation t : arithmetic (get_nutation (N := N) t).
Proof.
  unfold get_nutation, get_nutation_st. cbn [get_aberration_coeffs fst]. unfold get_nutation_from.
  apply ar_bind.
  - unfold nutation_args. cbn [fold_right]. pose proof ar_cubic.
    repeat (apply ar_bind; [apply ar_dict; cbn [In]; tauto|intros; apply ar_bind; [auto|intros; apply ar_bind; [|intros; exact Logic.I]]]).
    exact Logic.I.
  - intros x. ar. unfold nutation_terms. apply ar_fold_right; [|exact Logic.I]. intros [[[[a0 a1] a2] a3] y] r Hr. unfold nutation_term. ar.
Qed.
#[local] Hint Resolve ar_coeff ar_nutation : ar.
Lemma ar_at lat lon el prd pad jd jde : arithmetic (topocentric_position_at (N := N) lat lon el prd pad jd jde).
Proof.
  unfold topocentric_position_at, get_julian_ephemeris_century, get_julian_ephemeris_millennium, get_geocentric_latitude,
      get_geocentric_longitude, get_heliocentric_latitude, get_heliocentric_longitude, get_sun_earth_distance,
      get_aberration_correction, get_equatorial_horizontal_parallax, get_apparent_sidereal_time, get_mean_sidereal_time, get_julian_century,
      get_true_ecliptic_obliquity, get_geocentric_sun_right_ascension, get_geocentric_sun_declination, get_local_hour_angle,
      get_parallax_sun_right_ascension, get_topocentric_sun_declination. go.
Qed.
Lemma ar_elev a b c : arithmetic (get_topocentric_elevation_angle (N := N) a b c).
Proof. unfold get_topocentric_elevation_angle. go. Qed.
Lemma ar_azi a b c : arithmetic (get_topocentric_azimuth_angle (N := N) a b c).
Proof. unfold get_topocentric_azimuth_angle. go. Qed.
Lemma ar_refr a b c : arithmetic (get_refraction_correction (N := N) a b c).
Proof. unfold get_refraction_correction. go. Qed.
Lemma ar_decl a : arithmetic (get_declination (N := N) a).
Proof. unfold get_declination. go. Qed.
#[local] Hint Resolve ar_at ar_elev ar_azi ar_refr ar_decl : ar.

Variables (d : datetime) (u : Z).
Hypothesis Hd : instant d u.
Let t_aware := ar_aware d u Hd. Let t_utc := ar_utc d u Hd. Let t_leap := ar_leap d u Hd. Let t_delta := ar_delta d u Hd. Let t_off := ar_offset d u Hd.
Let t_64 := ar_dt64 d u Hd.
#[local] Hint Resolve t_aware t_utc t_leap t_delta t_off t_64 : ar.

Lemma ar_timestamp : arithmetic (timestamp (N := N) d).
Proof. unfold timestamp. rewrite (instant_timestamp d u Hd). exact Logic.I. Qed.
#[local] Hint Resolve ar_timestamp : ar.
Lemma ar_dt : arithmetic (get_delta_t (N := N) d). Proof. unfold get_delta_t. go. Qed.
#[local] Hint Resolve ar_dt : ar.
Lemma ar_jd : arithmetic (get_julian_solar_day (N := N) d). Proof. unfold get_julian_solar_day. go. Qed.
Lemma ar_jde : arithmetic (get_julian_ephemeris_day (N := N) d). Proof. unfold get_julian_ephemeris_day. go. Qed.
#[local] Hint Resolve ar_jd ar_jde : ar.
Lemma ar_topo lat lon el : arithmetic (get_topocentric_position (N := N) lat lon d el).
Proof.
  unfold get_topocentric_position. go.
  - unfold get_projected_radial_distance, get_flattened_latitude. go.
  - unfold get_projected_axial_distance, get_flattened_latitude. go.
Qed.
#[local] Hint Resolve ar_topo : ar.
Lemma ar_position lat lon el t p : arithmetic (get_position (N := N) lat lon d el t p). Proof. unfold get_position. go. Qed.
Lemma ar_altitude lat lon el t p : arithmetic (get_altitude (N := N) lat lon d el t p). Proof. unfold get_altitude. go. Qed.
Lemma ar_azimuth lat lon el : arithmetic (get_azimuth (N := N) lat lon d el). Proof. unfold get_azimuth. go. Qed.
#[local] Hint Resolve ar_position ar_altitude ar_azimuth : ar.
Lemma ar_sst lat lon : arithmetic (get_sunrise_sunset_transit (N := N) lat lon d).
Proof.
  unfold get_sunrise_sunset_transit. go. unfold sunrise_hours, sunrise_declination, sunrise_time_adjustment, sunrise_half_day. go.
Qed.
#[local] Hint Resolve ar_sst : ar.
Lemma ar_ss lat lon : arithmetic (get_sunrise_sunset (N := N) lat lon d). Proof. unfold get_sunrise_sunset. go. Qed.
Lemma ar_sr lat lon : arithmetic (get_sunrise_time (N := N) lat lon d). Proof. unfold get_sunrise_time. go. Qed.
Lemma ar_sset lat lon : arithmetic (get_sunset_time (N := N) lat lon d). Proof. unfold get_sunset_time. go. Qed.
Lemma ar_tr lat lon : arithmetic (get_transit_time (N := N) lat lon d). Proof. unfold get_transit_time. go. Qed.
Lemma ar_yday : arithmetic (utc_yday (N := N) d). Proof. unfold utc_yday. go. Qed.
#[local] Hint Resolve ar_yday : ar.
Lemma ar_mean : arithmetic (mean_earth_sun_distance (N := N) d). Proof. unfold mean_earth_sun_distance. go. Qed.
Lemma ar_decldeg TY : arithmetic (declination_degree (N := N) d TY). Proof. unfold declination_degree. go. Qed.
#[local] Hint Resolve ar_mean ar_decldeg : ar.
Lemma ar_clear lat lon t p el : arithmetic (solarelevation_function_clear (N := N) lat lon d t p el). Proof. unfold solarelevation_function_clear. go. Qed.
Lemma ar_overcast lat lon el t p : arithmetic (solarelevation_function_overcast (N := N) lat lon d el t p). Proof. unfold solarelevation_function_overcast. go. Qed.
Lemma ar_duc lat lon el t p TL : arithmetic (diffuse_underclear (N := N) lat lon d el t p TL). Proof. unfold diffuse_underclear. go. Qed.
Lemma ar_duo lat lon el t p TL : arithmetic (diffuse_underovercast (N := N) lat lon d el t p TL). Proof. unfold diffuse_underovercast. go. Qed.
Lemma ar_dir lat lon TY AM TL el t p : arithmetic (direct_underclear (N := N) lat lon d TY AM TL el t p). Proof. unfold direct_underclear. go. Qed.
#[local] Hint Resolve ar_duc ar_dir : ar.
Lemma ar_gic lat lon TY AM TL el t p : arithmetic (global_irradiance_clear (N := N) lat lon d TY AM TL el t p). Proof. unfold global_irradiance_clear. go. Qed.
Lemma ar_gio lat lon el t p : arithmetic (global_irradiance_overcast (N := N) lat lon d el t p). Proof. unfold global_irradiance_overcast. go. Qed.

Lemma aware_arithmetic :
  arithmetic (get_leap_seconds d) /\ arithmetic (get_delta_t (N := N) d) /\
  arithmetic (get_julian_solar_day (N := N) d) /\ arithmetic (get_julian_ephemeris_day (N := N) d) /\
  (forall lat lon el, arithmetic (get_topocentric_position (N := N) lat lon d el)) /\
  (forall lat lon el t p, arithmetic (get_position (N := N) lat lon d el t p)) /\
  (forall lat lon el t p, arithmetic (get_altitude (N := N) lat lon d el t p)) /\
  (forall lat lon el, arithmetic (get_azimuth (N := N) lat lon d el)) /\
  (forall lat lon, arithmetic (get_sunrise_sunset_transit (N := N) lat lon d)) /\
  (forall lat lon, arithmetic (get_sunrise_sunset (N := N) lat lon d)) /\
  (forall lat lon, arithmetic (get_sunrise_time (N := N) lat lon d)) /\
  (forall lat lon, arithmetic (get_sunset_time (N := N) lat lon d)) /\
  (forall lat lon, arithmetic (get_transit_time (N := N) lat lon d)) /\
  arithmetic (mean_earth_sun_distance (N := N) d) /\
  (forall TY, arithmetic (declination_degree (N := N) d TY)) /\
  (forall lat lon t p el, arithmetic (solarelevation_function_clear (N := N) lat lon d t p el)) /\
  (forall lat lon el t p, arithmetic (solarelevation_function_overcast (N := N) lat lon d el t p)) /\
  (forall lat lon el t p TL, arithmetic (diffuse_underclear (N := N) lat lon d el t p TL)) /\
  (forall lat lon el t p TL, arithmetic (diffuse_underovercast (N := N) lat lon d el t p TL)) /\
  (forall lat lon TY AM TL el t p, arithmetic (direct_underclear (N := N) lat lon d TY AM TL el t p)) /\
  (forall lat lon TY AM TL el t p, arithmetic (global_irradiance_clear (N := N) lat lon d TY AM TL el t p)) /\
  (forall lat lon el t p, arithmetic (global_irradiance_overcast (N := N) lat lon d el t p)).
Proof.
  repeat split; intros.
  all: first [apply t_leap|apply ar_dt|apply ar_jd|apply ar_jde|apply ar_topo|apply ar_position|apply ar_altitude|apply ar_azimuth|apply ar_sst|apply ar_ss
    |apply ar_sr|apply ar_sset|apply ar_tr|apply ar_mean|apply ar_decldeg|apply ar_clear|apply ar_overcast|apply ar_duc|apply ar_duo|apply ar_dir|apply ar_gic|apply ar_gio].
Qed.

Section C.
Variables (C : Clock N) (toD : datetime -> D C).
Hypothesis (K0 : arithmetic (aware_check C (toD d))) (K1 : arithmetic (tm_yday C (toD d)))
  (K2 : arithmetic (tm_hour C (toD d))) (K3 : arithmetic (tm_min C (toD d))).
#[local] Hint Resolve K0 K1 K2 K3 : ar.
Lemma ar_solar lon : arithmetic (get_solar_time (N := N) lon (toD d)). Proof. unfold get_solar_time, equation_of_time. go. Qed.
#[local] Hint Resolve ar_solar : ar.
Lemma ar_hour lon : arithmetic (get_hour_angle (N := N) (toD d) lon). Proof. unfold get_hour_angle. go. Qed.
#[local] Hint Resolve ar_hour : ar.
Lemma ar_altf lat lon : arithmetic (get_altitude_fast (N := N) lat lon (toD d)). Proof. unfold get_altitude_fast. go. Qed.
#[local] Hint Resolve ar_altf : ar.
Lemma ar_azif lat lon : arithmetic (get_azimuth_fast (N := N) lat lon (toD d)). Proof. unfold get_azimuth_fast. go. Qed.
Lemma ar_extra lat lon sc : arithmetic (extraterrestrial_irrad (N := N) toD lat lon d sc). Proof. unfold extraterrestrial_irrad. go. Qed.
#[local] Hint Resolve ar_extra : ar.
Lemma ar_index ghi lat lon : arithmetic (clear_index (N := N) toD ghi lat lon d). Proof. unfold clear_index. go. Qed.
Lemma ar_rad alt : arithmetic (get_radiation_direct (N := N) (toD d) alt).
Proof.
  unfold get_radiation_direct, get_apparent_extraterrestrial_flux, get_optical_depth. go.
  unfold get_air_mass_ratio.
  assert (K : arithmetic (s <- @nsin N (radians alt) ;; div (lit 1) s)) by go.
  destruct (bind _ _) as [x|e]; [exact Logic.I|]. destruct e; try exact Logic.I; exact K.
Qed.
Lemma aware_arithmetic_clock :
  (forall lon, arithmetic (get_solar_time (N := N) lon (toD d))) /\
  (forall lon, arithmetic (get_hour_angle (N := N) (toD d) lon)) /\
  (forall lat lon, arithmetic (get_altitude_fast (N := N) lat lon (toD d))) /\
  (forall lat lon, arithmetic (get_azimuth_fast (N := N) lat lon (toD d))) /\
  (forall alt, arithmetic (get_radiation_direct (N := N) (toD d) alt)) /\
  (forall lat lon sc, arithmetic (extraterrestrial_irrad (N := N) toD lat lon d sc)) /\
  (forall ghi lat lon, arithmetic (clear_index (N := N) toD ghi lat lon d)).
Proof. exact (conj ar_solar (conj ar_hour (conj ar_altf (conj ar_azif (conj ar_rad (conj ar_extra ar_index)))))). Qed.
End C.
Lemma aware_arithmetic_math :
  (forall lon, arithmetic (get_solar_time (N := N) (C := clock_math N) lon d)) /\
  (forall lon, arithmetic (get_hour_angle (N := N) (C := clock_math N) d lon)) /\
  (forall lat lon, arithmetic (get_altitude_fast (N := N) (C := clock_math N) lat lon d)) /\
  (forall lat lon, arithmetic (get_azimuth_fast (N := N) (C := clock_math N) lat lon d)) /\
  (forall alt, arithmetic (get_radiation_direct (N := N) (C := clock_math N) d alt)) /\
  (forall lat lon sc, arithmetic (extraterrestrial_irrad (N := N) (C := clock_math N) (fun x => x) lat lon d sc)) /\
  (forall ghi lat lon, arithmetic (clear_index (N := N) (C := clock_math N) (fun x => x) ghi lat lon d)).
Proof.
  apply (aware_arithmetic_clock (clock_math N) (fun x => x)); cbn [clock_math aware_check tm_yday tm_hour tm_min];
    unfold tm_yday_math, tm_hour_math, tm_min_math; go.
Qed.
Lemma aware_arithmetic_numpy :
  (forall lon, arithmetic (get_solar_time (N := N) (C := clock_numpy N) lon d)) /\
  (forall lon, arithmetic (get_hour_angle (N := N) (C := clock_numpy N) d lon)) /\
  (forall lat lon, arithmetic (get_altitude_fast (N := N) (C := clock_numpy N) lat lon d)) /\
  (forall lat lon, arithmetic (get_azimuth_fast (N := N) (C := clock_numpy N) lat lon d)) /\
  (forall alt, arithmetic (get_radiation_direct (N := N) (C := clock_numpy N) d alt)) /\
  (forall lat lon sc, arithmetic (extraterrestrial_irrad (N := N) (C := clock_numpy N) (fun x => x) lat lon d sc)) /\
  (forall ghi lat lon, arithmetic (clear_index (N := N) (C := clock_numpy N) (fun x => x) ghi lat lon d)).
Proof.
  apply (aware_arithmetic_clock (clock_numpy N) (fun x => x)); cbn [clock_numpy aware_check tm_yday tm_hour tm_min];
    unfold tm_yday_numpy, tm_hour_numpy, tm_min_numpy; go.
Qed.
End N.

(* binary64, whatever the C library *)
Lemma math1_ar e f x : e = ValueError \/ e = OverflowError -> arithmetic (math_1 e f x).
Proof. intros H. unfold math_1. repeat match goal with |- context [if ?b then _ else _] => destruct b end; cbn; tauto. Qed.
Lemma int_exp n : (n <= 10)%nat -> is_integer (flit (inject_Z (Z.of_nat n))) = true.
Proof. intros H. do 11 (destruct n as [|n]; [vm_compute; reflexivity|]). lia. Qed.
Lemma pow_ar L x n : (n <= 10)%nat -> arithmetic (py_pow L x (flit (inject_Z (Z.of_nat n)))).
Proof.
  intros H. unfold py_pow. rewrite (int_exp n H). cbv zeta. cbn [negb]. rewrite Bool.andb_false_r.
  repeat match goal with |- context [if ?b then _ else _] => destruct b end; cbn; tauto.
Qed.
Lemma fmod_ar x y : arithmetic (py_fmod x y).
Proof. unfold py_fmod. cbv zeta. repeat match goal with |- context [if ?b then _ else _] => destruct b end; cbn; tauto. Qed.
Lemma hours_ar x : arithmetic (py_timedelta_hours x).
Proof.
  assert (K : forall (b : bool) (z : Z), arithmetic (if b then Ok z else Err OverflowError)) by (intros []; [intros; exact Logic.I|intros; right; right; reflexivity]).
  unfold py_timedelta_hours. destruct x; [apply K|right; right; reflexivity|left; reflexivity|apply K].
Qed.
Lemma b64_arithmetic L : arithmetic_num (B64 L).
Proof.
  constructor; intros.
  - cbn. destruct (is_zero b); cbn; tauto.
  - apply fmod_ar.
  - now apply pow_ar.
  - apply math1_ar; tauto.
  - apply math1_ar; tauto.
  - apply math1_ar; tauto.
  - apply math1_ar; tauto.
  - apply math1_ar; tauto.
  - apply math1_ar; tauto.
  - cbn. unfold math_2. cbv zeta. repeat match goal with |- context [if ?b then _ else _] => destruct b end; cbn; tauto.
  - apply math1_ar; tauto.
  - exact Logic.I.
  - apply hours_ar.
Qed.
Lemma np64_arithmetic L : arithmetic_num (Np64 L).
Proof.
  constructor; intros; try exact Logic.I.
  - cbn [div Np64]. unfold py_or_np. destruct (_ || _)%bool; [exact Logic.I|]. apply ar_rmap. apply (ar_div _ (b64_arithmetic L)).
  - cbn [fmod Np64]. unfold py_or_np. destruct (_ || _)%bool; [exact Logic.I|]. apply ar_rmap. apply fmod_ar.
  - cbn [powi Np64]. unfold py_or_np. destruct (_ || _)%bool; [exact Logic.I|]. apply ar_rmap. cbn [vf]. now apply pow_ar.
  - apply hours_ar.
Qed.

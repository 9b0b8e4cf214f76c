(* elevation.py and the irradiance part of util.py over the reals. *)
From Coq Require Import Reals Qreals Lra Lia.
From Interval Require Import Tactic.
From Coquelicot Require Import Coquelicot.
From Verif Require Import Py Num Cal TzCheck Clock Constants SolarTime Solar Elevation Util GenProofs
  RInst RTac Trig GeoProofs FastProofs SpecTime SpecDt SpecGeom SpecEng.
Local Open Scope R_scope.

(* ---------------------------------------------------------------- C44 *)
Definition barometric (Ps Ts Tl Hb Rg g M h : R) : R :=
  Ps * Rpower (Ts / (Ts + Tl * (h - Hb))) (g * M / (Rg * Tl)).

Lemma pressure_val h Ps Ts Tl Hb Rg g M : 0 < Ts -> Tl <> 0 -> Rg <> 0 -> 0 < Ts + Tl * (h - Hb) ->
  get_pressure_with_elevation_w (N := MathR) (Fin h) (Fin Ps) (Fin Ts) (Fin Tl) (Fin Hb) (Fin Rg) (Fin g) (Fin M) =
  Ok (Fin (barometric Ps Ts Tl Hb Rg g M h), Rbool_lt 11000 h).
Proof.
  intros HT Hl HR HP. assert (Rg * Tl <> 0) by (apply Rmult_integral_contrapositive_currified; assumption).
  assert (0 < Ts / (Ts + Tl * (h - Hb))) by now apply Rdiv_lt_0_compat.
  unfold get_pressure_with_elevation_w. rx.
  replace (Q2R 11000.0) with 11000 by (unfold Q2R; simpl; lra). reflexivity.
Qed.

Lemma barometric_derive Ps Ts Tl Hb Rg g M h : 0 < Ts -> Tl <> 0 -> Rg <> 0 -> 0 < Ts + Tl * (h - Hb) ->
  derivable_pt_lim (barometric Ps Ts Tl Hb Rg g M) h
    (- (g * M / Rg) * barometric Ps Ts Tl Hb Rg g M h / (Ts + Tl * (h - Hb))).
Proof.
  intros HT Hl HR HP. apply is_derive_Reals. unfold barometric, Rpower.
  assert (0 < Ts / (Ts + Tl * (h - Hb))) by now apply Rdiv_lt_0_compat.
  auto_derive.
  - repeat split; try lra. apply Rmult_lt_0_compat; [lra|apply Rinv_0_lt_compat; lra].
  - change (Ts * / (Ts + Tl * (h + - Hb))) with (Ts / (Ts + Tl * (h - Hb))).
    set (E := exp _). change (h + - Hb) with (h - Hb). field. repeat split; lra.
Qed.

Lemma pressure_hydrostatic Ps Ts Tl Hb Rg g M : 0 < Ts -> Tl <> 0 -> Rg <> 0 ->
  exists P : R -> R,
    (forall h, 0 < Ts + Tl * (h - Hb) ->
       get_pressure_with_elevation (N := MathR) (Fin h) (Fin Ps) (Fin Ts) (Fin Tl) (Fin Hb) (Fin Rg) (Fin g) (Fin M) = Ok (Fin (P h)) /\
       derivable_pt_lim P h (- (g * M / Rg) * P h / (Ts + Tl * (h - Hb)))) /\
    P Hb = Ps.
Proof.
  intros HT Hl HR. exists (barometric Ps Ts Tl Hb Rg g M). split.
  - intros h HP. split; [|now apply barometric_derive]. unfold get_pressure_with_elevation. now rewrite pressure_val.
  - unfold barometric. replace (Ts / (Ts + Tl * (Hb - Hb))) with 1 by (field; lra).
    unfold Rpower. rewrite ln_1, Rmult_0_r, exp_0. ring.
Qed.

(* the standard atmosphere, in the usual direction: (T/Ts)^(gM/(R L)) with L = 6.5 K/km *)
Definition standard_atmosphere (h : R) : R :=
  101325 * Rpower ((288.15 - 0.0065 * h) / 288.15) (9.80665 * 0.0289644 / (8.31432 * 0.0065)).

Lemma Rpower_inv x y : 0 < x -> Rpower (/ x) (- y) = Rpower x y.
Proof. intros H. unfold Rpower. rewrite ln_Rinv by assumption. f_equal. ring. Qed.

Lemma pressure_default_val h : 0 < 288.15 - 0.0065 * h ->
  get_pressure_with_elevation_w (N := MathR) (Fin h) standard_pressure standard_temperature
    earth_temperature_lapse_rate (lit 0.0) air_gas_constant earth_gravity earth_atmosphere_molar_mass =
  Ok (Fin (standard_atmosphere h), Rbool_lt 11000 h).
Proof.
  intros HP. unfold standard_pressure, standard_temperature, earth_temperature_lapse_rate, air_gas_constant, earth_gravity,
    earth_atmosphere_molar_mass. cbn [lit MathR].
  replace (Q2R 0.0) with 0 by (unfold Q2R; simpl; lra). replace (Q2R 101325.00) with 101325 by (unfold Q2R; simpl; lra).
  rewrite pressure_val; [|lra|lra|lra|]. 2:{ replace (288.15 + -0.0065 * (h - 0)) with (288.15 - 0.0065 * h) by lra. lra. }
  do 2 f_equal. f_equal. unfold barometric, standard_atmosphere. f_equal.
  replace (288.15 / (288.15 + -0.0065 * (h - 0))) with (/ ((288.15 - 0.0065 * h) / 288.15)).
  2:{ replace (288.15 + -0.0065 * (h - 0)) with (288.15 - 0.0065 * h) by lra. field. split; lra. }
  replace (9.80665 * 0.0289644 / (8.31432 * -0.0065)) with (- (9.80665 * 0.0289644 / (8.31432 * 0.0065))).
  - apply Rpower_inv. apply Rdiv_lt_0_compat; lra.
  - unfold Q2R; simpl. field.
Qed.

Lemma pressure_default_correct :
  (forall h, h < 44330.7 -> exists p t,
     pressure_default (N := MathR) (Fin h) = Ok (Fin p) /\ temperature_default (N := MathR) (Fin h) = Fin t /\
     t = 288.15 - 0.0065 * h /\ 0 < t /\ 0 < p /\
     p = 101325 * Rpower (t / 288.15) (9.80665 * 0.0289644 / (8.31432 * 0.0065)) /\
     exists w, get_pressure_with_elevation_w (N := MathR) (Fin h) standard_pressure standard_temperature
       earth_temperature_lapse_rate (lit 0.0) air_gas_constant earth_gravity earth_atmosphere_molar_mass = Ok (Fin p, w) /\
       (w = true <-> 11000 < h)) /\
  pressure_default (N := MathR) (Fin 0) = Ok (Fin 101325) /\
  (forall h h', h < h' -> h' < 44330.7 -> exists p p',
     pressure_default (N := MathR) (Fin h) = Ok (Fin p) /\ pressure_default (N := MathR) (Fin h') = Ok (Fin p') /\ p' < p).
Proof.
  assert (V : forall h, h < 44330.7 -> pressure_default (N := MathR) (Fin h) = Ok (Fin (standard_atmosphere h))).
  { intros h Hh. unfold pressure_default, get_pressure_with_elevation. rewrite pressure_default_val by lra. reflexivity. }
  split; [|split].
  - intros h Hh. exists (standard_atmosphere h), (288.15 - 0.0065 * h). split; [now apply V|].
    split. { unfold temperature_default, get_temperature_with_elevation, standard_temperature, earth_temperature_lapse_rate. rx. f_equal. lra. }
    split; [reflexivity|]. split; [lra|]. split.
    { unfold standard_atmosphere. apply Rmult_lt_0_compat; [lra|]. apply exp_pos. }
    split; [reflexivity|]. eexists. split; [apply pressure_default_val; lra|].
    unfold Rbool_lt. destruct (Rlt_dec 11000 h); split; intros; try discriminate; tauto.
  - rewrite V by lra. do 2 f_equal. unfold standard_atmosphere.
    replace ((288.15 - 0.0065 * 0) / 288.15) with 1 by (field; lra). unfold Rpower. rewrite ln_1, Rmult_0_r, exp_0. ring.
  - intros h h' L L'. do 2 eexists. split; [apply V; lra|]. split; [now apply V|].
    unfold standard_atmosphere. apply Rmult_lt_compat_l; [lra|]. apply Rlt_Rpower_l; [interval|]. split; [apply Rdiv_lt_0_compat; lra|lra].
Qed.

(* beyond the end of the troposphere of that model *)
Lemma pressure_default_top : pressure_default (N := MathR) (Fin (288.15 / 0.0065)) = Err ZeroDivisionError.
Proof.
  unfold pressure_default, get_pressure_with_elevation, get_pressure_with_elevation_w,
    standard_pressure, standard_temperature, earth_temperature_lapse_rate. rx.
  replace (288.15 + -0.0065 * (288.15 / 0.0065 - Q2R 0.0)) with 0. { rewrite div_R0. reflexivity. }
  unfold Q2R; simpl. field.
Qed.

(* ---------------------------------------------------------------- C47 *)
Lemma utc_yday_val d u day h m : instant d u -> in_range u = true -> civil_clock u day h m ->
  utc_yday (N := MathR) d = Ok (Fin (IZR day)).
Proof.
  intros Hi Hr Hc. apply civil_clock_fields in Hc as (<- & _ & _). unfold utc_yday.
  rewrite (instant_utctimetuple d u Hi), Hr. cbn. now rewrite Q2R_inject.
Qed.

Lemma distance_constant d u : instant d u -> in_range u = true -> mean_earth_sun_distance (N := MathR) d = Ok (Fin 1).
Proof.
  intros Hi Hr. destruct (civil_clock_exists u) as (day & h & m & Hc).
  unfold mean_earth_sun_distance. rewrite (instant_aware d u Hi), bind_Ok, (utc_yday_val d u day h m Hi Hr Hc), bind_Ok. rx.
  do 2 f_equal. replace (sin (2 * PI * (IZR day - 94))) with 0; [field|].
  rewrite <- minus_IZR. rewrite <- sin_0. symmetry. rewrite <- (sin_2kPI 0 (day - 94)). f_equal. ring.
Qed.

(* ---------------------------------------------------------------- C45 *)
Lemma eccentricity_range n : 0.9638 <= spencer_eccentricity n <= 1.0364.
Proof.
  unfold spencer_eccentricity. cbv zeta. set (t := 360 * (n - 1) / 365).
  pose proof (sind_bound t). pose proof (sind_bound (2 * t)). pose proof (cosd_bound t). pose proof (cosd_bound (2 * t)). lra.
Qed.

Lemma irradiance_val d u day h m lat lon SC : instant d u -> in_range u = true -> civil_clock u day h m ->
  let v := equatorial (masters_declination (IZR day)) (masters_hour_angle (IZR day) (IZR h) (IZR m) lon) in
  extraterrestrial_irrad (N := MathR) (C := clock_math MathR) (fun d => d) (Fin lat) (Fin lon) d (Fin SC) =
  Ok (Fin (if Rbool_lt 0 (dot v (up lat)) then SC * dot v (up lat) * spencer_eccentricity (IZR day) else 0)).
Proof.
  intros Hi Hr Hc v. unfold extraterrestrial_irrad.
  rewrite (instant_aware d u Hi), bind_Ok, (utc_yday_val d u day h m Hi Hr Hc), bind_Ok. rx.
  rewrite declination_val, bind_Ok. rewrite (hour_angle_val d u day h m lon Hi Hr Hc), bind_Ok.
  set (de := masters_declination (IZR day)) in *. set (ha := masters_hour_angle (IZR day) (IZR h) (IZR m) lon) in *. rx.
  rewrite <- !sind_rad, <- !cosd_rad.
  replace (sind lat * sind de + cosd lat * cosd de * cosd ha) with (dot v (up lat)) by (unfold v, dot, up, equatorial; ring).
  destruct (Rbool_lt 0 (dot v (up lat))). 2:{ replace (Q2R 0.0) with 0 by (unfold Q2R; simpl; lra). reflexivity. }
  do 2 f_equal. f_equal. unfold spencer_eccentricity. cbv zeta. unfold sind, cosd.
  replace (Q2R 365.0) with 365 by (unfold Q2R; simpl; lra). replace (Q2R 1.0) with 1 by (unfold Q2R; simpl; lra).
  replace (2 * PI * (IZR day - 1) / 365) with (360 * (IZR day - 1) / 365 * PI / 180) by field.
  replace (2 * (360 * (IZR day - 1) / 365) * PI / 180) with (2 * (360 * (IZR day - 1) / 365 * PI / 180)) by field.
  unfold Q2R; simpl. lra.
Qed.

Lemma irradiance_correct d u day h m lat lon : instant d u -> in_range u = true -> civil_clock u day h m ->
  exists e, get_altitude_fast (N := MathR) (C := clock_math MathR) (Fin lat) (Fin lon) d = Ok (Fin e) /\
  forall SC, exists v,
    extraterrestrial_irrad (N := MathR) (C := clock_math MathR) (fun d => d) (Fin lat) (Fin lon) d (Fin SC) = Ok (Fin v) /\
    (e <= 0 -> v = 0) /\
    (0 < e -> v = SC * sind e * spencer_eccentricity (IZR day)) /\
    (0 <= SC -> 0 <= v <= 1.0364 * SC) /\ (0 < SC -> 0 < e -> 0 < v).
Proof.
  intros Hi Hr Hc. destruct (altitude_fast_val d u day h m lat lon Hi Hr Hc) as (Hb & Ea). cbv zeta in Hb, Ea.
  set (z := dot _ _) in *. eexists. split; [exact Ea|]. intros SC. eexists. split; [exact (irradiance_val d u day h m lat lon SC Hi Hr Hc)|].
  fold z. set (e := deg (asin z)) in *.
  assert (Se : sind e = z) by (unfold e; rewrite sind_deg; now apply sin_asin).
  pose proof (deg_asin_range z) as Re. fold e in Re.
  assert (S1 : e <= 0 -> z <= 0).
  { intros H. rewrite <- Se, <- sind_0. destruct H as [H| ->]; [left; apply sind_incr; lra|right; reflexivity]. }
  assert (S2 : 0 < e -> 0 < z) by (intros H; rewrite <- Se; apply sind_pos; lra).
  pose proof (eccentricity_range (IZR day)) as Ec. set (c := spencer_eccentricity (IZR day)) in *. clearbody c.
  unfold Rbool_lt. destruct (Rlt_dec 0 z) as [L|L].
  - split; [intros H; specialize (S1 H); lra|]. split; [intros; now rewrite Se|]. split.
    + intros HS. assert (0 <= z * c <= 1.0364) by (split; nra). split; nra.
    + intros. apply Rmult_lt_0_compat; [now apply Rmult_lt_0_compat|lra].
  - split; [reflexivity|]. split; [intros H; specialize (S2 H); lra|]. split; [intros; lra|]. intros _ H. specialize (S2 H). lra.
Qed.

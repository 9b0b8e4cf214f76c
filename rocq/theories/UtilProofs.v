(* The sky-model functions of util.py over the reals. *)
From Coq Require Import Reals Qreals Lra Lia.
From Interval Require Import Tactic.
From Verif Require Import Py Num Cal TzCheck Clock Constants SolarTime Solar Util RInst RTac
  SpecTime SpecDt SpecGeom SpecEng Trig GeoProofs RefractionProofs GenProofs FastProofs PositionProofs IrradianceProofs AttainProofs Samples.
Local Open Scope R_scope.

(* ---------------------------------------------------------------- C58 declination_degree *)
Lemma declination_degree_val d u day h m TY : instant d u -> in_range u = true -> civil_clock u day h m -> TY <> 0 ->
  declination_degree (N := MathR) d (Fin TY) = Ok (Fin (yearly_declination TY (IZR day))).
Proof.
  intros Hi Hr Hc HT. unfold declination_degree, earth_axis_inclination.
  rewrite (instant_aware d u Hi), bind_Ok. rx. rewrite (utc_yday_val d u day h m Hi Hr Hc), bind_Ok. rx.
  reflexivity.
Qed.

Lemma declination_degree_correct d u day h m : instant d u -> in_range u = true -> civil_clock u day h m ->
  (forall TY, TY <> 0 -> exists x, declination_degree (N := MathR) d (Fin TY) = Ok (Fin x) /\
     x = yearly_declination TY (IZR day) /\ -23.45 <= x <= 23.45) /\
  declination_degree (N := MathR) d (Fin 365) = get_declination (N := MathR) (Fin (IZR day)) /\
  declination_degree (N := MathR) d (Fin 0) = Err ZeroDivisionError.
Proof.
  intros Hi Hr Hc. split; [|split].
  - intros TY HT. eexists. split; [now apply (declination_degree_val d u day h m)|]. split; [reflexivity|].
    unfold yearly_declination. pose proof (SIN_bound (2 * PI / TY * (IZR day - 81))). lra.
  - rewrite (declination_degree_val d u day h m 365 Hi Hr Hc) by lra. rewrite declination_val. do 2 f_equal.
    unfold yearly_declination, masters_declination, sind. do 2 f_equal. lra.
  - unfold declination_degree. rewrite (instant_aware d u Hi), bind_Ok. rewrite lit_R, npi_R, mul_R, div_R0. reflexivity.
Qed.

(* ---------------------------------------------------------------- C59, C60: what the functions compute *)
Section At.
Context (lat lon el T P : Rx) (d : datetime) (u : Z) (a : R).
Context (Hi : instant d u) (Hr : in_range u = true).
Context (Ha : get_altitude (N := MathR) lat lon d el T P = Ok (Fin a)).

Lemma half_square x : 0.5 * (1 - cos (2 * x)) = sin x ^ 2.
Proof. rewrite cos_2a. pose proof (sin2_cos2 x). unfold Rsqr in *. lra. Qed.

Lemma elevation_clear_val : solarelevation_function_clear (N := MathR) lat lon d T P el = Ok (Fin (younes_clear (sin a))).
Proof.
  unfold solarelevation_function_clear. rewrite (instant_aware d u Hi), bind_Ok, Ha, bind_Ok. rx. do 2 f_equal.
  unfold younes_clear. rewrite <- half_square. lra.
Qed.

Lemma elevation_overcast_val : solarelevation_function_overcast (N := MathR) lat lon d el T P = Ok (Fin (younes_overcast (sin a))).
Proof.
  unfold solarelevation_function_overcast. rewrite (instant_aware d u Hi), bind_Ok, Ha, bind_Ok. rx. do 2 f_equal.
  unfold younes_overcast. rewrite <- half_square. lra.
Qed.

Lemma diffuse_clear_val TL : diffuse_underclear (N := MathR) lat lon d el T P (Fin TL) = Ok (Fin (younes_diffuse TL * a)).
Proof.
  unfold diffuse_underclear. rewrite (instant_aware d u Hi), bind_Ok, Ha, bind_Ok, (distance_constant d u Hi Hr), bind_Ok. rx. do 2 f_equal.
  unfold younes_diffuse. lra.
Qed.

Lemma diffuse_overcast_val TL : diffuse_underovercast (N := MathR) lat lon d el T P (Fin TL) = Ok (Fin (younes_diffuse TL * a)).
Proof.
  unfold diffuse_underovercast. rewrite (instant_aware d u Hi), bind_Ok, (distance_constant d u Hi Hr), bind_Ok, Ha, bind_Ok. rx. do 2 f_equal.
  unfold younes_diffuse. lra.
Qed.

Lemma global_overcast_val : global_irradiance_overcast (N := MathR) lat lon d el T P = Ok (Fin (572 * a)).
Proof. unfold global_irradiance_overcast. rewrite (instant_aware d u Hi), bind_Ok, Ha, bind_Ok. rx. reflexivity. Qed.

Lemma direct_val day h m TY AM TL : civil_clock u day h m -> TY <> 0 ->
  let x := - 0.8662 * AM * TL * yearly_declination TY (IZR day) in exp x < float_overflow ->
  direct_underclear (N := MathR) lat lon d (Fin TY) (Fin AM) (Fin TL) el T P = Ok (Fin (1367 * exp x * sin a)).
Proof.
  intros Hc HT x Hx. unfold direct_underclear.
  rewrite (instant_aware d u Hi), bind_Ok, (distance_constant d u Hi Hr), bind_Ok, (declination_degree_val d u day h m TY Hi Hr Hc HT), bind_Ok.
  rewrite lit_R, !mul_R. replace (Q2R (-0.8662) * AM * TL * yearly_declination TY (IZR day)) with x by (unfold x; lra).
  rewrite nexp_R by exact Hx. rewrite bind_Ok, Ha, bind_Ok. rx. do 2 f_equal. lra.
Qed.
End At.

(* ---------------------------------------------------------------- C59 *)
Lemma overcast_not_equal lat lon el T P d u a : instant d u -> in_range u = true ->
  get_altitude (N := MathR) lat lon d el T P = Ok (Fin a) -> a <> 0 ->
  forall TL, 0 <= TL <= 10 -> exists g f,
    global_irradiance_overcast (N := MathR) lat lon d el T P = Ok (Fin g) /\
    diffuse_underovercast (N := MathR) lat lon d el T P (Fin TL) = Ok (Fin f) /\ g <> f.
Proof.
  intros Hi Hr Ha Hn TL HT. do 2 eexists. split; [eapply (global_overcast_val _ _ _ _ _ d u); eassumption|].
  split; [eapply (diffuse_overcast_val _ _ _ _ _ d u); eassumption|]. intros E.
  assert (TL ^ 2 <= 100) by nra. assert (younes_diffuse TL < 572) by (unfold younes_diffuse; lra).
  assert (572 - younes_diffuse TL = 0); [|lra]. apply (Rmult_eq_reg_r a); [|exact Hn]. lra.
Qed.

Lemma standard_altitude d u e : instant d u -> in_range u = true -> 10 <= e <= 60 -> exists lon a, -180 <= lon < 180 /\
  e <= a /\ a = e + refraction_formula 101325 288.15 e /\
  get_altitude_default (N := MathR) (Fin 0) (Fin lon) d = Ok (Fin a) /\
  get_altitude (N := MathR) (Fin 0) (Fin lon) d elevation_default standard_temperature standard_pressure = Ok (Fin a).
Proof.
  intros Hi Hr He. destruct (altitude_at_elevation d u e 288.15 101325 Hi Hr ltac:(lra) ltac:(lra)) as (lon & Hl & Ea).
  exists lon. eexists. split; [exact Hl|]. split; [|split; [reflexivity|]].
  { assert (0 <= refraction_formula 101325 288.15 e); [|lra].
    unfold refraction_formula, refraction_argument, cosd, sind. interval. }
  split; rewrite <- Ea; unfold get_altitude_default, elevation_default, standard_temperature, standard_pressure; rx;
    f_equal; f_equal; unfold Q2R; simpl; lra.
Qed.

Lemma overcast_refuted d u : instant d u -> in_range u = true -> exists lon a g f, -180 <= lon < 180 /\ 30 <= a <= 31 /\
    get_altitude_default (N := MathR) (Fin 0) (Fin lon) d = Ok (Fin a) /\
    global_irradiance_overcast (N := MathR) (Fin 0) (Fin lon) d elevation_default standard_temperature standard_pressure = Ok (Fin g) /\
    diffuse_underovercast (N := MathR) (Fin 0) (Fin lon) d elevation_default standard_temperature standard_pressure TL_default = Ok (Fin f) /\
    g > 25 * f /\ f > 0.
Proof.
  intros Hi Hr. destruct (standard_altitude d u 30 Hi Hr ltac:(lra)) as (lon & a & Hl & La & Va & Ea & Eq).
  assert (Ha : a <= 31). { rewrite Va. unfold refraction_formula, refraction_argument, cosd, sind. interval. }
  exists lon, a. do 2 eexists. split; [exact Hl|]. split; [lra|]. split; [exact Ea|]. split; [|split].
  - eapply (global_overcast_val _ _ _ _ _ d u); eassumption.
  - unfold TL_default. rewrite lit_R. eapply (diffuse_overcast_val _ _ _ _ _ d u); eassumption.
  - unfold younes_diffuse. lra.
Qed.

Lemma diffuse_same {N : Num} lat lon d el T P TL (v : Num.T N) :
  diffuse_underclear lat lon d el T P TL = Ok v <-> diffuse_underovercast lat lon d el T P TL = Ok v.
Proof.
  unfold diffuse_underclear, diffuse_underovercast.
  destruct (aware d) as [[]|]; cbn; [|reflexivity].
  destruct (get_altitude _ _ _ _ _ _), (mean_earth_sun_distance d); cbn; split; congruence.
Qed.

Lemma sin_8pi a : sin a = sin (a - 8 * PI).
Proof. rewrite <- (sin_2kPI (a - 8 * PI) 4). f_equal. lra. Qed.
Lemma sin_10pi a : sin a = sin (a - 10 * PI).
Proof. rewrite <- (sin_2kPI (a - 10 * PI) 5). f_equal. lra. Qed.

(* ---------------------------------------------------------------- C60 *)
Lemma elevation_functions_refuted d u : instant d u -> in_range u = true -> exists lon a x y,
    -180 <= lon < 180 /\ 30 <= a <= 31 /\
    get_altitude_default (N := MathR) (Fin 0) (Fin lon) d = Ok (Fin a) /\
    solarelevation_function_clear (N := MathR) (Fin 0) (Fin lon) d standard_temperature standard_pressure elevation_default = Ok (Fin x) /\
    solarelevation_function_overcast (N := MathR) (Fin 0) (Fin lon) d elevation_default standard_temperature standard_pressure = Ok (Fin y) /\
    x < -2 /\ 0.6 < younes_clear (sind a) /\ y < -0.5 /\ 0.4 < younes_overcast (sind a).
Proof.
  intros Hi Hr. destruct (standard_altitude d u 30 Hi Hr ltac:(lra)) as (lon & a & Hl & La & Va & Ea & Eq).
  assert (Ha : a <= 30.1). { rewrite Va. unfold refraction_formula, refraction_argument, cosd, sind. interval. }
  exists lon, a. do 2 eexists. split; [exact Hl|]. split; [lra|]. split; [exact Ea|]. split; [|split].
  - eapply (elevation_clear_val _ _ _ _ _ d u); eassumption.
  - eapply (elevation_overcast_val _ _ _ _ _ d u); eassumption.
  - rewrite (sin_8pi a). unfold younes_clear, younes_overcast, sind. repeat split; interval.
Qed.

Lemma elevation_functions_value lat lon el T P d u a : instant d u ->
  get_altitude (N := MathR) lat lon d el T P = Ok (Fin a) ->
  solarelevation_function_clear (N := MathR) lat lon d T P el = Ok (Fin (younes_clear (sin a))) /\
  solarelevation_function_overcast (N := MathR) lat lon d el T P = Ok (Fin (younes_overcast (sin a))).
Proof.
  intros Hi Ha. split; [eapply (elevation_clear_val _ _ _ _ _ d u)|eapply (elevation_overcast_val _ _ _ _ _ d u)]; eassumption.
Qed.

(* ---------------------------------------------------------------- C61 *)
Lemma direct_default_no_overflow n : exp (- 0.8662 * 2 * 1 * yearly_declination 365 n) < float_overflow.
Proof.
  unfold yearly_declination. pose proof (SIN_bound (2 * PI / 365 * (n - 81))).
  set (s := sin _) in *. apply Rlt_trans with (exp 41); [apply exp_increasing; lra|]. unfold float_overflow. interval.
Qed.

Lemma direct_default lat lon d u day h m a : instant d u -> in_range u = true -> civil_clock u day h m ->
  get_altitude (N := MathR) lat lon d elevation_default standard_temperature standard_pressure = Ok (Fin a) ->
  direct_underclear (N := MathR) lat lon d TY_default AM_default TL_default elevation_default standard_temperature standard_pressure
  = Ok (Fin (1367 * exp (- 0.8662 * 2 * 1 * yearly_declination 365 (IZR day)) * sin a)).
Proof.
  intros Hi Hr Hc Ha. unfold TY_default, AM_default, TL_default. rewrite !lit_R.
  replace (Q2R 365) with 365 by (unfold Q2R; simpl; lra). replace (Q2R 2.0) with 2 by (unfold Q2R; simpl; lra). replace (Q2R 1.0) with 1 by (unfold Q2R; simpl; lra).
  apply (direct_val _ _ _ _ _ d u a Hi Hr Ha day h m); [exact Hc|lra|apply direct_default_no_overflow].
Qed.

Lemma exp_36 : 10 ^ 18 < 1367 * exp 36 * 0.9.
Proof. interval. Qed.

Lemma direct_refuted d u day h m : instant d u -> in_range u = true -> civil_clock u day h m ->
  (exists lon a x, -180 <= lon < 180 /\ 30 <= a <= 31 /\
    get_altitude_default (N := MathR) (Fin 0) (Fin lon) d = Ok (Fin a) /\
    direct_underclear (N := MathR) (Fin 0) (Fin lon) d TY_default AM_default TL_default elevation_default standard_temperature standard_pressure = Ok (Fin x) /\
    x < 0) /\
  ((330 <= day <= 366)%Z -> exists lon a x, -180 <= lon < 180 /\ 33 <= a <= 34 /\
    get_altitude_default (N := MathR) (Fin 0) (Fin lon) d = Ok (Fin a) /\
    direct_underclear (N := MathR) (Fin 0) (Fin lon) d TY_default AM_default TL_default elevation_default standard_temperature standard_pressure = Ok (Fin x) /\
    10 ^ 18 < x).
Proof.
  intros Hi Hr Hc. split.
  - destruct (standard_altitude d u 30 Hi Hr ltac:(lra)) as (lon & a & Hl & La & Va & Ea & Eq).
    assert (Ha : a <= 30.1). { rewrite Va. unfold refraction_formula, refraction_argument, cosd, sind. interval. }
    exists lon, a. eexists. split; [exact Hl|]. split; [lra|]. split; [exact Ea|]. split; [eapply direct_default; eassumption|].
    pose proof (exp_pos (- 0.8662 * 2 * 1 * yearly_declination 365 (IZR day))). assert (sin a < 0) by (rewrite sin_8pi; interval). nra.
  - intros Hd. destruct (standard_altitude d u 33 Hi Hr ltac:(lra)) as (lon & a & Hl & La & Va & Ea & Eq).
    assert (Ha : a <= 33.1). { rewrite Va. unfold refraction_formula, refraction_argument, cosd, sind. interval. }
    exists lon, a. eexists. split; [exact Hl|]. split; [lra|]. split; [exact Ea|]. split; [eapply direct_default; eassumption|].
    assert (sin a > 0.9) by (rewrite sin_10pi; interval).
    assert (330 <= IZR day <= 366) by (split; apply IZR_le; lia).
    assert (E : exp 36 < exp (- 0.8662 * 2 * 1 * yearly_declination 365 (IZR day))).
    { apply exp_increasing. unfold yearly_declination. set (n := IZR day) in *. interval with (i_bisect n). }
    pose proof exp_36. nra.
Qed.

(* ---------------------------------------------------------------- C62 *)
Lemma clear_index_correct d u day h m lat lon ghi : instant d u -> in_range u = true -> civil_clock u day h m ->
  exists e, get_altitude_fast (N := MathR) (C := clock_math MathR) (Fin lat) (Fin lon) d = Ok (Fin e) /\
    (0 < e -> clear_index (N := MathR) (C := clock_math MathR) (fun d => d) (Fin ghi) (Fin lat) (Fin lon) d
              = Ok (Fin (ghi / (1367 * sind e * spencer_eccentricity (IZR day))))) /\
    (e <= 0 -> clear_index (N := MathR) (C := clock_math MathR) (fun d => d) (Fin ghi) (Fin lat) (Fin lon) d
               = Err ZeroDivisionError).
Proof.
  intros Hi Hr Hc. destruct (irradiance_correct d u day h m lat lon Hi Hr Hc) as (e & Ee & HS).
  exists e. split; [exact Ee|]. destruct (HS 1367) as (v & Ev & Hn & Hp & _ & Hpos).
  unfold clear_index, SC_default. rewrite (instant_aware d u Hi), bind_Ok, lit_R.
  replace (Q2R 1367.0) with 1367 by (unfold Q2R; simpl; lra). rewrite Ev, bind_Ok. split; intros He.
  - specialize (Hpos ltac:(lra) He). rewrite div_R by lra. now rewrite <- (Hp He).
  - rewrite (Hn He), div_R0. reflexivity.
Qed.

Lemma diffuse_ratio_correct f g :
  diffuse_ratio (N := MathR) (Fin f) (Fin g) = (if Req_EM_T g 0 then Err ZeroDivisionError else Ok (Fin (f / g))).
Proof. unfold diffuse_ratio. destruct (Req_EM_T g 0) as [->|H]; [apply div_R0|now apply div_R]. Qed.

(* ---------------------------------------------------------------- global_irradiance_clear *)
Lemma global_clear_formula lat lon d u day h m a TY AM TL el T P : instant d u -> in_range u = true -> civil_clock u day h m -> TY <> 0 ->
  let x := - 0.8662 * AM * TL * yearly_declination TY (IZR day) in exp x < float_overflow ->
  get_altitude (N := MathR) lat lon d el standard_temperature standard_pressure = Ok (Fin a) ->
  global_irradiance_clear (N := MathR) lat lon d (Fin TY) (Fin AM) (Fin TL) el T P
  = Ok (Fin (1367 * exp x * sin a + younes_diffuse 1 * a)).
Proof.
  intros Hi Hr Hc HT x Hx Ha. unfold global_irradiance_clear, TL_default. rewrite (instant_aware d u Hi), bind_Ok, lit_R.
  replace (Q2R 1.0) with 1 by (unfold Q2R; simpl; lra).
  rewrite (direct_val _ _ _ _ _ d u a Hi Hr Ha day h m TY AM TL Hc HT Hx), bind_Ok.
  rewrite (diffuse_clear_val _ _ _ _ _ d u a Hi Hr Ha), bind_Ok, add_R. reflexivity.
Qed.

Lemma sky_values lat lon el T P d u a TL : instant d u -> in_range u = true ->
  get_altitude (N := MathR) lat lon d el T P = Ok (Fin a) ->
  global_irradiance_overcast (N := MathR) lat lon d el T P = Ok (Fin (572 * a)) /\
  diffuse_underclear (N := MathR) lat lon d el T P (Fin TL) = Ok (Fin (younes_diffuse TL * a)) /\
  diffuse_underovercast (N := MathR) lat lon d el T P (Fin TL) = Ok (Fin (younes_diffuse TL * a)) /\
  diffuse_transmittance (N := MathR) (Fin TL) = Fin (younes_diffuse TL).
Proof.
  intros Hi Hr Ha. split; [eapply (global_overcast_val _ _ _ _ _ d u); eassumption|].
  split; [eapply (diffuse_clear_val _ _ _ _ _ d u); eassumption|].
  split; [eapply (diffuse_overcast_val _ _ _ _ _ d u); eassumption|].
  unfold diffuse_transmittance. rx. f_equal. unfold younes_diffuse. lra.
Qed.

(* ---------------------------------------------------------------- examples *)
Definition december_dt : datetime := mk 2019 12 22 14 0 0 0 (Some (fixed_tz (2 * 3600 * 1000000))).
Definition december_u : Z := (midnight 2019 12 22 + 12 * 3600000000)%Z.
Lemma util_samples :
  instant sample_dt sample_u /\ in_range sample_u = true /\ civil_clock sample_u 173 17 0 /\
  (exists lon a, get_altitude_default (N := MathR) (Fin 0) (Fin lon) sample_dt = Ok (Fin a) /\ 30 <= a <= 31) /\
  23 < yearly_declination 365 173 < 23.45 /\
  instant december_dt december_u /\ in_range december_u = true /\ civil_clock december_u 356 12 0.
Proof.
  split; [apply sample_instant|]. split; [apply sample_in_range|]. split; [apply sample_clock|]. split.
  { destruct (overcast_refuted _ _ sample_instant sample_in_range) as (lon & a & g & f & _ & Ha & Ea & _). now exists lon, a. }
  split; [unfold yearly_declination; split; interval|].
  split. { do 2 eexists. split; [reflexivity|]. split; [reflexivity|]. split; [reflexivity|]. vm_compute. reflexivity. }
  split; [vm_compute; reflexivity|]. split; [exists 2019%Z; vm_compute; intuition discriminate|lia].
Qed.

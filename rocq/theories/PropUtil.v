(* Properties C58-C68: the sky-model functions of util.py, the REST2 component functions, the stub
   files, the decorators, and the table generator util/get_delta_t. *)
From Coq Require Import Reals Qreals Lra Lia List.
Import ListNotations.
From Interval Require Import Tactic.
From Verif Require Import Py Num Cal TzCheck Call Clock Constants SolarTime Solar Util Rest Script RInst RTac
  SpecTime SpecDt SpecGeom SpecEng SpecRest SpecCall SpecScript Samples Trig
  UtilProofs RestMore CallProofs ScriptProofs.
Local Open Scope R_scope.

(* ------------------------------------------------------------------------------- C58 *)
Theorem C58_declination_degree : forall d u day h m, instant d u -> in_range u = true -> civil_clock u day h m ->
  (forall TY, TY <> 0 -> exists x, declination_degree (N := MathR) d (Fin TY) = Ok (Fin x) /\
     x = yearly_declination TY (IZR day) /\ -23.45 <= x <= 23.45) /\
  declination_degree (N := MathR) d (Fin 365) = get_declination (N := MathR) (Fin (IZR day)) /\
  declination_degree (N := MathR) d (Fin 0) = Err ZeroDivisionError.
Proof. exact declination_degree_correct. Qed.
Print Assumptions C58_declination_degree.

(* ------------------------------------------------------------------------------- C59 *)
(* FALSE: at every instant there is a place on the equator with the sun 30 degrees high where the
   global irradiance is more than 25 times the diffuse one (all other arguments at their defaults) *)
Theorem C59_overcast_equal_refuted : forall d u, instant d u -> in_range u = true ->
  exists lon a g f, -180 <= lon < 180 /\ 30 <= a <= 31 /\
    get_altitude_default (N := MathR) (Fin 0) (Fin lon) d = Ok (Fin a) /\
    global_irradiance_overcast (N := MathR) (Fin 0) (Fin lon) d elevation_default standard_temperature standard_pressure = Ok (Fin g) /\
    diffuse_underovercast (N := MathR) (Fin 0) (Fin lon) d elevation_default standard_temperature standard_pressure TL_default = Ok (Fin f) /\
    g > 25 * f /\ f > 0.
Proof. exact overcast_refuted. Qed.
Print Assumptions C59_overcast_equal_refuted.
(* and they differ wherever the altitude is not 0, for every turbidity up to 10 *)
Theorem C59_overcast_never_equal_refuted : forall lat lon el T P d u a, instant d u -> in_range u = true ->
  get_altitude (N := MathR) lat lon d el T P = Ok (Fin a) -> a <> 0 ->
  forall TL, 0 <= TL <= 10 -> exists g f,
    global_irradiance_overcast (N := MathR) lat lon d el T P = Ok (Fin g) /\
    diffuse_underovercast (N := MathR) lat lon d el T P (Fin TL) = Ok (Fin f) /\ g <> f.
Proof. exact overcast_not_equal. Qed.
Print Assumptions C59_overcast_never_equal_refuted.
(* what the three functions return, as functions of the altitude in degrees *)
Theorem C59_values_partial : forall lat lon el T P d u a TL, instant d u -> in_range u = true ->
  get_altitude (N := MathR) lat lon d el T P = Ok (Fin a) ->
  global_irradiance_overcast (N := MathR) lat lon d el T P = Ok (Fin (572 * a)) /\
  diffuse_underclear (N := MathR) lat lon d el T P (Fin TL) = Ok (Fin (younes_diffuse TL * a)) /\
  diffuse_underovercast (N := MathR) lat lon d el T P (Fin TL) = Ok (Fin (younes_diffuse TL * a)) /\
  diffuse_transmittance (N := MathR) (Fin TL) = Fin (younes_diffuse TL).
Proof. exact sky_values. Qed.
Print Assumptions C59_values_partial.
(* clear or overcast makes no difference to the diffuse irradiance, in any arithmetic *)
Theorem C59_same_diffuse_partial : forall (N : Num) lat lon d el T P TL (v : Num.T N),
  diffuse_underclear lat lon d el T P TL = Ok v <-> diffuse_underovercast lat lon d el T P TL = Ok v.
Proof. exact @diffuse_same. Qed.
Print Assumptions C59_same_diffuse_partial.

(* ------------------------------------------------------------------------------- C60 *)
(* FALSE: the sine is taken of the number of degrees.  Sun 30 degrees high: *)
Theorem C60_elevation_functions_refuted : forall d u, instant d u -> in_range u = true -> exists lon a x y,
    -180 <= lon < 180 /\ 30 <= a <= 31 /\
    get_altitude_default (N := MathR) (Fin 0) (Fin lon) d = Ok (Fin a) /\
    solarelevation_function_clear (N := MathR) (Fin 0) (Fin lon) d standard_temperature standard_pressure elevation_default = Ok (Fin x) /\
    solarelevation_function_overcast (N := MathR) (Fin 0) (Fin lon) d elevation_default standard_temperature standard_pressure = Ok (Fin y) /\
    x < -2 /\ 0.6 < younes_clear (sind a) /\ y < -0.5 /\ 0.4 < younes_overcast (sind a).
Proof. exact elevation_functions_refuted. Qed.
Print Assumptions C60_elevation_functions_refuted.
Theorem C60_elevation_functions_partial : forall lat lon el T P d u a, instant d u ->
  get_altitude (N := MathR) lat lon d el T P = Ok (Fin a) ->
  solarelevation_function_clear (N := MathR) lat lon d T P el = Ok (Fin (younes_clear (sin a))) /\
  solarelevation_function_overcast (N := MathR) lat lon d el T P = Ok (Fin (younes_overcast (sin a))).
Proof. exact elevation_functions_value. Qed.
Print Assumptions C60_elevation_functions_partial.

(* ------------------------------------------------------------------------------- C61 *)
(* FALSE on both sides: negative with the sun 30 degrees high at any instant; above 10^18 W/m^2 with
   the sun 33 degrees high on any day from 26 November to the end of the year *)
Theorem C61_direct_bounds_refuted : forall d u day h m, instant d u -> in_range u = true -> civil_clock u day h m ->
  (exists lon a x, -180 <= lon < 180 /\ 30 <= a <= 31 /\
    get_altitude_default (N := MathR) (Fin 0) (Fin lon) d = Ok (Fin a) /\
    direct_underclear (N := MathR) (Fin 0) (Fin lon) d TY_default AM_default TL_default elevation_default standard_temperature standard_pressure = Ok (Fin x) /\
    x < 0) /\
  ((330 <= day <= 366)%Z -> exists lon a x, -180 <= lon < 180 /\ 33 <= a <= 34 /\
    get_altitude_default (N := MathR) (Fin 0) (Fin lon) d = Ok (Fin a) /\
    direct_underclear (N := MathR) (Fin 0) (Fin lon) d TY_default AM_default TL_default elevation_default standard_temperature standard_pressure = Ok (Fin x) /\
    10 ^ 18 < x).
Proof. exact direct_refuted. Qed.
Print Assumptions C61_direct_bounds_refuted.
(* what is returned: the declination stands where the optical thickness should, and the altitude in
   degrees is used as an angle in radians *)
Theorem C61_direct_value_partial : forall lat lon el T P d u a, instant d u -> in_range u = true ->
  get_altitude (N := MathR) lat lon d el T P = Ok (Fin a) ->
  forall day h m TY AM TL, civil_clock u day h m -> TY <> 0 ->
  let x := - 0.8662 * AM * TL * yearly_declination TY (IZR day) in exp x < float_overflow ->
  direct_underclear (N := MathR) lat lon d (Fin TY) (Fin AM) (Fin TL) el T P = Ok (Fin (1367 * exp x * sin a)).
Proof. exact direct_val. Qed.
Print Assumptions C61_direct_value_partial.
Theorem C61_global_clear_value_partial : forall lat lon d u day h m a TY AM TL el T P,
  instant d u -> in_range u = true -> civil_clock u day h m -> TY <> 0 ->
  let x := - 0.8662 * AM * TL * yearly_declination TY (IZR day) in exp x < float_overflow ->
  get_altitude (N := MathR) lat lon d el standard_temperature standard_pressure = Ok (Fin a) ->
  global_irradiance_clear (N := MathR) lat lon d (Fin TY) (Fin AM) (Fin TL) el T P
  = Ok (Fin (1367 * exp x * sin a + younes_diffuse 1 * a)).
Proof. exact global_clear_formula. Qed.
Print Assumptions C61_global_clear_value_partial.

(* ------------------------------------------------------------------------------- C62 *)
Theorem C62_clear_index : forall d u day h m lat lon ghi, instant d u -> in_range u = true -> civil_clock u day h m ->
  exists e, get_altitude_fast (N := MathR) (C := clock_math MathR) (Fin lat) (Fin lon) d = Ok (Fin e) /\
    (0 < e -> clear_index (N := MathR) (C := clock_math MathR) (fun d => d) (Fin ghi) (Fin lat) (Fin lon) d
              = Ok (Fin (ghi / (1367 * sind e * spencer_eccentricity (IZR day))))) /\
    (e <= 0 -> clear_index (N := MathR) (C := clock_math MathR) (fun d => d) (Fin ghi) (Fin lat) (Fin lon) d
               = Err ZeroDivisionError).
Proof. exact clear_index_correct. Qed.
Print Assumptions C62_clear_index.
Theorem C62_diffuse_ratio : forall f g,
  diffuse_ratio (N := MathR) (Fin f) (Fin g) = (if Req_EM_T g 0 then Err ZeroDivisionError else Ok (Fin (f / g))).
Proof. exact diffuse_ratio_correct. Qed.
Print Assumptions C62_diffuse_ratio.

(* the hypotheses of C58-C62 hold of the sample instant; a December instant meets those of C61 *)
Example C58_C62_case :
  instant sample_dt sample_u /\ in_range sample_u = true /\ civil_clock sample_u 173 17 0 /\
  (exists lon a, get_altitude_default (N := MathR) (Fin 0) (Fin lon) sample_dt = Ok (Fin a) /\ 30 <= a <= 31) /\
  23 < yearly_declination 365 173 < 23.45 /\
  instant december_dt december_u /\ in_range december_u = true /\ civil_clock december_u 356 12 0.
Proof. exact util_samples. Qed.

(* ------------------------------------------------------------------------------- C63 *)
Theorem C63_sky_albedo : forall bd a b, bd = high \/ bd = low -> 0 <= a <= 2.5 -> 0 <= b ->
  exists r, get_sky_albedo (N := MathR) bd (Fin a) (Fin b) = Ok (Fin r) /\ 0 < r < 1.
Proof. exact sky_albedo_range. Qed.
Print Assumptions C63_sky_albedo.
(* the backscattered irradiance x is what ground (albedo 0.15) and sky reflect of everything that
   reaches the ground, itself included *)
Theorem C63_backscatter : forall bd Eb Ed a b, bd = high \/ bd = low -> 0 <= a <= 2.5 -> 0 <= b -> 0 <= Eb + Ed ->
  exists rs x, get_sky_albedo (N := MathR) bd (Fin a) (Fin b) = Ok (Fin rs) /\
    get_backscattered_diffuse_irradiance_by_band (N := MathR) bd (Fin Eb) (Fin Ed) (Fin a) (Fin b) = Ok (Fin x) /\
    x = 0.15 * rs * (Eb + Ed + x) /\ 0 <= x <= 3 / 17 * (Eb + Ed).
Proof. exact backscatter_fixpoint. Qed.
Print Assumptions C63_backscatter.
(* Angstrom's law *)
Theorem C63_optical_depth : forall beta wl alpha, 0 < wl ->
  exists tau, get_aerosol_optical_depth (N := MathR) (Fin beta) (Fin wl) (Fin alpha) = Ok (Fin tau) /\ tau * Rpower wl alpha = beta.
Proof. exact optical_depth_law. Qed.
Print Assumptions C63_optical_depth.
(* the forward-scattered fractions are fractions; the aerosol one grows with the altitude *)
Theorem C63_forward_fractions : 
  (forall alt, 0 <= alt <= 90 -> exists x, get_aerosol_forward_scatterance_factor (N := MathR) (Fin alt) = Ok (Fin x) /\ 0.499 < x < 0.921) /\
  (forall a b x y, 0 <= a < b -> b <= 90 -> get_aerosol_forward_scatterance_factor (N := MathR) (Fin a) = Ok (Fin x) ->
     get_aerosol_forward_scatterance_factor (N := MathR) (Fin b) = Ok (Fin y) -> x < y) /\
  (forall bd m, bd = high \/ bd = low -> 0 <= m <= 18 ->
     exists x, get_rayleigh_extinction_forward_scattering_fraction (N := MathR) bd (Fin m) = Ok (Fin x) /\ 0 < x <= 1 / 2).
Proof. exact forward_fractions. Qed.
Print Assumptions C63_forward_fractions.
Theorem C63_correction_positive : forall bd m tau, bd = high \/ bd = low -> 0 < m -> 0 <= tau <= 1 ->
  exists x, get_aerosol_scattering_correction_factor (N := MathR) bd (Fin m) (Fin tau) = Ok (Fin x) /\ 0 < x.
Proof. exact correction_positive. Qed.
Print Assumptions C63_correction_positive.
Example C63_case : 0 <= 1.3 <= 2.5 /\ 0 <= 0.6 /\ 0.25 < rest2_rhos1 1.3 0.6 < 0.3.
Proof. exact albedo_sample. Qed.

(* ------------------------------------------------------------------------------- C64 *)
Theorem C64_rest2_published :
  (forall m, 0 <= m -> get_rayleigh_transmittance (N := MathR) high (Fin m) = Ok (Fin (rest2_TR1 m))) /\
  (forall m, 0 <= m <= 94 -> get_rayleigh_transmittance (N := MathR) low (Fin m) = Ok (Fin (rest2_TR2 m))) /\
  (forall m, 0 <= m -> get_gas_transmittance (N := MathR) high (Fin m) = Ok (Fin (rest2_Tg1 m))) /\
  (forall m, 0 <= m -> get_gas_transmittance (N := MathR) low (Fin m) = Ok (Fin (rest2_Tg2 m))) /\
  (forall m u, 0 <= m -> 0 <= u <= 1.99 -> get_ozone_transmittance (N := MathR) high (Fin m) (Fin u) = Ok (Fin (rest2_To1 m u))) /\
  (forall m w, 0 <= m -> 0 <= w -> get_water_vapor_transmittance (N := MathR) high (Fin m) (Fin w) = Ok (Fin (rest2_Tw1 m w))) /\
  (forall m w, 0 <= m -> 0 <= w -> get_water_vapor_transmittance (N := MathR) low (Fin m) (Fin w) = Ok (Fin (rest2_Tw2 m w))) /\
  (forall m tau, 0 <= m -> 0 <= tau <= 19 -> get_aerosol_scattering_correction_factor (N := MathR) high (Fin m) (Fin tau) = Ok (Fin (rest2_F1 m tau))) /\
  (forall m tau, 0 < m -> 0 <= tau -> get_aerosol_scattering_correction_factor (N := MathR) low (Fin m) (Fin tau) = Ok (Fin (rest2_F2 m tau))) /\
  (forall a b, 0 <= a <= 9 -> 0 <= b -> get_sky_albedo (N := MathR) high (Fin a) (Fin b) = Ok (Fin (rest2_rhos1 a b))) /\
  (forall a b, 0 <= a <= 5 -> 0 <= b -> get_sky_albedo (N := MathR) low (Fin a) (Fin b) = Ok (Fin (rest2_rhos2 a b))) /\
  (forall m, get_rayleigh_extinction_forward_scattering_fraction (N := MathR) high (Fin m) = Ok (Fin (rest2_BR1 m))) /\
  (forall m, get_rayleigh_extinction_forward_scattering_fraction (N := MathR) low m = Ok (Fin (1 / 2))) /\
  (forall alt, get_aerosol_forward_scatterance_factor (N := MathR) (Fin alt) = Ok (Fin (1 - exp (- 0.6931 - 1.8326 * sind alt)))).
Proof. exact rest2_published. Qed.
Print Assumptions C64_rest2_published.
(* aerosols: Beer's law with single-scattering albedos 0.92 and 0.84 *)
Theorem C64_rest2_aerosol : forall m tau, 0 <= m -> 0 <= tau ->
  get_aerosol_transmittance (N := MathR) high (Fin m) (Fin tau) = Ok (Fin (exp (- (m * tau)))) /\
  get_aerosol_transmittance (N := MathR) low (Fin m) (Fin tau) = Ok (Fin (exp (- (m * tau)))) /\
  get_aerosol_scattering_transmittance (N := MathR) high (Fin m) (Fin tau) = Ok (Fin (exp (- (0.92 * m * tau)))) /\
  get_aerosol_scattering_transmittance (N := MathR) low (Fin m) (Fin tau) = Ok (Fin (exp (- (0.84 * m * tau)))).
Proof. exact aerosol_published. Qed.
Print Assumptions C64_rest2_aerosol.
Example C64_case : 0.84 < rest2_TR1 1 < 0.85 /\ 0.95 < rest2_To1 1.2 0.35 < 0.97 /\ 0.8 < rest2_Tw2 1 1 < 0.82.
Proof. exact published_samples. Qed.

(* ------------------------------------------------------------------------------- C65 *)
(* FALSE: the amount is ignored.  With no nitrogen dioxide at all the published value is 1. *)
Theorem C65_nitrogen_amount_refuted :
  exists x, get_nitrogen_transmittance (N := MathR) high (Fin 1) (Fin 0) = Ok (Fin x) /\ x < 0.995 /\ rest2_Tn1 1 0 = 1.
Proof. exact nitrogen_refuted. Qed.
Print Assumptions C65_nitrogen_amount_refuted.
Theorem C65_nitrogen_ignored_refuted : forall (N : Num) b (m n n' : Num.T N),
  get_nitrogen_transmittance b m n = get_nitrogen_transmittance b m n'.
Proof. exact @nitrogen_ignored. Qed.
Print Assumptions C65_nitrogen_ignored_refuted.
(* the published value for 0.0003 atm-cm, whatever the amount *)
Theorem C65_nitrogen_value_partial : forall m n, 0 <= m ->
  get_nitrogen_transmittance (N := MathR) high (Fin m) n = Ok (Fin (rest2_Tn1 m 0.0003)).
Proof. exact Tn1_val. Qed.
Print Assumptions C65_nitrogen_value_partial.

(* ------------------------------------------------------------------------------- C66 *)
(* FALSE for five functions.  Calls written against the stub files: *)
Theorem C66_stub_calls_refuted : forall (A : Type) (body : list (string * bound) -> res A) d g x y a b,
  call "util.extraterrestrial_irrad" body [VDatetime d; VOther a; VOther b] [] = Err ValueError /\
  call "util.clear_index" body [VOther g; VDatetime d; VOther a; VOther b] [] = Err ValueError /\
  call "util.global_irradiance_clear" body [VOther x; VOther y; VOther a; VOther b; VDatetime d] [] = Err ValueError /\
  (dt_tz d <> None -> call "util.global_irradiance_clear" body []
     [("DIRC", VOther x); ("DIFFC", VOther y); ("latitude_deg", VOther a); ("longitude_deg", VOther b); ("when", VDatetime d)]%string = Err TypeError) /\
  call "solar.get_apparent_sidereal_time" body [] [("jd", VOther a); ("jme", VOther b); ("nutation_float", VOther x)]%string = Err TypeError.
Proof. exact stub_calls. Qed.
Print Assumptions C66_stub_calls_refuted.
(* temperature and pressure passed in the stub's order become TY and AM *)
Theorem C66_stub_direct_refuted : forall ps d a b t p, stub_of "util.direct_underclear" = Some ps ->
  (exists r, bind_call ps [VOther a; VOther b; VDatetime d; VOther t; VOther p] [] = Ok r /\
     assoc "temperature" r = Some (Passed (VOther t)) /\ assoc "TY" r = Some Default) /\
  (exists ps' dec r, impl_of "util.direct_underclear" = Some (ps', dec) /\
     bind_call ps' [VOther a; VOther b; VDatetime d; VOther t; VOther p] [] = Ok r /\
     assoc "TY" r = Some (Passed (VOther t)) /\ assoc "AM" r = Some (Passed (VOther p)) /\ assoc "temperature" r = Some Default).
Proof. exact stub_direct_wrong. Qed.
Print Assumptions C66_stub_direct_refuted.
(* every other stub binds every call as the implementation does *)
Theorem C66_stubs_correct_partial : forall f,
  ~ In f ["solar.get_apparent_sidereal_time"; "util.extraterrestrial_irrad"; "util.direct_underclear";
          "util.global_irradiance_clear"; "util.clear_index"]%string -> stub_correct f.
Proof. exact stubs_correct. Qed.
Print Assumptions C66_stubs_correct_partial.
(* and calls with keywords only are safe for all but two *)
Theorem C66_stub_keywords_partial : forall f ps,
  ~ In f ["solar.get_apparent_sidereal_time"; "util.global_irradiance_clear"]%string -> stub_of f = Some ps ->
  exists ps' dec, impl_of f = Some (ps', dec) /\ keywords_alike ps ps'.
Proof. exact stubs_keywords. Qed.
Print Assumptions C66_stub_keywords_partial.
(* [bind_call] is Python's rule *)
Theorem C66_binding_rule : forall ps args kw, NoDup (map fst ps) ->
  (forall r, bind_call ps args kw = Ok r <-> call_binds ps args kw r) /\ (forall e, bind_call ps args kw = Err e -> e = TypeError).
Proof. exact bind_call_rule. Qed.
Print Assumptions C66_binding_rule.
Example C66_case : exists ps, stub_of "solar.get_altitude" = Some ps /\
  bind_call ps [VOther 1; VOther 2] [("when", VDatetime sample_dt); ("pressure", VOther 3)]%string =
  Ok [("latitude_deg", Passed (VOther 1)); ("longitude_deg", Passed (VOther 2)); ("when", Passed (VDatetime sample_dt));
      ("elevation", Default); ("temperature", Default); ("pressure", Passed (VOther 3))]%string /\
  bind_call ps [VOther 1; VOther 2] [] = Err TypeError /\
  bind_call ps [VOther 1; VOther 2] [("latitude_deg", VOther 3)]%string = Err TypeError.
Proof. eexists. repeat split. Qed.

(* ------------------------------------------------------------------------------- C67 *)
(* consecutive monthly entries: the script succeeds, the table holds them in order, and get_delta_t's
   lookup in that table finds each of them *)
Theorem C67_table_round_trip : forall V (es : list (entry V)), monthly es -> exists o base_year base_month rows,
  script es = (o, None) /\ table_text o base_year base_month rows /\ List.concat rows = map e_dt es /\
  forall e, In e es -> delta_t_lookup base_year base_month rows (e_year e) (e_month e) = Ok (e_dt e).
Proof. exact (@script_complete). Qed.
Print Assumptions C67_table_round_trip.
(* anything else with months 1..12 stops at an assertion *)
Theorem C67_rejects_gaps : forall V (es : list (entry V)), es <> [] -> months_valid es -> ~ monthly es -> snd (script es) = Some AssertionError.
Proof. exact (@script_rejects). Qed.
Print Assumptions C67_rejects_gaps.
(* the table in solartime.py is such an output *)
Theorem C67_committed_table : exists es o, monthly es /\ script es = (o, None) /\
  table_text o delta_t_base_year delta_t_base_month Tables.delta_t.
Proof. exact committed_table. Qed.
Print Assumptions C67_committed_table.
Example C67_case :
  monthly [mkentry 1973 12 1 44.4%Q; mkentry 1974 1 1 44.5%Q] /\
  script [mkentry 1973 12 1 44.4%Q; mkentry 1974 1 1 44.5%Q] =
    ([OHeader 1973 12; OOpen 1973; OItem 44.4%Q 12; OClose; OOpen 1974; OItem 44.5%Q 1; OClose; OEnd], None) /\
  script [mkentry 1973 12 1 44.4%Q; mkentry 1974 2 1 44.5%Q] = ([OHeader 1973 12; OOpen 1973; OItem 44.4%Q 12; OClose; OOpen 1974], Some AssertionError).
Proof. exact script_samples. Qed.

(* ------------------------------------------------------------------------------- C68 *)
(* every function with a parameter `when`, except two, checks it before anything else, for every way
   of passing it: accepted values run the function, others raise *)
Theorem C68_when_checked : forall f ps dec, impl_of f = Some (ps, dec) -> In "when"%string (param_names ps) ->
  ~ In f ["solar.get_azimuth_fast"; "radiation.get_radiation_direct"]%string ->
  forall A (body : list (string * bound) -> res A) args kw v,
  binds {| as_args := param_names ps; as_kwonly := [] |} args kw "when" v ->
  (acceptable v -> call f body args kw = bind (bind_call ps args kw) body) /\
  (~ acceptable v -> call f body args kw = Err (rejection "when" v)).
Proof. exact when_checked. Qed.
Print Assumptions C68_when_checked.
(* those two have no decorator (get_azimuth_fast is covered by C11: it fails in what it calls) *)
Theorem C68_undecorated :
  impl_of "solar.get_azimuth_fast" = Some ([("latitude_deg", false); ("longitude_deg", false); ("when", false)]%string, None) /\
  impl_of "radiation.get_radiation_direct" = Some ([("when", false); ("altitude_deg", false)]%string, None).
Proof. exact azimuth_fast_calls. Qed.
Print Assumptions C68_undecorated.
Example C68_case : forall A (body : list (string * bound) -> res A),
  call "util.declination_degree" body [] [("TY", VOther 1); ("when", VDatetime sample_naive)]%string = Err (NoTimeZoneInfoError "when") /\
  call "util.declination_degree" body [VDatetime sample_dt] [] = body [("when", Passed (VDatetime sample_dt)); ("TY", Default)]%string /\
  call "util.declination_degree" body [VOther 0] [] = Err ValueError.
Proof. intros. repeat split. Qed.

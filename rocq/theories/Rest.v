(* pysolar/rest.py (REST2 clear-sky model, work in progress upstream: line 18).
   Names that are undefined at run time are modelled as the NameError / AttributeError that
   Python raises when it reaches them. *)
From Verif Require Import Py Num Constants.
Open Scope num_scope.

Section R.
Context {N : Num}.

Definition band := string.
Definition is_high (b : band) : bool := String.eqb b "high-frequency"%string.

(* rest.py 26-29 *)
Definition albedo (b : band) : res (T N) :=
  dict_get b [("high-frequency", lit 0.92); ("low-frequency", lit 0.84)]%string.
(* rest.py 30; evaluated at import time: standard_pressure / 100 *)
Definition standard_pressure_millibars : T N := lit 1013.25.
Definition un : T N := lit 0.0003.                              (* rest.py 31 *)
(* rest.py 33-34 *)
Definition E0n (b : band) : res (T N) :=
  dict_get b [("high-frequency", lit 635.4); ("low-frequency", lit 709.7)]%string.

(* numeric.log: pysolar/numeric.py defines no `log` *)
Definition numeric_log (thunk : unit -> res (T N)) : res (T N) := Err (AttributeError "log").

(* rest.py 37-39 *)
Definition get_aerosol_forward_scatterance_factor (altitude_deg : T N) : res (T N) :=
  let Z := lit 90 - altitude_deg in
  c <- ncos (radians Z) ;;
  p <- powf ne (lit (-0.6931) - lit 1.8326 * c) ;;
  Ok (lit 1 - p).

(* rest.py 42-44 *)
Definition get_aerosol_optical_depth (turbidity_beta effective_wavelength turbidity_alpha : T N) : res (T N) :=
  p <- powf effective_wavelength (- turbidity_alpha) ;;
  Ok (turbidity_beta * p).

(* rest.py 46-63 *)
Definition get_aerosol_scattering_correction_factor (b : band) (ma tau_a : T N) : res (T N) :=
  if is_high b then
    m2 <- powi ma 2 ;;
    g0 <- div (lit 3.715 + lit 0.368 * ma + lit 0.036294 * m2) (lit 1 + lit 0.0009391 * m2) ;;
    g1 <- div (lit (-0.164) - lit 0.72567 * ma + lit 0.20701 * m2) (lit 1 + lit 0.001901 * m2) ;;
    g2 <- div (lit (-0.052288) + lit 0.31902 * ma + lit 0.17871 * m2) (lit 1 + lit 0.0069592 * m2) ;;
    div (g0 + g1 * tau_a) (lit 1 + g2 * tau_a)
  else
    m2 <- powi ma 2 ;;
    m15 <- powf ma (lit 1.5) ;;
    h0 <- div (lit 3.4352 + lit 0.65267 * ma + lit 0.00034328 * m2) (lit 1 + lit 0.034388 * m15) ;;
    h1 <- div (lit 1.231 - lit 1.63853 * ma + lit 0.20667 * m2) (lit 1 + lit 0.1451 * m15) ;;
    h2 <- div (lit 0.8889 - lit 0.55063 * ma + lit 0.50152 * m2) (lit 1 + lit 0.14865 * m15) ;;
    div (h0 + h1 * tau_a) (lit 1 + h2 * tau_a).

(* rest.py 66-68 *)
Definition get_aerosol_transmittance (b : band) (ma tau_a : T N) : res (T N) := nexp (- ma * tau_a).

(* rest.py 71-73 *)
Definition get_aerosol_scattering_transmittance (b : band) (ma tau_a : T N) : res (T N) :=
  w <- albedo b ;; nexp (- ma * w * tau_a).

(* rest.py 195-198 *)
Definition get_ground_albedo (b : band) : T N := lit 0.150.

(* rest.py 264-277 *)
Definition get_sky_albedo (b : band) (turbidity_alpha turbidity_beta : T N) : res (T N) :=
  if is_high b then
    let a1 := turbidity_alpha in
    let b1 := turbidity_beta in
    q1 <- div (b1 * (lit 0.37567 + lit 0.22946 * a1)) (lit 1 - lit 0.10832 * a1) ;;
    q2 <- div (b1 * (lit 0.84057 + lit 0.68683 * a1)) (lit 1 - lit 0.08158 * a1) ;;
    div (lit 0.13363 + lit 0.00077358 * a1 + q1) (lit 1 + q2)
  else
    let a2 := turbidity_alpha in
    let b2 := turbidity_beta in
    q1 <- div (b2 * (lit 0.14618 + lit 0.062758 * a2)) (lit 1 - lit 0.19402 * a2) ;;
    q2 <- div (b2 * (lit 0.58101 + lit 0.17426 * a2)) (lit 1 - lit 0.17586 * a2) ;;
    div (lit 0.010191 + lit 0.00085547 * a2 + q1) (lit 1 + q2).

(* rest.py 75-76: calls a function that does not exist *)
Definition get_backscattered_diffuse_broadband_irradiance (b : band) (turbidity_alpha turbidity_beta : T N) : res (T N) :=
  Err (NameError "get_backscattered_diffuse_broadband_irradiance_by_band").

(* rest.py 78-82 *)
Definition get_backscattered_diffuse_irradiance_by_band (b : band) (Ebi Edpi turbidity_alpha turbidity_beta : T N) : res (T N) :=
  rhos <- get_sky_albedo b turbidity_alpha turbidity_beta ;;
  let rhog := get_ground_albedo b in
  div (rhog * rhos * (Ebi + Edpi)) (lit 1 - rhog * rhos).

(* rest.py 99-100: altitude_deg is not a parameter *)
Definition get_diffuse_irradiance_by_band (b : band) (air_mass turbidity_alpha turbidity_beta : T N) : res (T N) :=
  Err (NameError "altitude_deg").

(* rest.py 95-96 *)
Definition get_diffuse_broadband_irradiance (air_mass turbidity_alpha turbidity_beta : T N) : res (T N) :=
  a <- get_diffuse_irradiance_by_band "high-frequency"%string air_mass turbidity_alpha turbidity_beta ;;
  b <- get_diffuse_irradiance_by_band "low-frequency"%string air_mass turbidity_alpha turbidity_beta ;;
  Ok (a + b).

(* rest.py 156-174; the attribute lookup math.log on line 158 fails before its argument is
   evaluated, so the rest of the body is unreachable *)
Definition get_effective_aerosol_wavelength (b : band) (ma turbidity_alpha turbidity_beta : T N) : res (T N) :=
  ua <- numeric_log (fun _ => Ok (lit 1 + ma * turbidity_beta)) ;;
  u2 <- powi ua 2 ;;
  let a1 := turbidity_alpha in
  a12 <- powi a1 2 ;;
  if is_high b then
    let d0 := lit 0.57664 - lit 0.024743 * a1 in
    d1 <- div (lit 0.093942 - lit 0.2269 * a1 + lit 0.12848 * a12) (lit 1 + lit 0.6418 * a1) ;;
    d2 <- div (lit (-0.093819) + lit 0.36668 * a1 - lit 0.12775 * a12) (lit 1 - lit 0.11651 * a1) ;;
    d3 <- div (a1 * (lit 0.15232 - lit 0.087214 * a1 + lit 0.012664 * a12))
              (lit 1 - lit 0.90454 * a1 + lit 0.26167 * a12) ;;
    div (d0 + d1 * ua + d2 * u2) (lit 1 + d3 * u2)
  else
    e0 <- div (lit 1.183 - lit 0.022989 * a1 + lit 0.020829 * a12) (lit 1 + lit 0.11133 * a1) ;;
    e1 <- div (lit (-0.50003) - lit 0.18329 * a1 + lit 0.23835 * a12) (lit 1 + lit 1.6756 * a1) ;;
    e2 <- div (lit (-0.50001) + lit 1.1414 * a1 + lit 0.0083589 * a12) (lit 1 + lit 11.168 * a1) ;;
    e3 <- div (lit (-0.70003) - lit 0.73587 * a1 + lit 0.51509 * a12) (lit 1 + lit 4.7665 * a1) ;;
    div (e0 + e1 * ua + e2 * u2) (lit 1 + e3 * ua).

(* rest.py 177-181 *)
Definition get_gas_transmittance (b : band) (mRprime : T N) : res (T N) :=
  if is_high b then
    m2 <- powi mRprime 2 ;;
    div (lit 1 + lit 0.95885 * mRprime + lit 0.012871 * m2) (lit 1 + lit 0.96321 * mRprime + lit 0.015455 * m2)
  else
    m2 <- powi mRprime 2 ;;
    div (lit 1 + lit 0.27284 * mRprime - lit 0.00063699 * m2) (lit 1 + lit 0.30306 * mRprime).

(* rest.py 201-210: the parameter nitrogen_atm_cm is not used; the module constant un is *)
Definition get_nitrogen_transmittance (b : band) (mw nitrogen_atm_cm : T N) : res (T N) :=
  if is_high b then
    u2 <- powi un 2 ;;
    g1 <- div (lit 0.17499 + lit 41.654 * un - lit 2146.4 * u2) (lit 1 + lit 22295.0 * u2) ;;
    g2 <- div (un * (lit (-1.2134) + lit 59.324 * un)) (lit 1 + lit 8847.8 * u2) ;;
    g3 <- div (lit 0.17499 + lit 61.658 * un + lit 9196.4 * u2) (lit 1 + lit 74109.0 * u2) ;;
    m2 <- powi mw 2 ;;
    q <- div (lit 1 + g1 * mw + g2 * m2) (lit 1 + g3 * mw) ;;
    (* builtin min(1, q) *)
    s <- truth (lt q (lit 1)) ;;
    Ok (if s : bool then q else lit 1)
  else Ok (lit 1.0).

(* rest.py 214-217 *)
Definition get_optical_mass_rayleigh (altitude_deg pressure_millibars : T N) : res (T N) :=
  let Z := lit 90 - altitude_deg in
  let Z_rad := radians Z in
  p <- div pressure_millibars standard_pressure_millibars ;;
  c <- ncos Z_rad ;;
  z <- powf Z_rad (lit 0.095846) ;;
  d <- powf (lit 96.741 - Z_rad) (lit 1.754) ;;
  q <- div (c + lit 0.48353 * z) d ;;
  div p q.

(* common shape of rest.py 220-235: 1 / ((cos Z + k * Z ** a) / (b - Z) ** d) *)
Definition optical_mass (k a b d : Q) (altitude_deg : T N) : res (T N) :=
  let Z := lit 90 - altitude_deg in
  let Z_rad := radians Z in
  c <- ncos Z_rad ;;
  z <- powf Z_rad (lit a) ;;
  e <- powf (lit b - Z_rad) (lit d) ;;
  q <- div (c + lit k * z) e ;;
  div (lit 1) q.

Definition get_optical_mass_ozone := optical_mass 1.0651 0.6379 101.8 2.2694.      (* rest.py 220-223 *)
Definition get_optical_mass_water := optical_mass 0.10648 0.11423 93.781 1.9203.   (* rest.py 226-229 *)
Definition get_optical_mass_aerosol := optical_mass 0.16851 0.18198 95.318 1.9542. (* rest.py 232-235 *)

(* rest.py 238-246 *)
Definition get_ozone_transmittance (b : band) (mo uo : T N) : res (T N) :=
  if is_high b then
    u2 <- powi uo 2 ;;
    f1 <- div (uo * (lit 10.979 - lit 8.5421 * uo)) (lit 1 + lit 2.0115 * uo + lit 40.189 * u2) ;;
    f2 <- div (uo * (lit (-0.027589) - lit 0.005138 * uo)) (lit 1 - lit 2.4857 * uo + lit 13.942 * u2) ;;
    f3 <- div (uo * (lit 10.995 - lit 5.5001 * uo)) (lit 1 + lit 1.6784 * uo + lit 42.406 * u2) ;;
    m2 <- powi mo 2 ;;
    div (lit 1 + f1 * mo + f2 * m2) (lit 1 + f3 * mo)
  else Ok (lit 1.0).

(* rest.py 249-254 *)
Definition get_rayleigh_extinction_forward_scattering_fraction (b : band) (mR : T N) : res (T N) :=
  if is_high b then
    m2 <- powi mR 2 ;;
    Ok (lit 0.5 * (lit 0.89013 - lit 0.049558 * mR + lit 0.000045721 * m2))
  else Ok (lit 0.5).

(* rest.py 257-261 *)
Definition get_rayleigh_transmittance (b : band) (mRprime : T N) : res (T N) :=
  if is_high b then
    m2 <- powi mRprime 2 ;;
    div (lit 1 + lit 1.8169 * mRprime + lit 0.033454 * m2) (lit 1 + lit 2.063 * mRprime + lit 0.31978 * m2)
  else
    m2 <- powi mRprime 2 ;;
    div (lit 1 - lit 0.010394 * mRprime) (lit 1 - lit 0.00011042 * m2).

(* rest.py 289-303; the lists start with a NaN placeholder that is never read (left out) *)
Definition water_coeffs_high (w : T N) : res (T N * T N) :=
  h1 <- div (w * (lit 0.065445 + lit 0.00029901 * w)) (lit 1 + lit 1.2728 * w) ;;
  h2 <- div (w * (lit 0.065687 + lit 0.0013218 * w)) (lit 1 + lit 1.2008 * w) ;;
  Ok (h1, h2).
Definition water_coeffs_low (w : T N) : res (T N * T N * T N * T N) :=
  w2 <- powi w 2 ;;
  c1 <- div (w * (lit 19.566 - lit 1.6506 * w + lit 1.0672 * w2)) (lit 1 + lit 5.4248 * w + lit 1.6005 * w2) ;;
  c2 <- div (w * (lit 0.50158 - lit 0.14732 * w + lit 0.047584 * w2)) (lit 1 + lit 1.1811 * w + lit 1.0699 * w2) ;;
  c3 <- div (w * (lit 21.286 - lit 0.39232 * w + lit 1.2692 * w2)) (lit 1 + lit 4.8318 * w + lit 1.412 * w2) ;;
  c4 <- div (w * (lit 0.70992 - lit 0.23155 * w + lit 0.096514 * w2)) (lit 1 + lit 0.44907 * w + lit 0.75425 * w2) ;;
  Ok (c1, c2, c3, c4).

(* rest.py 280-286 *)
Definition get_water_vapor_transmittance (b : band) (mw w : T N) : res (T N) :=
  if is_high b then
    h <- water_coeffs_high w ;;
    let '(h1, h2) := h in
    div (lit 1 + h1 * mw) (lit 1 + h2 * mw)
  else
    c <- water_coeffs_low w ;;
    let '(c1, c2, c3, c4) := c in
    m2 <- powi mw 2 ;;
    div (lit 1 + c1 * mw + c2 * m2) (lit 1 + c3 * mw + c4 * m2).

(* rest.py 134-153 *)
Definition get_direct_normal_irradiance_by_band (b : band)
    (altitude_deg pressure_millibars ozone_atm_cm nitrogen_atm_cm precipitable_water_cm
     turbidity_alpha turbidity_beta : T N) : res (T N) :=
  ma <- get_optical_mass_aerosol altitude_deg ;;
  mo <- get_optical_mass_ozone altitude_deg ;;
  mR <- get_optical_mass_rayleigh altitude_deg pressure_millibars ;;
  mRprime <- div (mR * pressure_millibars) standard_pressure_millibars ;;
  mw <- get_optical_mass_water altitude_deg ;;
  effective_wavelength <- get_effective_aerosol_wavelength b ma turbidity_alpha turbidity_beta ;;
  tau_a <- get_aerosol_optical_depth turbidity_beta effective_wavelength turbidity_alpha ;;
  TR <- get_rayleigh_transmittance b mRprime ;;
  Tg <- get_gas_transmittance b mRprime ;;
  To <- get_ozone_transmittance b mo ozone_atm_cm ;;
  Tn <- get_nitrogen_transmittance b mw nitrogen_atm_cm ;;
  Tw <- get_water_vapor_transmittance b mw precipitable_water_cm ;;
  Ta <- get_aerosol_transmittance b ma tau_a ;;
  E0 <- E0n b ;;
  Ok (E0 * TR * Tg * To * Tn * Tw * Ta).

(* rest.py 126-131 *)
Definition get_broadband_direct_normal_irradiance
    (altitude_deg pressure_millibars ozone_atm_cm nitrogen_atm_cm precipitable_water_cm
     turbidity_alpha turbidity_beta : T N) : res (T N) :=
  high <- get_direct_normal_irradiance_by_band "high-frequency"%string altitude_deg pressure_millibars
            ozone_atm_cm nitrogen_atm_cm precipitable_water_cm turbidity_alpha turbidity_beta ;;
  low <- get_direct_normal_irradiance_by_band "low-frequency"%string altitude_deg pressure_millibars
            ozone_atm_cm nitrogen_atm_cm precipitable_water_cm turbidity_alpha turbidity_beta ;;
  Ok (high + low).

(* rest.py 85-88 *)
Definition get_beam_broadband_irradiance
    (altitude_deg pressure_millibars ozone_atm_cm nitrogen_atm_cm precipitable_water_cm
     turbidity_alpha turbidity_beta : T N) : res (T N) :=
  let Z := lit 90 - altitude_deg in
  Ebn <- get_broadband_direct_normal_irradiance altitude_deg pressure_millibars ozone_atm_cm
           nitrogen_atm_cm precipitable_water_cm turbidity_alpha turbidity_beta ;;
  c <- ncos (radians Z) ;;
  Ok (Ebn * c).

(* rest.py 90-93 *)
Definition get_beam_irradiance_by_band (b : band)
    (altitude_deg pressure_millibars ozone_atm_cm nitrogen_atm_cm precipitable_water_cm
     turbidity_alpha turbidity_beta : T N) : res (T N) :=
  let Z := lit 90 - altitude_deg in
  Ebni <- get_direct_normal_irradiance_by_band b altitude_deg pressure_millibars ozone_atm_cm
            nitrogen_atm_cm precipitable_water_cm turbidity_alpha turbidity_beta ;;
  c <- ncos (radians Z) ;;
  Ok (Ebni * c).

(* rest.py 183-193; `air_mass` on line 187 is not defined either, but line 184 fails first *)
Definition get_global_broadband_irradiance
    (altitude_deg pressure_millibars ozone_atm_cm nitrogen_atm_cm precipitable_water_cm
     turbidity_alpha turbidity_beta : T N) : res (T N) :=
  Eb_high <- get_beam_irradiance_by_band "high-frequency"%string altitude_deg pressure_millibars
               ozone_atm_cm nitrogen_atm_cm precipitable_water_cm turbidity_alpha turbidity_beta ;;
  Eb_low <- get_beam_irradiance_by_band "low-frequency"%string altitude_deg pressure_millibars
               ozone_atm_cm nitrogen_atm_cm precipitable_water_cm turbidity_alpha turbidity_beta ;;
  Err (NameError "air_mass").

End R.

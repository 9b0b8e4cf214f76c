(* pysolar/elevation.py (elevation_test, a print loop, is in Demo.v) *)
From Verif Require Import Py Num Constants.
Open Scope num_scope.

Section E.
Context {N : Num}.

(* elevation.py 30-54; the boolean says whether warnings.warn was called *)
Definition get_pressure_with_elevation_w (h Ps Ts Tl Hb R g M : T N) : res (T N * bool) :=
  warned <- truth (lt (lit 11000.0) h) ;;
  q <- div Ts (Ts + Tl * (h - Hb)) ;;
  ex <- div (g * M) (R * Tl) ;;
  p <- powf q ex ;;
  Ok (Ps * p, warned).

Definition get_pressure_with_elevation (h Ps Ts Tl Hb R g M : T N) : res (T N) :=
  rmap fst (get_pressure_with_elevation_w h Ps Ts Tl Hb R g M).

(* the call with all defaults, elevation.py 30 *)
Definition pressure_default (h : T N) : res (T N) :=
  get_pressure_with_elevation h standard_pressure standard_temperature
    earth_temperature_lapse_rate (lit 0.0) air_gas_constant earth_gravity earth_atmosphere_molar_mass.

(* elevation.py 56-66 *)
Definition get_temperature_with_elevation (h Ts Tl : T N) : T N := Ts + h * Tl.

Definition temperature_default (h : T N) : T N :=
  get_temperature_with_elevation h standard_temperature earth_temperature_lapse_rate.

End E.

(* pysolar/radiation.py *)
From Verif Require Import Py Num Cal Clock.
Open Scope num_scope.

Section R.
Context {N : Num}.

(* radiation.py 23-31; the try block also guards math.sin, which never raises
   ZeroDivisionError, so the handler only concerns the division *)
Definition get_air_mass_ratio (altitude_deg : T N) : res (T N) :=
  match (s <- nsin (radians altitude_deg) ;; div (lit 1) s) with
  | Err ZeroDivisionError => Ok inf
  | r => r
  end.

(* radiation.py 33-36 *)
Definition get_apparent_extraterrestrial_flux (day : T N) : res (T N) :=
  q <- div (lit 2 * npi) (lit 365) ;;
  s <- nsin (q * (day - lit 275)) ;;
  Ok (lit 1160 + (lit 75 * s)).

(* radiation.py 38-41 *)
Definition get_optical_depth (day : T N) : res (T N) :=
  q <- div (lit 2 * npi) (lit 365) ;;
  s <- nsin (q * (day - lit 100)) ;;
  Ok (lit 0.174 + (lit 0.035 * s)).

(* radiation.py 43-51; not decorated with check_aware_dt *)
Definition get_radiation_direct {C : Clock N} (when : D C) (altitude_deg : T N) : res (T N) :=
  let is_daytime := lt (lit 0) altitude_deg in
  day <- tm_yday C when ;;
  flux <- get_apparent_extraterrestrial_flux day ;;
  optical_depth <- get_optical_depth day ;;
  air_mass_ratio <- get_air_mass_ratio altitude_deg ;;
  e <- nexp (- lit 1 * optical_depth * air_mass_ratio) ;;
  Ok (flux * e * of_bool is_daytime).

End R.

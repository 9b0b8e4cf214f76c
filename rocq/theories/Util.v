(* pysolar/util.py *)
From Verif Require Import Py Num Cal TzCheck Clock Constants SolarTime Solar.
Open Scope num_scope.

Section U.
Context {N : Num}.

(* util.py 39-43 *)
Definition AM_default : T N := lit 2.0.
Definition TL_default : T N := lit 1.0.
Definition SC_default : T N := lit 1367.0.
Definition TY_default : T N := lit 365.
Definition elevation_default : T N := lit 0.0.

(* util.py 100-116 *)
Definition sunrise_declination (day : T N) : res (T N) :=
  TT <- div (lit 2 * npi * day) (lit 366) ;;
  c1 <- ncos TT ;;
  c2 <- ncos (lit 2 * TT) ;;
  c3 <- ncos (lit 3 * TT) ;;
  s1 <- nsin TT ;;
  s2 <- nsin (lit 2 * TT) ;;
  s3 <- nsin (lit 3 * TT) ;;
  Ok (lit 0.322003 - lit 22.971 * c1 - lit 0.357898 * c2 - lit 0.14398 * c3
      + lit 3.94638 * s1 + lit 0.019334 * s2 + lit 0.05928 * s3).

(* util.py 117-139, hours *)
Definition sunrise_time_adjustment (day : T N) : res (T N) :=
  let TT := radians (lit 279.134 + lit 0.985647 * day) in
  s1 <- nsin TT ;;
  s2 <- nsin (lit 2 * TT) ;;
  s3 <- nsin (lit 3 * TT) ;;
  s4 <- nsin (lit 4 * TT) ;;
  c1 <- ncos TT ;;
  c2 <- ncos (lit 2 * TT) ;;
  c3 <- ncos (lit 3 * TT) ;;
  div (lit 5.0323 - lit 100.976 * s1 + lit 595.275 * s2 + lit 3.6858 * s3 - lit 12.47 * s4
       - lit 430.847 * c1 + lit 12.5024 * c2 + lit 18.25 * c3) (lit 3600).

(* util.py 141-158, half day length in hours *)
Definition sunrise_half_day (latitude_deg decl : T N) : res (T N) :=
  c0 <- ncos (radians (lit 90.833)) ;;
  c1 <- ncos (radians latitude_deg) ;;
  c2 <- ncos (radians decl) ;;
  q <- div c0 (c1 * c2) ;;
  t1 <- ntan (radians latitude_deg) ;;
  t2 <- ntan (radians decl) ;;
  ac <- nacos (q - t1 * t2) ;;
  k <- div (lit 12) npi ;;
  Ok (ac * k).

(* util.py 92-140: the numbers computed before datetimes are built: (TON, ha) in hours.
   utc_offset.total_seconds() is the correctly rounded quotient of microseconds by 10**6. *)
Definition sunrise_hours (latitude_deg longitude_deg : T N) (off_us : Z) (yday : Z) : res (T N * T N) :=
  let day := ofZ yday in
  h <- div (lit (Qmake off_us 1000000)) (lit 3600) ;;
  let SHA := h * lit 15.0 - longitude_deg in
  decl <- sunrise_declination day ;;
  time_adst <- sunrise_time_adjustment day ;;
  n <- div SHA (lit 15.0) ;;
  let TON := lit 12 + n - time_adst in
  ha <- sunrise_half_day latitude_deg decl ;;
  Ok (TON, ha).

(* util.py 47-163: (sunrise, sunset, transit) *)
Definition get_sunrise_sunset_transit (latitude_deg longitude_deg : T N) (when : datetime)
    : res (datetime * datetime * datetime) :=
  aware when ;;
  off <- utcoffset when ;;
  let utc_offset := match off with Some o => o | None => 0%Z end in
  th <- sunrise_hours latitude_deg longitude_deg utc_offset (f_yday (timetuple when)) ;;
  let '(TON, ha) := th in
  let same_day := same_day when in
  d1 <- timedelta_hours (TON - ha) ;;
  sunrise_time <- dt_add same_day d1 ;;
  d2 <- timedelta_hours (TON + ha) ;;
  sunset_time <- dt_add same_day d2 ;;
  d3 <- timedelta_hours TON ;;
  transit_time <- dt_add same_day d3 ;;
  Ok (sunrise_time, sunset_time, transit_time).

(* util.py 165-169 *)
Definition get_sunrise_sunset (latitude_deg longitude_deg : T N) (when : datetime) : res (datetime * datetime) :=
  aware when ;;
  t <- get_sunrise_sunset_transit latitude_deg longitude_deg when ;;
  let '(a, b, _) := t in Ok (a, b).

(* util.py 171-175 *)
Definition get_sunrise_time (latitude_deg longitude_deg : T N) (when : datetime) : res datetime :=
  aware when ;;
  t <- get_sunrise_sunset_transit latitude_deg longitude_deg when ;;
  let '(a, _, _) := t in Ok a.

(* util.py 177-181 *)
Definition get_sunset_time (latitude_deg longitude_deg : T N) (when : datetime) : res datetime :=
  aware when ;;
  t <- get_sunrise_sunset_transit latitude_deg longitude_deg when ;;
  let '(_, b, _) := t in Ok b.

(* util.py 183-187 *)
Definition get_transit_time (latitude_deg longitude_deg : T N) (when : datetime) : res datetime :=
  aware when ;;
  t <- get_sunrise_sunset_transit latitude_deg longitude_deg when ;;
  let '(_, _, c) := t in Ok c.

(* when.utctimetuple().tm_yday *)
Definition utc_yday (when : datetime) : res (T N) :=
  t <- utctimetuple when ;; Ok (ofZ (f_yday t)).

(* util.py 189-212; 2 * pi * (tm_yday - 94) is evaluated left to right, and the division
   by 365 is outside the sine *)
Definition mean_earth_sun_distance (when : datetime) : res (T N) :=
  aware when ;;
  day <- utc_yday when ;;
  s <- nsin (lit 2 * npi * (day - lit 94)) ;;
  q <- div (lit 0.0335 * s) (lit 365) ;;
  Ok (lit 1 - q).

(* util.py 260-283 *)
Definition declination_degree (when : datetime) (TY : T N) : res (T N) :=
  aware when ;;
  q <- div (lit 2 * npi) TY ;;
  day <- utc_yday when ;;
  s <- nsin (q * (day - lit 81)) ;;
  Ok (earth_axis_inclination * s).

(* util.py 286-321 (the sine is taken of the altitude in DEGREES) *)
Definition solarelevation_function_clear (latitude_deg longitude_deg : T N) (when : datetime)
    (temperature pressure elevation : T N) : res (T N) :=
  aware when ;;
  altitude <- get_altitude latitude_deg longitude_deg when elevation temperature pressure ;;
  s <- nsin altitude ;;
  c <- ncos (lit 2 * altitude) ;;
  Ok (lit 0.038175 + (lit 1.5458 * s) + (lit (-0.59980) * (lit 0.5 * (lit 1 - c)))).

(* util.py 323-365 *)
Definition solarelevation_function_overcast (latitude_deg longitude_deg : T N) (when : datetime)
    (elevation temperature pressure : T N) : res (T N) :=
  aware when ;;
  altitude <- get_altitude latitude_deg longitude_deg when elevation temperature pressure ;;
  s <- nsin altitude ;;
  c <- ncos (lit 2 * altitude) ;;
  Ok ((lit (-0.0067133) + (lit 0.78600 * s)) + (lit 0.22401 * (lit 0.5 * (lit 1 - c)))).

(* util.py 368-388 *)
Definition diffuse_transmittance (TL : T N) : T N :=
  lit (-21.657) + (lit 41.752 * TL) + (lit 0.51905 * TL * TL).

(* util.py 391-429 *)
Definition diffuse_underclear (latitude_deg longitude_deg : T N) (when : datetime)
    (elevation temperature pressure TL : T N) : res (T N) :=
  aware when ;;
  let DT := lit (-21.657) + (lit 41.752 * TL) + (lit 0.51905 * TL * TL) in
  altitude <- get_altitude latitude_deg longitude_deg when elevation temperature pressure ;;
  d <- mean_earth_sun_distance when ;;
  Ok (d * DT * altitude).

(* util.py 431-471 *)
Definition diffuse_underovercast (latitude_deg longitude_deg : T N) (when : datetime)
    (elevation temperature pressure TL : T N) : res (T N) :=
  aware when ;;
  let DT := lit (-21.657) + (lit 41.752 * TL) + (lit 0.51905 * TL * TL) in
  d <- mean_earth_sun_distance when ;;
  altitude <- get_altitude latitude_deg longitude_deg when elevation temperature pressure ;;
  Ok (d * DT * altitude).

(* util.py 473-525 *)
Definition direct_underclear (latitude_deg longitude_deg : T N) (when : datetime)
    (TY AM TL elevation temperature pressure : T N) : res (T N) :=
  aware when ;;
  KD <- mean_earth_sun_distance when ;;
  DEC <- declination_degree when TY ;;
  e <- nexp (lit (-0.8662) * AM * TL * DEC) ;;
  altitude <- get_altitude latitude_deg longitude_deg when elevation temperature pressure ;;
  s <- nsin altitude ;;
  Ok (lit 1367 * KD * e * s).

(* util.py 527-585: temperature, pressure are parameters but the standard values are passed
   on, and TL is not passed to diffuse_underclear *)
Definition global_irradiance_clear (latitude_deg longitude_deg : T N) (when : datetime)
    (TY AM TL elevation temperature pressure : T N) : res (T N) :=
  aware when ;;
  DIRC <- direct_underclear latitude_deg longitude_deg when TY AM TL elevation
            standard_temperature standard_pressure ;;
  DIFFC <- diffuse_underclear latitude_deg longitude_deg when elevation
            standard_temperature standard_pressure TL_default ;;
  Ok (DIRC + DIFFC).

(* util.py 588-630 *)
Definition global_irradiance_overcast (latitude_deg longitude_deg : T N) (when : datetime)
    (elevation temperature pressure : T N) : res (T N) :=
  aware when ;;
  altitude <- get_altitude latitude_deg longitude_deg when elevation temperature pressure ;;
  Ok (lit 572 * altitude).

(* util.py 633-656 *)
Definition diffuse_ratio (DIFF_data ghi_data : T N) : res (T N) := div DIFF_data ghi_data.

(* util.py 214-257.  The day comes from utctimetuple; the hour angle from solar.py, whose
   clock depends on the back end (C, over single datetimes). *)
Definition extraterrestrial_irrad {C : Clock N} (toD : datetime -> D C)
    (latitude_deg longitude_deg : T N) (when : datetime) (SC : T N) : res (T N) :=
  aware when ;;
  day <- utc_yday when ;;
  q1 <- div (lit 2 * npi * (day - lit 1.0)) (lit 365.0) ;;
  ab <- ncos q1 ;;
  bc <- nsin q1 ;;
  cd <- ncos (lit 2 * q1) ;;
  df <- nsin (lit 2 * q1) ;;
  decl0 <- get_declination day ;;
  let decl := radians decl0 in
  ha0 <- get_hour_angle (toD when) longitude_deg ;;
  let ha := radians ha0 in
  s1 <- nsin (radians latitude_deg) ;;
  s2 <- nsin decl ;;
  c1 <- ncos (radians latitude_deg) ;;
  c2 <- ncos decl ;;
  c3 <- ncos ha ;;
  let ZA := s1 * s2 + c1 * c2 * c3 in
  up <- truth (lt (lit 0) ZA) ;;
  if up : bool then
    Ok (SC * ZA * (lit 1.00010 + lit 0.034221 * ab + lit 0.001280 * bc
                   + lit 0.000719 * cd + lit 0.000077 * df))
  else Ok (lit 0.0).

(* util.py 659-692 *)
Definition clear_index {C : Clock N} (toD : datetime -> D C)
    (ghi_data latitude_deg longitude_deg : T N) (when : datetime) : res (T N) :=
  aware when ;;
  EXTR1 <- extraterrestrial_irrad toD latitude_deg longitude_deg when SC_default ;;
  div ghi_data EXTR1.

End U.

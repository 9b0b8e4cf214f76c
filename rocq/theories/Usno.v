(* test/query_usno.py: the numbers the comparison with the US Naval Observatory is made of. *)
From Coq Require Import QArith Reals.
From Flocq Require Import Core IEEE754.BinarySingleNaN.
From Verif Require Import Py Num Cal Constants SolarTime Solar RInst B64.
Open Scope Z_scope.

Section S.
Context {N : Num}.
Context (divmod : T N -> T N -> res (T N * T N)).    (* builtin divmod on floats *)
Context (toint : T N -> res Z).                      (* int(x) *)
Context (nabs : T N -> T N).                         (* abs(x) *)

(* query_usno.py 120-126 and 128-133: one coordinate of a request.  Simplifications: the texts are
   kept as what they are the str of; d_minus says that the sign text is '-1'.  An int argument (line
   142-143) has the same value as a float. *)
Record dms := mkdms { d_minus : bool; d_deg : Z; d_min : Z; d_sec : T N }.
Definition encode_coordinate (x : T N) : res dms :=
  dr <- divmod x (lit 1) ;;
  q <- div (lit 1) (lit 60) ;;
  ms <- divmod (snd dr) q ;;
  b <- truth (lt (fst dr) (lit 0)) ;;
  d <- toint (fst dr) ;;
  m <- toint (fst ms) ;;
  Ok (mkdms b (Z.abs d) m (snd ms)).

(* query_usno.py 38-45 *)
Record ephemeris := mkeph { eph_when : datetime; eph_lat : T N; eph_lon : T N; eph_elevation : T N; eph_azimuth : T N; eph_altitude : T N }.

(* query_usno.py 77-78: degrees, minutes and seconds of an answer *)
Definition answer_angle (d m s : T N) : res (T N) :=
  a <- div m (lit 60) ;;
  b <- div s (lit 3600) ;;
  Ok (add (add d a) b).

(* query_usno.py 47-60; the attributes used afterwards *)
Record comparison := mkcmp { cmp_when : datetime; cmp_alt1 : T N; cmp_az1 : T N; cmp_alt2 : T N; cmp_az2 : T N; cmp_alt_error : T N; cmp_az_error : T N }.
Definition compare_ephemerides (a b : ephemeris) : comparison :=
  mkcmp (eph_when a) (eph_altitude a) (eph_azimuth a) (eph_altitude b) (eph_azimuth b)
    (nabs (sub (eph_altitude a) (eph_altitude b))) (nabs (sub (eph_azimuth a) (eph_azimuth b))).

(* query_usno.py 88-99.  Simplification: float() of the latitude and longitude texts is the identity
   on the numbers eph_lat and eph_lon. *)
Definition compare_to_usno (datum : ephemeris) : res comparison :=
  alt <- get_altitude (eph_lat datum) (eph_lon datum) (eph_when datum) (eph_elevation datum) standard_temperature standard_pressure ;;
  az <- get_azimuth (eph_lat datum) (eph_lon datum) (eph_when datum) (eph_elevation datum) ;;
  pysolar_az <- fmod (sub (lit 180) az) (lit 360) ;;
  Ok (compare_ephemerides
        (mkeph (eph_when datum) (eph_lat datum) (eph_lon datum) (eph_elevation datum) pysolar_az (sub (lit 90) alt)) datum).
End S.
Arguments dms : clear implicits.
Arguments ephemeris : clear implicits.
Arguments comparison : clear implicits.

(* CPython's float divmod (Objects/floatobject.c, _float_div_mod) *)
Definition divmod_64 (x y : f64) : res (f64 * f64) :=
  if is_zero y then Err ZeroDivisionError
  else
    let m := cfmod x y in
    let d := Bdiv mode_NE (Bminus mode_NE x m) y in
    let '(d, m) :=
      if is_zero m then (d, B754_zero (Bsign y))
      else if xorb (f_neg y) (f_neg m) then (Bminus mode_NE d one, Bplus mode_NE m y) else (d, m) in
    let f :=
      if is_zero d then B754_zero (Bsign (Bdiv mode_NE x y))
      else
        let f := Bnearbyint mode_DN d in
        if Bltb (flit 0.5) (Bminus mode_NE d f) then Bplus mode_NE f one else f in
    Ok (f, m).

(* in exact arithmetic.  Simplification: nan whenever an argument is infinite *)
Definition divmod_R (x y : Rx) : res (Rx * Rx) :=
  match x, y with
  | Fin a, Fin b => if Req_bool b 0 then Err ZeroDivisionError else Ok (Fin (IZR (Zfloor (a / b))), Fin (a - b * IZR (Zfloor (a / b))))
  | _, _ => Ok (NaN, NaN)
  end.
Definition abs_R (x : Rx) : Rx := match x with Fin a => Fin (Rabs a) | PInf | NInf => PInf | NaN => NaN end.

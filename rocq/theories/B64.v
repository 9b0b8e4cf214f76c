(* The arithmetic interface in IEEE binary64: what CPython computes with the math back end, rounding
   included.  + - * / and comparisons are Flocq's, rounding to nearest even; the functions of the C
   library are parameters.  One NaN (payloads are not observable here). *)
From Coq Require Import QArith.
From Flocq Require Import Core IEEE754.BinarySingleNaN.
From Verif Require Import Py Num.
Local Open Scope Z_scope.

Global Instance prec53 : Prec_gt_0 53 := eq_refl.
Global Instance emax1024 : Prec_lt_emax 53 1024 := eq_refl.
Definition f64 : Type := binary_float 53 1024.

(* the correctly rounded quotient p/d, with a sign *)
Definition fquot (s : bool) (p d : positive) : f64 := SF2B _ (proj1 (Bdiv_correct_aux 53 1024 _ _ mode_NE s p 0 false d 0)).
(* a decimal literal, an int converted to float, a quotient of two ints: all correctly rounded *)
Definition flit (q : Q) : f64 :=
  match Qnum q with
  | Z0 => B754_zero false
  | Zpos p => fquot false p (Qden q)
  | Zneg p => fquot true p (Qden q)
  end.
(* m * 2^e when that is a float *)
Definition fl (m : Z) (e : Z) : f64 := binary_normalize 53 1024 _ _ mode_NE m e false.

Definition is_inf (x : f64) : bool := match x with B754_infinity _ => true | _ => false end.
Definition is_zero (x : f64) : bool := match x with B754_zero _ => true | _ => false end.
Definition f_neg (x : f64) : bool := Bltb x (B754_zero false).             (* x < 0 *)

(* C's fmod: the exact remainder of the truncated quotient, with the sign of x *)
Definition cfmod (x y : f64) : f64 :=
  match x, y with
  | B754_nan, _ | _, B754_nan | B754_infinity _, _ | _, B754_zero _ => B754_nan
  | _, B754_infinity _ | B754_zero _, _ => x
  | B754_finite sx mx ex _, B754_finite _ my ey _ =>
      let e := Z.min ex ey in
      let r := (Zpos mx * 2 ^ (ex - e)) mod (Zpos my * 2 ^ (ey - e)) in
      binary_normalize 53 1024 _ _ mode_NE (cond_Zopp sx r) e sx
  end.
(* CPython's float % (Objects/floatobject.c, float_rem) *)
Definition py_fmod (x y : f64) : res f64 :=
  if is_zero y then Err ZeroDivisionError
  else
    let m := cfmod x y in
    if is_zero m then Ok (B754_zero (Bsign y))
    else if xorb (f_neg y) (f_neg m) then Ok (Bplus mode_NE m y) else Ok m.

(* the C library; [l_pow] is only called on positive finite x and finite y *)
Record libm := {
  l_sin : f64 -> f64; l_cos : f64 -> f64; l_tan : f64 -> f64;
  l_asin : f64 -> f64; l_acos : f64 -> f64; l_atan : f64 -> f64;
  l_atan2 : f64 -> f64 -> f64; l_exp : f64 -> f64; l_pow : f64 -> f64 -> f64
}.

(* CPython's math_1 and math_2 (Modules/mathmodule.c): a NaN from a number is a domain error, an
   infinity from finite arguments a domain error or, where overflow is possible, an overflow *)
Definition math_1 (overflow : exn) (f : f64 -> f64) (x : f64) : res f64 :=
  let r := f x in
  if is_nan r && negb (is_nan x) then Err ValueError
  else if is_inf r && is_finite x then Err overflow
  else Ok r.
Definition math_2 (f : f64 -> f64 -> f64) (x y : f64) : res f64 :=
  let r := f x y in
  if is_nan r && negb (is_nan x) && negb (is_nan y) then Err ValueError
  else if is_inf r && is_finite x && is_finite y then Err OverflowError
  else Ok r.

(* CPython's float_pow *)
Definition is_integer (y : f64) : bool := Beqb y (Bnearbyint mode_ZR y).
Definition is_odd (y : f64) : bool := is_integer y && Z.odd (Btrunc y).
Definition Fabs (x : f64) : f64 := Babs x.
Definition one : f64 := flit 1.
Definition py_pow (L : libm) (x y : f64) : res f64 :=
  if is_zero y then Ok one
  else if is_nan x then Ok x
  else if is_nan y then Ok (if Beqb x one then one else y)
  else if is_inf y then
    if Beqb (Fabs x) one then Ok one
    else if Bool.eqb (negb (f_neg y)) (Bltb one (Fabs x)) then Ok (B754_infinity false)
    else Ok (B754_zero false)
  else if is_inf x then
    Ok (if negb (f_neg y) then (if is_odd y then x else B754_infinity false)
        else (if is_odd y then B754_zero (Bsign x) else B754_zero false))
  else if is_zero x then
    if f_neg y then Err ZeroDivisionError else Ok (if is_odd y then x else B754_zero false)
  else if f_neg x && negb (is_integer y) then Err ComplexResult
  else
    let r := if Beqb (Fabs x) one then one else l_pow L (Fabs x) y in
    let r := if f_neg x && is_odd y then Bopp r else r in
    if is_inf r then Err OverflowError else Ok r.

(* M_PI and M_E as doubles; math.radians and math.degrees multiply by constants computed from them *)
Definition pi64 : f64 := fl 7074237752028440 (-51).
Definition e64 : f64 := fl 6121026514868073 (-51).
Definition deg_to_rad : f64 := Bdiv mode_NE pi64 (flit 180).
Definition rad_to_deg : f64 := Bdiv mode_NE (flit 180) pi64.

(* builtin round: to nearest, ties to even *)
Definition py_round (x : f64) : res Z :=
  match x with
  | B754_nan => Err ValueError
  | B754_infinity _ => Err OverflowError
  | _ => Ok (Btrunc (Bnearbyint mode_NE x))
  end.
(* timedelta(hours = x) (Modules/_datetimemodule.c, accum and delta_new): the whole hours exactly, the
   fraction times 3.6e9 in double, rounded half-even *)
Definition py_timedelta_hours (x : f64) : res Z :=
  match x with
  | B754_nan => Err ValueError
  | B754_infinity _ => Err OverflowError
  | _ =>
      let n := Btrunc x in
      let frac := Bminus mode_NE x (flit (inject_Z n)) in
      let us := (n * 3600000000 + Btrunc (Bnearbyint mode_NE (Bmult mode_NE (flit 3600000000) frac)))%Z in
      if (Z.abs (us / 86400000000) <=? 999999999)%Z then Ok us else Err OverflowError
  end.

Definition B64 (L : libm) : Num := {|
  T := f64;
  B := bool;
  lit := flit;
  inf := B754_infinity false;
  add := Bplus mode_NE; sub := Bminus mode_NE; mul := Bmult mode_NE; neg x := Bopp x;
  div x y := if is_zero y then Err ZeroDivisionError else Ok (Bdiv mode_NE x y);
  fmod := py_fmod;
  powi x n := py_pow L x (flit (inject_Z (Z.of_nat n)));
  powf := py_pow L;
  nsin := math_1 ValueError (l_sin L);
  ncos := math_1 ValueError (l_cos L);
  ntan := math_1 ValueError (l_tan L);
  nasin := math_1 ValueError (l_asin L);
  nacos := math_1 ValueError (l_acos L);
  natan := math_1 ValueError (l_atan L);
  natan2 := math_2 (l_atan2 L);
  nexp := math_1 OverflowError (l_exp L);
  radians x := Bmult mode_NE x deg_to_rad;
  degrees x := Bmult mode_NE x rad_to_deg;
  npi := pi64;
  ne := e64;
  lt := Bltb;
  le := Bleb;
  of_bool b := if b then one else B754_zero false;
  truth b := Ok b;
  where_ b x y := if b then x else y;
  round_int := py_round;
  timedelta_hours := py_timedelta_hours
|}.

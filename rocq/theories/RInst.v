(* Instances of the arithmetic interface over extended reals.

   Idealisation: finite floats are exact real numbers -- no rounding, no overflow except in
   exp, one unsigned zero.  What is kept exactly is which operations raise, and the
   infinities/NaN that numpy returns instead.  tan at a pole (cos = 0) is the infinity with
   the sign of sin; with floats it is a huge finite number. *)
From Coq Require Import Reals Qreals.
From Flocq Require Import Core.
From Verif Require Import Py Num.
Local Open Scope R_scope.

Inductive Rx : Type := Fin (r : R) | PInf | NInf | NaN.

(* sign of a real as a comparison with zero *)
Definition Rsgn (r : R) : comparison :=
  match total_order_T r 0 with
  | inleft (left _) => Lt
  | inleft (right _) => Eq
  | inright _ => Gt
  end.

Definition Rbool_lt (x y : R) : bool := if Rlt_dec x y then true else false.
Definition Rbool_le (x y : R) : bool := if Rle_dec x y then true else false.
Definition Req_bool (x y : R) : bool := if Req_EM_T x y then true else false.

Definition xneg (a : Rx) : Rx :=
  match a with Fin r => Fin (- r) | PInf => NInf | NInf => PInf | NaN => NaN end.

Definition xadd (a b : Rx) : Rx :=
  match a, b with
  | Fin x, Fin y => Fin (x + y)
  | NaN, _ | _, NaN => NaN
  | PInf, NInf | NInf, PInf => NaN
  | PInf, _ | _, PInf => PInf
  | NInf, _ | _, NInf => NInf
  end.
Definition xsub (a b : Rx) : Rx :=
  match a, b with
  | Fin x, Fin y => Fin (x - y)
  | _, _ => xadd a (xneg b)
  end.

(* infinity (positive when [p]) times a sign *)
Definition inf_sgn (p : bool) (c : comparison) : Rx :=
  match c with
  | Eq => NaN
  | Gt => if p then PInf else NInf
  | Lt => if p then NInf else PInf
  end.

Definition xmul (a b : Rx) : Rx :=
  match a, b with
  | Fin x, Fin y => Fin (x * y)
  | NaN, _ | _, NaN => NaN
  | PInf, PInf | NInf, NInf => PInf
  | PInf, NInf | NInf, PInf => NInf
  | PInf, Fin r | Fin r, PInf => inf_sgn true (Rsgn r)
  | NInf, Fin r | Fin r, NInf => inf_sgn false (Rsgn r)
  end.

(* division with a divisor that is not zero *)
Definition xdiv_nz (a b : Rx) : Rx :=
  match a, b with
  | Fin x, Fin y => Fin (x / y)
  | NaN, _ | _, NaN => NaN
  | Fin _, (PInf | NInf) => Fin 0
  | PInf, Fin r => inf_sgn true (Rsgn r)
  | NInf, Fin r => inf_sgn false (Rsgn r)
  | (PInf | NInf), (PInf | NInf) => NaN
  end.
Definition xis_zero (b : Rx) : bool := match b with Fin y => Req_bool y 0 | _ => false end.

(* float division: ZeroDivisionError *)
Definition xdiv_py (a b : Rx) : res Rx := if xis_zero b then Err ZeroDivisionError else Ok (xdiv_nz a b).
(* numpy division by (unsigned) zero *)
Definition xdiv_np (a b : Rx) : Rx :=
  if xis_zero b then
    match a with
    | Fin x => inf_sgn true (Rsgn x)
    | PInf => PInf | NInf => NInf | NaN => NaN
    end
  else xdiv_nz a b.

(* x % y for y <> 0: the result has the sign of y (Python and numpy agree) *)
Definition Rfmod (x y : R) : R := x - y * IZR (Zfloor (x / y)).
Definition xfmod_nz (a b : Rx) : Rx :=
  match a, b with
  | Fin x, Fin y => Fin (Rfmod x y)
  | Fin x, PInf => if Rle_dec 0 x then Fin x else PInf
  | Fin x, NInf => if Rle_dec x 0 then Fin x else NInf
  | _, _ => NaN
  end.
Definition xfmod_py (a b : Rx) : res Rx := if xis_zero b then Err ZeroDivisionError else Ok (xfmod_nz a b).
Definition xfmod_np (a b : Rx) : Rx := if xis_zero b then NaN else xfmod_nz a b.

Fixpoint xpowi (a : Rx) (n : nat) : Rx :=
  match n with
  | O => Fin 1
  | 1%nat => a
  | S n => xmul a (xpowi a n)
  end.

Definition is_int (y : R) : bool := Req_bool (IZR (Zfloor y)) y.

(* x ** y for finite floats.  Python: 0 ** negative raises, negative ** fractional is a
   complex number; numpy: inf and nan. *)
Definition Rpow_pos (x y : R) : R := if Req_bool x 0 then (if Req_bool y 0 then 1 else 0) else Rpower x y.
(* powers with an infinite operand; C99 and CPython's float_pow agree on these *)
Definition xpow_inf (a b : Rx) : Rx :=
  match a, b with
  | _, Fin y =>
      if Req_bool y 0 then Fin 1
      else match a with
           | PInf => if Rbool_lt 0 y then PInf else Fin 0
           | NInf => if Rbool_lt 0 y
                     then (if is_int y && Z.odd (Zfloor y) then NInf else PInf) else Fin 0
           | _ => NaN
           end
  | Fin x, PInf => if Req_bool (Rabs x) 1 then Fin 1 else if Rbool_lt 1 (Rabs x) then PInf else Fin 0
  | Fin x, NInf => if Req_bool (Rabs x) 1 then Fin 1 else if Rbool_lt 1 (Rabs x) then Fin 0 else PInf
  | Fin x, NaN => if Req_bool x 1 then Fin 1 else NaN
  | (PInf | NInf), PInf => PInf
  | (PInf | NInf), NInf => Fin 0
  | _, _ => NaN
  end.
Definition xpowf_py (a b : Rx) : res Rx :=
  match a, b with
  | Fin x, Fin y =>
      if Rbool_lt 0 x then Ok (Fin (Rpower x y))
      else if Req_bool x 0 then
        if Rbool_lt y 0 then Err ZeroDivisionError else Ok (Fin (Rpow_pos x y))
      else if is_int y then Ok (Fin (powerRZ x (Zfloor y)))
      else Err ComplexResult
  | _, _ => Ok (xpow_inf a b)
  end.
Definition xpowf_np (a b : Rx) : Rx :=
  match a, b with
  | Fin x, Fin y =>
      if Rbool_lt 0 x then Fin (Rpower x y)
      else if Req_bool x 0 then
        if Rbool_lt y 0 then PInf else Fin (Rpow_pos x y)
      else if is_int y then Fin (powerRZ x (Zfloor y))
      else NaN
  | _, _ => xpow_inf a b
  end.

Definition Rtan_x (r : R) : Rx :=
  if Req_bool (cos r) 0 then (if Rbool_lt 0 (sin r) then PInf else NInf) else Fin (tan r).

(* the angle of the point (x, y); 0 at the origin *)
Definition Ratan2 (y x : R) : R :=
  match Rsgn x with
  | Gt => atan (y / x)
  | Lt => if Rle_dec 0 y then atan (y / x) + PI else atan (y / x) - PI
  | Eq => match Rsgn y with Gt => PI / 2 | Eq => 0 | Lt => - (PI / 2) end
  end.
Definition xatan2 (y x : Rx) : Rx :=
  match y, x with
  | NaN, _ | _, NaN => NaN
  | Fin y, Fin x => Fin (Ratan2 y x)
  | Fin y, PInf => Fin 0
  | Fin y, NInf => Fin (if Rle_dec 0 y then PI else - PI)
  | PInf, Fin _ => Fin (PI / 2)
  | NInf, Fin _ => Fin (- (PI / 2))
  | PInf, PInf => Fin (PI / 4)
  | NInf, PInf => Fin (- (PI / 4))
  | PInf, NInf => Fin (3 * (PI / 4))
  | NInf, NInf => Fin (- (3 * (PI / 4)))
  end.

(* smallest real that rounds to infinity in binary64 *)
Definition float_overflow : R := 2 ^ 1024 - 2 ^ 970.

(* unary functions: value on finite reals, or the exception the math module raises there,
   together with what numpy returns instead *)
Definition asin_ok (r : R) : bool := Rbool_le (-1) r && Rbool_le r 1.
Definition Rexp_x (r : R) : Rx := if Rbool_lt (exp r) float_overflow then Fin (exp r) else PInf.

Definition xlt (a b : Rx) : bool :=
  match a, b with
  | Fin x, Fin y => Rbool_lt x y
  | NaN, _ | _, NaN => false
  | PInf, _ => false
  | _, PInf => true
  | _, NInf => false
  | NInf, _ => true
  end.
Definition xle (a b : Rx) : bool :=
  match a, b with
  | Fin x, Fin y => Rbool_le x y
  | NaN, _ | _, NaN => false
  | NInf, _ => true
  | _, PInf => true
  | PInf, _ => false
  | _, NInf => false
  end.

Definition xround_int (a : Rx) : res Z :=
  match a with
  | Fin r => Ok (ZnearestE r)
  | NaN => Err ValueError
  | _ => Err OverflowError
  end.

(* timedelta(hours = x): rounded half-even to microseconds; |days| <= 999999999 *)
Definition xtimedelta_hours (a : Rx) : res Z :=
  match a with
  | Fin r =>
      let us := ZnearestE (r * 3600000000) in
      if (Z.abs (us / 86400000000) <=? 999999999)%Z then Ok us else Err OverflowError
  | NaN => Err ValueError
  | _ => Err OverflowError
  end.

Definition xradians (a : Rx) : Rx := xmul a (Fin (PI / 180)).
Definition xdegrees (a : Rx) : Rx := xmul a (Fin (180 / PI)).
Definition xbool (b : bool) : Rx := Fin (if b then 1 else 0).

(* ------------------------------------------------------------------ math back end *)
Definition MathR : Num := {|
  T := Rx;
  B := bool;
  lit q := Fin (Q2R q);
  inf := PInf;
  add := xadd; sub := xsub; mul := xmul; neg := xneg;
  div := xdiv_py;
  fmod := xfmod_py;
  powi a n := Ok (xpowi a n);
  powf := xpowf_py;
  nsin a := match a with Fin r => Ok (Fin (sin r)) | NaN => Ok NaN | _ => Err ValueError end;
  ncos a := match a with Fin r => Ok (Fin (cos r)) | NaN => Ok NaN | _ => Err ValueError end;
  ntan a := match a with Fin r => Ok (Rtan_x r) | NaN => Ok NaN | _ => Err ValueError end;
  nasin a := match a with
             | Fin r => if asin_ok r then Ok (Fin (asin r)) else Err ValueError
             | NaN => Ok NaN | _ => Err ValueError end;
  nacos a := match a with
             | Fin r => if asin_ok r then Ok (Fin (acos r)) else Err ValueError
             | NaN => Ok NaN | _ => Err ValueError end;
  natan a := match a with
             | Fin r => Ok (Fin (atan r)) | PInf => Ok (Fin (PI / 2))
             | NInf => Ok (Fin (- (PI / 2))) | NaN => Ok NaN end;
  natan2 y x := Ok (xatan2 y x);
  nexp a := match a with
            | Fin r => if Rbool_lt (exp r) float_overflow then Ok (Fin (exp r)) else Err OverflowError
            | PInf => Ok PInf | NInf => Ok (Fin 0) | NaN => Ok NaN end;
  radians := xradians;
  degrees := xdegrees;
  npi := Fin PI;
  ne := Fin (exp 1);
  lt := xlt;
  le := xle;
  of_bool := xbool;
  truth b := Ok b;
  where_ b x y := if b then x else y;
  round_int := xround_int;
  timedelta_hours := xtimedelta_hours
|}.

(* ------------------------------------------------------------------ numpy functions *)
Definition np_sin (a : Rx) : Rx := match a with Fin r => Fin (sin r) | _ => NaN end.
Definition np_cos (a : Rx) : Rx := match a with Fin r => Fin (cos r) | _ => NaN end.
Definition np_tan (a : Rx) : Rx := match a with Fin r => Rtan_x r | _ => NaN end.
Definition np_asin (a : Rx) : Rx := match a with Fin r => if asin_ok r then Fin (asin r) else NaN | _ => NaN end.
Definition np_acos (a : Rx) : Rx := match a with Fin r => if asin_ok r then Fin (acos r) else NaN | _ => NaN end.
Definition np_atan (a : Rx) : Rx :=
  match a with Fin r => Fin (atan r) | PInf => Fin (PI / 2) | NInf => Fin (- (PI / 2)) | NaN => NaN end.
Definition np_exp (a : Rx) : Rx :=
  match a with Fin r => Rexp_x r | PInf => PInf | NInf => Fin 0 | NaN => NaN end.

(* numpy back end, single numbers.  numpy functions return numpy.float64, whose arithmetic
   does not raise; arithmetic between plain Python floats (arguments, literals, numpy.pi)
   still raises.  [is_np] records which of the two a value is. *)
Record nx := mknx { is_np : bool; vx : Rx }.
Definition lift1 (f : Rx -> Rx) (a : nx) : nx := mknx (is_np a) (f (vx a)).
Definition lift2 (f : Rx -> Rx -> Rx) (a b : nx) : nx := mknx (is_np a || is_np b) (f (vx a) (vx b)).
Definition npf (f : Rx -> Rx) (a : nx) : res nx := Ok (mknx true (f (vx a))).

Definition NumpyR : Num := {|
  T := nx;
  B := bool;
  lit q := mknx false (Fin (Q2R q));
  inf := mknx false PInf;
  add := lift2 xadd; sub := lift2 xsub; mul := lift2 xmul; neg := lift1 xneg;
  div a b := if is_np a || is_np b then Ok (mknx true (xdiv_np (vx a) (vx b)))
             else rmap (mknx false) (xdiv_py (vx a) (vx b));
  fmod a b := if is_np a || is_np b then Ok (mknx true (xfmod_np (vx a) (vx b)))
              else rmap (mknx false) (xfmod_py (vx a) (vx b));
  powi a n := Ok (mknx (is_np a) (xpowi (vx a) n));
  powf a b := if is_np a || is_np b then Ok (mknx true (xpowf_np (vx a) (vx b)))
              else rmap (mknx false) (xpowf_py (vx a) (vx b));
  nsin := npf np_sin; ncos := npf np_cos; ntan := npf np_tan;
  nasin := npf np_asin; nacos := npf np_acos; natan := npf np_atan;
  natan2 y x := Ok (mknx true (xatan2 (vx y) (vx x)));
  nexp := npf np_exp;
  radians a := mknx true (xradians (vx a));
  degrees a := mknx true (xdegrees (vx a));
  npi := mknx false (Fin PI);
  ne := mknx false (Fin (exp 1));
  lt a b := xlt (vx a) (vx b);
  le a b := xle (vx a) (vx b);
  of_bool b := mknx false (xbool b);
  truth b := Ok b;
  where_ b x y := mknx true (vx (if b then x else y));
  round_int a := xround_int (vx a);
  timedelta_hours a := xtimedelta_hours (vx a)
|}.

(* ------------------------------------------------------------------ arrays *)
(* Arrays of a common (broadcast) shape, indexed by I; scalars are constant arrays.  This is
   numpy.ndarray arithmetic: elementwise, nothing raises, and an array cannot be used as a
   truth value or rounded/converted to a Python number (ValueError/TypeError for more than
   one element; modelled as raising regardless of size). *)
Definition ArrR (I : Type) : Num := {|
  T := I -> Rx;
  B := I -> bool;
  lit q := fun _ => Fin (Q2R q);
  inf := fun _ => PInf;
  add a b := fun i => xadd (a i) (b i);
  sub a b := fun i => xsub (a i) (b i);
  mul a b := fun i => xmul (a i) (b i);
  neg a := fun i => xneg (a i);
  div a b := Ok (fun i => xdiv_np (a i) (b i));
  fmod a b := Ok (fun i => xfmod_np (a i) (b i));
  powi a n := Ok (fun i => xpowi (a i) n);
  powf a b := Ok (fun i => xpowf_np (a i) (b i));
  nsin a := Ok (fun i => np_sin (a i));
  ncos a := Ok (fun i => np_cos (a i));
  ntan a := Ok (fun i => np_tan (a i));
  nasin a := Ok (fun i => np_asin (a i));
  nacos a := Ok (fun i => np_acos (a i));
  natan a := Ok (fun i => np_atan (a i));
  natan2 y x := Ok (fun i => xatan2 (y i) (x i));
  nexp a := Ok (fun i => np_exp (a i));
  radians a := fun i => xradians (a i);
  degrees a := fun i => xdegrees (a i);
  npi := fun _ => Fin PI;
  ne := fun _ => Fin (exp 1);
  lt a b := fun i => xlt (a i) (b i);
  le a b := fun i => xle (a i) (b i);
  of_bool b := fun i => xbool (b i);
  truth b := Err ValueError;
  where_ b x y := fun i => if b i then x i else y i;
  round_int a := Err TypeError;
  timedelta_hours a := Err TypeError
|}.

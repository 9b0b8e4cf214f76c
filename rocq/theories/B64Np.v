(* The arithmetic interface in IEEE binary64 with the numpy back end (pysolar/numeric.py 99-119).
   numpy.float64 arithmetic is IEEE arithmetic and raises nothing; a division or remainder of two
   plain Python floats still raises ZeroDivisionError.  The elementary functions are those of a
   library L, which need not be the one the math module uses.
   Simplifications: x ** y with a numpy operand is the library's pow also for the exponent 2, where
   numpy may use x * x; floating-point warnings (numpy.seterr) are ignored. *)
From Coq Require Import QArith.
From Flocq Require Import Core IEEE754.BinarySingleNaN.
From Verif Require Import Py Num Cal Clock B64.

(* numpy's remainder (npy_math, npy_remainder): as float_rem, NaN for a zero divisor *)
Definition np_fmod (x y : f64) : f64 := match py_fmod x y with Ok r => r | Err _ => B754_nan end.

(* single numbers: [is_npf] tells numpy.float64 from Python float *)
Record nf := mknf { is_npf : bool; vf : f64 }.
Definition fl1 (f : f64 -> f64) (a : nf) : nf := mknf (is_npf a) (f (vf a)).
Definition fl2 (f : f64 -> f64 -> f64) (a b : nf) : nf := mknf (is_npf a || is_npf b) (f (vf a) (vf b)).
Definition npf64 (f : f64 -> f64) (a : nf) : res nf := Ok (mknf true (f (vf a))).
Definition py_or_np (p : f64 -> f64 -> res f64) (n : f64 -> f64 -> f64) (a b : nf) : res nf :=
  if is_npf a || is_npf b then Ok (mknf true (n (vf a) (vf b))) else rmap (mknf false) (p (vf a) (vf b)).

Definition Np64 (L : libm) : Num := {|
  T := nf;
  B := bool;
  lit q := mknf false (flit q);
  inf := mknf false (B754_infinity false);
  add := fl2 (Bplus mode_NE); sub := fl2 (Bminus mode_NE); mul := fl2 (Bmult mode_NE); neg := fl1 Bopp;
  div := py_or_np (div (n := B64 L)) (Bdiv mode_NE);
  fmod := py_or_np py_fmod np_fmod;
  powi a n := py_or_np (py_pow L) (l_pow L) a (mknf false (flit (inject_Z (Z.of_nat n))));
  powf := py_or_np (py_pow L) (l_pow L);
  nsin := npf64 (l_sin L);
  ncos := npf64 (l_cos L);
  ntan := npf64 (l_tan L);
  nasin := npf64 (l_asin L);
  nacos := npf64 (l_acos L);
  natan := npf64 (l_atan L);
  natan2 y x := Ok (mknf true (l_atan2 L (vf y) (vf x)));
  nexp := npf64 (l_exp L);
  radians a := mknf true (radians (n := B64 L) (vf a));
  degrees a := mknf true (degrees (n := B64 L) (vf a));
  npi := mknf false pi64;
  ne := mknf false e64;
  lt a b := Bltb (vf a) (vf b);
  le a b := Bleb (vf a) (vf b);
  of_bool b := mknf false (of_bool (n := B64 L) b);
  truth b := Ok b;
  where_ b x y := mknf true (vf (if b then x else y));
  round_int a := py_round (vf a);
  timedelta_hours a := py_timedelta_hours (vf a)
|}.

(* arrays of a common shape, as ArrR (RInst.v) *)
Definition Arr64 (I : Type) (L : libm) : Num := {|
  T := I -> f64;
  B := I -> bool;
  lit q := fun _ => flit q;
  inf := fun _ => B754_infinity false;
  add a b := fun i => Bplus mode_NE (a i) (b i);
  sub a b := fun i => Bminus mode_NE (a i) (b i);
  mul a b := fun i => Bmult mode_NE (a i) (b i);
  neg a := fun i => Bopp (a i);
  div a b := Ok (fun i => Bdiv mode_NE (a i) (b i));
  fmod a b := Ok (fun i => np_fmod (a i) (b i));
  powi a n := Ok (fun i => l_pow L (a i) (flit (inject_Z (Z.of_nat n))));
  powf a b := Ok (fun i => l_pow L (a i) (b i));
  nsin a := Ok (fun i => l_sin L (a i));
  ncos a := Ok (fun i => l_cos L (a i));
  ntan a := Ok (fun i => l_tan L (a i));
  nasin a := Ok (fun i => l_asin L (a i));
  nacos a := Ok (fun i => l_acos L (a i));
  natan a := Ok (fun i => l_atan L (a i));
  natan2 y x := Ok (fun i => l_atan2 L (y i) (x i));
  nexp a := Ok (fun i => l_exp L (a i));
  radians a := fun i => radians (n := B64 L) (a i);
  degrees a := fun i => degrees (n := B64 L) (a i);
  npi := fun _ => pi64;
  ne := fun _ => e64;
  lt a b := fun i => Bltb (a i) (b i);
  le a b := fun i => Bleb (a i) (b i);
  of_bool b := fun i => of_bool (n := B64 L) (b i);
  truth b := Err ValueError;
  where_ b x y := fun i => if b i then x i else y i;
  round_int a := Err TypeError;
  timedelta_hours a := Err TypeError
|}.

(* arrays of datetime64 values, as clock_array (Arr.v) *)
Definition clock_array64 (I : Type) (L : libm) : Clock (Arr64 I L) := Build_Clock (Arr64 I L) (I -> Z)
  (fun _ => Ok tt)
  (fun d => Ok (fun i => flit (inject_Z (tm_yday_dt64 (d i)))))
  (fun d => Ok (fun i => flit (inject_Z (tm_hour_dt64 (d i)))))
  (fun d => Ok (fun i => flit (inject_Z (tm_min_dt64 (d i))))).

(* What is assumed of the C library and claimed of results in binary64. *)
From Coq Require Import Reals Qreals.
From Flocq Require Import Core IEEE754.BinarySingleNaN.
From Verif Require Import Py Num RInst B64.
Local Open Scope R_scope.

(* rounding to nearest binary64, ties to even *)
Definition rnd (r : R) : R := round radix2 (FLT_exp (-1074) 53) ZnearestE r.
(* the float x is the real r *)
Definition val (x : f64) (r : R) : Prop := is_finite x = true /\ B2R x = r.

(* a NaN, or an angle of [0, 360) *)
Definition on_circle (x : f64) : Prop := is_nan x = true \/ exists v, val x v /\ 0 <= v < 360.
Definition on_closed_circle (x : f64) : Prop := is_nan x = true \/ exists v, val x v /\ 0 <= v <= 360.

(* atan2 stays within [-M_PI, M_PI] (C99 F.10.1.4; true of every correctly or faithfully rounded one,
   since M_PI is below pi) *)
Definition atan2_in_range (L : libm) : Prop := forall y x,
  is_nan (l_atan2 L y x) = true \/ exists v, val (l_atan2 L y x) v /\ Rabs v <= B2R pi64.

(* The angle of the point (x, y) as C has it (C99 F.9.1.4): on the negative x axis its sign is that of
   the zero y, and at the origin the sign of the zero x counts as well. *)
Definition atan2_ieee (y x : f64) : R :=
  match Rcompare (B2R y) 0 with
  | Eq => if Bsign x then (if Bsign y then - PI else PI) else 0
  | _ => Ratan2 (B2R y) (B2R x)
  end.

(* the float nearest to r, or infinity when that overflows *)
Definition nearest (r : R) (y : f64) : Prop :=
  if Rlt_bool (Rabs (rnd r)) (bpow radix2 1024) then val y (rnd r) else y = B754_infinity (Rlt_bool r 0).
(* the C functions return the float nearest to the exact value, and NaN outside the domain *)
Record correctly_rounded (L : libm) : Prop := {
  cr_sin : forall x, is_finite x = true -> nearest (sin (B2R x)) (l_sin L x);
  cr_cos : forall x, is_finite x = true -> nearest (cos (B2R x)) (l_cos L x);
  cr_tan : forall x, is_finite x = true -> nearest (tan (B2R x)) (l_tan L x);
  cr_asin : forall x, is_finite x = true -> Rabs (B2R x) <= 1 -> nearest (asin (B2R x)) (l_asin L x);
  cr_acos : forall x, is_finite x = true -> Rabs (B2R x) <= 1 -> nearest (acos (B2R x)) (l_acos L x);
  cr_asin_dom : forall x, is_finite x = true -> 1 < Rabs (B2R x) -> is_nan (l_asin L x) = true;
  cr_acos_dom : forall x, is_finite x = true -> 1 < Rabs (B2R x) -> is_nan (l_acos L x) = true;
  cr_atan : forall x, is_finite x = true -> nearest (atan (B2R x)) (l_atan L x);
  cr_atan2 : forall y x, is_finite y = true -> is_finite x = true -> nearest (atan2_ieee y x) (l_atan2 L y x);
  cr_exp : forall x, is_finite x = true -> nearest (exp (B2R x)) (l_exp L x);
  cr_pow : forall x y, is_finite x = true -> is_finite y = true -> 0 < B2R x -> nearest (Rpower (B2R x) (B2R y)) (l_pow L x y);
  cr_inf : forall f x, In f [l_sin L; l_cos L; l_tan L; l_asin L; l_acos L] -> is_finite x = false -> is_nan (f x) = true;
  cr_nan : forall f, In f [l_atan L; l_exp L] -> is_nan (f B754_nan) = true
}.

(* asin within [-M_PI_2, M_PI_2], acos within [0, M_PI] *)
Definition asin_in_range (L : libm) : Prop := forall x,
  is_nan (l_asin L x) = true \/ exists v, val (l_asin L x) v /\ Rabs v <= B2R pi64 / 2.
Definition acos_in_range (L : libm) : Prop := forall x,
  is_nan (l_acos L x) = true \/ exists v, val (l_acos L x) v /\ 0 <= v <= B2R pi64.
(* a NaN, or a number of [lo, hi] *)
Definition nan_or_within (lo hi : R) (x : f64) : Prop := is_nan x = true \/ exists v, val x v /\ lo <= v <= hi.
(* the float x is within e of the real r *)
Definition near (x : f64) (r e : R) : Prop := exists v, val x v /\ Rabs (v - r) <= e.

(* A C library accurate to one unit in the last place: the result is finite and within a relative error
   2^-52 (or 2^-1074) of the exact value.  tan, exp and pow only where the exact value does not overflow. *)
Definition close (y : f64) (r : R) : Prop :=
  exists v, val y v /\ Rabs (v - r) <= Rabs r * bpow radix2 (-52) + bpow radix2 (-1074).
Record accurate (L : libm) : Prop := {
  ac_sin : forall x v, val x v -> close (l_sin L x) (sin v);
  ac_cos : forall x v, val x v -> close (l_cos L x) (cos v);
  ac_tan : forall x v, val x v -> Rabs (tan v) <= bpow radix2 1000 -> close (l_tan L x) (tan v);
  ac_asin : forall x v, val x v -> Rabs v <= 1 -> close (l_asin L x) (asin v);
  ac_acos : forall x v, val x v -> Rabs v <= 1 -> close (l_acos L x) (acos v);
  ac_asin_dom : forall x v, val x v -> 1 < Rabs v -> is_nan (l_asin L x) = true;
  ac_acos_dom : forall x v, val x v -> 1 < Rabs v -> is_nan (l_acos L x) = true;
  ac_atan : forall x v, val x v -> close (l_atan L x) (atan v);
  ac_atan2 : forall y x v w, val y v -> val x w -> close (l_atan2 L y x) (atan2_ieee y x);
  ac_exp : forall x v, val x v -> exp v <= bpow radix2 1000 -> close (l_exp L x) (exp v);
  ac_pow : forall x y v w, val x v -> val y w -> 0 < v -> Rpower v w <= bpow radix2 1000 -> close (l_pow L x y) (Rpower v w)
}.

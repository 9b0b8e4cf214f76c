(* An interval calculator for runs of the model in binary64 on given numbers.  Not part of the library:
   a calculator for the proofs, run by [vm_compute]; EnclSound.v proves the intervals valid for every accurate
   C library.  Numbers that no C function has touched are kept as floats; after that, bounds scaled by 2^80.
   The sine is a series in 63-bit machine integers. *)
From Coq Require Import ZArith QArith List Bool Uint63.
From Flocq Require Import Core IEEE754.BinarySingleNaN.
From Verif Require Import Py Num B64.
Import ListNotations.
Local Open Scope Z_scope.

Definition S80 : Z := Eval vm_compute in 2 ^ 80.
Definition TOP : Z := Eval vm_compute in 2 ^ 900.
Definition PI80 : Z := 3797952473636338580787993.
Definition up (a : Z) : Z := - Z.shiftr (- a) 80.
Definition ulp80 (m : Z) : Z := Z.shiftr m 53 + 2.

(* a float, the float nearest to a rational, a float between two bounds, any float *)
Inductive ev := Fl (x : f64) | Qv (q : Q) | Iv (lo hi : Z) | Any.
Definition P53 : Z := Eval vm_compute in 2 ^ 53.
Definition bounds (a : ev) : option (Z * Z) :=
  match a with
  | Iv l h => Some (l, h)
  | Fl (B754_zero _) => Some (0, 0)
  | Fl (B754_finite s m e _) =>
      let z := cond_Zopp s (Zpos m) in
      if 0 <=? e + 80 then let k := Z.shiftl z (e + 80) in Some (k, k)
      else let k := Z.shiftr z (- (e + 80)) in Some (k, k + 1)
  | Qv (p # d) =>
      if (Z.abs p <=? P53) && (d =? 1)%positive then let k := Z.shiftl p 80 in Some (k, k)
      else let k := Z.shiftl p 80 / Zpos d in
        if Z.abs k <=? P53 * S80 then let u := ulp80 (Z.abs k + 1) in Some (k - u, k + 1 + u) else None
  | _ => None
  end.
(* the number as a float, when it is known exactly *)
Definition exact (a : ev) : option f64 := match a with Fl x => Some x | Qv q => Some (flit q) | _ => None end.
(* k roundings of a value between lo and hi *)
Definition out (k lo hi : Z) : ev :=
  let m := Z.max (Z.abs lo) (Z.abs hi) in
  if m <=? TOP then let u := k * ulp80 m in Iv (lo - u) (hi + u) else Any.

Definition on2 {A} (a b : ev) (d : A) (f : Z -> Z -> Z -> Z -> A) : A :=
  match bounds a, bounds b with Some (l, h), Some (l', h') => f l h l' h' | _, _ => d end.
Definition on1 {A} (a : ev) (d : A) (f : Z -> Z -> A) : A := match bounds a with Some (l, h) => f l h | None => d end.

Definition e_add (a b : ev) : ev :=
  match exact a, exact b with
  | Some x, Some y => Fl (Bplus mode_NE x y)
  | _, _ => on2 a b Any (fun l h l' h' => out 1 (l + l') (h + h'))
  end.
Definition e_sub (a b : ev) : ev :=
  match exact a, exact b with
  | Some x, Some y => Fl (Bminus mode_NE x y)
  | _, _ => on2 a b Any (fun l h l' h' => out 1 (l - h') (h - l'))
  end.
(* by midpoint and radius *)
Definition iprod (l h l' h' : Z) : Z * Z :=
  let m := Z.shiftr (l + h) 1 in let m' := Z.shiftr (l' + h') 1 in
  let r := h - m in let r' := h' - m' in
  let p := m * m' in let e := r' * Z.abs m + r * (Z.abs m' + r') in
  (Z.shiftr (p - e) 80, up (p + e)).
Definition e_mul (a b : ev) : ev :=
  match exact a, exact b with
  | Some x, Some y => Fl (Bmult mode_NE x y)
  | _, _ => on2 a b Any (fun l h l' h' => let '(u, v) := iprod l h l' h' in out 1 u v)
  end.
Definition e_neg (a : ev) : ev := match a with Fl x => Fl (Bopp x) | Qv q => Fl (Bopp (flit q)) | Iv l h => Iv (- h) (- l) | Any => Any end.
(* quotient, the divisor positive *)
Definition quot_lo (l l' h' : Z) : Z := if 0 <=? l then l * S80 / h' else l * S80 / l'.
Definition iquot (l h l' h' : Z) : Z * Z := (quot_lo l l' h', - quot_lo (- h) l' h').
Definition e_div (a b : ev) : res ev :=
  match exact a, exact b with
  | Some x, Some y => if is_zero y then Err ZeroDivisionError else Ok (Fl (Bdiv mode_NE x y))
  | _, _ => on2 a b (Err Unmodelled) (fun l h l' h' =>
      if 0 <? l' then let '(u, v) := iquot l h l' h' in Ok (out 1 u v)
      else if h' <? 0 then let '(u, v) := iquot (- h) (- l) (- h') (- l') in Ok (out 1 u v)
      else Err Unmodelled)
  end.
Definition T360 : Z := Eval vm_compute in 360 * S80.
Definition e_fmod (a b : ev) : res ev :=
  match exact a, exact b with
  | Some x, Some y => rmap Fl (py_fmod x y)
  | _, Some y => on1 a (Err Unmodelled) (fun l h =>
      let k := l / T360 in
      if Beqb y (flit 360) && (k =? h / T360) then Ok (out 1 (l - k * T360) (h - k * T360)) else Err Unmodelled)
  | _, _ => Err Unmodelled
  end.
Fixpoint ipow (l h : Z) (n : nat) : Z * Z := match n with O => (S80, S80) | S n => let '(u, v) := ipow l h n in iprod l h u v end.
Definition e_powi (a : ev) (n : nat) : res ev :=
  if (1 <=? n)%nat && (n <=? 20)%nat then on1 a (Err Unmodelled) (fun l h =>
    let '(u, v) := ipow l h n in if Z.max (Z.abs u) (Z.abs v) <=? TOP then Ok (out 2 u v) else Err Unmodelled)
  else Err Unmodelled.

(* sin t / t by its series, t2 being t^2 scaled by 2^61 and the result scaled by 2^62; the list holds 2^65 / (2k+2)(2k+3) *)
Definition mulhi (a b : int) : int := fst (Uint63.mulc a b).
Definition one62 : int := 4611686018427387904%uint63.
Fixpoint hor (cs : list int) (t2 : int) : int :=
  match cs with
  | [] => one62
  | c :: cs => Uint63.sub one62 (mulhi (mulhi t2 c) (hor cs t2))
  end.
Definition recips : list int := [6148914691236517205; 1844674407370955161; 878416384462359600; 512409557603043100; 335395346794719120; 236496718893712200; 175683276892471920; 135637824071393761; 107875696337482757; 87841638446235960; 72912031911895460; 61489146912365172]%uint63.
(* sin t for 0 <= t <= 8/5, scaled by 2^80: value; error at most 7 2^19 *)
Definition sin_series (t : Z) : Z :=
  let a := Uint63.of_Z (Z.shiftr t 18) in Z.shiftl (Uint63.to_Z (mulhi a (hor recips (mulhi a a)))) 19.
Definition hpi : Z := Eval vm_compute in PI80 / 2.
Definition tpi : Z := Eval vm_compute in 2 * PI80.
Definition ser_err : Z := Eval vm_compute in 7 * 2 ^ 19.
(* sin x, value and error *)
Definition sin_at (x : Z) : Z * Z :=
  let k0 := Z.shiftr x 60 / 6588397 in
  let t0 := x - k0 * tpi in
  let k := if t0 <? 0 then k0 - 1 else if tpi <=? t0 then k0 + 1 else k0 in
  let t := x - k * tpi in
  let neg := PI80 <=? t in
  let t1 := if neg then t - PI80 else t in
  let t2 := if t1 <=? hpi then t1 else PI80 - t1 in
  if (0 <=? t2) && (t2 <=? hpi + 1) then let s := sin_series t2 in (if neg then - s else s, ser_err + 2 * Z.abs k + 2)
  else (0, S80).
Definition isin (l h : Z) : Z * Z :=
  let m := Z.shiftr (l + h) 1 in let '(s, e) := sin_at m in (s - e - (h - m), s + e + (h - m)).
Definition icos (l h : Z) : Z * Z := isin (l + hpi) (h + hpi + 1).
Definition e_sin (a : ev) : res ev := on1 a (Err Unmodelled) (fun l h => let '(u, v) := isin l h in Ok (out 2 u v)).
Definition e_cos (a : ev) : res ev := on1 a (Err Unmodelled) (fun l h => let '(u, v) := icos l h in Ok (out 2 u v)).
Definition e_tan (a : ev) : res ev := on1 a (Err Unmodelled) (fun l h =>
  let '(u, v) := isin l h in let '(c, d) := icos l h in
  if 0 <? c then let '(p, q) := iquot u v c d in if Z.max (Z.abs p) (Z.abs q) <=? TOP then Ok (out 2 p q) else Err Unmodelled
  else Err Unmodelled).

(* an angle of (-pi/2, pi/2) below or above the arc sine or arc tangent of z, found by bisection *)
Fixpoint bisect (n : nat) (below : Z -> bool) (a b : Z) : Z :=
  match n with O => a | S n => let m := Z.shiftr (a + b) 1 in if below m then bisect n below m b else bisect n below a m end.
Definition slack : Z := Eval vm_compute in 2 ^ 30.
Definition asin_guess (z : Z) : Z := bisect 56 (fun t => fst (sin_at t) <=? z) (- hpi) hpi.
Definition iasin (l h : Z) : option (Z * Z) :=
  let a := asin_guess l - slack in let b := asin_guess h + slack in
  let '(s, e) := sin_at a in let '(s', e') := sin_at b in
  if (s + e <=? l) && (h <=? s' - e') && (- hpi <=? a) && (b <=? hpi) && (- S80 <=? l) && (h <=? S80) && (a <=? hpi) && (- hpi <=? b) then Some (a, b) else None.
Definition cos_at (t : Z) : Z * Z := let '(s, e) := sin_at (t + hpi) in (s, e + 1).
Definition atan_guess (z : Z) : Z := bisect 56 (fun t => fst (sin_at t) * S80 <=? z * fst (cos_at t)) (- hpi) hpi.
Definition iatan (l h : Z) : option (Z * Z) :=
  let a := atan_guess l - slack in let b := atan_guess h + slack in
  let '(s, e) := sin_at a in let '(c, d) := cos_at a in let '(s', e') := sin_at b in let '(c', d') := cos_at b in
  if ((s + e) * S80 <=? Z.min (l * (c - d)) (l * (c + d))) && (Z.max (h * (c' - d')) (h * (c' + d')) <=? (s' - e') * S80)
     && (- hpi <? a) && (b <? hpi) && (a <? hpi) && (- hpi <? b) then Some (a, b) else None.
Definition e_inv (f : Z -> Z -> option (Z * Z)) (a : ev) : res ev :=
  on1 a (Err Unmodelled) (fun l h => match f l h with Some (u, v) => Ok (out 2 u v) | None => Err Unmodelled end).
Definition iacos (l h : Z) : option (Z * Z) := match iasin l h with Some (u, v) => Some (hpi - v, hpi + 1 - u) | None => None end.
Definition iatan2 (l h l' h' : Z) : option (Z * Z) :=
  if 0 <? l' then let '(u, v) := iquot l h l' h' in iatan u v
  else if 0 <? l then let '(u, v) := iquot l' h' l h in match iatan u v with Some (a, b) => Some (hpi - b, hpi + 1 - a) | None => None end
  else if h <? 0 then let '(u, v) := iquot (- h') (- l') (- h) (- l) in match iatan u v with Some (a, b) => Some (- hpi - 1 - b, - hpi - a) | None => None end
  else None.
Definition e_atan2 (a b : ev) : res ev :=
  on2 a b (Err Unmodelled) (fun l h l' h' => match iatan2 l h l' h' with Some (u, v) => Ok (out 2 u v) | None => Err Unmodelled end).

Definition e_lt (a b : ev) : option bool :=
  match exact a, exact b with
  | Some x, Some y => Some (Bltb x y)
  | _, _ => on2 a b None (fun l h l' h' => if h <? l' then Some true else if h' <=? l then Some false else None)
  end.
Definition e_le (a b : ev) : option bool :=
  match exact a, exact b with
  | Some x, Some y => Some (Bleb x y)
  | _, _ => on2 a b None (fun l h l' h' => if h <=? l' then Some true else if h' <? l then Some false else None)
  end.

Definition EN : Num := {|
  T := ev;
  B := option bool;
  lit := Qv;
  inf := Fl (B754_infinity false);
  add := e_add; sub := e_sub; mul := e_mul; neg := e_neg; div := e_div; fmod := e_fmod; powi := e_powi;
  powf _ _ := Err Unmodelled;
  nsin := e_sin; ncos := e_cos; ntan := e_tan; nasin := e_inv iasin; nacos := e_inv iacos; natan := e_inv iatan; natan2 := e_atan2;
  nexp _ := Err Unmodelled;
  radians a := e_mul a (Fl deg_to_rad);
  degrees a := e_mul a (Fl rad_to_deg);
  npi := Fl pi64;
  ne := Fl e64;
  lt := e_lt; le := e_le;
  of_bool b := match b with Some true => Fl one | Some false => Fl (B754_zero false) | None => Any end;
  truth b := match b with Some b => Ok b | None => Err Unmodelled end;
  where_ b x y := match b with Some true => x | Some false => y | None => Any end;
  round_int a := match exact a with Some x => py_round x | None => Err Unmodelled end;
  timedelta_hours a := match exact a with Some x => py_timedelta_hours x | None => Err Unmodelled end
|}.

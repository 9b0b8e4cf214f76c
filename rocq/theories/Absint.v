(* An abstract arithmetic that bounds, for each operation, the exact value and the error of the
   binary64 value.  Not part of the library: a calculator for the proofs.  The functions of the
   model are run on it by [vm_compute]; AbsintSound.v proves the bounds valid.

   Numbers are integers scaled by 2^160.  [Ab a] describes a pair of a float v and a real r:
   a_lo <= r <= a_hi, |v| <= a_mag, and v differs from r by at most a_err -- up to a whole number of turns
   when [a_per] says that the value is an angle. *)
From Verif Require Import Py Num.
Local Open Scope Z_scope.

Inductive period := NoPer | Deg | Rad.
Record ab := mkab { a_lo : Z; a_hi : Z; a_mag : Z; a_err : Z; a_per : period }.
Inductive abs_val := Top | Ab (a : ab).

Definition SC : Z := Eval vm_compute in 2 ^ 160.
Definition BIG : Z := Eval vm_compute in 2 ^ 900.
Definition P53 : Z := Eval vm_compute in 2 ^ 53.
(* quotients rounded up *)
Definition cdiv (a b : Z) : Z := - ((- a) / b).
(* rounding error of a float operation whose exact result is at most m *)
Definition ulp_of (m : Z) : Z := m / P53 + 2.
Definition zmax (a : ab) : Z := Z.max (Z.abs (a_lo a)) (Z.abs (a_hi a)).

(* result of an operation with exact float result at most m, rounded; k roundings' worth *)
Definition finish (k lo hi m e : Z) (p : period) : abs_val :=
  if m <=? BIG then Ab (mkab lo hi (m + k * ulp_of m) (e + k * ulp_of m) p) else Top.
(* without a period the float is bounded by the real *)
Definition finish0 (k lo hi e : Z) : abs_val :=
  finish k lo hi (Z.max (Z.abs lo) (Z.abs hi) + e) e NoPer.

Definition per_add (p q : period) : option period :=
  match p, q with
  | NoPer, q => Some q
  | p, NoPer => Some p
  | Deg, Deg => Some Deg
  | Rad, Rad => Some Rad
  | _, _ => None
  end.

Definition a_neg (a : ab) : ab := mkab (- a_hi a) (- a_lo a) (a_mag a) (a_err a) (a_per a).
Definition a_add (a b : ab) : abs_val :=
  match per_add (a_per a) (a_per b) with
  | Some NoPer => finish0 1 (a_lo a + a_lo b) (a_hi a + a_hi b) (a_err a + a_err b)
  | Some p => finish 1 (a_lo a + a_lo b) (a_hi a + a_hi b) (a_mag a + a_mag b) (a_err a + a_err b) p
  | None => Top
  end.
Definition min4 a b c d := Z.min (Z.min a b) (Z.min c d).
Definition max4 a b c d := Z.max (Z.max a b) (Z.max c d).
Definition a_mul (a b : ab) : abs_val :=
  match a_per a, a_per b with
  | NoPer, NoPer =>
      let p1 := a_lo a * a_lo b in let p2 := a_lo a * a_hi b in
      let p3 := a_hi a * a_lo b in let p4 := a_hi a * a_hi b in
      finish0 1 (min4 p1 p2 p3 p4 / SC) (cdiv (max4 p1 p2 p3 p4) SC)
        (cdiv (zmax a * a_err b + zmax b * a_err a + a_err a * a_err b) SC)
  | _, _ => Top
  end.

(* bounds of x / y and of the error of the quotient, for y > 0 *)
Definition q_lo (lo ylo yhi : Z) : Z := if 0 <=? lo then lo * SC / yhi else lo * SC / ylo.
Definition a_quot (a b : ab) : option (Z * Z * Z) :=
  match a_per a, a_per b with
  | NoPer, NoPer =>
      let ymin := a_lo b - a_err b in
      if 0 <? ymin then
        let l := q_lo (a_lo a) (a_lo b) (a_hi b) in
        let h := - q_lo (- a_hi a) (a_lo b) (a_hi b) in
        Some (l, h, cdiv (a_err a * SC + Z.max (Z.abs l) (Z.abs h) * a_err b) ymin)
      else None
  | _, _ => None
  end.
Definition a_div (a b : ab) : res abs_val :=
  match a_quot a b with
  | Some (l, h, e) => Ok (finish0 1 l h e)
  | None =>
      match a_quot (a_neg a) (a_neg b) with
      | Some (l, h, e) => Ok (finish0 1 l h e)
      | None => Err Unmodelled
      end
  end.
Definition D360 : Z := 360 * SC.
Definition a_fmod (a b : ab) : res abs_val :=
  if (a_lo b =? D360) && (a_hi b =? D360) && (a_err b =? 0) && match a_per b with NoPer => true | _ => false end
     && match a_per a with Rad => false | _ => true end
  then Ok (Ab (mkab 0 D360 D360 (a_err a + ulp_of D360) Deg))
  else Err Unmodelled.

Fixpoint pw (m : Z) (n : nat) : Z := match n with O => SC | S n => cdiv (m * pw m n) SC end.
Definition a_powi (a : ab) (n : nat) : res abs_val :=
  match a_per a, n with
  | NoPer, S n' =>
      let m := zmax a + a_err a in
      if (n' <=? 19)%nat && (pw m n <=? BIG)
      then Ok (finish0 2 (- pw m n) (pw m n) (cdiv (Z.of_nat n * pw m n' * a_err a) SC)) else Err Unmodelled
  | _, _ => Err Unmodelled
  end.

Definition a_sin (a : ab) : res abs_val :=
  match a_per a with
  | Deg => Err Unmodelled
  | _ => let m := Z.min SC (zmax a) in Ok (finish 2 (- m) m SC (a_err a) NoPer)
  end.
Definition a_cos (a : ab) : res abs_val :=
  match a_per a with
  | Deg => Err Unmodelled
  | _ => Ok (finish 2 (Z.max (- SC) (SC - cdiv (zmax a * zmax a) (2 * SC))) SC SC (a_err a) NoPer)
  end.
(* functions of slope at most n/6 within 1/d, zero at zero *)
Definition a_steep (n d : Z) (a : ab) : res abs_val :=
  match a_per a with
  | NoPer => if d * (zmax a + a_err a) <=? SC
             then Ok (finish0 2 (- cdiv (n * zmax a) 6) (cdiv (n * zmax a) 6) (cdiv (n * a_err a) 6)) else Err Unmodelled
  | _ => Err Unmodelled
  end.
Definition a_tan (a : ab) : res abs_val := match a_steep 12 2 a with Ok z => Ok z | Err _ => a_steep 24 1 a end.
Definition a_asin : ab -> res abs_val := a_steep 7 2.
Definition a_atan (a : ab) : res abs_val :=
  match a_per a with
  | NoPer => let m := Z.min (2 * SC) (zmax a) in Ok (finish0 2 (- m) m (a_err a))
  | _ => Err Unmodelled
  end.
Definition a_atan2 (a b : ab) : res abs_val :=
  match a_quot a b with
  | Some (l, h, e) => let m := Z.min (2 * SC) (Z.max (Z.abs l) (Z.abs h)) in Ok (finish0 2 (- m) m e)
  | None => Err Unmodelled
  end.

(* pi/180, 180/pi and pi: lower bounds (upper: one unit more), and bounds of the error of the double
   constants the math module uses *)
Definition d2r_lo : Z := 25508015594712327341026695554129506269189750135.
Definition d2r_e : Z := 430946012179623639523524984185.
Definition r2d_lo : Z := 83737875570520215518833618997210173349109426591711.
Definition r2d_e : Z := 2905245397022250541665346695686178.
Definition pi_lo : Z := 4591442807048218921384805199743311128454155024418.
Definition pi_e : Z := 178982330210590607233970753583140.
Definition a_scale (k ke : Z) (a : ab) (p : period) : abs_val :=
  finish 1 (Z.min (a_lo a * k) (a_lo a * (k + 1)) / SC) (cdiv (Z.max (a_hi a * k) (a_hi a * (k + 1))) SC)
    (cdiv (a_mag a * (k + 1 + ke)) SC) (cdiv (a_mag a * ke + a_err a * (k + 1)) SC) p.
Definition a_radians (a : ab) : abs_val :=
  match a_per a with NoPer => a_scale d2r_lo d2r_e a NoPer | Deg => a_scale d2r_lo d2r_e a Rad | Rad => Top end.
Definition a_degrees (a : ab) : abs_val :=
  match a_per a with NoPer => a_scale r2d_lo r2d_e a NoPer | Rad => a_scale r2d_lo r2d_e a Deg | Deg => Top end.

Definition a_lit (q : Q) : abs_val :=
  let l := Qnum q * SC / Zpos (Qden q) in let h := cdiv (Qnum q * SC) (Zpos (Qden q)) in
  if Pos.eqb (Qden q) 1 && (Z.abs (Qnum q) <=? P53) then Ab (mkab l h (Z.abs l) 0 NoPer)
  else finish0 1 l h 0.

Definition app1 (f : ab -> abs_val) (x : abs_val) : abs_val := match x with Ab a => f a | Top => Top end.
Definition app2 (f : ab -> ab -> abs_val) (x y : abs_val) : abs_val :=
  match x, y with Ab a, Ab b => f a b | _, _ => Top end.
Definition res1 (f : ab -> res abs_val) (x : abs_val) : res abs_val := match x with Ab a => f a | Top => Err Unmodelled end.
Definition res2 (f : ab -> ab -> res abs_val) (x y : abs_val) : res abs_val :=
  match x, y with Ab a, Ab b => f a b | _, _ => Err Unmodelled end.

Definition AI : Num := {|
  T := abs_val;
  B := unit;
  lit := a_lit;
  inf := Top;
  add := app2 a_add; sub := app2 (fun a b => a_add a (a_neg b)); mul := app2 a_mul; neg := app1 (fun a => Ab (a_neg a));
  div := res2 a_div; fmod := res2 a_fmod;
  powi x n := res1 (fun a => a_powi a n) x;
  powf _ _ := Err Unmodelled;
  nsin := res1 a_sin; ncos := res1 a_cos; ntan := res1 a_tan; nasin := res1 a_asin;
  nacos _ := Err Unmodelled; natan := res1 a_atan; natan2 := res2 a_atan2; nexp _ := Err Unmodelled;
  radians := app1 a_radians; degrees := app1 a_degrees;
  npi := Ab (mkab pi_lo (pi_lo + 1) (4 * SC) pi_e NoPer);
  ne := Top;
  lt _ _ := tt; le _ _ := tt;
  of_bool _ := Top; truth _ := Err Unmodelled; where_ _ _ _ := Top;
  round_int _ := Err Unmodelled; timedelta_hours _ := Err Unmodelled
|}.

(* two arithmetics side by side: returns only when both do *)
Definition both {A A'} (r : res A) (r' : res A') : res (A * A') :=
  match r, r' with Ok a, Ok a' => Ok (a, a') | _, _ => Err Unmodelled end.
Definition Pair (N M : Num) : Num := {|
  T := T N * T M;
  B := B N * B M;
  lit q := (lit q, lit q);
  inf := (inf, inf);
  add x y := (add (fst x) (fst y), add (snd x) (snd y));
  sub x y := (sub (fst x) (fst y), sub (snd x) (snd y));
  mul x y := (mul (fst x) (fst y), mul (snd x) (snd y));
  neg x := (neg (fst x), neg (snd x));
  div x y := both (div (fst x) (fst y)) (div (snd x) (snd y));
  fmod x y := both (fmod (fst x) (fst y)) (fmod (snd x) (snd y));
  powi x n := both (powi (fst x) n) (powi (snd x) n);
  powf x y := both (powf (fst x) (fst y)) (powf (snd x) (snd y));
  nsin x := both (nsin (fst x)) (nsin (snd x));
  ncos x := both (ncos (fst x)) (ncos (snd x));
  ntan x := both (ntan (fst x)) (ntan (snd x));
  nasin x := both (nasin (fst x)) (nasin (snd x));
  nacos x := both (nacos (fst x)) (nacos (snd x));
  natan x := both (natan (fst x)) (natan (snd x));
  natan2 x y := both (natan2 (fst x) (fst y)) (natan2 (snd x) (snd y));
  nexp x := both (nexp (fst x)) (nexp (snd x));
  radians x := (radians (fst x), radians (snd x));
  degrees x := (degrees (fst x), degrees (snd x));
  npi := (npi, npi);
  ne := (ne, ne);
  lt x y := (lt (fst x) (fst y), lt (snd x) (snd y));
  le x y := (le (fst x) (fst y), le (snd x) (snd y));
  of_bool b := (of_bool (fst b), of_bool (snd b));
  truth _ := Err Unmodelled;
  where_ b x y := (where_ (fst b) (fst x) (fst y), where_ (snd b) (snd x) (snd y));
  round_int _ := Err Unmodelled;
  timedelta_hours _ := Err Unmodelled
|}.

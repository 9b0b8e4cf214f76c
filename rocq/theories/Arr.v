(* Arrays of times: the numpy back end's tm_yday/tm_hour/tm_min on an array of datetime64
   values (pysolar/numeric.py 61-64, 73-76, 85-88). *)
From Coq Require Import Reals.
From Verif Require Import Py Num Cal TzCheck Clock RInst.

(* An array of datetime64 values, element i being the number of microseconds since
   0001-01-01 (datetime64 carries no time zone: it is UTC by convention).  Coarser and finer
   units embed in this, the code only ever floors to minutes and above.  NaT is not modelled.
   @check_aware_dt lets anything with a .shape pass (tzinfo_check.py 86). *)
Definition clock_array (I : Type) : Clock (ArrR I) := Build_Clock (ArrR I) (I -> Z)
  (fun _ => Ok tt)
  (fun d => Ok (fun i => Fin (IZR (tm_yday_dt64 (d i)))))
  (fun d => Ok (fun i => Fin (IZR (tm_hour_dt64 (d i)))))
  (fun d => Ok (fun i => Fin (IZR (tm_min_dt64 (d i))))).

(* a[i]: a numpy.float64 *)
Definition elt {I} (a : I -> Rx) (i : I) : nx := mknx true (a i).

(* What is claimed of the numpy back end in binary64. *)
From Flocq Require Import Core IEEE754.BinarySingleNaN.
From Verif Require Import Py Num B64 B64Np.

(* the C library's pow agrees with Python's ** wherever the latter returns (C99 Annex F fixes the
   special values; for a negative base, pow(-x, n) = +-pow(x, n)) *)
Definition pow_std (L : libm) : Prop := forall x y r, py_pow L x y = Ok r -> l_pow L x y = r.

(* if the math call returns x, so does the numpy call *)
Definition same64 (m : res f64) (n : res nf) : Prop := forall x, m = Ok x -> exists b, n = Ok (mknf b x).
Definition same64_pair (m : res (f64 * f64)) (n : res (nf * nf)) : Prop :=
  forall x y, m = Ok (x, y) -> exists b c, n = Ok (mknf b x, mknf c y).
(* if the math call on the i-th elements returns x, the array call returns an array with x at i *)
Definition elt64 {I} (i : I) (m : res f64) (n : res (I -> f64)) : Prop := forall x, m = Ok x -> exists v, n = Ok v /\ v i = x.

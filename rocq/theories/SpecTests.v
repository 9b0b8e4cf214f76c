(* What it means for a test of the repository to pass in binary64. *)
From Coq Require Import Reals.
From Flocq Require Import IEEE754.BinarySingleNaN.
From Verif Require Import Py Num B64 SpecB64 Tests.
Local Open Scope R_scope.

(* assertAlmostEqual(a, b, n): round(abs(a - b), n) == 0, the difference being computed in floats; round()
   is correctly rounded with ties to even, so this says that |a - b| is at most half of 10^-n *)
Definition holds (L : libm) (x : assertion (B64 L)) : Prop :=
  match x with
  | Places a b n => exists v, val (Bminus mode_NE a b) v /\ Rabs v <= / (2 * 10 ^ n)
  | Delta a b d => exists v w, val (Bminus mode_NE a b) v /\ val d w /\ Rabs v <= w
  end.
Definition passes (L : libm) (t : res (list (assertion (B64 L)))) : Prop := exists l, t = Ok l /\ List.Forall (holds L) l.

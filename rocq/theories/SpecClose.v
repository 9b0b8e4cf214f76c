(* A double within a distance of a real number. *)
From Coq Require Import Reals.
From Verif Require Import Py RInst B64 SpecB64.
Local Open Scope R_scope.

Definition within (e : R) (x : res f64) (r : R) : Prop := exists q v, x = Ok q /\ val q v /\ Rabs (v - r) <= e.

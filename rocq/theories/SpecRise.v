(* The rising sun, for the sunrise theorems in binary64; independent of the model. *)
From Coq Require Import Reals ZArith.
From Verif Require Import Cal RInst SpecGeom.
Local Open Scope R_scope.

(* cosine of the hour angle at which the centre of the sun is 0.833 degrees below the horizon:
   sin(-0.833) = sin lat sin decl + cos lat cos decl cos H *)
Definition rising_cosine (lat decl : R) : R := (sind (-0.833) - sind lat * sind decl) / (cosd lat * cosd decl).

(* two readings of the same local clock at most k microseconds apart *)
Definition apart (k : Z) (a b : datetime) : Prop := dt_tz a = dt_tz b /\ (Z.abs (dt_local a - dt_local b) <= k)%Z.

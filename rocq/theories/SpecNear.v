(* Two runs of the same function, in doubles and in exact arithmetic, that return nearly the same number. *)
From Coq Require Import Reals.
From Verif Require Import Py Num Cal Util RInst B64 SpecB64.
Local Open Scope R_scope.

Definition near (e : R) (r : res f64) (r' : res Rx) : Prop :=
  exists q v v', r = Ok q /\ val q v /\ r' = Ok (Fin v') /\ Rabs (v - v') <= e.
(* the functions of util.py that use the altitude, in doubles x, xo, ... and for the numbers these are *)
Definition sky_functions_near (L : libm) (lat lon el : R) (x xo xe : f64) dt (xT xP xt : f64) (T P TL c1 c2 c4 c5 : R) : Prop :=
  near c1 (solarelevation_function_clear (N := B64 L) x xo dt xT xP xe) (solarelevation_function_clear (N := MathR) (Fin lat) (Fin lon) dt (Fin T) (Fin P) (Fin el)) /\
  near c2 (solarelevation_function_overcast (N := B64 L) x xo dt xe xT xP) (solarelevation_function_overcast (N := MathR) (Fin lat) (Fin lon) dt (Fin el) (Fin T) (Fin P)) /\
  near c4 (diffuse_underclear (N := B64 L) x xo dt xe xT xP xt) (diffuse_underclear (N := MathR) (Fin lat) (Fin lon) dt (Fin el) (Fin T) (Fin P) (Fin TL)) /\
  near c4 (diffuse_underovercast (N := B64 L) x xo dt xe xT xP xt) (diffuse_underovercast (N := MathR) (Fin lat) (Fin lon) dt (Fin el) (Fin T) (Fin P) (Fin TL)) /\
  near c5 (global_irradiance_overcast (N := B64 L) x xo dt xe xT xP) (global_irradiance_overcast (N := MathR) (Fin lat) (Fin lon) dt (Fin el) (Fin T) (Fin P)).

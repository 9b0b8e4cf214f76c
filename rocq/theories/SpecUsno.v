(* What degrees, minutes and seconds denote, the difference of two directions of the compass, and what a
   log entry should be read back as. *)
From Coq Require Import Reals List ZArith.
From Verif Require Import Py Cal B64 ScriptText SpecPyText UsnoLog.
Import ListNotations.
Local Open Scope Z_scope.

(* a datum whose fields contain no space *)
Definition worded (d : datum_text) : Prop := Forall word [w_lat d; w_lon d; w_elevation d; w_azimuth d; w_altitude d].
(* what a naive datum on a whole second is read back as; the numbers are float() of their texts *)
Definition reads_as (d : datum_text) (r : logged) : Prop :=
  dt_tz (w_when d) = None /\ valid_dt (w_when d) /\ dt_local (w_when d) mod 1000000 = 0 /\ worded d /\
  py_float (w_elevation d) = Ok (l_elevation r) /\ py_float (w_azimuth d) = Ok (l_azimuth r) /\ py_float (w_altitude d) = Ok (l_altitude r) /\
  l_when r = {| dt_local := dt_local (w_when d); dt_fold := false; dt_tz := Some (fixed_tz 0) |} /\ l_lat r = w_lat d /\ l_lon r = w_lon d.

Local Open Scope R_scope.

Definition denoted (minus : bool) (d m : Z) (s : R) : R := (if minus then -1 else 1) * (IZR d + IZR m / 60 + s / 3600).

(* difference of two azimuths, in [0, 180] *)
Definition compass_difference (a b x : R) : Prop := 0 <= x <= 180 /\ exists k : Z, a - b = x + 360 * IZR k \/ a - b = - x + 360 * IZR k.

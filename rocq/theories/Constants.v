(* pysolar/constants.py: scalar constants (67-77) and the nutation argument polynomials.
   The long tables are in Tables.v (generated). *)
From Verif Require Import Py Num.
Open Scope num_scope.

Section C.
Context {N : Num}.

Definition earth_radius : T N := lit 6378140.0.                 (* constants.py 67 *)
Definition earth_axis_inclination : T N := lit 23.45.           (* constants.py 68 *)
Definition seconds_per_day : T N := lit 86400.                  (* constants.py 69 *)
Definition standard_pressure : T N := lit 101325.00.            (* constants.py 71 *)
Definition standard_temperature : T N := lit 288.15.            (* constants.py 72 *)
Definition earth_temperature_lapse_rate : T N := lit (-0.0065). (* constants.py 74 *)
Definition air_gas_constant : T N := lit 8.31432.               (* constants.py 75 *)
Definition earth_gravity : T N := lit 9.80665.                  (* constants.py 76 *)
Definition earth_atmosphere_molar_mass : T N := lit 0.0289644.  (* constants.py 77 *)

(* constants.py 52: lambda a, b, c, d: lambda x: a + b * x + c * x ** 2 + (x ** 3) / d *)
Definition cubic (abcd : Q * Q * Q * Q) (x : T N) : res (T N) :=
  let '(a, b, c, d) := abcd in
  x2 <- powi x 2 ;;
  x3 <- powi x 3 ;;
  q <- div x3 (lit d) ;;
  Ok (lit a + lit b * x + lit c * x2 + q).

End C.

(* constants.py 53-60: name -> coefficients *)
Definition aberration_coeffs_table : list (string * (Q * Q * Q * Q)) :=
  [ ("ArgumentOfLatitudeOfMoon", (93.27191, 483202.017538, -0.0036825, 327270.0));
    ("LongitudeOfAscendingNode", (125.04452, -1934.136261, 0.0020708, 450000.0));
    ("MeanElongationOfMoon", (297.85036, 445267.111480, -0.0019142, 189474.0));
    ("MeanAnomalyOfMoon", (134.96298, 477198.867398, 0.0086972, 56250.0));
    ("MeanAnomalyOfSun", (357.52772, 35999.050340, -0.0001603, -300000.0)) ]%string%Q.

(* The module-level cache `aberration_coeffs` (constants.py 41) and get_aberration_coeffs
   (43-65), as a state transformer: the dictionary is built on the first call only.
   A dictionary of closures is represented by the closures' coefficients. *)
Definition cache := option (list (string * (Q * Q * Q * Q))).

Definition get_aberration_coeffs (st : cache) : list (string * (Q * Q * Q * Q)) * cache :=
  let st' := match st with None => Some aberration_coeffs_table | Some _ => st end in
  match st' with
  | Some d => (d, st')
  | None => ([], st')
  end.

Fixpoint dict_get {A} (k : string) (d : list (string * A)) : res A :=
  match d with
  | [] => Err (KeyError k)
  | (k', v) :: rest => if String.eqb k k' then Ok v else dict_get k rest
  end.

(* Vocabulary of the statements about continuity within a month and the demonstration loops. *)
From Coq Require Import Reals ZArith List Ascii String.
From Verif Require Import Py Num Cal Clock Constants SolarTime Solar Radiation RInst SpecTime SpecDt.
Import ListNotations.
Local Open Scope R_scope.

(* no month begins between the two instants *)
Definition same_month (u u' : Z) : Prop := forall y m, (1 <= m <= 12)%Z -> (midnight y m 1 <= u <-> midnight y m 1 <= u')%Z.

(* the aware datetime in UTC *)
Definition utc_datetime (u : Z) : datetime := {| dt_local := u; dt_fold := false; dt_tz := Some utc |}.

(* the three calls at one moment, at the place of solar_test, and their results *)
Definition shows (d : datetime) (alt az p : R) : Prop :=
  get_altitude (N := MathR) (Fin 42.364908) (Fin (-71.112828)) d (Fin 0) standard_temperature standard_pressure = Ok (Fin alt) /\
  get_azimuth (N := MathR) (Fin 42.364908) (Fin (-71.112828)) d (Fin 0) = Ok (Fin az) /\
  get_radiation_direct (N := MathR) (C := clock_math MathR) d (Fin alt) = Ok (Fin p).
(* one of them raises x *)
Definition fails (d : datetime) (x : exn) : Prop :=
  get_altitude (N := MathR) (Fin 42.364908) (Fin (-71.112828)) d (Fin 0) standard_temperature standard_pressure = Err x \/
  exists alt, get_altitude (N := MathR) (Fin 42.364908) (Fin (-71.112828)) d (Fin 0) standard_temperature standard_pressure = Ok (Fin alt) /\
    get_radiation_direct (N := MathR) (C := clock_math MathR) d (Fin alt) = Err x.

(* what is printed: elevation, pressure and temperature of the standard atmosphere *)
Definition elevation_lines : list string :=
  ["Elevation(m) Pressure(Pa) Temperature(K)"; "0 101325 288"; "1000 89874 281"; "2000 79495 275"; "3000 70108 268"; "4000 61640 262";
   "5000 54019 255"; "6000 47181 249"; "7000 41060 242"; "8000 35599 236"; "9000 30742 229"; "10000 26436 223"]%string.
Definition printed_lines (l : list string) : list (list ascii) := map (fun s => list_ascii_of_string s ++ ["010"%char])%list l.

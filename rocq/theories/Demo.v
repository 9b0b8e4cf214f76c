(* The two demonstration loops: solar.solar_test and elevation.elevation_test.

   What such a call does is the list of what it prints, followed by how it ends (Simulate.gen). *)
From Coq Require Import List.
From Flocq Require Import Core IEEE754.BinarySingleNaN.
From Verif Require Import Py Num Cal TzCheck Clock Constants SolarTime Solar Radiation Simulate Elevation ScriptText RInst B64.
Import ListNotations.
Open Scope Z_scope.

(* solar.py 43: one printed line.  Simplifications: the datetime stands for its ctime() text, and
   the three numbers for their repr (the constant word "UTC" is left out). *)
Record row (N : Num) := mkrow { row_when : datetime; row_altitude : T N; row_azimuth : T N; row_power : T N }.
Arguments mkrow {N} _ _ _ _.
Arguments row_when {N} _.
Arguments row_altitude {N} _.
Arguments row_azimuth {N} _.
Arguments row_power {N} _.

Section S.
Context {N : Num}.

(* solar.py 37-42: one round of the loop; Some: a line is printed *)
Definition solar_test_round (d : datetime) : res (option (row N)) :=
  altitude_deg <- get_altitude_default (lit 42.364908) (lit (-71.112828)) d ;;
  azimuth_deg <- get_azimuth_default (lit 42.364908) (lit (-71.112828)) d ;;
  power <- get_radiation_direct (C := clock_math N) d altitude_deg ;;
  b <- truth (lt (lit 0) altitude_deg) ;;
  Ok (if b : bool then Some (mkrow d altitude_deg azimuth_deg power) else None).

(* solar.py 36-44; d + thirty_minutes is evaluated after the last round too *)
Fixpoint solar_test_loop (n : nat) (d : datetime) : gen (row N) :=
  match n with
  | O => mkgen [] (Ok tt)
  | S n =>
      match solar_test_round d with
      | Err e => mkgen [] (Err e)
      | Ok o =>
          let printed := match o with Some r => [r] | None => [] end in
          match dt_add d 1800000000 with
          | Err e => mkgen printed (Err e)
          | Ok d' => let g := solar_test_loop n d' in mkgen (printed ++ g_items g) (g_end g)
          end
      end
  end.

(* solar.py 31-44; now is what datetime.now(tz = utc) returns *)
Definition solar_test (now : datetime) : gen (row N) := solar_test_loop 48 now.

(* elevation.py 71-76: h is an int; toint is the conversion of a float by "%i" *)
Context (toint : T N -> res Z).
Definition elevation_test_round (h : Z) : res text :=
  P <- pressure_default (lit (inject_Z h)) ;;
  p <- toint P ;;
  t <- toint (temperature_default (lit (inject_Z h))) ;;
  Ok (line [show_int h; txt " "; show_int p; txt " "; show_int t]).

(* elevation.py 68-77: the lines printed *)
Definition elevation_test : gen text :=
  let g := gen_map elevation_test_round (map (fun k => k * 1000) (zrange 11)) in
  mkgen (line [txt "Elevation(m) Pressure(Pa) Temperature(K)"] :: g_items g) (g_end g).

End S.
Arguments solar_test {N} _.
Arguments solar_test_loop {N} _ _.
Arguments solar_test_round {N} _.

(* "%i" % x: the integer part; OverflowError for infinities and ValueError for nan *)
Definition int_R (x : Rx) : res Z :=
  match x with Fin r => Ok (Ztrunc r) | NaN => Err ValueError | PInf | NInf => Err OverflowError end.
Definition int_64 (x : f64) : res Z :=
  match x with B754_nan => Err ValueError | B754_infinity _ => Err OverflowError | _ => Ok (Btrunc x) end.

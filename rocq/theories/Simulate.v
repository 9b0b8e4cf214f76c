(* pysolar/simulate.py.

   Generators: the observable behaviour of running a generator to exhaustion is the list of
   values it yields followed by how it ends (normally, or with an exception).  Laziness
   beyond that (a consumer that stops early) only truncates the list. *)
From Verif Require Import Py Num Cal TzCheck Clock Constants SolarTime Solar Radiation.
Open Scope Z_scope.

Record gen (A : Type) := mkgen { g_items : list A; g_end : res unit }.
Arguments mkgen {A} _ _.
Arguments g_items {A} _.
Arguments g_end {A} _.

(* `for x in l: yield f(x)` where f may raise *)
Fixpoint gen_map {A B} (f : A -> res B) (l : list A) : gen B :=
  match l with
  | [] => mkgen [] (Ok tt)
  | a :: rest =>
      match f a with
      | Ok b => let g := gen_map f rest in mkgen (b :: g_items g) (g_end g)
      | Err e => mkgen [] (Err e)
      end
  end.

(* nested generators: `for x in g: yield f(x)` *)
Definition gen_for {A B} (g : gen A) (f : A -> res B) : gen B :=
  let h := gen_map f (g_items g) in
  mkgen (g_items h) (g_end h ;; g_end g).

(* step_minutes is whatever number the caller passes: an int, or a float (given as the
   number of microseconds its 60-fold, timedelta(seconds=...), rounds to, and whether it
   is zero). *)
Inductive steparg :=
| StepInt (minutes : Z)
| StepFloat (timedelta_us : res Z) (is_zero : bool).

(* timedelta(seconds = step) for an int *)
Definition timedelta_us (us : Z) : res Z := if timedelta_ok us then Ok us else Err OverflowError.

(* range(count): 0, 1, ..., count-1 (empty when count <= 0) *)
Definition zrange (count : Z) : list Z := map Z.of_nat (seq 0 (Z.to_nat count)).

(* simulate.py 27-35.  (span.days * seconds_per_day + span.seconds) = floor(span / 1s). *)
Definition datetime_range (start_datetime end_datetime : datetime) (step_minutes : steparg) : gen datetime :=
  match
    (span <- dt_sub end_datetime start_datetime ;;
     match step_minutes with
     | StepInt m =>
         let step := m * 60 in
         dt <- timedelta_us (step * 1000000) ;;
         if step =? 0 then Err ZeroDivisionError
         else Ok (dt, zrange ((span / 1000000) / step))
     | StepFloat dt is_zero =>
         _ <- dt ;;
         if is_zero : bool then Err ZeroDivisionError
         else Err TypeError   (* range(float): 'float' object cannot be interpreted as an integer *)
     end)
  with
  | Err e => mkgen [] (Err e)
  | Ok (dt, ns) => gen_map (fun n => d <- timedelta_us (dt * n) ;; dt_add start_datetime d) ns
  end.

Section Sim.
Context {N : Num}.
Local Open Scope num_scope.

(* simulate.py 47-57, one iteration; horizon is any sequence of numbers *)
Definition simulate_one {C : Clock N} (toD : datetime -> D C)
    (latitude_deg longitude_deg : T N) (horizon : list (T N))
    (elevation temperature pressure : T N) (time : datetime)
    : res (datetime * T N * T N * T N * T N) :=
  alt <- get_altitude latitude_deg longitude_deg time elevation temperature pressure ;;
  azi <- get_azimuth latitude_deg longitude_deg time elevation ;;
  i <- round_int azi ;;
  shade <- py_index horizon i ;;
  s <- nsin (radians alt) ;;
  r <- round_int (lit 380 * s) ;;
  shaded <- truth (lt shade (lit 380 - ofZ r)) ;;
  rad <- (if shaded : bool then Ok (lit 0) else get_radiation_direct (toD time) alt) ;;
  Ok (time, alt, azi, rad, shade).

(* simulate.py 37-59 *)
Definition simulate_span {C : Clock N} (toD : datetime -> D C)
    (latitude_deg longitude_deg : T N) (horizon : list (T N))
    (start_datetime end_datetime : datetime) (step_minutes : steparg)
    (elevation temperature pressure : T N) : gen (datetime * T N * T N * T N * T N) :=
  gen_for (datetime_range start_datetime end_datetime step_minutes)
    (simulate_one toD latitude_deg longitude_deg horizon elevation temperature pressure).

End Sim.

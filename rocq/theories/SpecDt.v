(* Specification vocabulary about datetimes, calls and histories: what an instant is, what
   "rejected" means, how Python binds arguments, what a sample of simulate_span must be.
   Only the datatypes of the model and the functions a statement is about appear here. *)
From Verif Require Import Py Num Cal TzCheck Clock Constants SolarTime Solar Radiation Util Simulate Numeric.
Local Open Scope Z_scope.

(* ---------------------------------------------------------------- instants *)
(* d denotes the UTC instant u (microseconds since 0001-01-01T00:00Z) *)
Definition instant (d : datetime) (u : Z) : Prop :=
  exists tz o, dt_tz d = Some tz /\ tz_utcoffset tz (dt_local d) (dt_fold d) = Some o /\
    Z.abs o < us_per_day /\ u = dt_local d - o.

Definition same_instant (d d' : datetime) : Prop := exists u, instant d u /\ instant d' u.

(* the UTC offset in force is a whole number of minutes *)
Definition whole_minute_offset (d : datetime) : Prop :=
  exists tz m, dt_tz d = Some tz /\ tz_utcoffset tz (dt_local d) (dt_fold d) = Some (m * 60000000).

(* the functions of the back end's clock that take a single datetime *)
Definition fast_functions_agree (N : Num) (C : Clock N) (toD : datetime -> D C) (d d' : datetime) : Prop :=
  (forall lon, get_solar_time (N := N) lon (toD d) = get_solar_time lon (toD d')) /\
  (forall lon, get_hour_angle (N := N) (toD d) lon = get_hour_angle (toD d') lon) /\
  (forall lat lon, get_altitude_fast (N := N) lat lon (toD d) = get_altitude_fast lat lon (toD d')) /\
  (forall lat lon, get_azimuth_fast (N := N) lat lon (toD d) = get_azimuth_fast lat lon (toD d')) /\
  (forall alt, get_radiation_direct (N := N) (toD d) alt = get_radiation_direct (toD d') alt) /\
  (forall lat lon sc, extraterrestrial_irrad (N := N) toD lat lon d sc = extraterrestrial_irrad toD lat lon d' sc) /\
  (forall ghi lat lon, clear_index (N := N) toD ghi lat lon d = clear_index toD ghi lat lon d').

(* ---------------------------------------------------------------- naive datetimes *)
Definition naive (d : datetime) : Prop := dt_tz d = None.
Definition rejects {A} (r : res A) : Prop := r = Err (NoTimeZoneInfoError "when").

(* ---------------------------------------------------------------- calls *)
(* Python's call semantics: the value that a call binds to a parameter.  Positional
   parameters come first; what is not passed positionally is looked up by keyword. *)
Inductive binds (spec : argspec) (args : list pyval) (kw : kwdict) (name : string) (v : pyval) : Prop :=
| bind_positional i : nth_error (as_args spec) i = Some name -> nth_error args i = Some v ->
    binds spec args kw name v
| bind_keyword : (forall i, nth_error (as_args spec) i = Some name -> (List.length args <= i)%nat) ->
    kw_get name kw = Some v -> binds spec args kw name v.

Definition is_parameter (spec : argspec) (name : string) : Prop :=
  In name (as_args spec) \/ In name (as_kwonly spec).

(* what the decorator accepts: arrays, and datetimes with a tzinfo *)
Definition acceptable (v : pyval) : Prop :=
  match v with VArray _ => True | VDatetime d => dt_tz d <> None | VOther _ => False end.

(* what it raises otherwise *)
Definition rejection (name : string) (v : pyval) : exn :=
  match v with VDatetime _ => NoTimeZoneInfoError name | _ => ValueError end.

Definition wf_spec (spec : argspec) : Prop := NoDup (as_args spec) /\ NoDup (as_kwonly spec).

(* every checked name that is a parameter is bound to something acceptable *)
Definition all_acceptable spec args kw (names : list string) : Prop :=
  forall name, In name names -> is_parameter spec name ->
    exists v, binds spec args kw name v /\ acceptable v.

(* ---------------------------------------------------------------- simulation *)
Definition minute_us : Z := 60000000.

(* start + n steps on the wall clock *)
Definition nth_time (start : datetime) (m n : Z) : datetime :=
  mkdt (dt_local start + n * (m * minute_us)) false (dt_tz start).

Section Span.
Context {N : Num} {C : Clock N} (toD : datetime -> D C).
(* what one yielded tuple must be *)
Definition sample (lat lon : T N) (horizon : list (T N)) (el temp pres : T N)
    (t : datetime) (item : datetime * T N * T N * T N * T N) : Prop :=
  let '(t', alt, azi, rad, shade) := item in
  t' = t /\
  get_altitude lat lon t el temp pres = Ok alt /\
  get_azimuth lat lon t el = Ok azi /\
  (exists i, round_int azi = Ok i /\ py_index horizon i = Ok shade) /\
  exists s r shaded, nsin (radians alt) = Ok s /\ round_int (mul (lit 380) s) = Ok r /\
    truth (lt shade (sub (lit 380) (ofZ r))) = Ok shaded /\
    if shaded : bool then rad = lit 0 else get_radiation_direct (toD t) alt = Ok rad.

End Span.

(* ---------------------------------------------------------------- cache histories *)
(* run any number of get_nutation calls (whatever their arguments) from module import *)
Fixpoint after_calls {N : Num} (calls : list (T N)) (st : cache) : cache :=
  match calls with [] => st | x :: rest => after_calls rest (snd (get_nutation_st st x)) end.

(* ---------------------------------------------------------------- back-end switches *)
Local Open Scope string_scope.
Definition run_history (numpy_installed : bool) (h : list switch) : namespace :=
  fold_left (fun ns s => apply_switch s ns) h (after_import numpy_installed).

Definition last_switch (numpy_installed : bool) (h : list switch) : switch :=
  last h (if numpy_installed then UseNumpy else UseMath).

(* what each name must be bound to under each back end *)
Definition expected (s : switch) (name : string) : option impl :=
  match s, name with
  | UseMath, ("degrees" | "cos" | "sin" | "radians" | "tan" | "pi" | "acos" | "atan" | "asin"
              | "atan2" | "exp" | "e") => Some ("math", name)
  | UseNumpy, ("degrees" | "cos" | "sin" | "radians" | "tan" | "pi" | "exp" | "e" | "where") => Some ("numpy", name)
  | UseNumpy, "acos" => Some ("numpy", "arccos")
  | UseNumpy, "asin" => Some ("numpy", "arcsin")
  | UseNumpy, "atan" => Some ("numpy", "arctan")
  | UseNumpy, "atan2" => Some ("numpy", "arctan2")
  | UseMath, "where" => Some ("pysolar", "where_math")
  | UseMath, ("tm_yday" | "tm_hour" | "tm_min") => Some ("pysolar", name ++ "_math")
  | UseNumpy, ("tm_yday" | "tm_hour" | "tm_min") => Some ("pysolar", name ++ "_numpy")
  | UseMath, "current_mod" => Some ("", "math")
  | UseNumpy, "current_mod" => Some ("", "numpy")
  | _, _ => None
  end.

Definition names : list string :=
  [ "degrees"; "cos"; "sin"; "radians"; "tan"; "pi"; "acos"; "atan"; "asin"; "atan2"; "exp"; "e";
    "where"; "tm_yday"; "tm_hour"; "tm_min"; "current_mod" ].


(* a tzinfo with one UTC offset (microseconds) for all times *)
Definition fixed_offset (d : datetime) (o : Z) : Prop :=
  exists tz, dt_tz d = Some tz /\ (forall l f, tz_utcoffset tz l f = Some o) /\ Z.abs o < us_per_day.

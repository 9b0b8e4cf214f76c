(* pysolar/solartime.py *)
From Verif Require Import Py Num Cal TzCheck Tables Constants.
Open Scope num_scope.
Open Scope Z_scope.

Definition leap_seconds_base_year : Z := 1972.  (* solartime.py 36 *)
Definition delta_t_base_year : Z := 1973.       (* solartime.py 139 *)
Definition delta_t_base_month : Z := 2.         (* solartime.py 140 *)

Definition zlen {A} (l : list A) : Z := Z.of_nat (List.length l).

(* solartime.py 104-133, the `while True` loop, by fuel.  [Err Unmodelled] means the fuel
   ran out; [leap_loop_fuel] (SolarTimeProofs.v) proves that this never happens.  The result
   is the adjustment and the list of years named in warnings.warn calls. *)
Fixpoint leap_loop (fuel : nat) (tm_year tm_mon : Z) (year adj : Z) : res (Z * list Z) :=
  match fuel with
  | O => Err Unmodelled
  | S fuel =>
      if tm_year <? year then Ok (adj, [])
      else if zlen leap_seconds_adjustments <=? year - leap_seconds_base_year then
        if (zlen leap_seconds_adjustments <? tm_year - leap_seconds_base_year)
           || ((tm_year - leap_seconds_base_year =? zlen leap_seconds_adjustments)
               && (6 <? tm_mon))
        then Ok (adj, [leap_seconds_base_year + zlen leap_seconds_adjustments - 1])
        else Ok (adj, [])
      else
        entry <- py_index leap_seconds_adjustments (year - leap_seconds_base_year) ;;
        if year =? tm_year then
          Ok ((if 6 <? tm_mon then adj + fst entry else adj), [])
        else leap_loop fuel tm_year tm_mon (year + 1) (adj + (fst entry + snd entry))
  end.

(* solartime.py 98-136.  Warnings are part of the result; pysolar's callers ignore them. *)
Definition get_leap_seconds_w (when : datetime) : res (Z * list Z) :=
  aware when ;;
  t <- utctimetuple when ;;
  leap_loop (List.length leap_seconds_adjustments + 2) (f_year t) (f_mon t) leap_seconds_base_year 10.

Definition get_leap_seconds (when : datetime) : res Z := rmap fst (get_leap_seconds_w when).

(* solartime.py 728-742: the lookup, for any contents of the module variables delta_t_base_year,
   delta_t_base_month and delta_t (which util/get_delta_t generates, see Script.v) *)
Definition delta_t_lookup {V} (base_year base_month : Z) (table : list (list V)) (year month : Z) : res V :=
  let '(year, month) :=
    if year <? base_year then (base_year, 1)
    else if year =? base_year then (year, Z.max 0 (month - base_month) + 1)
    else if base_year + zlen table <=? year then (base_year + zlen table - 1, month)
    else (year, month) in
  month <- (if year =? base_year + zlen table - 1 then
              row <- py_index table (year - base_year) ;;
              Ok (Z.min month (zlen row))
            else Ok month) ;;
  row <- py_index table (year - base_year) ;;
  py_index row (month - 1).

(* solartime.py 724-743; the table entry as the decimal literal it is *)
Definition get_delta_t_q (when : datetime) : res Q :=
  aware when ;;
  t <- utctimetuple when ;;
  delta_t_lookup delta_t_base_year delta_t_base_month delta_t (f_year t) (f_mon t).

Section S.
Context {N : Num}.
Local Open Scope num_scope.

Definition get_delta_t (when : datetime) : res (T N) := rmap lit (get_delta_t_q when).

Definition tt_offset : T N := lit 32.184.              (* solartime.py 30 *)
Definition gregorian_day_offset : T N := lit 719163.   (* solartime.py 29 *)
Definition julian_day_offset : T N := lit 1721424.5.   (* solartime.py 28: 1721425 - 0.5, exact *)

(* datetime.timestamp(): correctly rounded quotient of microseconds by 10**6 *)
Definition timestamp (when : datetime) : res (T N) :=
  u <- timestamp_us when ;; Ok (lit (Qmake u 1000000)).

(* solartime.py 745-761 *)
Definition get_julian_solar_day (when : datetime) : res (T N) :=
  aware when ;;
  ts <- timestamp when ;;
  ls <- get_leap_seconds when ;;
  dt <- get_delta_t when ;;
  q <- div (ts + ofZ ls + tt_offset - dt) seconds_per_day ;;
  Ok (q + gregorian_day_offset + julian_day_offset).

(* solartime.py 763-779 *)
Definition get_julian_ephemeris_day (when : datetime) : res (T N) :=
  aware when ;;
  ts <- timestamp when ;;
  ls <- get_leap_seconds when ;;
  q <- div (ts + ofZ ls + tt_offset) seconds_per_day ;;
  Ok (q + gregorian_day_offset + julian_day_offset).

(* solartime.py 781-782 *)
Definition get_julian_century (julian_day : T N) : res (T N) :=
  div (julian_day - lit 2451545.0) (lit 36525.0).

(* solartime.py 784-785 *)
Definition get_julian_ephemeris_century (julian_ephemeris_day : T N) : res (T N) :=
  div (julian_ephemeris_day - lit 2451545.0) (lit 36525.0).

(* solartime.py 787-788 *)
Definition get_julian_ephemeris_millennium (julian_ephemeris_century : T N) : res (T N) :=
  div julian_ephemeris_century (lit 10.0).

End S.

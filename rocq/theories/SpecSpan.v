(* The time between two datetimes, as Python subtracts them: wall-clock difference within one time
   zone object (or without any), difference of the instants otherwise. *)
From Coq Require Import ZArith.
From Verif Require Import Cal SpecDt.
Local Open Scope Z_scope.

Inductive between (a b : datetime) : Z -> Prop :=
| bt_naive : dt_tz a = None -> dt_tz b = None -> between a b (dt_local b - dt_local a)
| bt_same x y : dt_tz a = Some x -> dt_tz b = Some y -> tz_id x = tz_id y -> between a b (dt_local b - dt_local a)
| bt_zones x y ua ub : dt_tz a = Some x -> dt_tz b = Some y -> tz_id x <> tz_id y -> instant a ua -> instant b ub -> between a b (ub - ua).

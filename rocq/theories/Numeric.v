(* pysolar/numeric.py: the module-level namespace that use_math() / use_numpy() rewrite.

   State: which implementation each exported name is bound to.  Only names matter here; what
   the implementations compute is the business of the Num instances. *)
From Verif Require Import Py.
Open Scope string_scope.

(* an implementation: module (or "pysolar" for the functions defined in numeric.py) and name *)
Definition impl := (string * string)%type.
Definition namespace := list (string * impl).

Fixpoint ns_get (k : string) (ns : namespace) : option impl :=
  match ns with
  | [] => None
  | (k', v) :: rest => if String.eqb k k' then Some v else ns_get k rest
  end.
(* globals()[k] = v *)
Fixpoint ns_set (k : string) (v : impl) (ns : namespace) : namespace :=
  match ns with
  | [] => [(k, v)]
  | (k', v') :: rest => if String.eqb k k' then (k, v) :: rest else (k', v') :: ns_set k v rest
  end.

(* numeric.py 37-42 *)
Definition globals_import_from (module name name_as : string) (ns : namespace) : namespace :=
  ns_set name_as (module, name) ns.

Definition run (cmds : list (namespace -> namespace)) (ns : namespace) : namespace :=
  fold_left (fun ns c => c ns) cmds ns.

(* numeric.py 31-88: bindings after the `from math import` lines and the defs *)
Definition initial : namespace :=
  [ ("degrees", ("math", "degrees")); ("cos", ("math", "cos")); ("sin", ("math", "sin"));
    ("radians", ("math", "radians")); ("tan", ("math", "tan")); ("pi", ("math", "pi"));
    ("acos", ("math", "acos")); ("atan", ("math", "atan")); ("asin", ("math", "asin"));
    ("atan2", ("math", "atan2")); ("exp", ("math", "exp")); ("e", ("math", "e"));
    ("where", ("pysolar", "where_math"));
    ("tm_yday", ("pysolar", "tm_yday_math")); ("tm_hour", ("pysolar", "tm_hour_math"));
    ("tm_min", ("pysolar", "tm_min_math"));
    ("current_mod", ("", "math")) ].

(* numeric.py 91-111 *)
Definition use_numpy : namespace -> namespace := run
  [ globals_import_from "numpy" "degrees" "degrees";
    globals_import_from "numpy" "cos" "cos";
    globals_import_from "numpy" "sin" "sin";
    globals_import_from "numpy" "radians" "radians";
    globals_import_from "numpy" "tan" "tan";
    globals_import_from "numpy" "pi" "pi";
    globals_import_from "numpy" "arccos" "acos";
    globals_import_from "numpy" "arctan" "atan";
    globals_import_from "numpy" "arcsin" "asin";
    globals_import_from "numpy" "arctan2" "atan2";
    globals_import_from "numpy" "exp" "exp";
    globals_import_from "numpy" "e" "e";
    globals_import_from "numpy" "where" "where";
    ns_set "tm_yday" ("pysolar", "tm_yday_numpy");
    ns_set "tm_hour" ("pysolar", "tm_hour_numpy");
    ns_set "tm_min" ("pysolar", "tm_min_numpy");
    ns_set "current_mod" ("", "numpy") ].

(* numeric.py 130: globals()['where'] = where -- re-binds the name to its current value *)
Definition rebind_where (ns : namespace) : namespace :=
  match ns_get "where" ns with Some v => ns_set "where" v ns | None => ns end.

(* numeric.py 114-134 *)
Definition use_math : namespace -> namespace := run
  [ globals_import_from "math" "degrees" "degrees";
    globals_import_from "math" "cos" "cos";
    globals_import_from "math" "sin" "sin";
    globals_import_from "math" "radians" "radians";
    globals_import_from "math" "tan" "tan";
    globals_import_from "math" "pi" "pi";
    globals_import_from "math" "acos" "acos";
    globals_import_from "math" "atan" "atan";
    globals_import_from "math" "asin" "asin";
    globals_import_from "math" "atan2" "atan2";
    globals_import_from "math" "exp" "exp";
    globals_import_from "math" "e" "e";
    rebind_where;
    ns_set "tm_yday" ("pysolar", "tm_yday_math");
    ns_set "tm_hour" ("pysolar", "tm_hour_math");
    ns_set "tm_min" ("pysolar", "tm_min_math");
    ns_set "current_mod" ("", "math") ].

(* numeric.py 137-141 *)
Definition after_import (numpy_installed : bool) : namespace :=
  if numpy_installed then use_numpy initial else initial.

Inductive switch := UseNumpy | UseMath.
Definition apply_switch (s : switch) : namespace -> namespace :=
  match s with UseNumpy => use_numpy | UseMath => use_math end.

(* The arithmetic interface the library computes with.

   pysolar calls `numeric` (pysolar/numeric.py), which re-exports either the builtin
   `math` module or numpy.  Every function of the model is written once over this
   record and instantiated later:
     - MathR / NumpyR  : extended reals with the two back ends' error behaviour (RInst.v)
     - ArrR            : arrays (Arr.v)
     - B64             : IEEE binary64 with an abstract libm (B64.v)                    *)
From Verif Require Import Py.

Record Num := {
  T : Type;                       (* a float (or array of floats) *)
  B : Type;                       (* result of a comparison: bool, or array of bool *)
  lit : Q -> T;                   (* numeric literal / int / exact quotient of ints, as a float *)
  inf : T;                        (* float("inf") *)
  add : T -> T -> T;              (* float + - * and unary minus never raise *)
  sub : T -> T -> T;
  mul : T -> T -> T;
  neg : T -> T;
  div : T -> T -> res T;          (* x / y *)
  fmod : T -> T -> res T;         (* x % y *)
  powi : T -> nat -> res T;       (* x ** n, n a positive integer literal *)
  powf : T -> T -> res T;         (* x ** y *)
  nsin : T -> res T;
  ncos : T -> res T;
  ntan : T -> res T;
  nasin : T -> res T;
  nacos : T -> res T;
  natan : T -> res T;
  natan2 : T -> T -> res T;
  nexp : T -> res T;
  radians : T -> T;
  degrees : T -> T;
  npi : T;
  ne : T;
  lt : T -> T -> B;               (* x < y *)
  le : T -> T -> B;               (* x <= y *)
  of_bool : B -> T;               (* bool used as a number *)
  truth : B -> res bool;          (* `if b:` -- ValueError for arrays of several elements *)
  where_ : B -> T -> T -> T;      (* numeric.where: both branches already evaluated *)
  round_int : T -> res Z;         (* builtin round(x) *)
  timedelta_hours : T -> res Z    (* datetime.timedelta(hours = x), in microseconds *)
}.

Arguments lit {_} _%Q.
Arguments inf {_}.
Arguments add {_} _ _.
Arguments sub {_} _ _.
Arguments mul {_} _ _.
Arguments neg {_} _.
Arguments div {_} _ _.
Arguments fmod {_} _ _.
Arguments powi {_} _ _.
Arguments powf {_} _ _.
Arguments nsin {_} _.
Arguments ncos {_} _.
Arguments ntan {_} _.
Arguments nasin {_} _.
Arguments nacos {_} _.
Arguments natan {_} _.
Arguments natan2 {_} _ _.
Arguments nexp {_} _.
Arguments radians {_} _.
Arguments degrees {_} _.
Arguments npi {_}.
Arguments ne {_}.
Arguments lt {_} _ _.
Arguments le {_} _ _.
Arguments of_bool {_} _.
Arguments truth {_} _.
Arguments where_ {_} _ _ _.
Arguments round_int {_} _.
Arguments timedelta_hours {_} _.

Declare Scope num_scope.
Delimit Scope num_scope with num.
Bind Scope num_scope with T.
Notation "x + y" := (add x y) : num_scope.
Notation "x - y" := (sub x y) : num_scope.
Notation "x * y" := (mul x y) : num_scope.
Notation "- x" := (neg x) : num_scope.

(* a Python int used in float arithmetic *)
Definition ofZ {N : Num} (z : Z) : T N := lit (inject_Z z).

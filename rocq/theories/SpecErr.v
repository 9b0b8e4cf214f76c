(* Specification vocabulary for C124: which exceptions count as arithmetic, and an arithmetic that
   raises no others. *)
From Verif Require Import Py Num.

(* a value, or one of Python's three arithmetic exceptions *)
Definition arithmetic {A} (r : res A) : Prop :=
  match r with
  | Ok _ => True
  | Err e => e = ValueError \/ e = ZeroDivisionError \/ e = OverflowError
  end.

(* the powers in the code have exponents 2 to 10 *)
Record arithmetic_num (N : Num) : Prop := {
  ar_div : forall a b, arithmetic (@div N a b);
  ar_fmod : forall a b, arithmetic (@fmod N a b);
  ar_powi : forall a n, (n <= 10)%nat -> arithmetic (@powi N a n);
  ar_sin : forall a, arithmetic (@nsin N a);
  ar_cos : forall a, arithmetic (@ncos N a);
  ar_tan : forall a, arithmetic (@ntan N a);
  ar_asin : forall a, arithmetic (@nasin N a);
  ar_acos : forall a, arithmetic (@nacos N a);
  ar_atan : forall a, arithmetic (@natan N a);
  ar_atan2 : forall a b, arithmetic (@natan2 N a b);
  ar_exp : forall a, arithmetic (@nexp N a);
  ar_truth : forall b, arithmetic (@truth N b);
  ar_hours : forall a, arithmetic (@timedelta_hours N a)
}.

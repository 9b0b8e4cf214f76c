(* Python-level outcomes: a computation returns a value or raises.
   Exceptions are values, as the code under study catches one of them
   (radiation.py 25-29) and users rely on which one is raised. *)
From Coq Require Export ZArith QArith List String Bool.
Export ListNotations.
Close Scope Q_scope.
Open Scope Z_scope.

Inductive exn : Set :=
| ZeroDivisionError
| ValueError
| OverflowError
| TypeError
| IndexError
| KeyError (key : string)
| AttributeError (attr : string)
| NameError (name : string)
| AssertionError
| NoTimeZoneInfoError (argname : string)   (* pysolar/tzinfo_check.py 6-17 (subclass of ValueError) *)
| ComplexResult        (* not an exception: a negative float to a fractional power silently
                          becomes a complex number in Python 3; the float model stops there *)
| Unmodelled.          (* behaviour outside the model (never reached in any theorem) *)

(* [isinstance (e, ValueError)]: NoTimeZoneInfoError derives from ValueError, tzinfo_check.py 6 *)
Definition is_ValueError (e : exn) : bool :=
  match e with ValueError | NoTimeZoneInfoError _ => true | _ => false end.

Inductive res (A : Type) : Type :=
| Ok (a : A)
| Err (e : exn).
Arguments Ok {A} a.
Arguments Err {A} e.

Definition bind {A B} (r : res A) (f : A -> res B) : res B :=
  match r with Ok a => f a | Err e => Err e end.

Declare Scope py_scope.
Delimit Scope py_scope with py.
Notation "x <- e ;; k" := (bind e (fun x => k))
  (at level 61, e at next level, right associativity) : py_scope.
Notation "e1 ;; e2" := (bind e1 (fun _ => e2))
  (at level 61, right associativity) : py_scope.
Open Scope py_scope.

Definition rmap {A B} (f : A -> B) (r : res A) : res B := x <- r ;; Ok (f x).

(* Python sequence indexing s[i]: negative indices count from the end,
   anything else out of range raises IndexError. *)
Definition py_index {A} (l : list A) (i : Z) : res A :=
  let n := Z.of_nat (List.length l) in
  let j := if i <? 0 then i + n else i in
  if (j <? 0) then Err IndexError
  else match nth_error l (Z.to_nat j) with
       | Some a => Ok a
       | None => Err IndexError
       end.

Lemma bind_Ok {A B} (a : A) (f : A -> res B) : bind (Ok a) f = f a.
Proof. reflexivity. Qed.

Lemma bind_assoc {A B C} (r : res A) (f : A -> res B) (g : B -> res C) :
  bind (bind r f) g = bind r (fun a => bind (f a) g).
Proof. destruct r; reflexivity. Qed.

Lemma bind_eq_Ok {A B} (r : res A) (f : A -> res B) b :
  bind r f = Ok b -> exists a, r = Ok a /\ f a = Ok b.
Proof. destruct r as [a|e]; simpl; intros H; [exists a; auto | discriminate]. Qed.

Lemma bind_ext {A B} (r : res A) (f g : A -> res B) :
  (forall a, r = Ok a -> f a = g a) -> bind r f = bind r g.
Proof. destruct r as [a|e]; simpl; intros H; [apply H; reflexivity | reflexivity]. Qed.

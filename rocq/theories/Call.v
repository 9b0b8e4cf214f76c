(* Calls of the library's functions through their parameter lists: Python's argument binding
   (reference manual 6.3.4 "Calls", for functions without *args, **kwargs and keyword-only
   parameters, as all of pysolar's are), the def statements of /repo/pysolar/*.py and the stub files
   /repo/pysolar/*.pyi (both in Sigs.v). *)
From Verif Require Import Py Cal TzCheck Sigs.

(* parameters in order, each with whether it has a default *)
Definition params := list (string * bool).

(* what a parameter is bound to: a value passed by the caller, or its default *)
Inductive bound := Passed (v : pyval) | Default.

Definition param_names (ps : params) : list string := map fst ps.

(* parameters that did not get a positional argument *)
Fixpoint bind_rest (ps : params) (kw : kwdict) : res (list (string * bound)) :=
  match ps with
  | [] => Ok []
  | (n, d) :: ps =>
      b <- match kw_get n kw with
           | Some v => Ok (Passed v)
           | None => if d : bool then Ok Default else Err TypeError     (* missing argument *)
           end ;;
      r <- bind_rest ps kw ;;
      Ok ((n, b) :: r)
  end.

Fixpoint bind_args (ps : params) (args : list pyval) (kw : kwdict) : res (list (string * bound)) :=
  match args, ps with
  | [], _ => bind_rest ps kw
  | _ :: _, [] => Err TypeError                                        (* too many positional arguments *)
  | v :: args, (n, _) :: ps =>
      match kw_get n kw with
      | Some _ => Err TypeError                                        (* multiple values for n *)
      | None => r <- bind_args ps args kw ;; Ok ((n, Passed v) :: r)
      end
  end.

(* every keyword must be a parameter *)
Definition bind_call (ps : params) (args : list pyval) (kw : kwdict) : res (list (string * bound)) :=
  if forallb (fun k => str_in k (param_names ps)) (map fst kw) then bind_args ps args kw
  else Err TypeError.

Fixpoint assoc {A} (k : string) (l : list (string * A)) : option A :=
  match l with
  | [] => None
  | (k', a) :: l => if String.eqb k k' then Some a else assoc k l
  end.

Definition impl_of (f : string) : option (params * option (list string)) :=
  assoc f (map (fun '(n, ps, d) => (n, (ps, d))) impl_sigs).
Definition stub_of (f : string) : option params := assoc f stub_sigs.

(* A call of function f of the library whose body is [body]: the decorator, if there is one, looks
   at the arguments first (tzinfo_check.py 59-95), then they are bound, then the body runs. *)
Definition call {A} (f : string) (body : list (string * bound) -> res A) (args : list pyval) (kw : kwdict) : res A :=
  match impl_of f with
  | None => Err (AttributeError f)
  | Some (ps, dec) =>
      let func args kw := b <- bind_call ps args kw ;; body b in
      match dec with
      | None => func args kw
      | Some argnames => check_aware_dt argnames {| as_args := param_names ps; as_kwonly := [] |} func args kw
      end
  end.

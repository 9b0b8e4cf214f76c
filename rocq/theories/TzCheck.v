(* pysolar/tzinfo_check.py: the check_aware_dt decorator. *)
From Verif Require Import Py Cal.

(* A Python argument value, as far as the decorator can tell values apart:
   a datetime.datetime (has .tzinfo, no .shape), an array (has .shape),
   an object with a .tzinfo attribute that is not a datetime (e.g. datetime.time),
   or anything else (no .tzinfo, no .shape).  Payload of "anything else" is irrelevant. *)
Inductive pyval : Type :=
| VDatetime (d : datetime)
| VArray (payload : Z)
| VOther (payload : Z).

Definition has_shape (v : pyval) : bool :=
  match v with VArray _ => true | _ => false end.
Definition has_tzinfo (v : pyval) : bool :=
  match v with VDatetime _ => true | _ => false end.
Definition tzinfo_is_none (v : pyval) : bool :=
  match v with VDatetime d => match dt_tz d with None => true | Some _ => false end | _ => false end.

(* a keyword-argument dictionary *)
Definition kwdict := list (string * pyval).

Fixpoint kw_get (k : string) (kw : kwdict) : option pyval :=
  match kw with
  | [] => None
  | (k', v) :: rest => if String.eqb k k' then Some v else kw_get k rest
  end.

Fixpoint str_index (k : string) (l : list string) : option nat :=
  match l with
  | [] => None
  | k' :: rest => if String.eqb k k' then Some O
                  else match str_index k rest with Some i => Some (S i) | None => None end
  end.

Definition str_in (k : string) (l : list string) : bool :=
  match str_index k l with Some _ => true | None => false end.

(* inspect.getfullargspec(func): positional parameter names and keyword-only names *)
Record argspec := { as_args : list string; as_kwonly : list string }.

(* tzinfo_check.py 81-84: `try: dt = args[full.args.index(argname)]
   except (IndexError, ValueError): dt = kwargs[argname]`
   (ValueError = name is keyword-only, IndexError = not passed positionally) *)
Definition arg_value (spec : argspec) (name : string) (args : list pyval) (kw : kwdict) : res pyval :=
  let from_kw := match kw_get name kw with Some v => Ok v | None => Err (KeyError name) end in
  match str_index name (as_args spec) with
  | None => from_kw
  | Some i => match nth_error args i with Some v => Ok v | None => from_kw end
  end.

(* tzinfo_check.py 86-92 *)
Definition check_value (name : string) (v : pyval) : res unit :=
  if negb (has_shape v) then
    if negb (has_tzinfo v) then Err ValueError
    else if tzinfo_is_none v then Err (NoTimeZoneInfoError name)
    else Ok tt
  else Ok tt.

(* tzinfo_check.py 75-92, the loop over argnames *)
Fixpoint check_args (spec : argspec) (argnames : list string) (args : list pyval) (kw : kwdict) : res unit :=
  match argnames with
  | [] => Ok tt
  | name :: rest =>
      (if str_in name (as_args spec) || str_in name (as_kwonly spec) then
         v <- arg_value spec name args kw ;;
         check_value name v
       else Ok tt) ;;
      check_args spec rest args kw
  end.

(* tzinfo_check.py 20-95: the decorated function *)
Definition check_aware_dt (argnames : list string) (spec : argspec) {A}
    (func : list pyval -> kwdict -> res A) (args : list pyval) (kw : kwdict) : res A :=
  check_args spec argnames args kw ;; func args kw.

(* What @check_aware_dt('when') amounts to when the parameter `when` is bound to the
   datetime d; [check_aware_dt_when] in TzCheckProofs.v proves that this is the general
   decorator above applied to any call that binds `when`. *)
Definition aware (d : datetime) : res unit :=
  match dt_tz d with
  | None => Err (NoTimeZoneInfoError "when")
  | Some _ => Ok tt
  end.

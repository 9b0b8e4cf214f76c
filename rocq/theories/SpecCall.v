(* What it means for a stub to describe an implementation, independently of the tables. *)
From Verif Require Import Py Cal TzCheck Call.

(* any call is bound the same way by both parameter lists, or rejected by both *)
Definition binds_alike (ps ps' : params) : Prop :=
  forall args kw, bind_call ps args kw = bind_call ps' args kw.

(* two bindings give every name the same value *)
Definition same_binding (r r' : res (list (string * bound))) : Prop :=
  match r, r' with
  | Ok b, Ok b' => forall n, assoc n b = assoc n b'
  | Err e, Err e' => e = e'
  | _, _ => False
  end.

(* calls passing keywords only *)
Definition keywords_alike (ps ps' : params) : Prop :=
  forall kw, same_binding (bind_call ps [] kw) (bind_call ps' [] kw).

(* the documented interface of f is the implemented one *)
Definition stub_correct (f : string) : Prop :=
  forall ps, stub_of f = Some ps -> exists ps' dec, impl_of f = Some (ps', dec) /\ binds_alike ps ps'.

(* Python's rule: the positional arguments go to the first parameters in order; each keyword must name one
   of the others; what is then missing must have a default *)
Definition call_binds (ps : params) (args : list pyval) (kw : kwdict) (r : list (string * bound)) : Prop :=
  let rest := skipn (List.length args) ps in
  (List.length args <= List.length ps)%nat /\
  (forall k, In k (map fst kw) -> In k (map fst rest)) /\
  (forall n, In (n, false) rest -> In n (map fst kw)) /\
  exists r1 r2, r = r1 ++ r2 /\ map fst r1 = map fst (firstn (List.length args) ps) /\ map snd r1 = map Passed args /\
    map fst r2 = map fst rest /\
    forall n b, In (n, b) r2 -> match b with Passed v => kw_get n kw = Some v | Default => ~ In n (map fst kw) end.

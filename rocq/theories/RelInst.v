(* The two relations used throughout:
   - [math_numpy]: whenever the math back end returns a value, the numpy back end returns
     the same value;
   - [numpy_array i]: whenever the numpy back end returns a value on single numbers, the
     call on arrays has that value at index i. *)
From Coq Require Import Reals Qreals Lra.
From Verif Require Import Py Num Cal TzCheck Clock RInst Rel.
Local Open Scope R_scope.

Lemma xdiv_py_np a b v : xdiv_py a b = Ok v -> xdiv_np a b = v.
Proof. unfold xdiv_py, xdiv_np. destruct (xis_zero b); [discriminate|]. now intros [= <-]. Qed.
Lemma xfmod_py_np a b v : xfmod_py a b = Ok v -> xfmod_np a b = v.
Proof. unfold xfmod_py, xfmod_np. destruct (xis_zero b); [discriminate|]. now intros [= <-]. Qed.
Lemma xpowf_py_np a b v : xpowf_py a b = Ok v -> xpowf_np a b = v.
Proof.
  destruct a, b; simpl; try (intros [= <-]; reflexivity).
  destruct (Rbool_lt _ _); [now intros [= <-]|].
  destruct (Req_bool _ _). { destruct (Rbool_lt _ _); [discriminate|now intros [= <-]]. }
  destruct (is_int _); [now intros [= <-]|discriminate].
Qed.

Lemma xdiv_np_1_0 b : xis_zero b = true -> xdiv_np (Fin (Q2R 1)) b = PInf.
Proof.
  intros H. unfold xdiv_np. rewrite H. unfold Rsgn. replace (Q2R 1) with 1 by (unfold Q2R; simpl; lra).
  destruct (total_order_T 1 0) as [[|]|]; try reflexivity; exfalso; lra.
Qed.

Ltac fin H := inversion H; subst; clear H; simpl; eauto.

Definition math_numpy : NumRel MathR NumpyR.
Proof.
  refine {| rT := fun (x : T MathR) (y : T NumpyR) => x = vx y;
            rB := fun (b : B MathR) (c : B NumpyR) => b = c;
            r_scalar := True; r_recip := True |}; simpl; intros; subst; try reflexivity; auto;
    try (intros v Hv; simpl in *).
  - destruct (is_np a' || is_np b').
    + apply xdiv_py_np in Hv as <-. eauto.
    + rewrite Hv. simpl. eauto.
  - destruct b' as [f x]; unfold div_or_inf in *; simpl in *.
    destruct f.
    + unfold xdiv_py in Hv. destruct (xis_zero x) eqn:Hz.
      * injection Hv as <-. eexists; split; [reflexivity|]. simpl. now rewrite xdiv_np_1_0.
      * injection Hv as <-. eexists; split; [reflexivity|]. simpl. unfold xdiv_np. now rewrite Hz.
    + destruct (xdiv_py _ x) as [w|[]]; simpl; try discriminate; injection Hv as <-; eauto.
  - destruct a; discriminate.
  - destruct (is_np a' || is_np b').
    + apply xfmod_py_np in Hv as <-. eauto.
    + rewrite Hv. simpl. eauto.
  - fin Hv.
  - destruct (is_np a' || is_np b').
    + apply xpowf_py_np in Hv as <-. eauto.
    + rewrite Hv. simpl. eauto.
  - unfold npf. destruct (vx a'); simpl; fin Hv.
  - unfold npf. destruct (vx a'); simpl; fin Hv.
  - unfold npf. destruct (vx a'); simpl; fin Hv.
  - unfold npf. destruct (vx a') as [r| | |]; simpl; [destruct (asin_ok r)|..]; fin Hv.
  - unfold npf. destruct (vx a') as [r| | |]; simpl; [destruct (asin_ok r)|..]; fin Hv.
  - unfold npf. destruct (vx a'); simpl; fin Hv.
  - fin Hv.
  - unfold npf. destruct (vx a') as [r| | |]; simpl; unfold Rexp_x; [destruct (Rbool_lt _ _)|..]; fin Hv.
  - eauto.
  - destruct c'; reflexivity.
  - eauto.
  - eauto.
Defined.

Definition numpy_array (I : Type) (i : I) : NumRel NumpyR (ArrR I).
Proof.
  refine {| rT := fun (x : T NumpyR) (y : T (ArrR I)) => vx x = y i;
            rB := fun (b : B NumpyR) (c : B (ArrR I)) => b = c i;
            r_scalar := False; r_recip := True |}; simpl; intros; subst; try reflexivity; try contradiction;
    try (unfold lift1, lift2; simpl; congruence);
    try (intros v Hv; unfold npf in *; simpl in *; eexists; split; [reflexivity|]; try (fin Hv; congruence)).
  - destruct (is_np a || is_np b). { fin Hv. congruence. }
    destruct (xdiv_py (vx a) (vx b)) eqn:E; [|discriminate]. fin Hv. apply xdiv_py_np in E. congruence.
  - unfold div_or_inf in *; simpl in *. rewrite <- H0. destruct b as [f x]; simpl in *. destruct f.
    + injection Hv as <-. reflexivity.
    + unfold xdiv_py in Hv. destruct (xis_zero x) eqn:Hz; simpl in Hv; injection Hv as <-; simpl.
      * now rewrite xdiv_np_1_0.
      * unfold xdiv_np. now rewrite Hz.
  - discriminate.
  - destruct (is_np a || is_np b). { fin Hv. congruence. }
    destruct (xfmod_py (vx a) (vx b)) eqn:E; [|discriminate]. fin Hv. apply xfmod_py_np in E. congruence.
  - destruct (is_np a || is_np b). { fin Hv. congruence. }
    destruct (xpowf_py (vx a) (vx b)) eqn:E; [|discriminate]. fin Hv. apply xpowf_py_np in E. congruence.
  - destruct (c' i); assumption.
Defined.

(* single datetimes: both back ends, same calendar values (ClockProofs.v) are needed to
   relate the clocks; see there *)

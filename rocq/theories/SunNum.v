(* Numerical bounds behind SunProofs.v, by interval arithmetic: the Fourier series of util.py against
   the equation of time and the declination of the full computation. *)
From Coq Require Import Reals Lra.
From Coquelicot Require Import Coquelicot.
From Interval Require Import Tactic.
From Verif Require Import SpaProofs TopoProofs ApproxNum.
Local Open Scope R_scope.

(* fourier_eot / 240 and fourier_declination of SpecEng.v, in radians; k = -1 after a shift by half a turn *)
Definition fem (k c v : R) : R :=
  let t := (279.134 + c + 0.985647 * v) * (PI / 180) in
  (5.0323 + k * (- 100.976 * sin t) + 595.275 * sin (2 * t) + k * (3.6858 * sin (3 * t)) - 12.47 * sin (4 * t)
   + k * (- 430.847 * cos t) + 12.5024 * cos (2 * t) + k * (18.25 * cos (3 * t))) / 240 * (PI / 180).
Definition fdm (w : R) : R :=
  let t := 2 * PI / 366 * w in
  (0.322003 - 22.971 * cos t - 0.357898 * cos (2 * t) - 0.14398 * cos (3 * t) + 3.94638 * sin t + 0.019334 * sin (2 * t) + 0.05928 * sin (3 * t)) * (PI / 180).

Lemma feot_first v ep : 1 <= v <= 200 -> 23.42 <= ep <= 23.46 ->
  Rabs (rho ep (xm (-360) v 0.835 + cen 1 (xm (-360) v 0.835)) - cen 1 (xm (-360) v 0.835) - fem 1 (-360) v) <= 0.05 * (PI / 180).
Proof. intros ? ?. unfold rho, cen, xm, fem. cbv zeta. interval with (i_bisect v, i_taylor v, i_degree 5, i_prec 30, i_depth 25). Qed.
Lemma feot_second v ep : 200 <= v <= 366 -> 23.42 <= ep <= 23.46 ->
  Rabs (rho ep (xm (-540) v 0.835 + cen (-1) (xm (-540) v 0.835)) - cen (-1) (xm (-540) v 0.835) - fem (-1) (-540) v) <= 0.05 * (PI / 180).
Proof. intros ? ?. unfold rho, cen, xm, fem. cbv zeta. interval with (i_bisect v, i_taylor v, i_degree 5, i_prec 30, i_depth 25). Qed.
Definition dls : R := 0.3982 * 2.30 * (PI / 180).
Lemma fdec_first v ep : 1 <= v <= 200 -> 23.42 <= ep <= 23.46 ->
  sin (fdm v - 1.25 * (PI / 180)) + dls <= sin (ep * (PI / 180)) * sin (xm (-360) v 0.835 + cen 1 (xm (-360) v 0.835)) <= sin (fdm v + 1.25 * (PI / 180)) - dls.
Proof. intros ? ?. unfold fdm, cen, xm, dls. cbv zeta. split; apply Rminus_le; interval with (i_bisect v, i_taylor v, i_degree 5, i_prec 30, i_depth 25). Qed.
Lemma fdec_second v ep : 200 <= v <= 366 -> 23.42 <= ep <= 23.46 ->
  sin (fdm (v - 366) - 1.25 * (PI / 180)) + dls <= - (sin (ep * (PI / 180)) * sin (xm (-540) v 0.835 + cen (-1) (xm (-540) v 0.835))) <= sin (fdm (v - 366) + 1.25 * (PI / 180)) - dls.
Proof. intros ? ?. unfold fdm, cen, xm, dls. cbv zeta. split; apply Rminus_le; interval with (i_bisect v, i_taylor v, i_degree 5, i_prec 30, i_depth 25). Qed.

Lemma fem_first v : fem 1 0 v = fem 1 (-360) v.
Proof.
  unfold fem. cbv zeta. set (t := (279.134 + -360 + 0.985647 * v) * (PI / 180)).
  replace ((279.134 + 0 + 0.985647 * v) * (PI / 180)) with (t + 2 * PI) by (unfold t; field).
  replace (2 * (t + 2 * PI)) with (2 * t + 2 * PI + 2 * PI) by ring. replace (3 * (t + 2 * PI)) with (3 * t + 2 * PI + 2 * PI + 2 * PI) by ring.
  replace (4 * (t + 2 * PI)) with (4 * t + 2 * PI + 2 * PI + 2 * PI + 2 * PI) by ring. now rewrite !sin_2, !cos_2.
Qed.
Lemma fem_second v : fem 1 0 v = fem (-1) (-540) v.
Proof.
  unfold fem. cbv zeta. set (t := (279.134 + -540 + 0.985647 * v) * (PI / 180)).
  replace ((279.134 + 0 + 0.985647 * v) * (PI / 180)) with (t + PI + 2 * PI) by (unfold t; field).
  replace (2 * (t + PI + 2 * PI)) with (2 * t + 2 * PI + 2 * PI + 2 * PI) by ring. replace (3 * (t + PI + 2 * PI)) with (3 * t + PI + 2 * PI + 2 * PI + 2 * PI + 2 * PI) by ring.
  replace (4 * (t + PI + 2 * PI)) with (4 * t + 2 * PI + 2 * PI + 2 * PI + 2 * PI + 2 * PI + 2 * PI) by ring. rewrite !sin_2, !cos_2, !sin_1, !cos_1. lra.
Qed.
Lemma fdm_second v : fdm (v - 366) = fdm v.
Proof.
  unfold fdm. cbv zeta. set (t := 2 * PI / 366 * (v - 366)). replace (2 * PI / 366 * v) with (t + 2 * PI) by (unfold t; field).
  replace (2 * (t + 2 * PI)) with (2 * t + 2 * PI + 2 * PI) by ring. replace (3 * (t + 2 * PI)) with (3 * t + 2 * PI + 2 * PI + 2 * PI) by ring. now rewrite !sin_2, !cos_2.
Qed.
Lemma feot_mid v ep : 1 <= v <= 366 -> 23.42 <= ep <= 23.46 -> let x := xm 0 v 0.835 in
  Rabs (rho ep (x + cen 1 x) - cen 1 x - fem 1 0 v) <= 0.05 * (PI / 180).
Proof.
  intros Hv B x. destruct (Rle_dec v 200) as [C|C].
  - pose proof (feot_first v ep ltac:(lra) B) as E. unfold x. rewrite fem_first, shift_first, cen_first. set (y := xm (-360) v 0.835) in *.
    replace (y + 2 * PI + cen 1 y) with (y + cen 1 y + PI + PI) by ring. rewrite !rho_turn. exact E.
  - pose proof (feot_second v ep ltac:(lra) B) as E. unfold x. rewrite fem_second, shift_second, cen_second. set (y := xm (-540) v 0.835) in *.
    replace (y + 3 * PI + cen (-1) y) with (y + cen (-1) y + PI + PI + PI) by ring. rewrite !rho_turn. exact E.
Qed.
Lemma fdec_mid v ep : 1 <= v <= 366 -> 23.42 <= ep <= 23.46 -> let x := xm 0 v 0.835 in
  sin (fdm v - 1.25 * (PI / 180)) + dls <= sin (ep * (PI / 180)) * sin (x + cen 1 x) <= sin (fdm v + 1.25 * (PI / 180)) - dls.
Proof.
  intros Hv B x. destruct (Rle_dec v 200) as [C|C].
  - pose proof (fdec_first v ep ltac:(lra) B) as E. unfold x. rewrite shift_first, cen_first. set (y := xm (-360) v 0.835) in *.
    replace (y + 2 * PI + cen 1 y) with (y + cen 1 y + 2 * PI) by ring. rewrite sin_2. exact E.
  - pose proof (fdec_second v ep ltac:(lra) B) as E. unfold x. rewrite fdm_second in E. rewrite shift_second, cen_second. set (y := xm (-540) v 0.835) in *.
    replace (y + 3 * PI + cen (-1) y) with (y + cen (-1) y + PI + 2 * PI) by ring. rewrite sin_2, sin_1.
    replace (sin (ep * (PI / 180)) * - sin (y + cen (-1) y)) with (- (sin (ep * (PI / 180)) * sin (y + cen (-1) y))) by ring. exact E.
Qed.

(* from the middle of the day of the year to any instant of the local day in any time zone *)
Definition sbox (s ep et : R) : Prop := -1.29 <= s <= 2.96 /\ 23.42 <= ep <= 23.46 /\ -0.00155 <= et <= 0.00155.
Lemma xm_lip2 v s : -1.29 <= s <= 2.96 -> Rabs (xm 0 v s - xm 0 v 0.835) <= 0.0370883.
Proof. intros H. unfold xm. replace ((280 + 0 + 0.98564736 * (v - 1) + s) * (PI / 180) - (280 + 0 + 0.98564736 * (v - 1) + 0.835) * (PI / 180)) with ((s - 0.835) * (PI / 180)) by ring. interval with (i_prec 50). Qed.
Lemma feot_year v s ep et : 1 <= v <= 366 -> sbox s ep et -> let x := xm 0 v s in
  - (0.42) * (PI / 180) <= rho ep (x + cen 1 x + et) - cen 1 x - et - fem 1 0 v <= 0.42 * (PI / 180).
Proof.
  intros Hv (Hs & He & Ht) x. pose proof (feot_mid v ep Hv He) as M. cbv zeta in M. pose proof (xm_lip2 v s Hs) as X. fold x in X. set (x0 := xm 0 v 0.835) in *.
  pose proof (cen_lip x x0) as C. pose proof (rho_lip ep (x + cen 1 x + et) (x0 + cen 1 x0) He) as R.
  assert (C' : Rabs (cen 1 x - cen 1 x0) <= 0.0341145 * 0.0370883) by lra.
  assert (L : Rabs (x + cen 1 x + et - (x0 + cen 1 x0)) <= 0.0399037).
  { apply Rabs_le_between in X, C'. apply Rabs_le. lra. }
  assert (R' : Rabs (rho ep (x + cen 1 x + et) - rho ep (x0 + cen 1 x0)) <= 0.0902 * 0.0399037) by lra.
  apply Rabs_le_between in M, C', R'. assert (P : 0.0174532 <= PI / 180) by interval. lra.
Qed.
Lemma fdec_year v s ep et : 1 <= v <= 366 -> sbox s ep et -> let x := xm 0 v s in
  sin (fdm v - 1.25 * (PI / 180)) <= sin (ep * (PI / 180)) * sin (x + cen 1 x + et) <= sin (fdm v + 1.25 * (PI / 180)).
Proof.
  intros Hv (Hs & He & Ht) x. pose proof (fdec_mid v ep Hv He) as M. cbv zeta in M. pose proof (xm_lip2 v s Hs) as X. fold x in X. set (x0 := xm 0 v 0.835) in *.
  pose proof (cen_lip x x0) as C. assert (C' : Rabs (cen 1 x - cen 1 x0) <= 0.0341145 * 0.0370883) by lra.
  assert (L : Rabs (x + cen 1 x + et - (x0 + cen 1 x0)) <= 0.0399037).
  { apply Rabs_le_between in X, C'. apply Rabs_le. lra. }
  pose proof (sin_lip (x + cen 1 x + et) (x0 + cen 1 x0)) as S. assert (S' : Rabs (sin (x + cen 1 x + et) - sin (x0 + cen 1 x0)) <= 0.0399037) by lra.
  apply Rabs_le_between in S'. set (s1 := sin (x + cen 1 x + et)) in *. set (s0 := sin (x0 + cen 1 x0)) in *. clearbody s1 s0.
  assert (E : 0 <= sin (ep * (PI / 180)) <= 0.3982) by (split; interval). set (se := sin (ep * (PI / 180))) in *. clearbody se.
  assert (DL : 0.3982 * 0.0399037 <= dls) by (unfold dls; interval).
  assert (- (0.3982 * 0.0399037) <= se * (s1 - s0) <= 0.3982 * 0.0399037) by (split; nra). lra.
Qed.

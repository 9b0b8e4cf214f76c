(* Numerical bounds behind ApproxProofs.v, by interval arithmetic. *)
From Coq Require Import Reals Lra.
From Coquelicot Require Import Coquelicot.
From Interval Require Import Tactic.
From Verif Require Import SpaProofs TopoProofs.
Local Open Scope R_scope.

(* mean longitude on day v of the year, s degrees off its average *)
Definition xm (c v s : R) : R := (280 + c + 0.98564736 * (v - 1) + s) * (PI / 180).
(* equation of the centre; k = -1 after a shift by half a turn *)
Definition cen (k x : R) : R := k * - 0.03341656 * cos (x + 2.91578634) + 0.00034894 * cos (2 * x + 1.11915908).
(* reduction to the equator *)
Definition rho (ep l : R) : R := atan (tan (ep * (PI / 360)) ^ 2 * sin (2 * l) / (1 + tan (ep * (PI / 360)) ^ 2 * cos (2 * l))).
Definition eotm (v : R) : R := (9.87 * sin (2 * (2 * PI / 364 * (v - 81))) - 7.53 * cos (2 * PI / 364 * (v - 81)) - 1.5 * sin (2 * PI / 364 * (v - 81))) / 4 * (PI / 180).
Definition dfm (v : R) : R := 23.45 * (PI / 180) * sin (2 * PI / 365 * (v - 81)).

Lemma eot_first v ep : 1 <= v <= 200 -> 23.42 <= ep <= 23.46 ->
  Rabs (rho ep (xm (-360) v 0.835 + cen 1 (xm (-360) v 0.835)) - cen 1 (xm (-360) v 0.835) - eotm v) <= 0.34 * (PI / 180).
Proof. intros ? ?. unfold rho, cen, xm, eotm. interval with (i_bisect v, i_taylor v, i_degree 5, i_prec 30, i_depth 25). Qed.
Lemma eot_second v ep : 200 <= v <= 366 -> 23.42 <= ep <= 23.46 ->
  Rabs (rho ep (xm (-540) v 0.835 + cen (-1) (xm (-540) v 0.835)) - cen (-1) (xm (-540) v 0.835) - eotm v) <= 0.34 * (PI / 180).
Proof. intros ? ?. unfold rho, cen, xm, eotm. interval with (i_bisect v, i_taylor v, i_degree 5, i_prec 30, i_depth 25). Qed.
Definition dl : R := 0.3982 * 1.8 * (PI / 180).
Lemma dec_first v ep : 1 <= v <= 200 -> 23.42 <= ep <= 23.46 ->
  sin (dfm v - 1.86 * (PI / 180)) + dl <= sin (ep * (PI / 180)) * sin (xm (-360) v 0.835 + cen 1 (xm (-360) v 0.835)) <= sin (dfm v + 1.86 * (PI / 180)) - dl.
Proof. intros ? ?. unfold dfm, cen, xm, dl. split; apply Rminus_le; interval with (i_bisect v, i_taylor v, i_degree 5, i_prec 30, i_depth 25). Qed.
Lemma dec_second v ep : 200 <= v <= 366 -> 23.42 <= ep <= 23.46 ->
  sin (dfm v - 1.86 * (PI / 180)) + dl <= - (sin (ep * (PI / 180)) * sin (xm (-540) v 0.835 + cen (-1) (xm (-540) v 0.835))) <= sin (dfm v + 1.86 * (PI / 180)) - dl.
Proof. intros ? ?. unfold dfm, cen, xm, dl. split; apply Rminus_le; interval with (i_bisect v, i_taylor v, i_degree 5, i_prec 30, i_depth 25). Qed.
(* the two halves of the year together, for the true longitude x *)
Lemma shift_first v s : xm 0 v s = xm (-360) v s + 2 * PI.
Proof. unfold xm. field. Qed.
Lemma shift_second v s : xm 0 v s = xm (-540) v s + 3 * PI.
Proof. unfold xm. field. Qed.
Lemma cos_2 a : cos (a + 2 * PI) = cos a. Proof. rewrite cos_plus, cos_2PI, sin_2PI. ring. Qed.
Lemma sin_2 a : sin (a + 2 * PI) = sin a. Proof. rewrite sin_plus, cos_2PI, sin_2PI. ring. Qed.
Lemma cos_1 a : cos (a + PI) = - cos a. Proof. apply neg_cos. Qed.
Lemma sin_1 a : sin (a + PI) = - sin a. Proof. apply neg_sin. Qed.
Lemma cen_first y : cen 1 (y + 2 * PI) = cen 1 y.
Proof.
  unfold cen. replace (y + 2 * PI + 2.91578634) with (y + 2.91578634 + 2 * PI) by ring.
  replace (2 * (y + 2 * PI) + 1.11915908) with (2 * y + 1.11915908 + 2 * PI + 2 * PI) by ring. now rewrite !cos_2.
Qed.
Lemma cen_second y : cen 1 (y + 3 * PI) = cen (-1) y.
Proof.
  unfold cen. replace (y + 3 * PI + 2.91578634) with (y + 2.91578634 + PI + 2 * PI) by ring.
  replace (2 * (y + 3 * PI) + 1.11915908) with (2 * y + 1.11915908 + 2 * PI + 2 * PI + 2 * PI) by ring. rewrite !cos_2, cos_1. ring.
Qed.
Lemma rho_turn ep l : rho ep (l + PI) = rho ep l.
Proof. unfold rho. replace (2 * (l + PI)) with (2 * l + 2 * PI) by ring. now rewrite sin_2, cos_2. Qed.

Lemma eot_mid v ep : 1 <= v <= 366 -> 23.42 <= ep <= 23.46 -> let x := xm 0 v 0.835 in
  Rabs (rho ep (x + cen 1 x) - cen 1 x - eotm v) <= 0.34 * (PI / 180).
Proof.
  intros Hv B x. destruct (Rle_dec v 200) as [C|C].
  - pose proof (eot_first v ep ltac:(lra) B) as E. unfold x. rewrite shift_first, cen_first. set (y := xm (-360) v 0.835) in *.
    replace (y + 2 * PI + cen 1 y) with (y + cen 1 y + PI + PI) by ring. rewrite !rho_turn. exact E.
  - pose proof (eot_second v ep ltac:(lra) B) as E. unfold x. rewrite shift_second, cen_second. set (y := xm (-540) v 0.835) in *.
    replace (y + 3 * PI + cen (-1) y) with (y + cen (-1) y + PI + PI + PI) by ring. rewrite !rho_turn. exact E.
Qed.
Lemma dec_mid v ep : 1 <= v <= 366 -> 23.42 <= ep <= 23.46 -> let x := xm 0 v 0.835 in
  sin (dfm v - 1.86 * (PI / 180)) + dl <= sin (ep * (PI / 180)) * sin (x + cen 1 x) <= sin (dfm v + 1.86 * (PI / 180)) - dl.
Proof.
  intros Hv B x. destruct (Rle_dec v 200) as [C|C].
  - pose proof (dec_first v ep ltac:(lra) B) as E. unfold x. rewrite shift_first, cen_first. set (y := xm (-360) v 0.835) in *.
    replace (y + 2 * PI + cen 1 y) with (y + cen 1 y + 2 * PI) by ring. rewrite sin_2. exact E.
  - pose proof (dec_second v ep ltac:(lra) B) as E. unfold x. rewrite shift_second, cen_second. set (y := xm (-540) v 0.835) in *.
    replace (y + 3 * PI + cen (-1) y) with (y + cen (-1) y + PI + 2 * PI) by ring. rewrite sin_2, sin_1.
    replace (sin (ep * (PI / 180)) * - sin (y + cen (-1) y)) with (- (sin (ep * (PI / 180)) * sin (y + cen (-1) y))) by ring. exact E.
Qed.

(* how little the formulas change with the mean longitude *)
Lemma cen_lip a b : Rabs (cen 1 a - cen 1 b) <= 0.0341145 * Rabs (a - b).
Proof.
  unfold cen. pose proof (cos_lip (a + 2.91578634) (b + 2.91578634)) as H1. pose proof (cos_lip (2 * a + 1.11915908) (2 * b + 1.11915908)) as H2.
  replace (a + 2.91578634 - (b + 2.91578634)) with (a - b) in H1 by ring. replace (2 * a + 1.11915908 - (2 * b + 1.11915908)) with (2 * (a - b)) in H2 by ring.
  rewrite Rabs_mult, (Rabs_pos_eq 2) in H2 by lra. set (d := Rabs (a - b)) in *. clearbody d.
  apply Rabs_le_between in H1, H2. apply Rabs_le. lra.
Qed.
Lemma rho_lip ep a b : 23.42 <= ep <= 23.46 -> Rabs (rho ep a - rho ep b) <= 0.0902 * Rabs (a - b).
Proof.
  intros He. unfold rho. eapply Rle_trans; [apply atan_lip|].
  assert (Q : 0.04 <= tan (ep * (PI / 360)) ^ 2 <= 0.04313) by (split; interval). set (q := tan (ep * (PI / 360)) ^ 2) in *. clearbody q. clear He ep.
  assert (D : forall l, 0 < 1 + q * cos (2 * l)) by (intros l; pose proof (COS_bound (2 * l)); nra).
  destruct (MVT_gen (fun l => q * sin (2 * l) / (1 + q * cos (2 * l))) b a (fun l => 2 * q * (cos (2 * l) + q) / (1 + q * cos (2 * l)) ^ 2)) as (c & _ & E).
  - intros l _. pose proof (D l). auto_derive; [lra|]. pose proof (sin2_cos2 (2 * l)) as S. unfold Rsqr in S. field_simplify; [|lra|lra]. f_equal.
    replace (sin (2 * l) ^ 2) with (1 - cos (2 * l) * cos (2 * l)) by (rewrite <- S; ring). ring.
  - intros l _. apply continuity_pt_filterlim. refine (ex_derive_continuous (fun l => q * sin (2 * l) / (1 + q * cos (2 * l))) l _). pose proof (D l). auto_derive. lra.
  - rewrite E, Rabs_mult. apply Rmult_le_compat_r; [apply Rabs_pos|]. pose proof (COS_bound (2 * c)) as CB. set (k := cos (2 * c)) in *. clearbody k.
    assert (P : 0 < 1 + q * k) by nra. assert (P2 : 0 < (1 + q * k) ^ 2) by (apply pow_lt; exact P).
    apply Rabs_le. split; (apply (Rmult_le_reg_r ((1 + q * k) ^ 2)); [exact P2|]); unfold Rdiv; rewrite Rmult_assoc, Rinv_l, Rmult_1_r by lra.
    + apply Rminus_le. clear - Q CB. interval with (i_bisect k, i_bisect q, i_autodiff k).
    + apply Rminus_le. clear - Q CB. interval with (i_bisect k, i_bisect q, i_autodiff k).
Qed.
Definition box (s ep et : R) : Prop := -0.78 <= s <= 2.45 /\ 23.42 <= ep <= 23.46 /\ -0.00155 <= et <= 0.00155.
Lemma xm_lip v s : -0.78 <= s <= 2.45 -> Rabs (xm 0 v s - xm 0 v 0.835) <= 0.0281871.
Proof. intros H. unfold xm. replace ((280 + 0 + 0.98564736 * (v - 1) + s) * (PI / 180) - (280 + 0 + 0.98564736 * (v - 1) + 0.835) * (PI / 180)) with ((s - 0.835) * (PI / 180)) by ring. interval. Qed.
Lemma eot_year v s ep et : 1 <= v <= 366 -> box s ep et -> let x := xm 0 v s in
  -0.645 * (PI / 180) <= rho ep (x + cen 1 x + et) - cen 1 x - et - eotm v <= 0.645 * (PI / 180).
Proof.
  intros Hv (Hs & He & Ht) x. pose proof (eot_mid v ep Hv He) as M. cbv zeta in M. pose proof (xm_lip v s Hs) as X. fold x in X. set (x0 := xm 0 v 0.835) in *.
  pose proof (cen_lip x x0) as C. pose proof (rho_lip ep (x + cen 1 x + et) (x0 + cen 1 x0) He) as R.
  assert (C' : Rabs (cen 1 x - cen 1 x0) <= 0.0341145 * 0.0281871) by lra.
  assert (L : Rabs (x + cen 1 x + et - (x0 + cen 1 x0)) <= 0.0306987).
  { apply Rabs_le_between in X, C'. apply Rabs_le. lra. }
  assert (R' : Rabs (rho ep (x + cen 1 x + et) - rho ep (x0 + cen 1 x0)) <= 0.0902 * 0.0306987) by lra.
  apply Rabs_le_between in M, C', R'. assert (P : 0.0174532 <= PI / 180) by interval. lra.
Qed.
Lemma dec_year v s ep et : 1 <= v <= 366 -> box s ep et -> let x := xm 0 v s in
  sin (dfm v - 1.86 * (PI / 180)) <= sin (ep * (PI / 180)) * sin (x + cen 1 x + et) <= sin (dfm v + 1.86 * (PI / 180)).
Proof.
  intros Hv (Hs & He & Ht) x. pose proof (dec_mid v ep Hv He) as M. cbv zeta in M. pose proof (xm_lip v s Hs) as X. fold x in X. set (x0 := xm 0 v 0.835) in *.
  pose proof (cen_lip x x0) as C. assert (C' : Rabs (cen 1 x - cen 1 x0) <= 0.0341145 * 0.0281871) by lra.
  assert (L : Rabs (x + cen 1 x + et - (x0 + cen 1 x0)) <= 0.0306987).
  { apply Rabs_le_between in X, C'. apply Rabs_le. lra. }
  pose proof (sin_lip (x + cen 1 x + et) (x0 + cen 1 x0)) as S. assert (S' : Rabs (sin (x + cen 1 x + et) - sin (x0 + cen 1 x0)) <= 0.0306987) by lra.
  apply Rabs_le_between in S'. set (s1 := sin (x + cen 1 x + et)) in *. set (s0 := sin (x0 + cen 1 x0)) in *. clearbody s1 s0.
  assert (E : 0 <= sin (ep * (PI / 180)) <= 0.3982) by (split; interval). set (se := sin (ep * (PI / 180))) in *. clearbody se.
  assert (DL : 0.3982 * 0.0306987 <= dl) by (unfold dl; interval).
  assert (- (0.3982 * 0.0306987) <= se * (s1 - s0) <= 0.3982 * 0.0306987) by (split; nra). lra.
Qed.

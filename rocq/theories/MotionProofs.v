(* How the computed declination, hour angle and elevation change with time. *)
From Coq Require Import Reals Qreals Qabs Lra Lia List Psatz ZArith.
From Coquelicot Require Import Coquelicot.
From Flocq Require Import Core.
From Interval Require Import Tactic.
From Verif Require Import Py Num Cal TzCheck Clock Tables Constants SolarTime Solar RInst RTac SpecTime SpecDt SpecGeom SpecAstro SpecEng
  Trig GeoProofs SeriesProofs SolarTimeProofs JulianProofs PositionProofs SpaProofs TopoProofs AngleLip B64Ranges B64Final Samples ApproxNum ApproxProofs MoveProofs.
Import ListNotations.
Local Open Scope R_scope.

Lemma mvt_lip (f f' : R -> R) a b K : (forall c, Rmin a b <= c <= Rmax a b -> is_derive f c (f' c)) ->
  (forall c, Rmin a b <= c <= Rmax a b -> Rabs (f' c) <= K) -> Rabs (f b - f a) <= K * Rabs (b - a).
Proof.
  intros D B. destruct (MVT_gen f a b f') as (c & Hc & E).
  - intros x Hx. apply D. lra.
  - intros x Hx. apply continuity_pt_filterlim, (ex_derive_continuous f). exists (f' x). now apply D.
  - rewrite E, Rabs_mult. apply Rmult_le_compat_r; [apply Rabs_pos|]. now apply B.
Qed.
Lemma between a b c lo hi : lo <= a <= hi -> lo <= b <= hi -> Rmin a b <= c <= Rmax a b -> lo <= c <= hi.
Proof. intros A B C. pose proof (Rmin_glb a b lo). pose proof (Rmax_lub a b hi). lra. Qed.

(* ---------------------------------------------------------------- the series *)
Definition amplitude_rate (rows : list (Q * Q * Q)) : Q :=
  fold_right (fun r s => Qred (Qplus (Qabs.Qabs (Qmult (fst (fst r)) (snd r))) s)) 0%Q rows.
Fixpoint lip_sum (n : nat) (m : R) (tables : list (list (Q * Q * Q))) : R :=
  match tables with
  | [] => 0
  | rows :: rest => (m ^ n * Q2R (amplitude_rate rows) + INR n * m ^ Nat.pred n * Q2R (amplitude rows)) + lip_sum (S n) m rest
  end.
Lemma series_lip x y rows : Rabs (vsop_series x rows - vsop_series y rows) <= Q2R (amplitude_rate rows) * Rabs (x - y).
Proof.
  induction rows as [|[[a b] c] rows IH].
  - simpl. rewrite Rminus_0_r, Rabs_R0. unfold Q2R; simpl. lra.
  - unfold amplitude_rate; cbn [fold_right fst snd]; fold (amplitude_rate rows). cbn [vsop_series fold_right].
    fold (vsop_series x rows) (vsop_series y rows). rewrite Q2R_red, Q2R_plus, Q2R_abs, Q2R_mult.
    set (t := Q2R a * cos (Q2R b + Q2R c * x)). set (t' := Q2R a * cos (Q2R b + Q2R c * y)).
    assert (T : Rabs (t - t') <= Rabs (Q2R a * Q2R c) * Rabs (x - y)).
    { unfold t, t'. rewrite <- Rmult_minus_distr_l, !Rabs_mult, Rmult_assoc. apply Rmult_le_compat_l; [apply Rabs_pos|].
      eapply Rle_trans; [apply cos_lip|]. rewrite <- Rabs_mult. right. f_equal. ring. }
    replace (t + vsop_series x rows - (t' + vsop_series y rows)) with ((t - t') + (vsop_series x rows - vsop_series y rows)) by ring.
    eapply Rle_trans; [apply Rabs_triang|]. lra.
Qed.
Lemma pow_lip n m x y : 0 <= m -> - m <= x <= m -> - m <= y <= m -> Rabs (x ^ n - y ^ n) <= INR n * m ^ Nat.pred n * Rabs (x - y).
Proof.
  intros Hm Hx Hy. apply (mvt_lip (fun z => z ^ n) (fun z => INR n * z ^ Nat.pred n)).
  - intros c _. auto_derive; [trivial|]. ring.
  - intros c Hc. pose proof (between _ _ _ _ _ Hy Hx Hc) as B. rewrite Rabs_mult, (Rabs_pos_eq (INR n)) by apply pos_INR.
    apply Rmult_le_compat_l; [apply pos_INR|]. apply Rabs_le. now apply pow_range.
Qed.
Lemma sum_lip n m x y tables : 0 <= m -> - m <= x <= m -> - m <= y <= m ->
  Rabs (vsop_sum n x tables - vsop_sum n y tables) <= lip_sum n m tables * Rabs (x - y).
Proof.
  intros Hm Hx Hy. revert n. induction tables as [|rows tables IH]; intros n; cbn [vsop_sum lip_sum].
  - rewrite Rminus_0_r, Rabs_R0. lra.
  - specialize (IH (S n)). pose proof (pow_lip n m x y Hm Hx Hy) as P. pose proof (series_lip x y rows) as SL.
    pose proof (vsop_series_bound y rows) as B. apply Rabs_le in B. pose proof (pow_range x n m Hm Hx) as Q. apply Rabs_le in Q.
    set (s := vsop_series x rows) in *. set (s' := vsop_series y rows) in *. set (a := Q2R (amplitude rows)) in *. set (r := Q2R (amplitude_rate rows)) in *.
    replace (x ^ n * s + vsop_sum (S n) x tables - (y ^ n * s' + vsop_sum (S n) y tables))
      with (x ^ n * (s - s') + (x ^ n - y ^ n) * s' + (vsop_sum (S n) x tables - vsop_sum (S n) y tables)) by ring.
    eapply Rle_trans; [apply Rabs_triang|]. rewrite (Rmult_plus_distr_r _ (lip_sum (S n) m tables)). apply Rplus_le_compat; [|exact IH].
    eapply Rle_trans; [apply Rabs_triang|]. rewrite !Rabs_mult, Rmult_plus_distr_r. apply Rplus_le_compat.
    + rewrite Rmult_assoc. apply Rmult_le_compat; try apply Rabs_pos; assumption.
    + replace (INR n * m ^ Nat.pred n * a * Rabs (x - y)) with (INR n * m ^ Nat.pred n * Rabs (x - y) * a) by ring. apply Rmult_le_compat; try apply Rabs_pos; assumption.
Qed.
Lemma lip_lon : lip_sum 0 8 lon_rest <= 16326300000.
Proof.
  cbn [lip_sum lon_rest heliocentric_longitude_coeffs].
  repeat match goal with |- context [amplitude ?l] => let q := eval vm_compute in (amplitude l) in replace (amplitude l) with q by (vm_compute; reflexivity) end.
  repeat match goal with |- context [amplitude_rate ?l] => let q := eval vm_compute in (amplitude_rate l) in replace (amplitude_rate l) with q by (vm_compute; reflexivity) end.
  unfold Q2R; cbn [Qnum Qden pow INR Nat.pred]. lra.
Qed.

(* ecliptic longitude of the earth, degrees, not reduced *)
Definition helio (jde : R) : R := deg (vsop_sum 0 (T_of jde / 10) heliocentric_longitude_coeffs / 100000000).
Lemma helio_rate j j' : 1721425 < j < 5373485 -> 1721425 < j' < 5373485 ->
  Rabs (helio j - helio j' - 0.98564736 * (j - j')) <= 0.0593 * Rabs (j - j').
Proof.
  intros Hj Hj'. pose proof (T_range j Hj) as T. pose proof (T_range j' Hj') as T'. unfold helio.
  set (x := T_of j / 10) in *. set (y := T_of j' / 10) in *.
  assert (E : x - y = (j - j') / 365250) by (unfold x, y, T_of; lra).
  rewrite !lon_split. pose proof (sum_lip 0 8 x y lon_rest ltac:(lra) ltac:(unfold x; lra) ltac:(unfold y; lra)) as L. pose proof lip_lon as LL.
  set (w := vsop_sum 0 x lon_rest) in *. set (w' := vsop_sum 0 y lon_rest) in *.
  pose proof (cos_lip (4.6692568 + 6283.07585 * x) (4.6692568 + 6283.07585 * y)) as C1.
  pose proof (cos_lip (4.6261 + 12566.1517 * x) (4.6261 + 12566.1517 * y)) as C2.
  set (c1 := cos (4.6692568 + 6283.07585 * x)) in *. set (c1' := cos (4.6692568 + 6283.07585 * y)) in *.
  set (c2 := cos (4.6261 + 12566.1517 * x)) in *. set (c2' := cos (4.6261 + 12566.1517 * y)) in *.
  replace (4.6692568 + 6283.07585 * x - (4.6692568 + 6283.07585 * y)) with (6283.07585 * (x - y)) in C1 by lra.
  replace (4.6261 + 12566.1517 * x - (4.6261 + 12566.1517 * y)) with (12566.1517 * (x - y)) in C2 by lra.
  rewrite Rabs_mult, (Rabs_pos_eq 6283.07585) in C1 by lra. rewrite Rabs_mult, (Rabs_pos_eq 12566.1517) in C2 by lra.
  assert (EA : Rabs (x - y) = Rabs (j - j') / 365250) by (rewrite E; unfold Rdiv; rewrite Rabs_mult, (Rabs_pos_eq (/ 365250)) by lra; reflexivity).
  rewrite EA in C1, C2, L. set (D := Rabs (j - j')) in *. assert (D0 : 0 <= D) by apply Rabs_pos.
  assert (L' : Rabs (w - w') <= 16326300000 * (D / 365250)) by (apply Rle_trans with (1 := L); apply Rmult_le_compat_r; lra). clear L LL.
  set (z := 3341656 * (c1 - c1') + 34894 * (c2 - c2') + (w - w')).
  assert (Z : Rabs z <= 377610000 * 100 * (D / 365250)).
  { unfold z. eapply Rle_trans; [apply Rabs_triang|]. eapply Rle_trans; [apply Rplus_le_compat_r, Rabs_triang|]. rewrite !Rabs_mult, (Rabs_pos_eq 3341656), (Rabs_pos_eq 34894) by lra. lra. }
  match goal with |- Rabs ?a <= _ => replace a with (deg (z / 100000000) + (deg 6283.31966747 / 365250 - 0.98564736) * (j - j')) end.
  2:{ assert (EX : x - y = (j - j') / 365250) by exact E. unfold z, deg.
      replace ((j - j')) with (365250 * (x - y)) by (rewrite EX; lra). generalize (180 / PI). intros p. lra. }
  eapply Rle_trans; [apply Rabs_triang|]. rewrite Rabs_mult. fold D.
  assert (R1 : Rabs (deg 6283.31966747 / 365250 - 0.98564736) <= 0.00001) by (unfold deg; interval).
  assert (R2 : Rabs (deg (z / 100000000)) <= 0.05924 * D).
  { unfold deg. unfold Rdiv at 1. rewrite !Rabs_mult, (Rabs_pos_eq (/ 100000000)) by lra. rewrite (Rabs_pos_eq (180 / PI)) by (apply Rlt_le, Rdiv_lt_0_compat; [lra|apply PI_RGT_0]).
    assert (P : 180 / PI <= 57.2958) by interval. assert (P0 : 0 <= 180 / PI) by interval. set (p := 180 / PI) in *. pose proof (Rabs_pos z).
    apply Rle_trans with (377610000 * 100 * (D / 365250) * / 100000000 * 57.2958); [apply Rmult_le_compat; lra|lra]. }
  pose proof (Rmult_le_compat_r D _ _ D0 R1). lra.
Qed.

(* ---------------------------------------------------------------- reduction to the equator *)
Definition rq (q l : R) : R := atan (q * sin (2 * l) / (1 + q * cos (2 * l))).
Lemma rho_rq ep l : rho ep l = rq (tan (ep * (PI / 360)) ^ 2) l.
Proof. reflexivity. Qed.
Lemma rq_den q l : 0 <= q <= 0.5 -> 0 < 1 + q * cos (2 * l).
Proof. intros H. pose proof (COS_bound (2 * l)). nra. Qed.
Lemma rq_den2 q l : 0 <= q <= 0.5 -> (1 - q) * (1 - q) <= 1 + 2 * q * cos (2 * l) + q * q.
Proof. intros H. pose proof (COS_bound (2 * l)). nra. Qed.
Lemma rq_lip_l q a b : 0.0 <= q <= 0.0455 -> Rabs (rq q b - rq q a) <= 0.0954 * Rabs (b - a).
Proof.
  intros Hq. apply (mvt_lip (rq q) (fun l => 2 * q * (cos (2 * l) + q) / (1 + 2 * q * cos (2 * l) + q * q))).
  - intros l _. pose proof (rq_den q l ltac:(lra)) as D. pose proof (rq_den2 q l ltac:(lra)) as D2. pose proof (sin2_cos2 (2 * l)) as S. unfold Rsqr in S.
    unfold rq. auto_derive; [lra|].
    set (c := cos (2 * l)) in *. set (s := sin (2 * l)) in *.
    assert (D3 : 0 < (1 + q * c) * (1 + q * c) + q * q * (s * s)) by (pose proof (Rle_0_sqr (q * s)) as QS; unfold Rsqr in QS; nra).
    transitivity ((2 * q * c * (1 + q * c) + 2 * q * q * (s * s)) / ((1 + q * c) * (1 + q * c) + q * q * (s * s))).
    + field. split; [|lra]. nra.
    + replace (s * s) with (1 - c * c) by lra. unfold Rdiv. f_equal; [ring|f_equal; ring].
  - intros l _. pose proof (rq_den2 q l ltac:(lra)) as D2. pose proof (COS_bound (2 * l)) as C. set (c := cos (2 * l)) in *.
    assert (D3 : 0 < 1 + 2 * q * c + q * q) by nra.
    unfold Rdiv. rewrite Rabs_mult, (Rabs_pos_eq (/ _)) by (apply Rlt_le, Rinv_0_lt_compat; exact D3).
    apply (Rmult_le_reg_r (1 + 2 * q * c + q * q)); [exact D3|]. rewrite Rmult_assoc, Rinv_l, Rmult_1_r by lra.
    rewrite Rabs_mult, (Rabs_pos_eq (2 * q)) by lra.
    assert (B : Rabs (c + q) * (1 - q) <= 1 + 2 * q * c + q * q).
    { unfold Rabs. destruct (Rcase_abs (c + q)); nra. }
    pose proof (Rabs_pos (c + q)). assert (2 * q <= 0.0954 * (1 - q)) by lra.
    apply Rle_trans with (0.0954 * (1 - q) * Rabs (c + q)); [apply Rmult_le_compat_r; lra|]. nra.
Qed.
Lemma rq_lip_q l q q' : 0 <= q <= 0.0455 -> 0 <= q' <= 0.0455 -> Rabs (rq q l - rq q' l) <= 1.1 * Rabs (q - q').
Proof.
  intros Hq Hq'. apply (mvt_lip (fun q => rq q l) (fun q => sin (2 * l) / (1 + 2 * q * cos (2 * l) + q * q))).
  - intros c Hc. pose proof (between _ _ _ _ _ Hq' Hq Hc) as B. clear Hc. rename c into p.
    pose proof (rq_den p l ltac:(lra)) as D. pose proof (rq_den2 p l ltac:(lra)) as D2. pose proof (sin2_cos2 (2 * l)) as S. unfold Rsqr in S.
    unfold rq. auto_derive; [lra|]. set (c := cos (2 * l)) in *. set (s := sin (2 * l)) in *.
    assert (D3 : 0 < (1 + p * c) * (1 + p * c) + p * p * (s * s)) by (pose proof (Rle_0_sqr (p * s)) as QS; unfold Rsqr in QS; nra).
    transitivity (s / ((1 + p * c) * (1 + p * c) + p * p * (s * s))).
    + field. split; [|lra]. nra.
    + replace (s * s) with (1 - c * c) by lra. unfold Rdiv. f_equal. f_equal. ring.
  - intros p Hc. pose proof (between _ _ _ _ _ Hq' Hq Hc) as B. pose proof (rq_den2 p l ltac:(lra)) as D2. pose proof (SIN_bound (2 * l)) as S.
    assert (D3 : 0.91 <= 1 + 2 * p * cos (2 * l) + p * p) by nra.
    unfold Rdiv. rewrite Rabs_mult, (Rabs_pos_eq (/ _)) by (apply Rlt_le, Rinv_0_lt_compat; lra).
    assert (I : / (1 + 2 * p * cos (2 * l) + p * p) <= 1.1) by (apply Rle_trans with (/ 0.91); [apply Rinv_le_contravar; lra|lra]).
    assert (I0 : 0 < / (1 + 2 * p * cos (2 * l) + p * p)) by (apply Rinv_0_lt_compat; lra).
    assert (Rabs (sin (2 * l)) <= 1) by (apply Rabs_le; lra). pose proof (Rabs_pos (sin (2 * l))). nra.
Qed.
Definition qe (ep : R) : R := tan (ep * (PI / 360)) ^ 2.
Lemma qe_range ep : 22.5 <= ep <= 24 -> 0 <= qe ep <= 0.0455.
Proof. intros H. unfold qe. split; interval. Qed.
Lemma qe_lip a b : 22.5 <= a <= 24 -> 22.5 <= b <= 24 -> Rabs (qe b - qe a) <= 0.0039 * Rabs (b - a).
Proof.
  intros Ha Hb. apply (mvt_lip qe (fun e => 2 * tan (e * (PI / 360)) * (1 + tan (e * (PI / 360)) ^ 2) * (PI / 360))).
  - intros c Hc. pose proof (between _ _ _ _ _ Ha Hb Hc) as B. unfold qe.
    assert (C : cos (c * (PI / 360)) <> 0) by (apply Rgt_not_eq; interval).
    pose proof (is_derive_tan _ C) as T. auto_derive; [eexists; exact T|].
    rewrite (is_derive_unique (fun x : R => tan x) _ _ T). field.
  - intros c Hc. pose proof (between _ _ _ _ _ Ha Hb Hc) as B. clear Hc. interval.
Qed.
(* radians *)
Lemma rho_lip e e' l l' : 22.5 <= e <= 24 -> 22.5 <= e' <= 24 -> Rabs (rho e l - rho e' l') <= 0.0954 * Rabs (l - l') + 0.0043 * Rabs (e - e').
Proof.
  intros He He'. rewrite !rho_rq. fold (qe e) (qe e'). pose proof (qe_range e He) as Q. pose proof (qe_range e' He') as Q'.
  replace (rq (qe e) l - rq (qe e') l') with ((rq (qe e) l - rq (qe e) l') + (rq (qe e) l' - rq (qe e') l')) by ring.
  eapply Rle_trans; [apply Rabs_triang|]. pose proof (rq_lip_l (qe e) l' l ltac:(lra)). pose proof (rq_lip_q l' _ _ Q Q').
  pose proof (qe_lip e' e He' He). pose proof (Rabs_pos (e - e')). lra.
Qed.
(* mean obliquity, per day *)
Lemma mean_obl_lip u v : -0.2 <= u <= 0.8 -> -0.2 <= v <= 0.8 -> Rabs (mean_obliquity u - mean_obliquity v) <= 1.4 * Rabs (u - v).
Proof.
  intros Hu Hv. apply (mvt_lip mean_obliquity (fun u => (- 4680.93 - 2 * 1.55 * u + 3 * 1999.25 * u ^ 2 - 4 * 51.38 * u ^ 3 - 5 * 249.67 * u ^ 4
   - 6 * 39.05 * u ^ 5 + 7 * 7.12 * u ^ 6 + 8 * 27.87 * u ^ 7 + 9 * 5.79 * u ^ 8 + 10 * 2.45 * u ^ 9) / 3600)).
  - intros c _. unfold mean_obliquity. auto_derive; [trivial|]. simpl. lra.
  - intros c Hc. pose proof (between _ _ _ _ _ Hv Hu Hc) as B. clear Hc. interval with (i_bisect c, i_depth 20).
Qed.
Lemma obl_lip j j' : 1721425 < j < 5373485 -> 1721425 < j' < 5373485 -> Rabs (true_obl j - true_obl j') <= 0.0000004 * Rabs (j - j') + 0.0058.
Proof.
  intros Hj Hj'. pose proof (T_range j Hj) as T. pose proof (T_range j' Hj') as T'. unfold true_obl, nut_obl.
  destruct (nutation_bounds (T_of j)) as (n & _ & _ & _ & _ & B). destruct (B ltac:(lra)) as [_ B1]. clear B.
  destruct (nutation_bounds (T_of j')) as (n' & _ & _ & _ & _ & B). destruct (B ltac:(lra)) as [_ B2]. clear B.
  pose proof (mean_obl_lip (T_of j / 10 / 10) (T_of j' / 10 / 10) ltac:(lra) ltac:(lra)) as M.
  replace (T_of j / 10 / 10 - T_of j' / 10 / 10) with ((j - j') / 3652500) in M by (unfold T_of; lra).
  unfold Rdiv at 5 in M. rewrite Rabs_mult, (Rabs_pos_eq (/ 3652500)) in M by lra. pose proof (Rabs_pos (j - j')).
  set (m := mean_obliquity (T_of j / 10 / 10)) in *. set (m' := mean_obliquity (T_of j' / 10 / 10)) in *. set (a := nutation_obliquity _ _) in *. set (a' := nutation_obliquity (T_of j') _) in *.
  apply Rabs_def2 in B1, B2. apply Rabs_le_inv in M. apply Rabs_le. lra.
Qed.

(* ---------------------------------------------------------------- right ascension *)
(* apparent longitude of the sun, degrees, not reduced *)
Definition ecl (jde : R) : R := helio jde + 180 + nut_lon jde + - 20.4898 / (3600 * sun_R jde).
Lemma lambda_ecl jde : exists k : Z, sun_lambda jde = ecl jde + 360 * IZR k.
Proof.
  unfold sun_lambda, sun_L, ecl. fold (helio jde). destruct (Rfmod_eq (helio jde + 180) 360) as (k & K). exists (- k)%Z. rewrite K, opp_IZR. ring.
Qed.
Lemma ecl_rate j j' : 1721425 < j < 5373485 -> 1721425 < j' < 5373485 ->
  Rabs (ecl j - ecl j' - 0.98564736 * (j - j')) <= 0.0593 * Rabs (j - j') + 0.0124.
Proof.
  intros Hj Hj'. pose proof (T_range j Hj) as T. pose proof (T_range j' Hj') as T'. pose proof (helio_rate j j' Hj Hj') as H. unfold ecl, nut_lon.
  destruct (nutation_bounds (T_of j)) as (n & _ & _ & _ & _ & B). destruct (B ltac:(lra)) as [B1 _]. clear B.
  destruct (nutation_bounds (T_of j')) as (n' & _ & _ & _ & _ & B). destruct (B ltac:(lra)) as [B2 _]. clear B.
  assert (A : forall r, 0.96 <= r <= 1.04 -> -0.00593 <= - 20.4898 / (3600 * r) <= -0.00547) by (intros r Hr; split; interval).
  pose proof (A _ (sun_R_range j Hj)) as A1. pose proof (A _ (sun_R_range j' Hj')) as A2. clear A.
  set (m := helio j) in *. set (m' := helio j') in *. set (a := nutation_longitude (T_of j) _) in *. set (a' := nutation_longitude (T_of j') _) in *.
  set (b := - 20.4898 / (3600 * sun_R j)) in *. set (b' := - 20.4898 / (3600 * sun_R j')) in *.
  apply Rabs_def2 in B1, B2. apply Rabs_le_inv in H. apply Rabs_le. lra.
Qed.
Lemma rho_turn ep l (k : Z) : rho ep (l + IZR k * (2 * PI)) = rho ep l.
Proof. unfold rho. replace (2 * (l + IZR k * (2 * PI))) with (2 * l + 2 * IZR (2 * k) * PI) by (rewrite mult_IZR; ring). now rewrite sin_2kPI, cos_2kPI. Qed.
Lemma alpha_ecl jde : 1721425 < jde < 5373485 -> exists (k : Z) e, -0.0006 <= e <= 0.0006 /\
  sun_alpha jde = ecl jde - deg (rho (true_obl jde) (rad (ecl jde))) + e + 360 * IZR k.
Proof.
  intros BJ. destruct (alpha_main jde BJ) as (k & e & He & E). cbv zeta in E. destruct (lambda_ecl jde) as (m & M).
  exists (k + m)%Z, e. split; [exact He|]. rewrite E, M. replace (rad (ecl jde + 360 * IZR m)) with (rad (ecl jde) + IZR m * (2 * PI)) by (unfold rad; field).
  rewrite rho_turn, plus_IZR. unfold deg, rad. field. apply PI_neq0.
Qed.
Lemma deg_abs x : Rabs (deg x) = deg (Rabs x).
Proof. unfold deg. rewrite Rabs_mult, (Rabs_pos_eq (180 / PI)); [reflexivity|]. apply Rlt_le, Rdiv_lt_0_compat; [lra|apply PI_RGT_0]. Qed.
Lemma alpha_rate j j' : 1721425 < j < 5373485 -> 1721425 < j' < 5373485 -> exists k : Z,
  Rabs (sun_alpha j - sun_alpha j' - 0.98564736 * (j - j') - 360 * IZR k) <= 0.1591 * Rabs (j - j') + 0.0163.
Proof.
  intros Hj Hj'. destruct (alpha_ecl j Hj) as (k & e & He & E). destruct (alpha_ecl j' Hj') as (k' & e' & He' & E'). exists (k - k')%Z.
  pose proof (ecl_rate j j' Hj Hj') as L. pose proof (obl_lip j j' Hj Hj') as O.
  pose proof (rho_lip _ _ (rad (ecl j)) (rad (ecl j')) (true_obl_range j Hj) (true_obl_range j' Hj')) as P.
  rewrite E, E'. clear E E'. set (r := rho (true_obl j) (rad (ecl j))) in *. set (r' := rho (true_obl j') (rad (ecl j'))) in *.
  assert (Q : Rabs (deg r - deg r') <= 0.0954 * Rabs (ecl j - ecl j') + 0.2464 * Rabs (true_obl j - true_obl j')).
  { rewrite <- deg_minus, deg_abs. replace (rad (ecl j) - rad (ecl j')) with (rad (ecl j - ecl j')) in P by (unfold rad; ring). rewrite rad_abs in P.
    pose proof (Rabs_pos (true_obl j - true_obl j')) as O0. pose proof (Rabs_pos (ecl j - ecl j')) as E0.
    set (o := Rabs (true_obl j - true_obl j')) in *. set (x := Rabs (ecl j - ecl j')) in *.
    apply Rle_trans with (deg (0.0954 * rad x + 0.0043 * o)); [now apply deg_le|].
    replace (deg (0.0954 * rad x + 0.0043 * o)) with (0.0954 * x + 0.0043 * o * (180 / PI)).
    2:{ unfold deg, rad. rewrite Rmult_plus_distr_r. f_equal. rewrite Rmult_assoc. f_equal. field. apply PI_neq0. }
    assert (180 / PI <= 57.2958) by interval. nra. }
  set (D := Rabs (j - j')) in *. assert (D0 : 0 <= D) by apply Rabs_pos.
  assert (X : Rabs (ecl j - ecl j') <= 1.045 * D + 0.0124).
  { replace (ecl j - ecl j') with ((ecl j - ecl j' - 0.98564736 * (j - j')) + 0.98564736 * (j - j')) by ring. eapply Rle_trans; [apply Rabs_triang|].
    rewrite Rabs_mult, (Rabs_pos_eq 0.98564736) by lra. fold D. lra. }
  rewrite minus_IZR. clear P. apply Rabs_le_inv in L, Q. apply Rabs_le. lra.
Qed.

(* ---------------------------------------------------------------- hour angle *)
Lemma tc_lip c c' : -20 <= c <= 80 -> -20 <= c' <= 80 ->
  Rabs (0.000387933 * c * c * (1 - c / 38710000) - 0.000387933 * c' * c' * (1 - c' / 38710000)) <= 0.063 * Rabs (c - c').
Proof.
  intros H H'. apply (mvt_lip (fun c => 0.000387933 * c * c * (1 - c / 38710000)) (fun c => 0.000387933 * (2 * c - 3 * c ^ 2 / 38710000))).
  - intros x _. auto_derive; [trivial|]. simpl. lra.
  - intros x Hx. pose proof (between _ _ _ _ _ H' H Hx) as B. clear Hx. interval.
Qed.
Lemma sid_rate jd jd' j j' : 1721425 < jd < 5373485 -> 1721425 < jd' < 5373485 -> 1721425 < j < 5373485 -> 1721425 < j' < 5373485 -> exists k : Z,
  Rabs (app_sid jd j - app_sid jd' j' - 360.98564736629 * (jd - jd') - 360 * IZR k) <= 0.000002 * Rabs (jd - jd') + 0.0118.
Proof.
  intros Hd Hd' Hj Hj'. unfold app_sid, mean_sid. cbv zeta.
  set (c := (jd - 2451545) / 36525). set (c' := (jd' - 2451545) / 36525).
  pose proof (tc_lip c c' ltac:(unfold c; lra) ltac:(unfold c'; lra)) as L.
  replace (c - c') with ((jd - jd') / 36525) in L by (unfold c, c'; lra). unfold Rdiv at 3 in L. rewrite Rabs_mult, (Rabs_pos_eq (/ 36525)) in L by lra.
  set (t := 0.000387933 * c * c * (1 - c / 38710000)) in *. set (t' := 0.000387933 * c' * c' * (1 - c' / 38710000)) in *.
  destruct (Rfmod_eq (280.46061837 + 360.98564736629 * (jd - 2451545) + t) 360) as (k & K).
  destruct (Rfmod_eq (280.46061837 + 360.98564736629 * (jd' - 2451545) + t') 360) as (k' & K').
  rewrite K, K'. exists (k' - k)%Z. rewrite minus_IZR.
  pose proof (T_range j Hj) as T. pose proof (T_range j' Hj') as T'.
  assert (NC : forall j, -80 <= T_of j <= 80 -> -0.0059 <= nut_lon j * cos (true_obl j) <= 0.0059).
  { intros x Hx. unfold nut_lon. destruct (nutation_bounds (T_of x)) as (nn & _ & _ & _ & _ & B). destruct (B ltac:(lra)) as [B1 _]. apply Rabs_def2 in B1.
    pose proof (COS_bound (true_obl x)). pose proof (prod_le (nutation_longitude (T_of x) nut_rows) (cos (true_obl x)) 0.0059 1 ltac:(lra) ltac:(lra)). lra. }
  pose proof (NC j ltac:(lra)) as N. pose proof (NC j' ltac:(lra)) as N'. clear NC.
  set (n := nut_lon j * cos (true_obl j)) in *. set (n' := nut_lon j' * cos (true_obl j')) in *.
  pose proof (Rabs_pos (jd - jd')). apply Rabs_le_inv in L. apply Rabs_le. lra.
Qed.
Lemma geo_H_rate lon jd jd' j j' t t' o o' s s' : 1721425 < jd < 5373485 -> 1721425 < jd' < 5373485 -> 1721425 < j < 5373485 -> 1721425 < j' < 5373485 ->
  jd = t + o / 86400 -> jd' = t' + o' / 86400 -> j = t + s / 86400 -> j' = t' + s' / 86400 ->
  -1.9 <= o <= 2.2 -> -1.9 <= o' <= 2.2 -> 42 <= s <= 69.2 -> 42 <= s' <= 69.2 -> exists k : Z,
  Rabs (geo_H lon jd j - geo_H lon jd' j' - 360 * (t - t') - 360 * IZR k) <= 0.16 * Rabs (t - t') + 0.046.
Proof.
  intros Hd Hd' Hj Hj' E1 E2 E3 E4 B1 B2 B3 B4. destruct (alpha_rate j j' Hj Hj') as (k & K). destruct (sid_rate jd jd' j j' Hd Hd' Hj Hj') as (m & M).
  exists (m - k)%Z. rewrite minus_IZR. unfold geo_H.
  replace (j - j') with ((t - t') + (s - s') / 86400) in K by (rewrite E3, E4; lra). replace (jd - jd') with ((t - t') + (o - o') / 86400) in M by (rewrite E1, E2; lra).
  pose proof (Rabs_triang (t - t') ((s - s') / 86400)) as T1. pose proof (Rabs_triang (t - t') ((o - o') / 86400)) as T2.
  assert (A1 : Rabs ((s - s') / 86400) <= 0.000315) by (apply Rabs_le; lra). assert (A2 : Rabs ((o - o') / 86400) <= 0.0000475) by (apply Rabs_le; lra).
  set (D := Rabs (t - t')) in *. assert (D0 : 0 <= D) by apply Rabs_pos. assert (DB : - D <= t - t' <= D) by (apply Rabs_le_inv; unfold D; lra).
  set (w := Rabs (t - t' + (s - s') / 86400)) in *. set (v := Rabs (t - t' + (o - o') / 86400)) in *.
  apply Rabs_le_inv in K, M. apply Rabs_le. set (z := t - t') in *. clearbody z. clear E1 E2 E3 E4. lra.
Qed.

(* ---------------------------------------------------------------- declination *)
Lemma asin_lip x y : -0.408 <= x <= 0.408 -> -0.408 <= y <= 0.408 -> Rabs (asin x - asin y) <= 1.0954 * Rabs (x - y).
Proof.
  intros Hx Hy. apply (mvt_lip asin (fun x => 1 / sqrt (1 - x²))).
  - intros c Hc. pose proof (between _ _ _ _ _ Hy Hx Hc) as B. assert (B' : -1 < c < 1) by lra.
    apply is_derive_Reals, (derive_pt_eq_1 asin c _ (derivable_pt_asin c B')), derive_pt_asin.
  - intros c Hc. pose proof (between _ _ _ _ _ Hy Hx Hc) as B. clear Hc. unfold Rsqr. interval.
Qed.
Lemma delta_rate j j' : 1721425 < j < 5373485 -> 1721425 < j' < 5373485 ->
  Rabs (sun_delta j - sun_delta j') <= 0.4656 * Rabs (j - j') + 0.0139.
Proof.
  intros Hj Hj'. pose proof (ecl_rate j j' Hj Hj') as L. pose proof (obl_lip j j' Hj Hj') as O.
  pose proof (sin_delta_bound j Hj) as S1. pose proof (sin_delta_bound j' Hj') as S2.
  assert (V : forall j, sind (sun_delta j) = sind (sun_beta j) * cosd (true_obl j) + cosd (sun_beta j) * sind (true_obl j) * sind (ecl j)).
  { intros x. destruct (lambda_ecl x) as (k & K).
    transitivity (sind (sun_beta x) * cosd (true_obl x) + cosd (sun_beta x) * sind (true_obl x) * sind (sun_lambda x)).
    - unfold sun_delta. rewrite sind_deg. apply sin_asin.
      pose proof (sincosd (sun_beta x)) as A. pose proof (sincosd (true_obl x)) as B. pose proof (sind_bound (sun_lambda x)).
      set (sb := sind (sun_beta x)) in *. set (cb := cosd (sun_beta x)) in *. set (so := sind (true_obl x)) in *. set (co := cosd (true_obl x)) in *.
      replace (sb * co + cb * so * sind (sun_lambda x)) with (co * sb + so * cb * sind (sun_lambda x)) by ring.
      apply unit_dot; lra.
    - f_equal. f_equal. rewrite K. unfold sind. replace ((ecl x + 360 * IZR k) * PI / 180) with (ecl x * PI / 180 + 2 * IZR k * PI) by field. apply sin_2kPI. }
  assert (W : Rabs (sun_delta j - sun_delta j') <= 1.0954 * 57.2958 * Rabs (sind (sun_delta j) - sind (sun_delta j'))).
  { assert (I : forall x, -90 < sun_delta x < 90 -> sun_delta x = deg (asin (sind (sun_delta x)))).
    { intros x Hx. rewrite sind_rad, asin_sin, deg_rad; [reflexivity|]. pose proof PI_RGT_0. unfold rad. split; nra. }
    rewrite (I j (delta_range j Hj)) at 1. rewrite (I j' (delta_range j' Hj')) at 1. rewrite <- deg_minus, deg_abs.
    pose proof (asin_lip _ _ S1 S2) as A. set (a := Rabs (asin _ - asin _)) in *. pose proof (Rabs_pos (sind (sun_delta j) - sind (sun_delta j'))).
    unfold deg. assert (P : 0 <= 180 / PI <= 57.2958) by (split; interval). assert (0 <= a) by apply Rabs_pos. set (p := 180 / PI) in *. set (b := Rabs (sind (sun_delta j) - sind (sun_delta j'))) in *. clearbody p a b.
    apply Rle_trans with (1.0954 * b * 57.2958); [apply Rmult_le_compat; lra|lra]. }
  rewrite !V in W.
  assert (SB : forall x, 1721425 < x < 5373485 -> -0.0000175 <= sind (sun_beta x) <= 0.0000175 /\ 0.999999 <= cosd (sun_beta x) <= 1).
  { intros x Hx. pose proof (sun_beta_range x Hx) as B. set (b := sun_beta x) in *. clearbody b. assert (B' : -0.001 <= b <= 0.001) by lra. clear B.
    rewrite sind_rad, cosd_rad. unfold rad. repeat split; interval. }
  destruct (SB j Hj) as [B1 C1]. destruct (SB j' Hj') as [B2 C2]. clear SB V.
  pose proof (true_obl_range j Hj) as O1. pose proof (true_obl_range j' Hj') as O2.
  pose proof (cosd_bound (true_obl j)) as K1. pose proof (cosd_bound (true_obl j')) as K2.
  pose proof (sind_lip (ecl j) (ecl j')) as LL.
  assert (LO : Rabs (sind (true_obl j) - sind (true_obl j')) <= 0.01613 * Rabs (true_obl j - true_obl j')).
  { apply (mvt_lip sind (fun e => cosd e * (PI / 180))).
    - intros c _. unfold sind, cosd. auto_derive; [trivial|]. unfold Rdiv. ring.
    - intros c Hc. pose proof (between _ _ _ _ _ O2 O1 Hc) as B. clear Hc. unfold cosd. interval. }
  assert (SO : 0 <= sind (true_obl j') <= 0.40674).
  { clear - O2. set (e := true_obl j') in *. clearbody e. unfold sind. split; interval. }
  pose proof (sind_bound (ecl j)) as SE. pose proof (sind_bound (ecl j')) as SE'.
  set (D := Rabs (j - j')) in *. assert (D0 : 0 <= D) by apply Rabs_pos.
  assert (X : Rabs (ecl j - ecl j') <= 1.045 * D + 0.0124).
  { replace (ecl j - ecl j') with ((ecl j - ecl j' - 0.98564736 * (j - j')) + 0.98564736 * (j - j')) by ring. eapply Rle_trans; [apply Rabs_triang|].
    rewrite Rabs_mult, (Rabs_pos_eq 0.98564736) by lra. fold D. lra. }
  assert (LL' : Rabs (sind (ecl j) - sind (ecl j')) <= (1.045 * D + 0.0124) * 0.0174533).
  { eapply Rle_trans; [exact LL|]. assert (0 <= PI / 180 <= 0.0174533) by (split; interval). pose proof (Rabs_pos (ecl j - ecl j')). apply Rmult_le_compat; lra. }
  assert (LO' : Rabs (sind (true_obl j) - sind (true_obl j')) <= 0.01613 * (0.0000004 * D + 0.0058)) by lra. clear LL LO L X O.
  set (sb := sind (sun_beta j)) in *. set (sb' := sind (sun_beta j')) in *. set (cb := cosd (sun_beta j)) in *. set (cb' := cosd (sun_beta j')) in *.
  set (so := sind (true_obl j)) in *. set (so' := sind (true_obl j')) in *. set (co := cosd (true_obl j)) in *. set (co' := cosd (true_obl j')) in *.
  set (sl := sind (ecl j)) in *. set (sl' := sind (ecl j')) in *.
  assert (SO1 : -1 <= so <= 1) by apply sind_bound.
  assert (T : Rabs (sb * co + cb * so * sl - (sb' * co' + cb' * so' * sl')) <= 0.000036 + Rabs (so - so') + 0.40674 * Rabs (sl - sl')).
  { replace (sb * co + cb * so * sl - (sb' * co' + cb' * so' * sl')) with (sb * co - sb' * co' + (cb - cb') * (so * sl) + cb' * ((so - so') * sl) + cb' * (so' * (sl - sl'))) by ring.
    pose proof (prod_le sb co 0.0000175 1 ltac:(lra) ltac:(lra)). pose proof (prod_le sb' co' 0.0000175 1 ltac:(lra) ltac:(lra)).
    pose proof (prod_le so sl 1 1 ltac:(lra) ltac:(lra)) as P. pose proof (prod_le (cb - cb') (so * sl) 0.000001 1 ltac:(lra) ltac:(lra)).
    assert (P1 : Rabs (cb' * ((so - so') * sl)) <= Rabs (so - so')).
    { rewrite !Rabs_mult. assert (Rabs cb' <= 1) by (apply Rabs_le; lra). assert (Rabs sl <= 1) by (apply Rabs_le; lra).
      pose proof (Rabs_pos cb'). pose proof (Rabs_pos sl). pose proof (Rabs_pos (so - so')). assert (Rabs (so - so') * Rabs sl <= Rabs (so - so')) by nra. nra. }
    assert (P2 : Rabs (cb' * (so' * (sl - sl'))) <= 0.40674 * Rabs (sl - sl')).
    { rewrite !Rabs_mult. assert (Rabs cb' <= 1) by (apply Rabs_le; lra). assert (Rabs so' <= 0.40674) by (apply Rabs_le; lra).
      pose proof (Rabs_pos cb'). pose proof (Rabs_pos so'). pose proof (Rabs_pos (sl - sl')). assert (Rabs so' * Rabs (sl - sl') <= 0.40674 * Rabs (sl - sl')) by (apply Rmult_le_compat_r; lra).
      pose proof (Rmult_le_pos _ _ H4 H5). nra. }
    apply Rabs_le_inv in P1, P2. apply Rabs_le. lra. }
  eapply Rle_trans; [exact W|]. clear W. set (y := Rabs (sb * co + _ - _)) in *. set (y1 := Rabs (so - so')) in *. set (y2 := Rabs (sl - sl')) in *. clearbody y y1 y2 D. clear - T LL' LO' D0. lra.
Qed.

(* ---------------------------------------------------------------- what the functions return *)
Definition days (u u' : Z) : R := IZR (u - u') / 86400000000.
Lemma days_jd u u' : days u u' = jd_utc u - jd_utc u'.
Proof. unfold days, jd_utc. rewrite minus_IZR. lra. Qed.
Lemma motion d d' u u' lat lon el el' dec ha dec' ha' e e' : instant d u -> instant d' u' -> in_range u = true -> in_range u' = true -> -90 <= lat <= 90 ->
  -100000 <= el <= 100000 -> -100000 <= el' <= 100000 ->
  get_topocentric_position (N := MathR) (Fin lat) (Fin lon) d (Fin el) = Ok (Fin dec, Fin ha) ->
  get_topocentric_elevation_angle (N := MathR) (Fin lat) (Fin dec) (Fin ha) = Ok (Fin e) ->
  get_topocentric_position (N := MathR) (Fin lat) (Fin lon) d' (Fin el') = Ok (Fin dec', Fin ha') ->
  get_topocentric_elevation_angle (N := MathR) (Fin lat) (Fin dec') (Fin ha') = Ok (Fin e') ->
  (exists k : Z, Rabs (ha' - ha - 360 * days u' u - 360 * IZR k) <= 0.16 * Rabs (days u' u) + 0.052) /\
  Rabs (dec' - dec) <= 0.466 * Rabs (days u' u) + 0.024 /\ Rabs (e' - e) <= 360.63 * Rabs (days u' u) + 0.076.
Proof.
  intros Hi Hi' Hr Hr' Hlat Hel Hel' E1 E2 E3 E4.
  destruct (sky d u Hi Hr) as (jd & j & o & s & A1 & A2 & A3 & A4 & A5 & A6 & S).
  destruct (sky d' u' Hi' Hr') as (jd' & j' & o' & s' & A1' & A2' & A3' & A4' & A5' & A6' & S').
  destruct (S lat lon el Hlat Hel) as (d1 & h1 & e1 & k1 & F1 & F2 & V1 & B1 & C1 & _).
  destruct (S' lat lon el' Hlat Hel') as (d2 & h2 & e2 & k2 & F3 & F4 & V2 & B2 & C2 & _).
  rewrite F1 in E1. apply Ok_inj in E1. injection E1 as <- <-. rewrite F3 in E3. apply Ok_inj in E3. injection E3 as <- <-.
  rewrite F2 in E2. apply Ok_inj in E2. injection E2 as <-. rewrite F4 in E4. apply Ok_inj in E4. injection E4 as <-. clear S S' F1 F2 F3 F4.
  destruct (geo_H_rate lon jd' jd j' j (jd_utc u') (jd_utc u) o' o s' s A5' A5 A6' A6 A1' A1 A3' A3 A2' A2 A4' A4) as (k & K).
  pose proof (delta_rate j' j A6' A6) as L. rewrite <- days_jd in K.
  replace (j' - j) with (days u' u + (s' - s) / 86400) in L by (rewrite days_jd, A3, A3'; lra).
  pose proof (Rabs_triang (days u' u) ((s' - s) / 86400)) as T1. assert (T2 : Rabs ((s' - s) / 86400) <= 0.000315) by (apply Rabs_le; lra).
  set (D := Rabs (days u' u)) in *. assert (D0 : 0 <= D) by apply Rabs_pos.
  assert (KH : Rabs (h2 - h1 - 360 * days u' u - 360 * IZR (k + k2 - k1)) <= 0.16 * D + 0.052).
  { rewrite minus_IZR, plus_IZR. apply Rabs_le_inv in K. apply Rabs_le. lra. }
  assert (KD : Rabs (d2 - d1) <= 0.466 * D + 0.024) by (set (w := Rabs (days u' u + _)) in *; apply Rabs_le_inv in L; apply Rabs_le; lra).
  split; [exists (k + k2 - k1)%Z; exact KH|]. split; [exact KD|].
  rewrite V1, V2. eapply Rle_trans; [apply (elevation_lip lat d2 h2 d1 h1 (k + k2 - k1))|].
  assert (Rabs (h2 - h1 - 360 * IZR (k + k2 - k1)) <= 360.16 * D + 0.052).
  { replace (h2 - h1 - 360 * IZR (k + k2 - k1)) with ((h2 - h1 - 360 * days u' u - 360 * IZR (k + k2 - k1)) + 360 * days u' u) by ring.
    eapply Rle_trans; [apply Rabs_triang|]. rewrite (Rabs_mult 360), (Rabs_pos_eq 360) by lra. fold D. lra. }
  lra.
Qed.

(* ---------------------------------------------------------------- between the tropics *)
Lemma asin_le_deg x a : -90 <= a <= 90 -> -1 <= x <= 1 -> x <= sind a -> deg (asin x) <= a.
Proof.
  intros Ha Hx H. destruct (Rle_lt_dec (deg (asin x)) a) as [|L]; [assumption|]. pose proof (deg_asin_range x).
  pose proof (sind_incr a (deg (asin x)) ltac:(lra) L ltac:(lra)) as C. rewrite sind_deg, sin_asin in C by assumption. lra.
Qed.
Lemma asin_ge_deg x a : -90 <= a <= 90 -> -1 <= x <= 1 -> sind a <= x -> a <= deg (asin x).
Proof.
  intros Ha Hx H. destruct (Rle_lt_dec a (deg (asin x))) as [|L]; [assumption|]. pose proof (deg_asin_range x).
  pose proof (sind_incr (deg (asin x)) a ltac:(lra) L ltac:(lra)) as C. rewrite sind_deg, sin_asin in C by assumption. lra.
Qed.
Lemma sind_90 a : sind (90 - a) = cosd a.
Proof. unfold sind, cosd. replace ((90 - a) * PI / 180) with (PI / 2 - a * PI / 180) by field. apply sin_shift. Qed.
Lemma culmination lat dec h : -90 <= lat <= 90 -> -90 <= dec <= 90 -> Rabs (lat + dec) - 90 <= deg (asin (sin_elev lat dec h)) <= 90 - Rabs (lat - dec).
Proof.
  intros Hl Hd. pose proof (sin_elev_bound lat dec h) as B. pose proof (cosd_bound h) as C.
  assert (P : 0 <= cosd lat * cosd dec).
  { apply Rmult_le_pos; unfold cosd; apply cos_ge_0; pose proof PI_RGT_0; nra. }
  split.
  - apply asin_ge_deg; [split; [pose proof (Rabs_pos (lat + dec)); lra|assert (Rabs (lat + dec) <= 180) by (apply Rabs_le; lra); lra]|exact B|].
    replace (Rabs (lat + dec) - 90) with (- (90 - Rabs (lat + dec))) by ring. rewrite sind_opp, sind_90.
    replace (cosd (Rabs (lat + dec))) with (cosd (lat + dec)) by apply acos_abs. unfold sin_elev.
    replace (lat + dec) with (lat - - dec) by ring. rewrite cosd_minus, sind_opp, cosd_opp. nra.
  - apply asin_le_deg; [split; [assert (Rabs (lat - dec) <= 180) by (apply Rabs_le; lra); lra|pose proof (Rabs_pos (lat - dec)); lra]|exact B|].
    rewrite sind_90. replace (cosd (Rabs (lat - dec))) with (cosd (lat - dec)) by apply acos_abs. unfold sin_elev. rewrite cosd_minus. nra.
Qed.
Lemma at_meridian lat dec : -90 <= lat <= 90 -> -90 <= dec <= 90 ->
  deg (asin (sin_elev lat dec 0)) = 90 - Rabs (lat - dec) /\ deg (asin (sin_elev lat dec 180)) = Rabs (lat + dec) - 90.
Proof.
  intros Hl Hd. assert (C0 : cosd 0 = 1) by (unfold cosd; replace (0 * PI / 180) with 0 by field; apply cos_0).
  assert (C1 : cosd 180 = -1) by (unfold cosd; replace (180 * PI / 180) with PI by field; apply cos_PI).
  pose proof (culmination lat dec 0 Hl Hd) as K0. pose proof (culmination lat dec 180 Hl Hd) as K1. split.
  - apply Rle_antisym; [apply K0|]. apply asin_ge_deg; [split; [assert (Rabs (lat - dec) <= 180) by (apply Rabs_le; lra); lra|pose proof (Rabs_pos (lat - dec)); lra]|apply sin_elev_bound|].
    rewrite sind_90. replace (cosd (Rabs (lat - dec))) with (cosd (lat - dec)) by apply acos_abs. unfold sin_elev. rewrite cosd_minus, C0. lra.
  - apply Rle_antisym; [|apply K1]. apply asin_le_deg; [split; [pose proof (Rabs_pos (lat + dec)); lra|assert (Rabs (lat + dec) <= 180) by (apply Rabs_le; lra); lra]|apply sin_elev_bound|].
    replace (Rabs (lat + dec) - 90) with (- (90 - Rabs (lat + dec))) by ring. rewrite sind_opp, sind_90.
    replace (cosd (Rabs (lat + dec))) with (cosd (lat + dec)) by apply acos_abs. unfold sin_elev.
    replace (lat + dec) with (lat - - dec) by ring. rewrite cosd_minus, sind_opp, cosd_opp, C1. lra.
Qed.
Lemma delta_all j : 1721425 < j < 5373485 -> -24.08 <= sun_delta j <= 24.08.
Proof.
  intros Hj. pose proof (sin_delta_bound j Hj) as S. pose proof (delta_range j Hj) as R.
  assert (Q : 0.408 <= sind 24.08) by (unfold sind; interval). split.
  - destruct (Rle_lt_dec (-24.08) (sun_delta j)) as [|L]; [assumption|]. pose proof (sind_incr (sun_delta j) (-24.08) ltac:(lra) L ltac:(lra)) as C.
    replace (-24.08) with (- (24.08)) in C by lra. rewrite sind_opp in C. lra.
  - destruct (Rle_lt_dec (sun_delta j) 24.08) as [|L]; [assumption|]. pose proof (sind_incr 24.08 (sun_delta j) ltac:(lra) L ltac:(lra)) as C. lra.
Qed.
Lemma delta_modern j : -1 <= T_of j <= 1 -> -23.462 <= sun_delta j <= 23.462.
Proof.
  intros HT. assert (Hj : 1721425 < j < 5373485) by (unfold T_of in HT; lra). pose proof (obl_modern j HT) as O. pose proof (sun_beta_range j Hj) as B.
  pose proof (delta_range j Hj) as R.
  assert (S : -0.39814 <= sind (sun_delta j) <= 0.39814).
  { unfold sun_delta. rewrite sind_deg. set (b := sun_beta j) in *. set (e := true_obl j) in *. set (l := sun_lambda j).
    assert (V : -0.39814 <= sind b * cosd e + cosd b * sind e * sind l <= 0.39814).
    { assert (B1 : -0.0000175 <= sind b <= 0.0000175) by (assert (B' : -0.001 <= b <= 0.001) by lra; clear - B'; clearbody b; unfold sind; split; interval).
      assert (E1 : 0 <= sind e <= 0.39812) by (clear - O; clearbody e; unfold sind; split; interval).
      pose proof (prod_le (sind b) (cosd e) 0.0000175 1 ltac:(lra) ltac:(pose proof (cosd_bound e); lra)).
      pose proof (prod_le (cosd b) (sind l) 1 1 ltac:(pose proof (cosd_bound b); lra) ltac:(pose proof (sind_bound l); lra)) as P.
      pose proof (prod_le (sind e) (cosd b * sind l) 0.39812 1 ltac:(lra) ltac:(lra)).
      replace (cosd b * sind e * sind l) with (sind e * (cosd b * sind l)) by ring. lra. }
    rewrite sin_asin by lra. exact V. }
  assert (Q : 0.39814 <= sind 23.462) by (unfold sind; interval). split.
  - destruct (Rle_lt_dec (-23.462) (sun_delta j)) as [|L]; [assumption|]. pose proof (sind_incr (sun_delta j) (-23.462) ltac:(lra) L ltac:(lra)) as C.
    replace (-23.462) with (- (23.462)) in C by lra. rewrite sind_opp in C. lra.
  - destruct (Rle_lt_dec (sun_delta j) 23.462) as [|L]; [assumption|]. pose proof (sind_incr 23.462 (sun_delta j) ltac:(lra) L ltac:(lra)) as C. lra.
Qed.
Lemma tropics d u lat lon el dec ha e : instant d u -> (midnight 1901 1 1 <= u < midnight 2100 1 1)%Z -> -90 <= lat <= 90 -> -100000 <= el <= 100000 ->
  get_topocentric_position (N := MathR) (Fin lat) (Fin lon) d (Fin el) = Ok (Fin dec, Fin ha) ->
  get_topocentric_elevation_angle (N := MathR) (Fin lat) (Fin dec) (Fin ha) = Ok (Fin e) ->
  Rabs dec <= 23.467 /\ Rabs e <= 113.467 - Rabs lat /\ Rabs (lat + dec) - 90 <= e <= 90 - Rabs (lat - dec).
Proof.
  intros Hi Hu Hlat Hel E1 E2. pose proof (modern_in_range u Hu) as Hr.
  destruct (sky d u Hi Hr) as (jd & j & o & s & A1 & A2 & A3 & A4 & A5 & A6 & S).
  destruct (S lat lon el Hlat Hel) as (d1 & h1 & e1 & k1 & F1 & F2 & V1 & B1 & _ & _).
  rewrite F1 in E1. apply Ok_inj in E1. injection E1 as <- <-. rewrite F2 in E2. apply Ok_inj in E2. injection E2 as <-.
  assert (HT : -1 <= T_of j <= 1).
  { change (midnight 1901 1 1) with 59958144000000000%Z in Hu. change (midnight 2100 1 1) with 66238041600000000%Z in Hu.
    destruct Hu as [U1 U2]. apply IZR_le in U1. apply IZR_lt in U2. unfold T_of. rewrite A3. unfold jd_utc. lra. }
  pose proof (delta_modern j HT) as D. assert (D1 : -23.467 <= d1 <= 23.467) by lra.
  pose proof (culmination lat d1 h1 Hlat ltac:(lra)) as C. rewrite <- V1 in C.
  split; [apply Rabs_le; lra|]. split; [|exact C]. clear - C D1.
  unfold Rabs in *. destruct (Rcase_abs (lat + d1)), (Rcase_abs (lat - d1)), (Rcase_abs lat), (Rcase_abs e1); lra.
Qed.

(* ---------------------------------------------------------------- every day *)
Definition at_utc (u : Z) : datetime := {| dt_local := u; dt_fold := false; dt_tz := Some utc |}.
Lemma at_utc_instant u : instant (at_utc u) u.
Proof. exists utc, 0%Z. repeat split; try reflexivity. simpl. lia. Qed.
Lemma day_in_range (n u : Z) : (0 <= n < 3652059)%Z -> (n * 86400000000 <= u < (n + 1) * 86400000000)%Z -> in_range u = true.
Proof.
  intros Hn Hu. unfold in_range. apply andb_true_intro. split; [apply Z.leb_le; lia|]. apply Z.ltb_lt.
  assert (M : max_us = (3652059 * 86400000000)%Z) by reflexivity. rewrite M. lia.
Qed.
Lemma passes (n : Z) lat lon el g : (0 <= n < 3652059)%Z -> -90 <= lat <= 90 -> -100000 <= el <= 100000 ->
  exists u, (n * 86400000000 <= u < (n + 1) * 86400000000)%Z /\
    forall d, instant d u -> exists dec ha e (k : Z), get_topocentric_position (N := MathR) (Fin lat) (Fin lon) d (Fin el) = Ok (Fin dec, Fin ha) /\
      get_topocentric_elevation_angle (N := MathR) (Fin lat) (Fin dec) (Fin ha) = Ok (Fin e) /\
      e = deg (asin (sin_elev lat dec ha)) /\ -24.085 <= dec <= 24.085 /\ Rabs (ha - g - 360 * IZR k) <= 0.213.
Proof.
  intros Hn Hlat Hel. set (u0 := (n * 86400000000)%Z). assert (R0 : in_range u0 = true) by (apply (day_in_range n); unfold u0; lia).
  destruct (sky (at_utc u0) u0 (at_utc_instant u0) R0) as (jd & j & o & s & _ & _ & _ & _ & _ & _ & S).
  destruct (S lat lon el Hlat Hel) as (d0 & h0 & e0 & _ & F1 & F2 & _). clear S.
  pose proof (Rfmod_range (g - h0) 360 ltac:(lra)) as RR. destruct (Rfmod_eq (g - h0) 360) as (q & Q). set (r := Rfmod (g - h0) 360) in *.
  set (w := Zfloor (r / 360 * 86400000000)). pose proof (Zfloor_lb (r / 360 * 86400000000)) as W1. pose proof (Zfloor_ub (r / 360 * 86400000000)) as W2. fold w in W1, W2.
  assert (Wb : (0 <= w < 86400000000)%Z) by (split; [apply Zfloor_lub; simpl; lra|apply lt_IZR; lra]).
  exists (u0 + w)%Z. assert (HU : (n * 86400000000 <= u0 + w < (n + 1) * 86400000000)%Z) by (unfold u0; lia). split; [exact HU|].
  intros d Hi. pose proof (day_in_range n _ Hn HU) as R1.
  destruct (sky d _ Hi R1) as (jd' & j' & o' & s' & _ & _ & _ & _ & _ & BJ & S).
  destruct (S lat lon el Hlat Hel) as (d1 & h1 & e1 & k1 & G1 & G2 & V1 & B1 & _). clear S.
  destruct (motion (at_utc u0) d u0 (u0 + w) lat lon el el d0 h0 d1 h1 e0 e1 (at_utc_instant u0) Hi R0 R1 Hlat Hel Hel F1 F2 G1 G2) as ((k & K) & _).
  pose proof (delta_all j' BJ) as DA.
  assert (DD : days (u0 + w) u0 = IZR w / 86400000000) by (unfold days; f_equal; f_equal; lia).
  rewrite DD, (Rabs_pos_eq (IZR w / 86400000000)) in K by (pose proof (IZR_le _ _ (proj1 Wb)); lra).
  assert (IZR w < 86400000000) by (apply IZR_lt; lia).
  exists d1, h1, e1, (k - q)%Z. split; [exact G1|]. split; [exact G2|]. split; [exact V1|]. split; [lra|].
  rewrite minus_IZR. apply Rabs_le_inv in K. apply Rabs_le. lra.
Qed.
Lemma day_and_night (n : Z) lat lon el : (0 <= n < 3652059)%Z -> -65.5 <= lat <= 65.5 -> -100000 <= el <= 100000 ->
  exists u u', (n * 86400000000 <= u < (n + 1) * 86400000000)%Z /\ (n * 86400000000 <= u' < (n + 1) * 86400000000)%Z /\
    (forall d, instant d u -> exists dec ha e, get_topocentric_position (N := MathR) (Fin lat) (Fin lon) d (Fin el) = Ok (Fin dec, Fin ha) /\
      get_topocentric_elevation_angle (N := MathR) (Fin lat) (Fin dec) (Fin ha) = Ok (Fin e) /\ 0.2 < e) /\
    (forall d, instant d u' -> exists dec ha e, get_topocentric_position (N := MathR) (Fin lat) (Fin lon) d (Fin el) = Ok (Fin dec, Fin ha) /\
      get_topocentric_elevation_angle (N := MathR) (Fin lat) (Fin dec) (Fin ha) = Ok (Fin e) /\ e < -0.2).
Proof.
  intros Hn Hlat Hel. destruct (passes n lat lon el 0 Hn ltac:(lra) Hel) as (u & Hu & P). destruct (passes n lat lon el 180 Hn ltac:(lra) Hel) as (u' & Hu' & P').
  exists u, u'. split; [exact Hu|]. split; [exact Hu'|]. split; intros d Hi.
  - destruct (P d Hi) as (dec & ha & e & k & E1 & E2 & V & B & K). exists dec, ha, e. split; [exact E1|]. split; [exact E2|].
    pose proof (elevation_lip lat dec ha dec 0 k) as L. rewrite <- V, (proj1 (at_meridian lat dec ltac:(lra) ltac:(lra))) in L. replace (dec - dec) with 0 in L by ring. rewrite Rabs_R0 in L.
    assert (M : Rabs (e - (90 - Rabs (lat - dec))) <= 0.213) by lra. apply Rabs_le_inv in M. assert (Rabs (lat - dec) <= 89.585) by (apply Rabs_le; lra). lra.
  - destruct (P' d Hi) as (dec & ha & e & k & E1 & E2 & V & B & K). exists dec, ha, e. split; [exact E1|]. split; [exact E2|].
    pose proof (elevation_lip lat dec ha dec 180 k) as L. rewrite <- V, (proj2 (at_meridian lat dec ltac:(lra) ltac:(lra))) in L. replace (dec - dec) with 0 in L by ring. rewrite Rabs_R0 in L.
    assert (M : Rabs (e - (Rabs (lat + dec) - 90)) <= 0.213) by lra. apply Rabs_le_inv in M. assert (Rabs (lat + dec) <= 89.585) by (apply Rabs_le; lra). lra.
Qed.
Lemma passes_angle (n : Z) lat lon el g : (0 <= n < 3652059)%Z -> -90 <= lat <= 90 -> -100000 <= el <= 100000 ->
  exists u, (n * 86400000000 <= u < (n + 1) * 86400000000)%Z /\
    forall d, instant d u -> exists dec ha (k : Z), get_topocentric_position (N := MathR) (Fin lat) (Fin lon) d (Fin el) = Ok (Fin dec, Fin ha) /\
      Rabs (ha - g - 360 * IZR k) <= 0.213.
Proof.
  intros Hn Hlat Hel. destruct (passes n lat lon el g Hn Hlat Hel) as (u & Hu & P). exists u. split; [exact Hu|]. intros d Hi.
  destruct (P d Hi) as (dec & ha & e & k & E & _ & _ & _ & K). now exists dec, ha, k.
Qed.
(* cases for the examples *)
Lemma sample_position lat lon el : -90 <= lat <= 90 -> -100000 <= el <= 100000 -> exists dec ha e,
  get_topocentric_position (N := MathR) (Fin lat) (Fin lon) sample_dt (Fin el) = Ok (Fin dec, Fin ha) /\
  get_topocentric_elevation_angle (N := MathR) (Fin lat) (Fin dec) (Fin ha) = Ok (Fin e).
Proof.
  intros Hlat Hel. destruct (sky sample_dt sample_u sample_instant sample_in_range) as (jd & j & o & s & _ & _ & _ & _ & _ & _ & S).
  destruct (S lat lon el Hlat Hel) as (dec & ha & e & _ & E1 & E2 & _). now exists dec, ha, e.
Qed.
Lemma quarter_turn : cosd 90 = dot (spherical 0 0) (spherical 90 0).
Proof.
  assert (C0 : cosd 0 = 1) by (unfold cosd; replace (0 * PI / 180) with 0 by field; apply cos_0).
  assert (S0 : sind 0 = 0) by (unfold sind; replace (0 * PI / 180) with 0 by field; apply sin_0).
  unfold dot, spherical. rewrite C0, S0. ring.
Qed.

(* Within one month (same leap seconds and same tabulated Delta-T on both sides) the computed
   position of the sun is a Lipschitz function of time: no jumps at all. *)
From Coq Require Import Reals Qreals Qabs Lra Lia List Psatz ZArith.
From Coquelicot Require Import Coquelicot.
From Flocq Require Import Core.
From Interval Require Import Tactic.
From Verif Require Import Py Num Cal TzCheck Clock Tables Constants SolarTime Solar RInst RTac SpecTime SpecDt SpecGeom SpecAstro SpecEng
  Trig GeoProofs SeriesProofs SolarTimeProofs JulianProofs PositionProofs SpaProofs TopoProofs AngleLip B64Ranges B64Final Samples ApproxNum ApproxProofs MoveProofs MotionProofs.
Import ListNotations.
Local Open Scope R_scope.

(* ---------------------------------------------------------------- nutation *)
Definition arg_rate (y : Z * Z * Z * Z * Z) : Q :=
  let '(d, m, m', f, o) := y in
  (Qabs.Qabs (inject_Z d * 445267.111480 + inject_Z m * 35999.050340 + inject_Z m' * 477198.867398 + inject_Z f * 483202.017538 - inject_Z o * 1934.136261)
   + 2 * inject_Z (Z.abs d + Z.abs m + Z.abs m' + Z.abs f + Z.abs o))%Q.
Definition term_rate (a b : Q) (y : Z * Z * Z * Z * Z) : Q :=
  (Qabs.Qabs b + (Qabs.Qabs a + 80 * Qabs.Qabs b) * (0.0174533 * arg_rate y))%Q.
Definition lon_rate (rows : list ((Q * Q * Q * Q) * (Z * Z * Z * Z * Z))) : Q :=
  fold_right (fun r s => let '((s0, s1, _, _), y) := r in Qred (term_rate s0 s1 y + s)%Q) 0%Q rows.
Definition obl_rate (rows : list ((Q * Q * Q * Q) * (Z * Z * Z * Z * Z))) : Q :=
  fold_right (fun r s => let '((_, _, c0, c1), y) := r in Qred (term_rate c0 c1 y + s)%Q) 0%Q rows.

Lemma Q2R_Z (z : Z) : Q2R (inject_Z z) = IZR z.
Proof. unfold Q2R, inject_Z; cbn [Qnum Qden]. lra. Qed.
Lemma lin_part (g : R -> R) c r x y : (forall T, -80 <= T <= 80 -> is_derive g T (c + r T)) -> (forall T, -80 <= T <= 80 -> Rabs (r T) <= 2) ->
  -80 <= x <= 80 -> -80 <= y <= 80 -> Rabs (g x - g y - c * (x - y)) <= 2 * Rabs (x - y).
Proof.
  intros D B Hx Hy. replace (g x - g y - c * (x - y)) with ((fun t => g t - c * t) x - (fun t => g t - c * t) y) by (cbv beta; ring).
  apply (mvt_lip (fun t => g t - c * t) r).
  - intros z Hz. pose proof (between _ _ _ _ _ Hy Hx Hz) as Bz. replace (r z) with (c + r z - c * 1) by ring.
    apply (is_derive_minus (V := R_NormedModule) g (fun t => c * t)); [now apply D|].
    auto_derive; [trivial|]. ring.
  - intros z Hz. apply B. exact (between _ _ _ _ _ Hy Hx Hz).
Qed.
Lemma angle_lip w x y : -80 <= x <= 80 -> -80 <= y <= 80 ->
  Rabs (nutation_angle x w - nutation_angle y w) <= Q2R (arg_rate w) * Rabs (x - y).
Proof.
  intros Hx Hy. destruct w as [[[[d m] m'] f] o]. cbn [nutation_angle arg_rate].
  assert (LD : Rabs (arg_D x - arg_D y - 445267.111480 * (x - y)) <= 2 * Rabs (x - y)).
  { apply (lin_part arg_D _ (fun T => - 0.0038284 * T + 3 * T ^ 2 / 189474)); try assumption.
    - intros T _. unfold arg_D. auto_derive; [trivial|]. lra.
    - intros T HT. interval. }
  assert (LM : Rabs (arg_M x - arg_M y - 35999.050340 * (x - y)) <= 2 * Rabs (x - y)).
  { apply (lin_part arg_M _ (fun T => - 0.0003206 * T - 3 * T ^ 2 / 300000)); try assumption.
    - intros T _. unfold arg_M. auto_derive; [trivial|]. lra.
    - intros T HT. interval. }
  assert (LM' : Rabs (arg_M' x - arg_M' y - 477198.867398 * (x - y)) <= 2 * Rabs (x - y)).
  { apply (lin_part arg_M' _ (fun T => 0.0173944 * T + 3 * T ^ 2 / 56250)); try assumption.
    - intros T _. unfold arg_M'. auto_derive; [trivial|]. lra.
    - intros T HT. interval. }
  assert (LF : Rabs (arg_F x - arg_F y - 483202.017538 * (x - y)) <= 2 * Rabs (x - y)).
  { apply (lin_part arg_F _ (fun T => - 0.007365 * T + 3 * T ^ 2 / 327270)); try assumption.
    - intros T _. unfold arg_F. auto_derive; [trivial|]. lra.
    - intros T HT. interval. }
  assert (LO : Rabs (arg_Omega x - arg_Omega y - (- 1934.136261) * (x - y)) <= 2 * Rabs (x - y)).
  { apply (lin_part arg_Omega _ (fun T => 0.0041416 * T + 3 * T ^ 2 / 450000)); try assumption.
    - intros T _. unfold arg_Omega. auto_derive; [trivial|]. lra.
    - intros T HT. interval. }
  set (rD := arg_D x - arg_D y - 445267.111480 * (x - y)) in *. set (rM := arg_M x - arg_M y - 35999.050340 * (x - y)) in *.
  set (rM' := arg_M' x - arg_M' y - 477198.867398 * (x - y)) in *. set (rF := arg_F x - arg_F y - 483202.017538 * (x - y)) in *.
  set (rO := arg_Omega x - arg_Omega y - (- 1934.136261) * (x - y)) in *.
  rewrite Q2R_plus, Q2R_mult, Q2R_abs, Q2R_minus, !Q2R_plus, !Q2R_mult, !Q2R_Z, !plus_IZR, !abs_IZR.
  replace (Q2R 2) with 2 by (unfold Q2R; simpl; lra). replace (Q2R 445267.111480) with 445267.111480 by (unfold Q2R; simpl; lra).
  replace (Q2R 35999.050340) with 35999.050340 by (unfold Q2R; simpl; lra). replace (Q2R 477198.867398) with 477198.867398 by (unfold Q2R; simpl; lra).
  replace (Q2R 483202.017538) with 483202.017538 by (unfold Q2R; simpl; lra). replace (Q2R 1934.136261) with 1934.136261 by (unfold Q2R; simpl; lra).
  set (S := IZR d * 445267.111480 + IZR m * 35999.050340 + IZR m' * 477198.867398 + IZR f * 483202.017538 - IZR o * 1934.136261).
  match goal with |- Rabs ?e <= _ => replace e with (S * (x - y) + IZR d * rD + IZR m * rM + IZR m' * rM' + IZR f * rF + IZR o * rO) by (unfold S, rD, rM, rM', rF, rO; lra) end.
  clearbody S rD rM rM' rF rO. set (D := Rabs (x - y)) in *.
  assert (P : forall k r, Rabs r <= 2 * D -> Rabs (k * r) <= 2 * Rabs k * D).
  { intros k r H. rewrite Rabs_mult. pose proof (Rmult_le_compat_l (Rabs k) _ _ (Rabs_pos k) H). lra. }
  apply (P (IZR d)) in LD. apply (P (IZR m)) in LM. apply (P (IZR m')) in LM'. apply (P (IZR f)) in LF. apply (P (IZR o)) in LO.
  assert (A : Rabs (S * (x - y)) <= Rabs S * D) by (right; apply Rabs_mult).
  apply Rabs_le_inv in LD, LM, LM', LF, LO, A. apply Rabs_le. lra.
Qed.
Lemma term_lip (g : R -> R) a b w x y : (forall u v, Rabs (g u - g v) <= Rabs (u - v) * (PI / 180)) -> (forall u, -1 <= g u <= 1) ->
  -80 <= x <= 80 -> -80 <= y <= 80 ->
  Rabs ((Q2R a + Q2R b * x) * g (nutation_angle x w) - (Q2R a + Q2R b * y) * g (nutation_angle y w)) <= Q2R (term_rate a b w) * Rabs (x - y).
Proof.
  intros L B Hx Hy. pose proof (angle_lip w x y Hx Hy) as A. pose proof (L (nutation_angle x w) (nutation_angle y w)) as G. pose proof (B (nutation_angle y w)) as B1.
  unfold term_rate. rewrite Q2R_plus, !Q2R_mult, Q2R_plus, Q2R_mult, !Q2R_abs. replace (Q2R 80) with 80 by (unfold Q2R; simpl; lra).
  replace (Q2R 0.0174533) with 0.0174533 by (unfold Q2R; simpl; lra).
  set (gx := g (nutation_angle x w)) in *. set (gy := g (nutation_angle y w)) in *. set (q := Q2R (arg_rate w)) in *. set (p := Q2R a). set (r := Q2R b).
  assert (X : Rabs (gx - gy) <= 0.0174533 * q * Rabs (x - y)).
  { assert (P : 0 <= PI / 180 <= 0.0174533) by (split; interval). eapply Rle_trans; [exact G|].
    pose proof (Rabs_pos (nutation_angle x w - nutation_angle y w)). set (z := Rabs (nutation_angle x w - nutation_angle y w)) in *. set (pp := PI / 180) in *.
    apply Rle_trans with (z * 0.0174533); [apply Rmult_le_compat_l; lra|lra]. }
  replace ((p + r * x) * gx - (p + r * y) * gy) with ((p + r * x) * (gx - gy) + r * ((x - y) * gy)) by ring.
  eapply Rle_trans; [apply Rabs_triang|]. rewrite !Rabs_mult. rewrite Rmult_plus_distr_r, (Rplus_comm (Rabs r * Rabs (x - y))). apply Rplus_le_compat.
  - rewrite Rmult_assoc. apply Rmult_le_compat; try apply Rabs_pos; [|exact X]. eapply Rle_trans; [apply Rabs_triang|]. rewrite Rabs_mult.
    assert (Rabs x <= 80) by (apply Rabs_le; lra). pose proof (Rmult_le_compat_l (Rabs r) _ _ (Rabs_pos r) H). lra.
  - apply Rmult_le_compat_l; [apply Rabs_pos|]. assert (Rabs gy <= 1) by (apply Rabs_le; lra).
    pose proof (Rmult_le_compat_l (Rabs (x - y)) _ _ (Rabs_pos (x - y)) H). lra.
Qed.
Lemma nut_lon_lip_gen x y rows : -80 <= x <= 80 -> -80 <= y <= 80 ->
  Rabs (nutation_longitude x rows - nutation_longitude y rows) <= Q2R (lon_rate rows) / 36000000 * Rabs (x - y).
Proof.
  intros Hx Hy. unfold nutation_longitude.
  match goal with |- Rabs (?u / _ - ?v / _) <= _ => assert (H : Rabs (u - v) <= Q2R (lon_rate rows) * Rabs (x - y)) end.
  { induction rows as [|[[[[s0 s1] c0] c1] w] rows IH]; cbn [fold_right lon_rate].
    - rewrite Rminus_0_r, Rabs_R0. replace (Q2R 0) with 0 by (unfold Q2R; simpl; lra). lra.
    - fold (lon_rate rows). rewrite Q2R_red, Q2R_plus, (Rmult_plus_distr_r (Q2R (term_rate _ _ _))).
      pose proof (term_lip sind s0 s1 w x y sind_lip sind_bound Hx Hy) as T.
      match goal with |- Rabs (?a + ?b - (?c + ?d)) <= _ => replace (a + b - (c + d)) with ((a - c) + (b - d)) by ring end.
      eapply Rle_trans; [apply Rabs_triang|]. apply Rplus_le_compat; [exact T|exact IH]. }
  match goal with |- Rabs (?u / _ - ?v / _) <= _ => replace (u / 36000000 - v / 36000000) with ((u - v) * / 36000000) by lra end.
  rewrite Rabs_mult, (Rabs_pos_eq (/ 36000000)) by lra. lra.
Qed.
Lemma nut_obl_lip_gen x y rows : -80 <= x <= 80 -> -80 <= y <= 80 ->
  Rabs (nutation_obliquity x rows - nutation_obliquity y rows) <= Q2R (obl_rate rows) / 36000000 * Rabs (x - y).
Proof.
  intros Hx Hy. unfold nutation_obliquity.
  match goal with |- Rabs (?u / _ - ?v / _) <= _ => assert (H : Rabs (u - v) <= Q2R (obl_rate rows) * Rabs (x - y)) end.
  { induction rows as [|[[[[s0 s1] c0] c1] w] rows IH]; cbn [fold_right obl_rate].
    - rewrite Rminus_0_r, Rabs_R0. replace (Q2R 0) with 0 by (unfold Q2R; simpl; lra). lra.
    - fold (obl_rate rows). rewrite Q2R_red, Q2R_plus, (Rmult_plus_distr_r (Q2R (term_rate _ _ _))).
      pose proof (term_lip cosd c0 c1 w x y cosd_lip cosd_bound Hx Hy) as T.
      match goal with |- Rabs (?a + ?b - (?c + ?d)) <= _ => replace (a + b - (c + d)) with ((a - c) + (b - d)) by ring end.
      eapply Rle_trans; [apply Rabs_triang|]. apply Rplus_le_compat; [exact T|exact IH]. }
  match goal with |- Rabs (?u / _ - ?v / _) <= _ => replace (u / 36000000 - v / 36000000) with ((u - v) * / 36000000) by lra end.
  rewrite Rabs_mult, (Rabs_pos_eq (/ 36000000)) by lra. lra.
Qed.
Lemma T_diff j j' : Rabs (T_of j - T_of j') = Rabs (j - j') / 36525.
Proof. replace (T_of j - T_of j') with ((j - j') * / 36525) by (unfold T_of; lra). rewrite Rabs_mult, (Rabs_pos_eq (/ 36525)) by lra. reflexivity. Qed.
Lemma nut_lon_lip j j' : 1721425 < j < 5373485 -> 1721425 < j' < 5373485 -> Rabs (nut_lon j - nut_lon j') <= 0.000075 * Rabs (j - j').
Proof.
  intros Hj Hj'. pose proof (T_range j Hj). pose proof (T_range j' Hj'). unfold nut_lon.
  eapply Rle_trans; [apply nut_lon_lip_gen; lra|]. rewrite T_diff. pose proof (Rabs_pos (j - j')).
  replace (lon_rate nut_rows) with (491100777768514146091 # 5000000000000)%Q by (vm_compute; reflexivity). unfold Q2R; cbn [Qnum Qden]. lra.
Qed.
Lemma obl_lip0 j j' : 1721425 < j < 5373485 -> 1721425 < j' < 5373485 -> Rabs (true_obl j - true_obl j') <= 0.000031 * Rabs (j - j').
Proof.
  intros Hj Hj'. pose proof (T_range j Hj) as T. pose proof (T_range j' Hj') as T'. unfold true_obl, nut_obl.
  pose proof (nut_obl_lip_gen (T_of j) (T_of j') nut_rows ltac:(lra) ltac:(lra)) as N. rewrite T_diff in N.
  replace (obl_rate nut_rows) with (79390914200374305151 # 2000000000000)%Q in N by (vm_compute; reflexivity). unfold Q2R in N; cbn [Qnum Qden] in N.
  pose proof (mean_obl_lip (T_of j / 10 / 10) (T_of j' / 10 / 10) ltac:(lra) ltac:(lra)) as M.
  replace (T_of j / 10 / 10 - T_of j' / 10 / 10) with ((j - j') * / 3652500) in M by (unfold T_of; lra).
  rewrite (Rabs_mult (j - j')), (Rabs_pos_eq (/ 3652500)) in M by lra. pose proof (Rabs_pos (j - j')).
  set (m := mean_obliquity (T_of j / 10 / 10)) in *. set (m' := mean_obliquity (T_of j' / 10 / 10)) in *. set (a := nutation_obliquity _ _) in *. set (a' := nutation_obliquity (T_of j') _) in *.
  apply Rabs_le_inv in M, N. apply Rabs_le. lra.
Qed.

(* ---------------------------------------------------------------- distance, latitude, longitude *)
Ltac q_tables :=
  repeat match goal with |- context [amplitude ?l] => let q := eval vm_compute in (amplitude l) in replace (amplitude l) with q by (vm_compute; reflexivity) end;
  repeat match goal with |- context [amplitude_rate ?l] => let q := eval vm_compute in (amplitude_rate l) in replace (amplitude_rate l) with q by (vm_compute; reflexivity) end.
Lemma lip_dist : lip_sum 0 8 sun_earth_distance_coeffs <= 19000000000.
Proof. cbn [lip_sum sun_earth_distance_coeffs]. q_tables. unfold Q2R; cbn [Qnum Qden pow INR Nat.pred]. lra. Qed.
Lemma lip_lat : lip_sum 0 8 heliocentric_latitude_coeffs <= 26000000.
Proof. cbn [lip_sum heliocentric_latitude_coeffs]. q_tables. unfold Q2R; cbn [Qnum Qden pow INR Nat.pred]. lra. Qed.
Lemma R_lip j j' : 1721425 < j < 5373485 -> 1721425 < j' < 5373485 -> Rabs (sun_R j - sun_R j') <= 0.00053 * Rabs (j - j').
Proof.
  intros Hj Hj'. pose proof (T_range j Hj) as T. pose proof (T_range j' Hj') as T'. unfold sun_R.
  pose proof (sum_lip 0 8 (T_of j / 10) (T_of j' / 10) sun_earth_distance_coeffs ltac:(lra) ltac:(lra) ltac:(lra)) as L. pose proof lip_dist as LL.
  replace (T_of j / 10 - T_of j' / 10) with ((j - j') * / 365250) in L by (unfold T_of; lra). rewrite (Rabs_mult (j - j')), (Rabs_pos_eq (/ 365250)) in L by lra.
  set (w := vsop_sum _ _ _) in *. set (w' := vsop_sum _ (T_of j' / 10) _) in *. pose proof (Rabs_pos (j - j')) as P. set (D := Rabs (j - j')) in *.
  assert (L' : Rabs (w - w') <= 19000000000 * (D * / 365250)) by (eapply Rle_trans; [exact L|apply Rmult_le_compat_r; lra]).
  apply Rabs_le_inv in L'. apply Rabs_le. lra.
Qed.
Lemma beta_lip j j' : 1721425 < j < 5373485 -> 1721425 < j' < 5373485 -> Rabs (sun_beta j - sun_beta j') <= 0.000041 * Rabs (j - j').
Proof.
  intros Hj Hj'. pose proof (T_range j Hj) as T. pose proof (T_range j' Hj') as T'. unfold sun_beta.
  pose proof (sum_lip 0 8 (T_of j / 10) (T_of j' / 10) heliocentric_latitude_coeffs ltac:(lra) ltac:(lra) ltac:(lra)) as L. pose proof lip_lat as LL.
  replace (T_of j / 10 - T_of j' / 10) with ((j - j') * / 365250) in L by (unfold T_of; lra). rewrite (Rabs_mult (j - j')), (Rabs_pos_eq (/ 365250)) in L by lra.
  set (w := vsop_sum _ _ _) in *. set (w' := vsop_sum _ (T_of j' / 10) _) in *. pose proof (Rabs_pos (j - j')) as P. set (D := Rabs (j - j')) in *.
  assert (L' : Rabs (w - w') <= 26000000 * (D * / 365250)) by (eapply Rle_trans; [exact L|apply Rmult_le_compat_r; lra]).
  replace (- deg (w / 100000000) - - deg (w' / 100000000)) with (deg ((w' - w) / 100000000)) by (unfold deg; field; apply PI_neq0).
  rewrite deg_abs. unfold Rdiv at 1. rewrite Rabs_mult, (Rabs_pos_eq (/ 100000000)) by lra. rewrite Rabs_minus_sym.
  unfold deg. assert (Q : 0 <= 180 / PI <= 57.2958) by (split; interval). set (q := 180 / PI) in *. pose proof (Rabs_pos (w - w')).
  apply Rle_trans with (26000000 * (D * / 365250) * / 100000000 * 57.2958); [apply Rmult_le_compat; lra|lra].
Qed.
Lemma aber_lip r r' : 0.96 <= r <= 1.04 -> 0.96 <= r' <= 1.04 -> Rabs (- 20.4898 / (3600 * r) - - 20.4898 / (3600 * r')) <= 0.0063 * Rabs (r - r').
Proof.
  intros H H'. assert (E : forall a b, b <> 0 -> a / (b * r) - a / (b * r') = (r' - r) * (a * / (b * r * r'))) by (intros a b Hb; field; lra).
  rewrite E by lra. rewrite Rabs_mult, (Rabs_minus_sym r' r), Rmult_comm. apply Rmult_le_compat_r; [apply Rabs_pos|]. clear E.
  interval.
Qed.
Lemma ecl_lip j j' : 1721425 < j < 5373485 -> 1721425 < j' < 5373485 ->
  Rabs (ecl j - ecl j' - 0.98564736 * (j - j')) <= 0.0594 * Rabs (j - j').
Proof.
  intros Hj Hj'. pose proof (helio_rate j j' Hj Hj') as H. pose proof (nut_lon_lip j j' Hj Hj') as N. pose proof (R_lip j j' Hj Hj') as P.
  pose proof (aber_lip _ _ (sun_R_range j Hj) (sun_R_range j' Hj')) as A. unfold ecl. pose proof (Rabs_pos (j - j')).
  set (a := - 20.4898 / _) in *. set (a' := - 20.4898 / (3600 * sun_R j')) in *. apply Rabs_le_inv in H, N, A. apply Rabs_le. lra.
Qed.
Lemma ecl_lip1 j j' : 1721425 < j < 5373485 -> 1721425 < j' < 5373485 -> Rabs (ecl j - ecl j') <= 1.0451 * Rabs (j - j').
Proof.
  intros Hj Hj'. pose proof (ecl_lip j j' Hj Hj') as H. pose proof (Rle_refl (Rabs (j - j'))) as P. apply Rabs_le_inv in H, P. apply Rabs_le. lra.
Qed.

(* ---------------------------------------------------------------- angles of vectors *)
Lemma atan2_turn y x l : 0 < x * cos l + y * sin l ->
  exists k : Z, Ratan2 y x = l + atan ((y * cos l - x * sin l) / (x * cos l + y * sin l)) + IZR k * (2 * PI).
Proof.
  intros HX. set (X := x * cos l + y * sin l) in *. set (z := (y * cos l - x * sin l) / X).
  assert (Z : X * z = y * cos l - x * sin l) by (unfold z; field; lra).
  assert (Z0 : 0 < sqrt (1 + z²)) by (apply sqrt_lt_R0; pose proof (Rle_0_sqr z); lra).
  assert (CA : cos (atan z) = / sqrt (1 + z²)) by (rewrite cos_atan; reflexivity).
  assert (SA : sin (atan z) = z / sqrt (1 + z²)) by (rewrite sin_atan; reflexivity).
  destruct (atan2_polar y x) as [A B]. cbv zeta in A, B. pose proof (sin2_cos2 l) as S. unfold Rsqr in S.
  assert (X2 : X * sqrt (1 + z²) * cos (l + atan z) = x).
  { rewrite cos_plus, CA, SA. transitivity (X * cos l - X * z * sin l); [field; lra|]. rewrite Z. unfold X.
    transitivity (x * (sin l * sin l + cos l * cos l)); [ring|]. rewrite S. ring. }
  assert (Y2 : X * sqrt (1 + z²) * sin (l + atan z) = y).
  { rewrite sin_plus, CA, SA. transitivity (X * sin l + X * z * cos l); [field; lra|]. rewrite Z. unfold X.
    transitivity (y * (sin l * sin l + cos l * cos l)); [ring|]. rewrite S. ring. }
  assert (R0 : 0 < X * sqrt (1 + z²)) by now apply Rmult_lt_0_compat.
  assert (RP : 0 < sqrt (x * x + y * y)).
  { apply sqrt_lt_R0. destruct (Req_dec x 0) as [E|E]; [|nra]. destruct (Req_dec y 0) as [F|F]; [|nra]. unfold X in HX. rewrite E, F in HX. lra. }
  destruct (polar_eq _ _ (Ratan2 y x) (l + atan z) RP R0 ltac:(lra) ltac:(lra)) as [C SS].
  exact (angle_eq _ _ C SS).
Qed.
Lemma quot_lip n d n' d' m b : 0 < m -> m <= d -> m <= d' -> Rabs n' <= b ->
  Rabs (atan (n / d) - atan (n' / d')) <= Rabs (n - n') / m + b * Rabs (d - d') / (m * m).
Proof.
  intros Hm Hd Hd' Hn. eapply Rle_trans; [apply atan_lip|].
  replace (n / d - n' / d') with ((n - n') * / d + n' * (d' - d) * / (d * d')) by (field; lra).
  eapply Rle_trans; [apply Rabs_triang|]. rewrite !Rabs_mult. assert (P : 0 < d * d') by (apply Rmult_lt_0_compat; lra).
  assert (MM : m * m <= d * d') by (apply Rmult_le_compat; lra). assert (M0 : 0 < m * m) by (apply Rmult_lt_0_compat; lra).
  rewrite (Rabs_pos_eq (/ d)) by (apply Rlt_le, Rinv_0_lt_compat; lra). rewrite (Rabs_pos_eq (/ (d * d'))) by (apply Rlt_le, Rinv_0_lt_compat; lra).
  apply Rplus_le_compat; unfold Rdiv.
  - apply Rmult_le_compat_l; [apply Rabs_pos|]. apply Rinv_le; lra.
  - rewrite (Rabs_minus_sym d' d). apply Rmult_le_compat.
    + apply Rmult_le_pos; apply Rabs_pos.
    + apply Rlt_le, Rinv_0_lt_compat; lra.
    + apply Rmult_le_compat_r; [apply Rabs_pos|exact Hn].
    + apply Rinv_le; lra.
Qed.
Lemma prod_lip a b a' b' ka kb : Rabs a <= ka -> Rabs b' <= kb -> Rabs (a * b - a' * b') <= ka * Rabs (b - b') + kb * Rabs (a - a').
Proof.
  intros A B. replace (a * b - a' * b') with (a * (b - b') + b' * (a - a')) by ring. eapply Rle_trans; [apply Rabs_triang|]. rewrite !Rabs_mult.
  pose proof (Rmult_le_compat_r _ _ _ (Rabs_pos (b - b')) A). pose proof (Rmult_le_compat_r _ _ _ (Rabs_pos (a - a')) B). lra.
Qed.

(* ---------------------------------------------------------------- right ascension *)
Lemma sincos_lip l l' : Rabs (sin l * cos l - sin l' * cos l') <= Rabs (l - l').
Proof.
  replace (sin l * cos l - sin l' * cos l') with ((sin (2 * l) - sin (2 * l')) * / 2) by (rewrite !sin_2a; field).
  rewrite Rabs_mult, (Rabs_pos_eq (/ 2)) by lra. pose proof (sin_lip (2 * l) (2 * l')) as S. replace (2 * l - 2 * l') with (2 * (l - l')) in S by ring.
  rewrite (Rabs_mult 2), (Rabs_pos_eq 2) in S by lra. lra.
Qed.
Lemma sin2_lip l l' : Rabs (sin l * sin l - sin l' * sin l') <= Rabs (l - l').
Proof.
  replace (sin l * sin l - sin l' * sin l') with ((cos (2 * l') - cos (2 * l)) * / 2) by (rewrite !cos_2a_sin; field).
  rewrite Rabs_mult, (Rabs_pos_eq (/ 2)) by lra. pose proof (cos_lip (2 * l') (2 * l)) as S. replace (2 * l' - 2 * l) with (- (2 * (l - l'))) in S by ring.
  rewrite Rabs_Ropp, (Rabs_mult 2), (Rabs_pos_eq 2) in S by lra. lra.
Qed.
Lemma half_sin l : Rabs (sin l * cos l) <= 0.5.
Proof. replace (sin l * cos l) with (sin (2 * l) * / 2) by (rewrite sin_2a; field). pose proof (SIN_bound (2 * l)). apply Rabs_le. lra. Qed.
Definition turn (l C w : R) : R := atan ((sin l * cos l * (C - 1) - w * cos l) / (1 - sin l * sin l * (1 - C) - w * sin l)).
Lemma turn_lip l C w l' C' w' : 0.9135 <= C <= 0.924 -> 0.9135 <= C' <= 0.924 -> Rabs w <= 0.0000075 -> Rabs w' <= 0.0000075 ->
  Rabs (turn l C w - turn l' C' w') <= 0.0994 * Rabs (l - l') + 1.2 * Rabs (C - C') + 1.2 * Rabs (w - w').
Proof.
  intros HC HC' Hw Hw'. unfold turn.
  assert (DB : forall l C w, 0.9135 <= C <= 0.924 -> Rabs w <= 0.0000075 -> 0.91349 <= 1 - sin l * sin l * (1 - C) - w * sin l).
  { clear. intros l C w HC Hw. apply Rabs_le_inv in Hw. pose proof (SIN_bound l). pose proof (prod_le w (sin l) 0.0000075 1 ltac:(lra) ltac:(lra)). assert (0 <= sin l * sin l <= 1) by (split; nra). nra. }
  pose proof (half_sin l') as H2. pose proof (half_sin l) as H1. pose proof (SIN_bound l) as S1. pose proof (SIN_bound l') as S2. pose proof (COS_bound l) as C1. pose proof (COS_bound l') as C2.
  eapply Rle_trans; [apply (quot_lip _ _ _ _ 0.91349 0.0433); [lra|now apply DB|now apply DB|]|].
  { eapply Rle_trans; [unfold Rminus at 1; apply Rabs_triang|]. rewrite Rabs_Ropp, !Rabs_mult.
    assert (A : Rabs (C' - 1) <= 0.0865) by (apply Rabs_le; lra). assert (B : Rabs (cos l') <= 1) by (apply Rabs_le; lra).
    rewrite <- (Rabs_mult (sin l')). pose proof (Rabs_pos w') as G1. pose proof (Rabs_pos (cos l')) as G2. pose proof (Rabs_pos (C' - 1)) as G3. pose proof (Rabs_pos (sin l' * cos l')) as G4.
    pose proof (Rmult_le_compat _ _ _ _ G4 G3 H2 A). pose proof (Rmult_le_compat _ _ _ _ G1 G2 Hw' B). lra. }
  clear DB. pose proof (sincos_lip l l') as P. pose proof (sin2_lip l l') as Q. pose proof (sin_lip l l') as SL. pose proof (cos_lip l l') as CL.
  assert (A : Rabs (C - 1) <= 0.0865) by (apply Rabs_le; lra).
  assert (N1 : Rabs ((C - 1) * (sin l * cos l) - (C' - 1) * (sin l' * cos l')) <= 0.0865 * Rabs (l - l') + 0.5 * Rabs (C - C')).
  { eapply Rle_trans; [apply (prod_lip _ _ _ _ 0.0865 0.5 A H2)|]. replace (C - 1 - (C' - 1)) with (C - C') by ring. lra. }
  assert (N2 : Rabs (w * cos l - w' * cos l') <= 0.0000075 * Rabs (l - l') + Rabs (w - w')).
  { eapply Rle_trans; [apply (prod_lip _ _ _ _ 0.0000075 1 Hw)|]; [apply Rabs_le; lra|]. lra. }
  assert (D1 : Rabs ((1 - C) * (sin l * sin l) - (1 - C') * (sin l' * sin l')) <= 0.0865 * Rabs (l - l') + Rabs (C - C')).
  { eapply Rle_trans; [apply (prod_lip _ _ _ _ 0.0865 1)|]; [apply Rabs_le; lra|apply Rabs_le; split; nra|]. replace (1 - C - (1 - C')) with (- (C - C')) by ring. rewrite Rabs_Ropp. lra. }
  assert (D2 : Rabs (w * sin l - w' * sin l') <= 0.0000075 * Rabs (l - l') + Rabs (w - w')).
  { eapply Rle_trans; [apply (prod_lip _ _ _ _ 0.0000075 1 Hw)|]; [apply Rabs_le; lra|]. lra. }
  pose proof (Rabs_pos (l - l')). pose proof (Rabs_pos (C - C')). pose proof (Rabs_pos (w - w')).
  set (X := Rabs (sin l * cos l * (C - 1) - w * cos l - _)). set (Y := Rabs (1 - sin l * sin l * (1 - C) - w * sin l - _)).
  assert (EX : X <= 0.08651 * Rabs (l - l') + 0.5 * Rabs (C - C') + Rabs (w - w')) by (unfold X; apply Rabs_le_inv in N1, N2; apply Rabs_le; lra).
  assert (EY : Y <= 0.08651 * Rabs (l - l') + Rabs (C - C') + Rabs (w - w')) by (unfold Y; apply Rabs_le_inv in D1, D2; apply Rabs_le; lra).
  clearbody X Y. lra.
Qed.
Lemma cosd_obl j : 1721425 < j < 5373485 -> 0.9135 <= cosd (true_obl j) <= 0.924 /\ 0.38 <= sind (true_obl j) <= 0.40674.
Proof. intros H. pose proof (true_obl_range j H) as O. set (e := true_obl j) in *. clearbody e. unfold cosd, sind. split; split; interval. Qed.
Lemma tand_beta j : 1721425 < j < 5373485 -> Rabs (tand (sun_beta j)) <= 0.0000176.
Proof. intros H. pose proof (sun_beta_range j H) as O. set (e := sun_beta j) in *. clearbody e. unfold tand. apply Rabs_le. split; interval. Qed.
Lemma tand_lip j j' : 1721425 < j < 5373485 -> 1721425 < j' < 5373485 -> Rabs (tand (sun_beta j) - tand (sun_beta j')) <= 0.00000073 * Rabs (j - j').
Proof.
  intros Hj Hj'. pose proof (sun_beta_range j Hj) as O. pose proof (sun_beta_range j' Hj') as O'. pose proof (beta_lip j j' Hj Hj') as B.
  set (b := sun_beta j) in *. set (b' := sun_beta j') in *. clearbody b b'. pose proof (Rabs_pos (j - j')).
  apply Rle_trans with (0.01746 * Rabs (b - b')); [|lra]. assert (P : 0 < PI / 180 < 0.0175) by (split; interval).
  apply (mvt_lip tand (fun b => (PI / 180) / (cosd b * cosd b))).
  - intros c Hc. pose proof (between b' b c (-0.001) 0.001 ltac:(lra) ltac:(lra) Hc) as BB. assert (CC : cosd c <> 0) by (apply cosd_ne0; lra).
    unfold tand, tan, cosd in *. auto_derive; [exact CC|]. pose proof (sin2_cos2 (c * PI / 180)) as S. unfold Rsqr in S.
    unfold Rdiv in *. set (x := c * PI * / 180) in *. set (sn := sin x) in *. set (cs := cos x) in *. 
    replace (PI * / 180 * / (cs * cs)) with (PI * / 180 * (sn * sn + cs * cs) * / (cs * cs)) by (rewrite S; field; exact CC). field. exact CC.
  - intros c Hc. pose proof (between b' b c (-0.001) 0.001 ltac:(lra) ltac:(lra) Hc) as BB. clear Hc. rewrite cosd_rad. unfold rad. interval.
Qed.
Lemma alpha_turn j : 1721425 < j < 5373485 -> exists k : Z,
  sun_alpha j = ecl j + deg (turn (rad (ecl j)) (cosd (true_obl j)) (tand (sun_beta j) * sind (true_obl j))) + 360 * IZR k.
Proof.
  intros Hj. destruct (cosd_obl j Hj) as [HC HS]. pose proof (tand_beta j Hj) as HT. apply Rabs_le_inv in HT.
  destruct (lambda_ecl j) as (m & M). unfold sun_alpha.
  match goal with |- exists k, Rfmod ?a 360 = _ => destruct (Rfmod_eq a 360) as (k0 & K0); rewrite K0 end.
  assert (SL : sind (sun_lambda j) = sin (rad (ecl j))).
  { rewrite sind_rad, M. replace (rad (ecl j + 360 * IZR m)) with (rad (ecl j) + 2 * IZR m * PI) by (unfold rad; field). apply sin_2kPI. }
  assert (CL : cosd (sun_lambda j) = cos (rad (ecl j))).
  { rewrite cosd_rad, M. replace (rad (ecl j + 360 * IZR m)) with (rad (ecl j) + 2 * IZR m * PI) by (unfold rad; field). apply cos_2kPI. }
  rewrite SL, CL. set (l := rad (ecl j)). set (C := cosd (true_obl j)) in *. set (S := sind (true_obl j)) in *. set (t := tand (sun_beta j)) in *.
  assert (W : -0.0000075 <= t * S <= 0.0000075) by (split; nra). set (w := t * S) in *. clearbody w C.
  pose proof (sin2_cos2 l) as Q. unfold Rsqr in Q. pose proof (SIN_bound l) as SB.
  assert (ED : cos l * cos l + (sin l * C - w) * sin l = 1 - sin l * sin l * (1 - C) - w * sin l) by (replace (cos l * cos l) with (1 - sin l * sin l) by lra; ring).
  destruct (atan2_turn (sin l * C - w) (cos l) l) as (k1 & K1).
  { rewrite ED. pose proof (prod_le w (sin l) 0.0000075 1 ltac:(lra) ltac:(lra)). assert (0 <= sin l * sin l <= 1) by (split; nra). nra. }
  exists (k1 - k0)%Z. rewrite K1, ED. unfold turn. replace ((sin l * C - w) * cos l - cos l * sin l) with (sin l * cos l * (C - 1) - w * cos l) by ring.
  set (a := atan _). rewrite minus_IZR. replace (ecl j) with (deg l) by (unfold l; apply deg_rad). unfold deg. field. apply PI_neq0.
Qed.
Lemma alpha_lip j j' : 1721425 < j < 5373485 -> 1721425 < j' < 5373485 -> exists k : Z,
  Rabs (sun_alpha j - sun_alpha j' - 0.98564736 * (j - j') - 360 * IZR k) <= 0.1635 * Rabs (j - j').
Proof.
  intros Hj Hj'. destruct (alpha_turn j Hj) as (k & E). destruct (alpha_turn j' Hj') as (k' & E'). exists (k - k')%Z. rewrite E, E', minus_IZR. clear E E'.
  destruct (cosd_obl j Hj) as [HC HS]. destruct (cosd_obl j' Hj') as [HC' HS']. pose proof (tand_beta j Hj) as HT. pose proof (tand_beta j' Hj') as HT'.
  pose proof (cosd_lip (true_obl j) (true_obl j')) as CL. pose proof (sind_lip (true_obl j) (true_obl j')) as SL. pose proof (obl_lip0 j j' Hj Hj') as O. pose proof (tand_lip j j' Hj Hj') as TL.
  pose proof (ecl_lip j j' Hj Hj') as EL. pose proof (ecl_lip1 j j' Hj Hj') as E1.
  set (D := Rabs (j - j')) in *. assert (D0 : 0 <= D) by apply Rabs_pos.
  assert (P : 0 <= PI / 180 <= 0.017454) by (split; interval).
  assert (CL' : Rabs (cosd (true_obl j) - cosd (true_obl j')) <= 0.00000055 * D).
  { eapply Rle_trans; [exact CL|]. apply Rle_trans with (0.000031 * D * 0.017454); [apply Rmult_le_compat; try apply Rabs_pos; lra|lra]. }
  assert (SL' : Rabs (sind (true_obl j) - sind (true_obl j')) <= 0.00000055 * D).
  { eapply Rle_trans; [exact SL|]. apply Rle_trans with (0.000031 * D * 0.017454); [apply Rmult_le_compat; try apply Rabs_pos; lra|lra]. }
  assert (W : Rabs (tand (sun_beta j) * sind (true_obl j) - tand (sun_beta j') * sind (true_obl j')) <= 0.0000004 * D).
  { eapply Rle_trans; [apply (prod_lip _ _ _ _ 0.0000176 0.40674 HT)|]; [apply Rabs_le; lra|]. lra. }
  assert (WB : forall t s, Rabs t <= 0.0000176 -> 0.38 <= s <= 0.40674 -> Rabs (t * s) <= 0.0000075).
  { intros t s A B. rewrite Rabs_mult, (Rabs_pos_eq s) by lra. pose proof (Rabs_pos t). nra. }
  pose proof (turn_lip (rad (ecl j)) _ _ (rad (ecl j')) _ _ HC HC' (WB _ _ HT HS) (WB _ _ HT' HS')) as T.
  set (u := turn _ _ _) in *. set (u' := turn (rad (ecl j')) _ _) in *.
  replace (rad (ecl j) - rad (ecl j')) with (rad (ecl j - ecl j')) in T by (unfold rad; ring). rewrite rad_abs in T.
  assert (T' : Rabs (deg u - deg u') <= 0.10400 * D).
  { rewrite <- deg_minus, deg_abs. apply Rle_trans with (deg (0.0994 * rad (1.0451 * D) + 0.0000012 * D)).
    - apply deg_le. eapply Rle_trans; [exact T|]. assert (rad (Rabs (ecl j - ecl j')) <= rad (1.0451 * D)) by (unfold rad; apply Rmult_le_compat_r; lra). lra.
    - unfold deg, rad. replace ((0.0994 * (1.0451 * D * (PI / 180)) + 0.0000012 * D) * (180 / PI)) with (0.0994 * (1.0451 * D) * (PI * / PI) + 0.0000012 * D * (180 / PI)) by (unfold Rdiv; lra).
      rewrite Rinv_r by apply PI_neq0. assert (0 <= 180 / PI <= 57.3) by (split; interval). set (q := 180 / PI) in *. assert (D * q <= D * 57.3) by (apply Rmult_le_compat_l; lra). lra. }
  apply Rabs_le_inv in EL, T'. apply Rabs_le. lra.
Qed.

(* ---------------------------------------------------------------- hour angle *)
Lemma sid_lip jd jd' j j' : 1721425 < jd < 5373485 -> 1721425 < jd' < 5373485 -> 1721425 < j < 5373485 -> 1721425 < j' < 5373485 -> exists k : Z,
  Rabs (app_sid jd j - app_sid jd' j' - 360.98564736629 * (jd - jd') - 360 * IZR k) <= 0.000002 * Rabs (jd - jd') + 0.000076 * Rabs (j - j').
Proof.
  intros Hd Hd' Hj Hj'. unfold app_sid, mean_sid. cbv zeta.
  set (c := (jd - 2451545) / 36525). set (c' := (jd' - 2451545) / 36525).
  pose proof (tc_lip c c' ltac:(unfold c; lra) ltac:(unfold c'; lra)) as L.
  replace (c - c') with ((jd - jd') / 36525) in L by (unfold c, c'; lra). unfold Rdiv at 3 in L. rewrite Rabs_mult, (Rabs_pos_eq (/ 36525)) in L by lra.
  set (t := 0.000387933 * c * c * (1 - c / 38710000)) in *. set (t' := 0.000387933 * c' * c' * (1 - c' / 38710000)) in *.
  destruct (Rfmod_eq (280.46061837 + 360.98564736629 * (jd - 2451545) + t) 360) as (k & K).
  destruct (Rfmod_eq (280.46061837 + 360.98564736629 * (jd' - 2451545) + t') 360) as (k' & K').
  rewrite K, K'. exists (k' - k)%Z. rewrite minus_IZR.
  pose proof (T_range j Hj) as T. pose proof (T_range j' Hj') as T'.
  assert (N0 : Rabs (nut_lon j) <= 0.0059).
  { unfold nut_lon. destruct (nutation_bounds (T_of j)) as (nn & _ & _ & _ & _ & B). destruct (B ltac:(lra)) as [B1 _]. lra. }
  pose proof (prod_lip (nut_lon j) (cos (true_obl j)) (nut_lon j') (cos (true_obl j')) 0.0059 1 N0 ltac:(apply Rabs_le; pose proof (COS_bound (true_obl j')); lra)) as N.
  pose proof (cos_lip (true_obl j) (true_obl j')) as CL. pose proof (obl_lip0 j j' Hj Hj') as O. pose proof (nut_lon_lip j j' Hj Hj') as NL.
  set (n := nut_lon j * cos (true_obl j)) in *. set (n' := nut_lon j' * cos (true_obl j')) in *.
  pose proof (Rabs_pos (jd - jd')). pose proof (Rabs_pos (j - j')).
  assert (N1 : Rabs (n - n') <= 0.000076 * Rabs (j - j')) by lra. clear N CL NL.
  apply Rabs_le_inv in L, N1. apply Rabs_le. lra.
Qed.
Lemma geo_H_lip lon jd jd' j j' : 1721425 < jd < 5373485 -> 1721425 < jd' < 5373485 -> 1721425 < j < 5373485 -> 1721425 < j' < 5373485 ->
  jd - jd' = j - j' -> exists k : Z,
  Rabs (geo_H lon jd j - geo_H lon jd' j' - 360 * (j - j') - 360 * IZR k) <= 0.1636 * Rabs (j - j').
Proof.
  intros Hd Hd' Hj Hj' E. destruct (alpha_lip j j' Hj Hj') as (k & K). destruct (sid_lip jd jd' j j' Hd Hd' Hj Hj') as (m & M). rewrite E in M.
  exists (m - k)%Z. rewrite minus_IZR. unfold geo_H. pose proof (Rle_refl (Rabs (j - j'))) as P. apply Rabs_le_inv in P. apply Rabs_le_inv in K, M. apply Rabs_le. lra.
Qed.

(* ---------------------------------------------------------------- declination *)
Lemma sin_delta_eq x : 1721425 < x < 5373485 -> sind (sun_delta x) = sind (sun_beta x) * cosd (true_obl x) + cosd (sun_beta x) * (sind (true_obl x) * sind (ecl x)).
Proof.
  intros Hx. destruct (lambda_ecl x) as (k & K).
  transitivity (sind (sun_beta x) * cosd (true_obl x) + cosd (sun_beta x) * sind (true_obl x) * sind (sun_lambda x)).
  - unfold sun_delta. rewrite sind_deg. apply sin_asin.
    pose proof (sincosd (sun_beta x)) as A. pose proof (sincosd (true_obl x)) as B. pose proof (sind_bound (sun_lambda x)).
    set (sb := sind (sun_beta x)) in *. set (cb := cosd (sun_beta x)) in *. set (so := sind (true_obl x)) in *. set (co := cosd (true_obl x)) in *.
    replace (sb * co + cb * so * sind (sun_lambda x)) with (co * sb + so * cb * sind (sun_lambda x)) by ring.
    apply unit_dot; lra.
  - rewrite Rmult_assoc. do 3 f_equal. rewrite K. unfold sind. replace ((ecl x + 360 * IZR k) * PI / 180) with (ecl x * PI / 180 + 2 * IZR k * PI) by field. apply sin_2kPI.
Qed.
Lemma delta_lip j j' : 1721425 < j < 5373485 -> 1721425 < j' < 5373485 -> Rabs (sun_delta j - sun_delta j') <= 0.466 * Rabs (j - j').
Proof.
  intros Hj Hj'. pose proof (sin_delta_bound j Hj) as S1. pose proof (sin_delta_bound j' Hj') as S2.
  assert (W : Rabs (sun_delta j - sun_delta j') <= 1.0954 * 57.2958 * Rabs (sind (sun_delta j) - sind (sun_delta j'))).
  { assert (I : forall x, -90 < sun_delta x < 90 -> sun_delta x = deg (asin (sind (sun_delta x)))).
    { intros x Hx. rewrite sind_rad, asin_sin, deg_rad; [reflexivity|]. pose proof PI_RGT_0. unfold rad. split; nra. }
    rewrite (I j (delta_range j Hj)) at 1. rewrite (I j' (delta_range j' Hj')) at 1. rewrite <- deg_minus, deg_abs.
    pose proof (asin_lip _ _ S1 S2) as A. set (a := Rabs (asin _ - asin _)) in *. pose proof (Rabs_pos (sind (sun_delta j) - sind (sun_delta j'))).
    unfold deg. assert (P : 0 <= 180 / PI <= 57.2958) by (split; interval). assert (0 <= a) by apply Rabs_pos. set (p := 180 / PI) in *. set (b := Rabs (sind (sun_delta j) - sind (sun_delta j'))) in *. clearbody p a b.
    apply Rle_trans with (1.0954 * b * 57.2958); [apply Rmult_le_compat; lra|lra]. }
  rewrite !sin_delta_eq in W by assumption.
  assert (SB : Rabs (sind (sun_beta j)) <= 0.0000175).
  { pose proof (sun_beta_range j Hj) as B. set (b := sun_beta j) in *. clearbody b. unfold sind. apply Rabs_le. split; interval. }
  destruct (cosd_obl j Hj) as [HC HS]. destruct (cosd_obl j' Hj') as [HC' HS'].
  pose proof (cosd_lip (true_obl j) (true_obl j')) as CL. pose proof (sind_lip (true_obl j) (true_obl j')) as SL. pose proof (obl_lip0 j j' Hj Hj') as O.
  pose proof (cosd_lip (sun_beta j) (sun_beta j')) as CB. pose proof (sind_lip (sun_beta j) (sun_beta j')) as SBL. pose proof (beta_lip j j' Hj Hj') as BL.
  pose proof (sind_lip (ecl j) (ecl j')) as EL. pose proof (ecl_lip1 j j' Hj Hj') as E1.
  set (D := Rabs (j - j')) in *. assert (D0 : 0 <= D) by apply Rabs_pos. assert (P : 0 <= PI / 180 <= 0.0174533) by (split; interval).
  assert (G : forall x k m, 0 <= k -> Rabs x <= k * D -> k * 0.0174533 <= m -> Rabs x * (PI / 180) <= m * D).
  { intros x k m Hk Hx Hm. apply Rle_trans with (k * D * 0.0174533); [apply Rmult_le_compat; try apply Rabs_pos; lra|]. pose proof (Rmult_le_compat_r D _ _ D0 Hm). lra. }
  pose proof (G _ 0.000031 0.00000055 ltac:(lra) O ltac:(lra)) as G1. pose proof (G _ 0.000041 0.00000072 ltac:(lra) BL ltac:(lra)) as G2. pose proof (G _ 1.0451 0.018241 ltac:(lra) E1 ltac:(lra)) as G3.
  clear G O BL E1. pose proof (cosd_bound (true_obl j')) as K1. pose proof (cosd_bound (sun_beta j)) as K2. pose proof (sind_bound (ecl j')) as K3.
  assert (A1 : Rabs (sind (true_obl j) * sind (ecl j) - sind (true_obl j') * sind (ecl j')) <= 0.40674 * (0.018241 * D) + 0.00000055 * D).
  { eapply Rle_trans; [apply (prod_lip _ _ _ _ 0.40674 1)|]; [apply Rabs_le; lra|apply Rabs_le; lra|]. lra. }
  assert (A2 : Rabs (cosd (sun_beta j) * (sind (true_obl j) * sind (ecl j)) - cosd (sun_beta j') * (sind (true_obl j') * sind (ecl j'))) <= 0.40674 * (0.018241 * D) + 0.000001 * D).
  { eapply Rle_trans; [apply (prod_lip _ _ _ _ 1 0.40674)|]; [apply Rabs_le; lra| |lra]. rewrite Rabs_mult.
    assert (Rabs (sind (true_obl j')) <= 0.40674) by (apply Rabs_le; lra). assert (Rabs (sind (ecl j')) <= 1) by (apply Rabs_le; lra).
    pose proof (Rmult_le_compat _ _ _ _ (Rabs_pos _) (Rabs_pos _) H H0). lra. }
  assert (A3 : Rabs (sind (sun_beta j) * cosd (true_obl j) - sind (sun_beta j') * cosd (true_obl j')) <= 0.00000073 * D).
  { eapply Rle_trans; [apply (prod_lip _ _ _ _ 0.0000175 1)|]; [exact SB|apply Rabs_le; lra|]. lra. }
  eapply Rle_trans; [exact W|]. match goal with |- _ * _ * Rabs ?z <= _ => assert (Z : Rabs z <= 0.0074212 * D) end.
  { apply Rabs_le_inv in A2, A3. apply Rabs_le. lra. }
  lra.
Qed.

(* ---------------------------------------------------------------- parallax *)
Lemma par_lip j j' : 1721425 < j < 5373485 -> 1721425 < j' < 5373485 -> Rabs (sind (lib_par j) - sind (lib_par j')) <= 0.000000023 * Rabs (j - j').
Proof.
  intros Hj Hj'. pose proof (R_lip j j' Hj Hj') as R. eapply Rle_trans; [apply sind_lip|]. unfold lib_par.
  replace (8.794 * sun_R j / 3600 - 8.794 * sun_R j' / 3600) with ((sun_R j - sun_R j') * (8.794 / 3600)) by lra.
  rewrite Rabs_mult, (Rabs_pos_eq (8.794 / 3600)) by lra. assert (P : 0 <= PI / 180 <= 0.0174533) by (split; interval). pose proof (Rabs_pos (sun_R j - sun_R j')). pose proof (Rabs_pos (j - j')).
  apply Rle_trans with (0.00053 * Rabs (j - j') * (8.794 / 3600) * 0.0174533); [apply Rmult_le_compat; lra|lra].
Qed.
(* what time does to the sines and cosines the parallax is computed from, all per day *)
Record moving (D s s' sh sh' ch ch' sd sd' cd cd' : R) : Prop := {
  mv_s : Rabs s <= 0.000046; mv_s' : Rabs s' <= 0.000046; mv_ds : Rabs (s - s') <= 0.000000024 * D;
  mv_sh : Rabs sh <= 1; mv_sh' : Rabs sh' <= 1; mv_dsh : Rabs (sh - sh') <= 6.287 * D;
  mv_ch : Rabs ch <= 1; mv_ch' : Rabs ch' <= 1; mv_dch : Rabs (ch - ch') <= 6.287 * D;
  mv_sd : Rabs sd <= 0.408; mv_sd' : Rabs sd' <= 0.408; mv_dsd : Rabs (sd - sd') <= 0.00814 * D;
  mv_cd : 0.91 <= cd <= 1; mv_cd' : 0.91 <= cd' <= 1; mv_dcd : Rabs (cd - cd') <= 0.00814 * D;
  mv_1 : sd * sd + cd * cd = 1; mv_1' : sd' * sd' + cd' * cd' = 1 }.
Lemma dalpha_lip D s s' sh sh' ch ch' sd sd' cd cd' : 0 <= D -> moving D s s' sh sh' ch ch' sd sd' cd cd' ->
  Rabs (atan (- s * sh / (cd - s * ch)) - atan (- s' * sh' / (cd' - s' * ch'))) <= 0.00032 * D.
Proof.
  intros D0 [? ? ? ? ? ? ? ? ? ? ? ? ? ? ? ? ?].
  assert (B : forall a b, Rabs a <= 0.000046 -> Rabs b <= 1 -> Rabs (a * b) <= 0.000046).
  { intros a b Ha Hb. rewrite Rabs_mult. pose proof (Rmult_le_compat _ _ _ _ (Rabs_pos a) (Rabs_pos b) Ha Hb). lra. }
  pose proof (B s ch ltac:(assumption) ltac:(assumption)) as B1. pose proof (B s' ch' ltac:(assumption) ltac:(assumption)) as B2. pose proof (B s' sh' ltac:(assumption) ltac:(assumption)) as B3.
  pose proof (prod_lip s sh s' sh' 0.000046 1 mv_s0 mv_sh'0) as P1. pose proof (prod_lip s ch s' ch' 0.000046 1 mv_s0 mv_ch'0) as P2.
  apply Rabs_le_inv in B1, B2. eapply Rle_trans; [apply (quot_lip _ _ _ _ 0.9099 0.000046); try lra|].
  { replace (- s' * sh') with (- (s' * sh')) by ring. now rewrite Rabs_Ropp. }
  set (X := Rabs (- s * sh - - s' * sh')). set (Y := Rabs (cd - s * ch - (cd' - s' * ch'))).
  assert (EX : X <= 0.0002893 * D) by (unfold X; apply Rabs_le_inv in P1; apply Rabs_le; lra).
  assert (EY : Y <= 0.01 * D) by (unfold Y; apply Rabs_le_inv in P2; apply Rabs_le_inv in mv_dcd0; apply Rabs_le; lra).
  clearbody X Y. lra.
Qed.
Lemma dec_lip D s s' sh sh' ch ch' sd sd' cd cd' ca ca' : 0 <= D -> moving D s s' sh sh' ch ch' sd sd' cd cd' ->
  0.99999 <= ca <= 1 -> 0.99999 <= ca' <= 1 -> Rabs (ca - ca') <= 0.000001 * D ->
  Rabs (atan ((sd * cd * (ca - 1) - s * ca * cd + s * ch * sd) / (cd * cd + sd * sd * ca - s * (ch * cd + ca * sd)))
      - atan ((sd' * cd' * (ca' - 1) - s' * ca' * cd' + s' * ch' * sd') / (cd' * cd' + sd' * sd' * ca' - s' * (ch' * cd' + ca' * sd')))) <= 0.00013 * D.
Proof.
  intros D0 M HA HA' DA. destruct M as [? ? ? ? ? ? ? ? ? ? ? ? ? ? ? ? ?].
  assert (B : forall a b ka kb, Rabs a <= ka -> Rabs b <= kb -> Rabs (a * b) <= ka * kb).
  { intros a b ka kb Ha Hb. rewrite Rabs_mult. exact (Rmult_le_compat _ _ _ _ (Rabs_pos a) (Rabs_pos b) Ha Hb). }
  assert (Ca : Rabs ca <= 1) by (apply Rabs_le; lra). assert (Ca' : Rabs ca' <= 1) by (apply Rabs_le; lra).
  assert (Cd : Rabs cd <= 1) by (apply Rabs_le; lra). assert (Cd' : Rabs cd' <= 1) by (apply Rabs_le; lra).
  assert (C1 : Rabs (ca - 1) <= 0.00001) by (apply Rabs_le; lra). assert (C1' : Rabs (ca' - 1) <= 0.00001) by (apply Rabs_le; lra).
  (* numerators *)
  pose proof (prod_lip sd cd sd' cd' _ _ mv_sd0 Cd') as P1. pose proof (B _ _ _ _ mv_sd0 Cd) as Q1. pose proof (B _ _ _ _ mv_sd'0 Cd') as Q1'.
  pose proof (prod_lip (sd * cd) (ca - 1) (sd' * cd') (ca' - 1) _ _ Q1 C1') as P2. replace (ca - 1 - (ca' - 1)) with (ca - ca') in P2 by ring. pose proof (B _ _ _ _ Q1' C1') as Q2'.
  pose proof (prod_lip s ca s' ca' _ _ mv_s0 Ca') as P3. pose proof (B _ _ _ _ mv_s0 Ca) as Q3. pose proof (B _ _ _ _ mv_s'0 Ca') as Q3'.
  pose proof (prod_lip (s * ca) cd (s' * ca') cd' _ _ Q3 Cd') as P4. pose proof (B _ _ _ _ Q3' Cd') as Q4'.
  pose proof (prod_lip s ch s' ch' _ _ mv_s0 mv_ch'0) as P5. pose proof (B _ _ _ _ mv_s0 mv_ch0) as Q5. pose proof (B _ _ _ _ mv_s'0 mv_ch'0) as Q5'.
  pose proof (prod_lip (s * ch) sd (s' * ch') sd' _ _ Q5 mv_sd'0) as P6. pose proof (B _ _ _ _ Q5' mv_sd'0) as Q6'.
  (* denominators *)
  assert (S2 : Rabs (sd * sd) <= 0.167) by (pose proof (B _ _ _ _ mv_sd0 mv_sd0); lra). assert (S2' : Rabs (sd' * sd') <= 0.167) by (pose proof (B _ _ _ _ mv_sd'0 mv_sd'0); lra).
  pose proof (prod_lip sd sd sd' sd' _ _ mv_sd0 mv_sd'0) as R1.
  pose proof (prod_lip (sd * sd) (ca - 1) (sd' * sd') (ca' - 1) _ _ S2 C1') as R2. replace (ca - 1 - (ca' - 1)) with (ca - ca') in R2 by ring.
  pose proof (B _ _ _ _ S2 C1) as T2. pose proof (B _ _ _ _ S2' C1') as T2'.
  pose proof (prod_lip ch cd ch' cd' _ _ mv_ch0 Cd') as R3. pose proof (prod_lip ca sd ca' sd' _ _ Ca mv_sd'0) as R4.
  pose proof (B _ _ _ _ mv_ch0 Cd) as T3. pose proof (B _ _ _ _ mv_ch'0 Cd') as T3'. pose proof (B _ _ _ _ Ca mv_sd0) as T4. pose proof (B _ _ _ _ Ca' mv_sd'0) as T4'.
  assert (T5 : Rabs (ch * cd + ca * sd) <= 1.41) by (eapply Rle_trans; [apply Rabs_triang|lra]). assert (T5' : Rabs (ch' * cd' + ca' * sd') <= 1.41) by (eapply Rle_trans; [apply Rabs_triang|lra]).
  pose proof (prod_lip s (ch * cd + ca * sd) s' (ch' * cd' + ca' * sd') _ _ mv_s0 T5') as R5. pose proof (B _ _ _ _ mv_s0 T5) as T6. pose proof (B _ _ _ _ mv_s'0 T5') as T6'.
  assert (R6 : Rabs (ch * cd + ca * sd - (ch' * cd' + ca' * sd')) <= 6.32 * D) by (apply Rabs_le_inv in R3, R4; apply Rabs_le; lra).
  replace (cd * cd + sd * sd * ca - s * (ch * cd + ca * sd)) with (1 + sd * sd * (ca - 1) - s * (ch * cd + ca * sd)) by (replace (cd * cd) with (1 - sd * sd) by lra; ring).
  replace (cd' * cd' + sd' * sd' * ca' - s' * (ch' * cd' + ca' * sd')) with (1 + sd' * sd' * (ca' - 1) - s' * (ch' * cd' + ca' * sd')) by (replace (cd' * cd') with (1 - sd' * sd') by lra; ring).
  set (n := sd * cd * (ca - 1) - s * ca * cd + s * ch * sd). set (n' := sd' * cd' * (ca' - 1) - s' * ca' * cd' + s' * ch' * sd').
  set (d := 1 + sd * sd * (ca - 1) - s * (ch * cd + ca * sd)). set (d' := 1 + sd' * sd' * (ca' - 1) - s' * (ch' * cd' + ca' * sd')).
  assert (EX : Rabs (n - n') <= 0.000122 * D) by (unfold n, n'; apply Rabs_le_inv in P2, P4, P6; apply Rabs_le; lra).
  assert (EY : Rabs (d - d') <= 0.01 * D) by (unfold d, d'; apply Rabs_le_inv in R2, R5; apply Rabs_le; lra).
  assert (EN : Rabs n' <= 0.00007) by (unfold n'; apply Rabs_le_inv in Q2', Q4', Q6'; apply Rabs_le; lra).
  assert (ED : 0.999 <= d) by (unfold d; apply Rabs_le_inv in T2, T6; lra). assert (ED' : 0.999 <= d') by (unfold d'; apply Rabs_le_inv in T2', T6'; lra).
  eapply Rle_trans; [apply (quot_lip n d n' d' 0.999 0.00007); try lra; exact EN|]. lra.
Qed.
Lemma sky_moving lon jd jd' j j' x : 1721425 < jd < 5373485 -> 1721425 < jd' < 5373485 -> 1721425 < j < 5373485 -> 1721425 < j' < 5373485 ->
  jd - jd' = j - j' -> -1.016 <= x <= 1.016 ->
  moving (Rabs (j - j')) (x * sind (lib_par j)) (x * sind (lib_par j')) (sind (lib_H lon jd j)) (sind (lib_H lon jd' j'))
    (cosd (lib_H lon jd j)) (cosd (lib_H lon jd' j')) (sind (sun_delta j)) (sind (sun_delta j')) (cosd (sun_delta j)) (cosd (sun_delta j')).
Proof.
  intros Hd Hd' Hj Hj' E Hx. destruct (geo_H_lip lon jd jd' j j' Hd Hd' Hj Hj' E) as (k & K). set (D := Rabs (j - j')) in *. assert (D0 : 0 <= D) by apply Rabs_pos.
  assert (DB : - D <= j - j' <= D) by (apply Rabs_le_inv; unfold D; lra).
  assert (HH : Rabs (geo_H lon jd j - (geo_H lon jd' j' + 360 * IZR k)) <= 360.1636 * D) by (apply Rabs_le_inv in K; apply Rabs_le; lra).
  assert (P : 0 <= PI / 180 <= 0.0174533) by (split; interval).
  assert (SH : forall a b, sind (lib_H lon a b) = sind (geo_H lon a b)) by (intros a b; apply same_angle_sin, Rfmod_same).
  assert (CH : forall a b, cosd (lib_H lon a b) = cosd (geo_H lon a b)) by (intros a b; apply same_angle_cos, Rfmod_same).
  assert (KS : sind (geo_H lon jd' j') = sind (geo_H lon jd' j' + 360 * IZR k)) by (apply same_angle_sin; exists (- k)%Z; rewrite opp_IZR; ring).
  assert (KC : cosd (geo_H lon jd' j') = cosd (geo_H lon jd' j' + 360 * IZR k)) by (apply same_angle_cos; exists (- k)%Z; rewrite opp_IZR; ring).
  assert (AX : Rabs x <= 1.016) by (apply Rabs_le; lra). pose proof (sin_par_bound j Hj) as P1. pose proof (sin_par_bound j' Hj') as P2. pose proof (par_lip j j' Hj Hj') as PL.
  assert (XP : forall p, 0 < p < 0.000045 -> Rabs (x * p) <= 0.000046).
  { intros p Hp. rewrite Rabs_mult, (Rabs_pos_eq p) by lra. pose proof (Rmult_le_compat _ 1.016 p 0.000045 (Rabs_pos x) ltac:(lra) AX ltac:(lra)). lra. }
  pose proof (delta_lip j j' Hj Hj') as DL. fold D in DL, PL.
  assert (G : forall z k m, Rabs z <= k * D -> 0 <= k -> k * 0.0174533 <= m -> Rabs z * (PI / 180) <= m * D).
  { intros z q m Hz Hq Hm. apply Rle_trans with (q * D * 0.0174533); [apply Rmult_le_compat; try apply Rabs_pos; lra|]. pose proof (Rmult_le_compat_r D _ _ D0 Hm). lra. }
  assert (U : forall a, Rabs (sind a) <= 1) by (intros a; apply Rabs_le; pose proof (sind_bound a); lra). assert (V : forall a, Rabs (cosd a) <= 1) by (intros a; apply Rabs_le; pose proof (cosd_bound a); lra).
  constructor; try apply U; try apply V; try (apply XP; lra); try (apply cos_delta_bound; assumption); try apply sincosd.
  - rewrite <- Rmult_minus_distr_l, Rabs_mult. pose proof (Rmult_le_compat _ _ _ _ (Rabs_pos x) (Rabs_pos _) AX PL). lra.
  - rewrite !SH, KS. eapply Rle_trans; [apply sind_lip|]. apply (G _ 360.1636); [exact HH|lra|lra].
  - rewrite !CH, KC. eapply Rle_trans; [apply cosd_lip|]. apply (G _ 360.1636); [exact HH|lra|lra].
  - apply Rabs_le. pose proof (sin_delta_bound j Hj). lra.
  - apply Rabs_le. pose proof (sin_delta_bound j' Hj'). lra.
  - eapply Rle_trans; [apply sind_lip|]. apply (G _ 0.466); [exact DL|lra|lra].
  - eapply Rle_trans; [apply cosd_lip|]. apply (G _ 0.466); [exact DL|lra|lra].
Qed.
Lemma deg_small x k m : Rabs x <= k -> k * 57.2958 <= m -> Rabs (deg x) <= m.
Proof.
  intros H M. rewrite deg_abs. unfold deg. assert (P : 0 <= 180 / PI <= 57.2958) by (split; interval). pose proof (Rabs_pos x).
  apply Rle_trans with (k * 57.2958); [apply Rmult_le_compat; lra|lra].
Qed.
Lemma dalpha_atan x H p d : 0 < cosd d - x * sind p * cosd H -> lib_dalpha x H p d = deg (atan (- (x * sind p) * sind H / (cosd d - x * sind p * cosd H))).
Proof. intros P. unfold lib_dalpha. rewrite Ratan2_pos by exact P. do 3 f_equal. ring. Qed.
Lemma topo_lip lon jd jd' j j' x y : 1721425 < jd < 5373485 -> 1721425 < jd' < 5373485 -> 1721425 < j < 5373485 -> 1721425 < j' < 5373485 ->
  jd - jd' = j - j' -> -1.016 <= x <= 1.016 -> -1.016 <= y <= 1.016 ->
  (exists k : Z, Rabs (topo_H lon x jd j - topo_H lon x jd' j' - 360 * (j - j') - 360 * IZR k) <= 0.19 * Rabs (j - j')) /\
  Rabs (topo_dec lon x y jd j - topo_dec lon x y jd' j') <= 0.475 * Rabs (j - j').
Proof.
  intros Hd Hd' Hj Hj' E Hx Hy. pose proof (sky_moving lon jd jd' j j' x Hd Hd' Hj Hj' E Hx) as MX. pose proof (sky_moving lon jd jd' j j' y Hd Hd' Hj Hj' E Hy) as MY.
  destruct (geo_H_lip lon jd jd' j j' Hd Hd' Hj Hj' E) as (k & K). pose proof (delta_lip j j' Hj Hj') as DL. set (D := Rabs (j - j')) in *. assert (D0 : 0 <= D) by apply Rabs_pos.
  pose proof (dalpha_lip _ _ _ _ _ _ _ _ _ _ _ D0 MX) as A.
  pose proof (parallax_small x y (lib_H lon jd j) (lib_par j) (sun_delta j) Hx Hy ltac:(pose proof (sin_par_bound j Hj); lra) (cos_delta_bound j Hj) (delta_range j Hj)) as [PA _].
  pose proof (parallax_small x y (lib_H lon jd' j') (lib_par j') (sun_delta j') Hx Hy ltac:(pose proof (sin_par_bound j' Hj'); lra) (cos_delta_bound j' Hj') (delta_range j' Hj')) as [PA' _].
  assert (SC : forall s c, Rabs s <= 0.000046 -> Rabs c <= 1 -> -0.000046 <= s * c <= 0.000046).
  { intros s c Hs Hc. apply Rabs_le_inv in Hs, Hc. pose proof (prod_le s c 0.000046 1 ltac:(lra) ltac:(lra)). lra. }
  assert (PX : 0 < cosd (sun_delta j) - x * sind (lib_par j) * cosd (lib_H lon jd j)).
  { pose proof (SC _ _ (mv_s _ _ _ _ _ _ _ _ _ _ _ MX) (mv_ch _ _ _ _ _ _ _ _ _ _ _ MX)). pose proof (mv_cd _ _ _ _ _ _ _ _ _ _ _ MX). lra. }
  assert (PX' : 0 < cosd (sun_delta j') - x * sind (lib_par j') * cosd (lib_H lon jd' j')).
  { pose proof (SC _ _ (mv_s' _ _ _ _ _ _ _ _ _ _ _ MX) (mv_ch' _ _ _ _ _ _ _ _ _ _ _ MX)). pose proof (mv_cd' _ _ _ _ _ _ _ _ _ _ _ MX). lra. }
  assert (DA : Rabs (lib_dalpha x (lib_H lon jd j) (lib_par j) (sun_delta j) - lib_dalpha x (lib_H lon jd' j') (lib_par j') (sun_delta j')) <= 0.0184 * D).
  { rewrite (dalpha_atan _ _ _ _ PX), (dalpha_atan _ _ _ _ PX'), <- deg_minus. apply (deg_small _ (0.00032 * D)); [exact A|lra]. }
  split.
  - destruct (Rfmod_eq (app_sid jd j + lon - sun_alpha j) 360) as (q & Q). destruct (Rfmod_eq (app_sid jd' j' + lon - sun_alpha j') 360) as (q' & Q').
    exists (k - q + q')%Z. unfold topo_H. set (a := lib_dalpha x (lib_H lon jd j) (lib_par j) (sun_delta j)) in *. set (a' := lib_dalpha x (lib_H lon jd' j') (lib_par j') (sun_delta j')) in *.
    unfold lib_H. rewrite Q, Q', plus_IZR, minus_IZR. unfold geo_H in K. apply Rabs_le_inv in K, DA. apply Rabs_le. lra.
  - unfold topo_dec. set (a := lib_dalpha x (lib_H lon jd j) (lib_par j) (sun_delta j)) in *. set (a' := lib_dalpha x (lib_H lon jd' j') (lib_par j') (sun_delta j')) in *.
    assert (CA : 0.99999 <= cosd a <= 1) by (clearbody a; clear - PA; rewrite cosd_rad; unfold rad; split; interval).
    assert (CA' : 0.99999 <= cosd a' <= 1) by (clearbody a'; clear - PA'; rewrite cosd_rad; unfold rad; split; interval).
    assert (DC : Rabs (cosd a - cosd a') <= 0.000001 * D).
    { apply Rle_trans with (0.000001 * Rabs (a - a')); [|lra]. apply (mvt_lip cosd (fun b => - sind b * (PI / 180))).
      - intros c _. unfold sind, cosd. auto_derive; [trivial|]. unfold Rdiv. ring.
      - intros c Hc. pose proof (between _ _ _ _ _ PA' PA Hc) as B. clear Hc. unfold sind. interval. }
    pose proof (dec_lip _ _ _ _ _ _ _ _ _ _ _ _ _ D0 MY CA CA' DC) as B. clear A DA.
    assert (R : forall w s ch sd cd ca, 0.91 <= cosd w <= 1 -> -90 < w < 90 -> sd = sind w -> cd = cosd w -> Rabs s <= 0.000046 -> Rabs ch <= 1 -> Rabs sd <= 0.408 -> 0.99999 <= ca <= 1 ->
      Ratan2 ((sd - s) * ca) (cd - s * ch) = rad w + atan ((sd * cd * (ca - 1) - s * ca * cd + s * ch * sd) / (cd * cd + sd * sd * ca - s * (ch * cd + ca * sd)))).
    { clear - SC. intros w s ch sd cd ca Hc Hw Es Ec Hs Hch Hsd Hca. pose proof (sincosd w) as N. rewrite <- Es, <- Ec in N. rewrite <- Ec in Hc. pose proof (SC _ _ Hs Hch) as SH. apply Rabs_le_inv in Hs, Hch, Hsd.
      set (den := cd * cd + sd * sd * ca - s * (ch * cd + ca * sd)). set (num := sd * cd * (ca - 1) - s * ca * cd + s * ch * sd).
      assert (DP : 0.99 <= den). { unfold den. assert (0.99999 * (sd * sd) <= sd * sd * ca) by nra. assert (-1.5 <= ch * cd + ca * sd <= 1.5) by (split; nra). pose proof (prod_le s (ch * cd + ca * sd) 0.000046 1.5 ltac:(lra) ltac:(lra)). nra. }
      assert (NB : -0.001 <= num <= 0.001).
      { unfold num. pose proof (prod_le (s * ch) sd 0.000046 0.408 ltac:(lra) ltac:(lra)). pose proof (prod_le sd cd 0.408 1 ltac:(lra) ltac:(lra)). pose proof (prod_le (sd * cd) (ca - 1) 0.408 0.00001 ltac:(lra) ltac:(lra)).
        pose proof (prod_le s ca 0.000046 1 ltac:(lra) ltac:(lra)). pose proof (prod_le (s * ca) cd 0.000046 1 ltac:(lra) ltac:(lra)). lra. }
      destruct (atan2_turn ((sd - s) * ca) (cd - s * ch) (rad w)) as (k & K); rewrite <- sind_rad, <- cosd_rad, <- Es, <- Ec in *.
      { replace ((cd - s * ch) * cd + (sd - s) * ca * sd) with den by (unfold den; ring). lra. }
      replace ((cd - s * ch) * cd + (sd - s) * ca * sd) with den in K by (unfold den; ring). replace ((sd - s) * ca * cd - (cd - s * ch) * sd) with num in K by (unfold num; ring).
      assert (SM : Rabs (atan (num / den)) <= 0.01).
      { pose proof (atan_lip (num / den) 0) as L. rewrite atan_0, !Rminus_0_r in L. eapply Rle_trans; [exact L|]. unfold Rdiv. rewrite Rabs_mult, (Rabs_pos_eq (/ den)) by (apply Rlt_le, Rinv_0_lt_compat; lra).
        assert (Rabs num <= 0.001) by (apply Rabs_le; lra). assert (/ den <= / 0.99) by (apply Rinv_le; lra). assert (0 <= / den) by (apply Rlt_le, Rinv_0_lt_compat; lra). pose proof (Rabs_pos num).
        apply Rle_trans with (0.001 * / 0.99); [apply Rmult_le_compat; assumption|lra]. }
      assert (k = 0%Z); [|subst k; rewrite K; ring].
      apply (no_turn (Ratan2 ((sd - s) * ca) (cd - s * ch)) (rad w) k 0.01).
      - apply atan2_deg_range. lra.
      - rewrite deg_rad. exact Hw.
      - lra.
      - rewrite K. match goal with |- Rabs ?z <= _ => replace z with (atan (num / den)) by ring end. exact SM. }
    unfold lib_dec. destruct MY as [? ? ? ? ? ? ? ? ? ? ? ? ? ? ? ? ?].
    rewrite (R (sun_delta j) _ _ _ _ _ mv_cd0 (delta_range j Hj) eq_refl eq_refl mv_s0 mv_ch0 mv_sd0 CA).
    rewrite (R (sun_delta j') _ _ _ _ _ mv_cd'0 (delta_range j' Hj') eq_refl eq_refl mv_s'0 mv_ch'0 mv_sd'0 CA'). clear R.
    set (z := atan _) in *. set (z' := atan (_ / (cosd (sun_delta j') * _ + _ - _))) in *.
    replace (deg (rad (sun_delta j) + z) - deg (rad (sun_delta j') + z')) with ((sun_delta j - sun_delta j') + deg (z - z')) by (unfold deg, rad; field; apply PI_neq0).
    eapply Rle_trans; [apply Rabs_triang|]. pose proof (deg_small _ _ (0.0075 * D) B ltac:(lra)). lra.
Qed.

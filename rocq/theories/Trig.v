(* Trigonometry used by the real-number proofs: degrees and radians, Python's modulo, the
   two-argument arctangent, and spherical identities. *)
From Coq Require Import Reals Qreals Lra Lia Psatz.
From Flocq Require Import Core.
From Verif Require Import Py Num RInst RTac SpecGeom.
Local Open Scope R_scope.

Lemma PI_pos : 0 < PI. Proof. exact PI_RGT_0. Qed.

Lemma rad_deg x : rad (deg x) = x.
Proof. unfold rad, deg. field. apply PI_ne0. Qed.
Lemma deg_rad x : deg (rad x) = x.
Proof. unfold rad, deg. field. apply PI_ne0. Qed.
Lemma sind_rad x : sind x = sin (rad x).
Proof. unfold sind, rad. f_equal. lra. Qed.
Lemma cosd_rad x : cosd x = cos (rad x).
Proof. unfold cosd, rad. f_equal. lra. Qed.
Lemma tand_rad x : tand x = tan (rad x).
Proof. unfold tand, rad. f_equal. lra. Qed.
Lemma sind_deg x : sind (deg x) = sin x.
Proof. now rewrite sind_rad, rad_deg. Qed.
Lemma cosd_deg x : cosd (deg x) = cos x.
Proof. now rewrite cosd_rad, rad_deg. Qed.
Lemma tand_deg x : tand (deg x) = tan x.
Proof. now rewrite tand_rad, rad_deg. Qed.
Lemma tand_def x : tand x = sind x / cosd x.
Proof. reflexivity. Qed.

Lemma sincosd x : sind x * sind x + cosd x * cosd x = 1.
Proof. pose proof (sin2_cos2 (x * PI / 180)) as H. unfold Rsqr in H. exact H. Qed.
Lemma sind_bound x : -1 <= sind x <= 1.
Proof. apply SIN_bound. Qed.
Lemma cosd_bound x : -1 <= cosd x <= 1.
Proof. apply COS_bound. Qed.

Lemma deg_le a b : a <= b -> deg a <= deg b.
Proof. intros. unfold deg. apply Rmult_le_compat_r; [|lra]. pose proof PI_pos. apply Rlt_le, Rdiv_lt_0_compat; lra. Qed.
Lemma deg_lt a b : a < b -> deg a < deg b.
Proof. intros. unfold deg. apply Rmult_lt_compat_r; [|lra]. pose proof PI_pos. apply Rdiv_lt_0_compat; lra. Qed.
Lemma rad_le a b : a <= b -> rad a <= rad b.
Proof. intros. unfold rad. pose proof PI_pos. apply Rmult_le_compat_r; lra. Qed.
Lemma rad_lt a b : a < b -> rad a < rad b.
Proof. intros. unfold rad. pose proof PI_pos. apply Rmult_lt_compat_r; lra. Qed.
Lemma deg_PI : deg PI = 180.
Proof. unfold deg. field. apply PI_ne0. Qed.
Lemma deg_PI2 : deg (PI / 2) = 90.
Proof. unfold deg. field. apply PI_ne0. Qed.
Lemma deg_opp x : deg (- x) = - deg x.
Proof. unfold deg. lra. Qed.
Lemma rad_opp x : rad (- x) = - rad x.
Proof. unfold rad. lra. Qed.
Lemma deg_plus a b : deg (a + b) = deg a + deg b.
Proof. unfold deg. lra. Qed.
Lemma rad_plus a b : rad (a + b) = rad a + rad b.
Proof. unfold rad. lra. Qed.
Lemma rad_minus a b : rad (a - b) = rad a - rad b.
Proof. unfold rad. lra. Qed.
Lemma rad_90 : rad 90 = PI / 2.
Proof. unfold rad. lra. Qed.
Lemma rad_180 : rad 180 = PI.
Proof. unfold rad. lra. Qed.
Lemma rad_0 : rad 0 = 0.
Proof. unfold rad. lra. Qed.
Lemma deg_0 : deg 0 = 0.
Proof. unfold deg. lra. Qed.

Lemma sind_0 : sind 0 = 0. Proof. rewrite sind_rad, rad_0. apply sin_0. Qed.
Lemma cosd_0 : cosd 0 = 1. Proof. rewrite cosd_rad, rad_0. apply cos_0. Qed.
Lemma sind_90 : sind 90 = 1. Proof. rewrite sind_rad, rad_90. apply sin_PI2. Qed.
Lemma cosd_90 : cosd 90 = 0. Proof. rewrite cosd_rad, rad_90. apply cos_PI2. Qed.
Lemma sind_opp x : sind (- x) = - sind x. Proof. rewrite !sind_rad, rad_opp. apply sin_neg. Qed.
Lemma cosd_opp x : cosd (- x) = cosd x. Proof. rewrite !cosd_rad, rad_opp. apply cos_neg. Qed.

Lemma cosd_supp x : cosd (180 - x) = - cosd x.
Proof.
  rewrite !cosd_rad, rad_minus, rad_180. set (y := rad x). unfold Rminus.
  rewrite cos_plus, cos_neg, sin_neg, cos_PI, sin_PI. ring.
Qed.
Lemma sind_supp x : sind (180 - x) = sind x.
Proof.
  rewrite !sind_rad, rad_minus, rad_180. set (y := rad x). unfold Rminus.
  rewrite sin_plus, cos_neg, sin_neg, cos_PI, sin_PI. ring.
Qed.

(* cos >= 0 on latitudes *)
Lemma cosd_nonneg x : -90 <= x <= 90 -> 0 <= cosd x.
Proof. intros. pose proof rad_90. pose proof (rad_opp 90). rewrite cosd_rad. apply cos_ge_0; rewrite <- rad_90; [rewrite <- rad_opp|]; apply rad_le; lra. Qed.
Lemma cosd_pos x : -90 < x < 90 -> 0 < cosd x.
Proof. intros. rewrite cosd_rad. apply cos_gt_0; rewrite <- rad_90; [rewrite <- rad_opp|]; apply rad_lt; lra. Qed.
Lemma sind_pos x : 0 < x < 180 -> 0 < sind x.
Proof. intros. rewrite sind_rad. apply sin_gt_0; [rewrite <- rad_0|rewrite <- rad_180]; apply rad_lt; lra. Qed.
Lemma sind_nonneg x : 0 <= x <= 180 -> 0 <= sind x.
Proof. intros. rewrite sind_rad. apply sin_ge_0; [rewrite <- rad_0|rewrite <- rad_180]; apply rad_le; lra. Qed.
Lemma sind_incr a b : -90 <= a -> a < b -> b <= 90 -> sind a < sind b.
Proof.
  intros. rewrite !sind_rad. assert (rad (-90) = - (PI / 2)) by (unfold rad; lra). pose proof rad_90.
  apply sin_increasing_1; try (rewrite <- ?H2, <- ?H3; apply rad_le; lra). apply rad_lt. lra.
Qed.

(* ---------------------------------------------------------------- modulo *)
Lemma Rfmod_range x y : 0 < y -> 0 <= Rfmod x y < y.
Proof.
  intros H. unfold Rfmod. pose proof (Zfloor_lb (x / y)). pose proof (Zfloor_ub (x / y)).
  assert (x = y * (x / y)) by (field; lra). set (k := IZR (Zfloor (x / y))) in *. split; nra.
Qed.
Lemma Rfmod_eq x y : exists k : Z, Rfmod x y = x - y * IZR k.
Proof. exists (Zfloor (x / y)). reflexivity. Qed.
Lemma Rfmod_shift x y (k : Z) : y <> 0 -> Rfmod (x + y * IZR k) y = Rfmod x y.
Proof.
  intros H. unfold Rfmod. replace ((x + y * IZR k) / y) with (x / y + IZR k) by (field; assumption).
  replace (Zfloor (x / y + IZR k)) with (Zfloor (x / y) + k)%Z.
  - rewrite plus_IZR. ring.
  - symmetry. apply Zfloor_imp. rewrite !plus_IZR. pose proof (Zfloor_lb (x / y)). pose proof (Zfloor_ub (x / y)). lra.
Qed.
Lemma Rfmod_id x y : 0 <= x < y -> Rfmod x y = x.
Proof.
  intros H. unfold Rfmod. replace (Zfloor (x / y)) with 0%Z; [simpl; lra|].
  symmetry. apply Zfloor_imp. simpl. assert (0 < y) by lra. split.
  - apply Rmult_le_pos; [lra|]. left. apply Rinv_0_lt_compat. lra.
  - apply Rmult_lt_reg_r with y; [lra|]. replace (x / y * y) with x by (field; lra). lra.
Qed.
Lemma Rfmod_same x : same_angle (Rfmod x 360) x.
Proof. destruct (Rfmod_eq x 360) as [k E]. exists (- k)%Z. rewrite E, opp_IZR. lra. Qed.

Lemma sin_2kPI x (k : Z) : sin (x + 2 * IZR k * PI) = sin x.
Proof.
  destruct (Z_le_gt_dec 0 k).
  - rewrite <- (Z2Nat.id k) by assumption. rewrite <- INR_IZR_INZ. apply sin_period.
  - rewrite <- (sin_period (x + 2 * IZR k * PI) (Z.to_nat (- k))). rewrite INR_IZR_INZ, Z2Nat.id by lia.
    rewrite opp_IZR. f_equal. ring.
Qed.
Lemma cos_2kPI x (k : Z) : cos (x + 2 * IZR k * PI) = cos x.
Proof.
  destruct (Z_le_gt_dec 0 k).
  - rewrite <- (Z2Nat.id k) by assumption. rewrite <- INR_IZR_INZ. apply cos_period.
  - rewrite <- (cos_period (x + 2 * IZR k * PI) (Z.to_nat (- k))). rewrite INR_IZR_INZ, Z2Nat.id by lia.
    rewrite opp_IZR. f_equal. ring.
Qed.
Lemma same_angle_sin a b : same_angle a b -> sind a = sind b.
Proof. intros [k ->]. rewrite !sind_rad. rewrite <- (sin_2kPI (rad b) k). f_equal. unfold rad. lra. Qed.
Lemma same_angle_cos a b : same_angle a b -> cosd a = cosd b.
Proof. intros [k ->]. rewrite !cosd_rad. rewrite <- (cos_2kPI (rad b) k). f_equal. unfold rad. lra. Qed.
Lemma same_angle_refl a : same_angle a a.
Proof. exists 0%Z. lra. Qed.
Lemma same_angle_sym a b : same_angle a b -> same_angle b a.
Proof. intros [k ->]. exists (- k)%Z. rewrite opp_IZR. lra. Qed.
Lemma same_angle_trans a b c : same_angle a b -> same_angle b c -> same_angle a c.
Proof. intros [k ->] [j ->]. exists (j + k)%Z. rewrite plus_IZR. lra. Qed.
Lemma sind_fmod x : sind (Rfmod x 360) = sind x.
Proof. apply same_angle_sin, Rfmod_same. Qed.
Lemma cosd_fmod x : cosd (Rfmod x 360) = cosd x.
Proof. apply same_angle_cos, Rfmod_same. Qed.
Lemma same_angle_unique a b : 0 <= a < 360 -> 0 <= b < 360 -> same_angle a b -> a = b.
Proof.
  intros Ha Hb [k E]. assert (k = 0)%Z; [|subst; lra].
  assert (-1 < IZR k < 1) as [K1 K2] by lra. apply lt_IZR in K1. apply lt_IZR in K2. lia.
Qed.

(* ---------------------------------------------------------------- atan2 *)
Lemma Rsgn_cases r : (Rsgn r = Gt /\ 0 < r) \/ (Rsgn r = Eq /\ r = 0) \/ (Rsgn r = Lt /\ r < 0).
Proof. unfold Rsgn. destruct (total_order_T r 0) as [[H|H]|H]; auto. Qed.

Lemma cos_atan x : cos (atan x) = / sqrt (1 + x * x).
Proof. rewrite cos_atan. unfold Rsqr, Rdiv. now rewrite Rmult_1_l. Qed.
Lemma sin_atan x : sin (atan x) = x / sqrt (1 + x * x).
Proof. rewrite sin_atan. reflexivity. Qed.

Lemma sqrt_hyp x y : 0 < x -> sqrt (1 + y / x * (y / x)) = sqrt (x * x + y * y) / x.
Proof.
  intros H. replace (1 + y / x * (y / x)) with ((x * x + y * y) / (x * x)) by (field; lra).
  assert (0 < x * x) by nra. pose proof (Rle_0_sqr y) as Hy. unfold Rsqr in Hy.
  rewrite sqrt_div by lra. rewrite sqrt_square by lra. reflexivity.
Qed.

Lemma atan2_polar y x : let r := sqrt (x * x + y * y) in
  r * cos (Ratan2 y x) = x /\ r * sin (Ratan2 y x) = y.
Proof.
  intros r. unfold Ratan2.
  pose proof (Rle_0_sqr y) as Hy. pose proof (Rle_0_sqr x) as Hx. unfold Rsqr in Hx, Hy.
  destruct (Rsgn_cases x) as [[-> H]|[[-> H]|[-> H]]].
  - rewrite cos_atan, sin_atan, sqrt_hyp by assumption. fold r.
    assert (0 < r) by (apply sqrt_lt_R0; nra). split; field; lra.
  - subst x. destruct (Rsgn_cases y) as [[-> H]|[[-> H]|[-> H]]].
    + rewrite cos_PI2, sin_PI2. unfold r. replace (0 * 0 + y * y) with (y * y) by ring. rewrite sqrt_square; lra.
    + subst y. rewrite cos_0, sin_0. unfold r. replace (0 * 0 + 0 * 0) with 0 by ring. rewrite sqrt_0. lra.
    + rewrite cos_neg, sin_neg, cos_PI2, sin_PI2. unfold r. replace (0 * 0 + y * y) with ((- y) * (- y)) by ring.
      rewrite sqrt_square; lra.
  - assert (R : sqrt (1 + y / x * (y / x)) = r / - x).
    { replace (y / x) with ((- y) / (- x)) by (field; lra). rewrite sqrt_hyp by lra. unfold r. do 2 f_equal. ring. }
    assert (0 < r) by (apply sqrt_lt_R0; nra).
    assert (cos (atan (y / x)) = - x / r /\ sin (atan (y / x)) = - y / r) as [E1 E2].
    { rewrite cos_atan, sin_atan, R. split; field; lra. }
    destruct (Rle_dec 0 y).
    + rewrite neg_cos, neg_sin, E1, E2. split; field; lra.
    + unfold Rminus. rewrite cos_plus, sin_plus, cos_neg, sin_neg, cos_PI, sin_PI, E1, E2. split; field; lra.
Qed.

Lemma atan2_range y x : - PI < Ratan2 y x <= PI.
Proof.
  unfold Ratan2. pose proof (atan_bound (y / x)) as [B1 B2]. pose proof PI_pos.
  destruct (Rsgn_cases x) as [[-> H1]|[[-> H1]|[-> H1]]]; [lra| |].
  - destruct (Rsgn_cases y) as [[-> H2]|[[-> H2]|[-> H2]]]; lra.
  - destruct (Rle_dec 0 y).
    + assert (y / x <= 0). { unfold Rdiv. assert (/ x < 0) by (apply Rinv_lt_0_compat; lra). nra. }
      assert (atan (y / x) <= 0); [|lra]. rewrite <- atan_0. destruct H0 as [H0| ->]; [|lra].
      left. now apply atan_increasing.
    + assert (0 < y / x). { unfold Rdiv. assert (/ x < 0) by (apply Rinv_lt_0_compat; lra). nra. }
      apply atan_increasing in H0. rewrite atan_0 in H0. lra.
Qed.

(* the angle of a point is determined by its coordinates *)
Lemma atan2_scale k y x : 0 < k -> Ratan2 (k * y) (k * x) = Ratan2 y x.
Proof.
  intros K. unfold Ratan2.
  assert (S : forall z, Rsgn (k * z) = Rsgn z).
  { intros z. destruct (Rsgn_cases z) as [[-> H]|[[-> H]|[-> H]]], (Rsgn_cases (k * z)) as [[-> H']|[[-> H']|[-> H']]];
      try reflexivity; exfalso; nra. }
  rewrite !S. destruct (Rsgn_cases x) as [[-> H]|[[-> H]|[-> H]]].
  - f_equal. field; lra.
  - reflexivity.
  - replace (k * y / (k * x)) with (y / x) by (field; lra).
    destruct (Rle_dec 0 (k * y)), (Rle_dec 0 y); try reflexivity; exfalso; nra.
Qed.

(* ---------------------------------------------------------------- spherical identities *)
(* the third coordinate of a rotated unit vector *)
Lemma unit_dot a b c d k : a * a + b * b = 1 -> c * c + d * d = 1 -> -1 <= k <= 1 ->
  -1 <= a * c + b * d * k <= 1.
Proof.
  intros H1 H2 H3.
  (* (ac + bd)^2 + (ad - bc)^2 = 1 and (ac - bd)^2 + (ad + bc)^2 = 1; convex in k *)
  pose proof (Rle_0_sqr (a * d - b * c)) as P1. pose proof (Rle_0_sqr (a * d + b * c)) as P2. unfold Rsqr in P1, P2.
  assert (E1 : (a * c + b * d) * (a * c + b * d) + (a * d - b * c) * (a * d - b * c) = 1).
  { replace 1 with ((a * a + b * b) * (c * c + d * d)) by (rewrite H1, H2; ring). ring. }
  assert (E2 : (a * c - b * d) * (a * c - b * d) + (a * d + b * c) * (a * d + b * c) = 1).
  { replace 1 with ((a * a + b * b) * (c * c + d * d)) by (rewrite H1, H2; ring). ring. }
  set (p := a * c) in *. set (q := b * d) in *.
  assert (A1 : (p + q) * (p + q) <= 1) by lra. assert (A2 : (p - q) * (p - q) <= 1) by lra.
  clearbody p q. clear - H3 A1 A2.
  assert (B1 : -1 <= p + q <= 1) by nra. assert (B2 : -1 <= p - q <= 1) by nra. clear A1 A2.
  replace (p + q * k) with (((1 + k) * (p + q) + (1 - k) * (p - q)) / 2) by lra.
  set (x := p + q) in *. set (y := p - q) in *. clearbody x y. nra.
Qed.

Lemma cos_asin_sqr x : -1 <= x <= 1 -> cos (asin x) * cos (asin x) = 1 - x * x.
Proof.
  intros H. pose proof (sin2_cos2 (asin x)) as E. unfold Rsqr in E. rewrite sin_asin in E by assumption. lra.
Qed.
Lemma cos_asin_nonneg x : 0 <= cos (asin x).
Proof. apply cos_ge_0; apply asin_bound. Qed.
Lemma sqr_eq_nonneg a b : 0 <= a -> 0 <= b -> a * a = b * b -> a = b.
Proof. intros. nra. Qed.
Lemma cos_asin_sqrt x : -1 <= x <= 1 -> cos (asin x) = sqrt (1 - x * x).
Proof.
  intros H. apply sqr_eq_nonneg; [apply cos_asin_nonneg|apply sqrt_pos|]. rewrite cos_asin_sqr by assumption.
  rewrite sqrt_sqrt; [reflexivity|nra].
Qed.
Lemma deg_asin_range x : -90 <= deg (asin x) <= 90.
Proof. pose proof (asin_bound x) as [B1 B2]. apply deg_le in B1, B2. rewrite deg_opp in B1. rewrite deg_PI2 in B1, B2. lra. Qed.
Lemma deg_acos_range x : 0 <= deg (acos x) <= 180.
Proof. pose proof (acos_bound x). split; [rewrite <- deg_0|rewrite <- deg_PI]; apply deg_le; lra. Qed.

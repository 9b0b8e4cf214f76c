(* How much elevation, azimuth and refraction move when declination and hour angle do. *)
From Coq Require Import Reals Qreals Lra Lia Psatz.
From Flocq Require Import Core.
From Interval Require Import Tactic.
From Verif Require Import Py Num Solar RInst RTac SpecGeom Trig SpaProofs.
Local Open Scope R_scope.

(* three unit vectors: the determinant is real, so their cosines satisfy this *)
Lemma gram n1 n2 n3 u1 u2 u3 w1 w2 w3 a b c :
  n1 * n1 + n2 * n2 + n3 * n3 = 1 -> u1 * u1 + u2 * u2 + u3 * u3 = 1 -> w1 * w1 + w2 * w2 + w3 * w3 = 1 ->
  a = n1 * u1 + n2 * u2 + n3 * u3 -> b = n1 * w1 + n2 * w2 + n3 * w3 -> c = u1 * w1 + u2 * w2 + u3 * w3 ->
  0 <= 1 + 2 * (a * b * c) - a * a - b * b - c * c.
Proof.
  intros Hn Hu Hw -> -> ->.
  set (det := n1 * (u2 * w3 - u3 * w2) - n2 * (u1 * w3 - u3 * w1) + n3 * (u1 * w2 - u2 * w1)).
  replace (1 + _ - _ - _ - _) with (det * det); [apply Rle_0_sqr|].
  transitivity ((n1 * n1 + n2 * n2 + n3 * n3) * (u1 * u1 + u2 * u2 + u3 * u3) * (w1 * w1 + w2 * w2 + w3 * w3)
    + 2 * ((n1 * u1 + n2 * u2 + n3 * u3) * (n1 * w1 + n2 * w2 + n3 * w3) * (u1 * w1 + u2 * w2 + u3 * w3))
    - (w1 * w1 + w2 * w2 + w3 * w3) * ((n1 * u1 + n2 * u2 + n3 * u3) * (n1 * u1 + n2 * u2 + n3 * u3))
    - (u1 * u1 + u2 * u2 + u3 * u3) * ((n1 * w1 + n2 * w2 + n3 * w3) * (n1 * w1 + n2 * w2 + n3 * w3))
    - (n1 * n1 + n2 * n2 + n3 * n3) * ((u1 * w1 + u2 * w2 + u3 * w3) * (u1 * w1 + u2 * w2 + u3 * w3))).
  - unfold det. ring.
  - rewrite Hn, Hu, Hw. ring.
Qed.
Lemma acos_triangle a b t : -1 <= a <= 1 -> -1 <= b <= 1 -> 0 <= t ->
  (t <= PI -> exists c, -1 <= c <= 1 /\ cos t <= c /\ 0 <= 1 + 2 * (a * b * c) - a * a - b * b - c * c) -> acos a <= acos b + t.
Proof.
  intros Ha Hb Ht K. destruct (acos_bound a) as [A1 A2]. destruct (acos_bound b) as [B1 B2].
  destruct (Rle_lt_dec PI (acos b + t)) as [|C]; [lra|]. destruct K as (c & Hc & Hct & K); [lra|].
  destruct (acos_bound c) as [C1 C2]. assert (CT : acos c <= t).
  { apply Rnot_lt_le. intros N. apply cos_decreasing_1 in N; try lra. rewrite cos_acos in N by lra. lra. }
  apply Rle_trans with (acos b + acos c); [|lra].
  apply Rnot_lt_le. intros N. assert (N2 := N). apply cos_decreasing_1 in N2; try lra. rewrite cos_plus, !cos_acos in N2 by lra.
  assert (SB : 0 <= sin (acos b)) by (apply sin_ge_0; lra). assert (SC' : 0 <= sin (acos c)) by (apply sin_ge_0; lra).
  assert (QB : sin (acos b) * sin (acos b) = 1 - b * b).
  { pose proof (sin2_cos2 (acos b)) as S. unfold Rsqr in S. rewrite cos_acos in S by lra. lra. }
  assert (QC : sin (acos c) * sin (acos c) = 1 - c * c).
  { pose proof (sin2_cos2 (acos c)) as S. unfold Rsqr in S. rewrite cos_acos in S by lra. lra. }
  set (s := sin (acos b)) in *. set (s' := sin (acos c)) in *. clearbody s s'.
  assert (Q : (s * s') * (s * s') = (1 - b * b) * (1 - c * c)) by (rewrite <- QB, <- QC; ring).
  assert (P : 0 <= s * s') by now apply Rmult_le_pos. set (p := s * s') in *. clearbody p. nra.
Qed.

Definition sin_elev (lat d h : R) : R := sind lat * sind d + cosd lat * cosd d * cosd h.
Lemma sin_elev_bound lat d h : -1 <= sin_elev lat d h <= 1.
Proof. apply unit_dot; [apply sincosd|apply sincosd|apply cosd_bound]. Qed.
Lemma acos_abs t : cosd t = cosd (Rabs t).
Proof. unfold Rabs. destruct (Rcase_abs t); [now rewrite cosd_opp|reflexivity]. Qed.
Lemma zenith_move lat d h d' h' : acos (sin_elev lat d h) <= acos (sin_elev lat d' h') + Rabs (rad (d - d')) + Rabs (rad (h - h')).
Proof.
  apply Rle_trans with (acos (sin_elev lat d' h) + Rabs (rad (d - d'))).
  - apply acos_triangle; try apply sin_elev_bound; [apply Rabs_pos|]. intros _. exists (cosd (d - d')). split; [apply cosd_bound|].
    split. { rewrite cosd_rad. unfold Rabs. destruct (Rcase_abs _); [rewrite cos_neg|]; lra. }
    pose proof (sincosd lat). pose proof (sincosd d). pose proof (sincosd d'). pose proof (sincosd h).
    apply (gram (cosd lat) 0 (sind lat) (cosd d * cosd h) (cosd d * sind h) (sind d) (cosd d' * cosd h) (cosd d' * sind h) (sind d')).
    + lra.
    + transitivity (cosd d * cosd d * (sind h * sind h + cosd h * cosd h) + sind d * sind d); [ring|]. rewrite H2. lra.
    + transitivity (cosd d' * cosd d' * (sind h * sind h + cosd h * cosd h) + sind d' * sind d'); [ring|]. rewrite H2. lra.
    + unfold sin_elev. ring.
    + unfold sin_elev. ring.
    + transitivity (cosd d * cosd d' * (sind h * sind h + cosd h * cosd h) + sind d * sind d'); [|ring]. rewrite H2.
      rewrite !cosd_rad, !sind_rad, rad_minus, cos_minus. ring.
  - assert (acos (sin_elev lat d' h) <= acos (sin_elev lat d' h') + Rabs (rad (h - h'))); [|lra].
    apply acos_triangle; try apply sin_elev_bound; [apply Rabs_pos|]. intros _.
    pose proof (sincosd lat). pose proof (sincosd h'). pose proof (sincosd d'). pose proof (sincosd h).
    exists (sind d' * sind d' + cosd d' * cosd d' * cosd (h - h')). pose proof (cosd_bound (h - h')).
    split; [apply unit_dot; try apply sincosd; assumption|].
    split. { replace (cos (Rabs (rad (h - h')))) with (cosd (h - h')); [assert (0 <= sind d' * sind d') by apply Rle_0_sqr; nra|].
      rewrite cosd_rad. unfold Rabs. destruct (Rcase_abs _); [now rewrite cos_neg|reflexivity]. }
    apply (gram (cosd lat) 0 (sind lat) (cosd d' * cosd h) (cosd d' * sind h) (sind d') (cosd d' * cosd h') (cosd d' * sind h') (sind d')).
    + lra.
    + transitivity (cosd d' * cosd d' * (sind h * sind h + cosd h * cosd h) + sind d' * sind d'); [ring|]. rewrite H2. lra.
    + transitivity (cosd d' * cosd d' * (sind h' * sind h' + cosd h' * cosd h') + sind d' * sind d'); [ring|]. rewrite H0. lra.
    + unfold sin_elev. ring.
    + unfold sin_elev. ring.
    + rewrite !cosd_rad, !sind_rad, rad_minus, cos_minus. ring.
Qed.
Lemma rad_abs t : Rabs (rad t) = rad (Rabs t).
Proof. unfold rad. rewrite Rabs_mult. f_equal. apply Rabs_pos_eq. pose proof PI_RGT_0. lra. Qed.
Lemma sin_elev_turns lat d h (k : Z) : sin_elev lat d (h + 360 * IZR k) = sin_elev lat d h.
Proof.
  unfold sin_elev. replace (cosd (h + 360 * IZR k)) with (cosd h); [reflexivity|]. apply same_angle_cos. exists (- k)%Z. rewrite opp_IZR. ring.
Qed.
Lemma elevation_lip lat d h d' h' (k : Z) :
  Rabs (deg (asin (sin_elev lat d h)) - deg (asin (sin_elev lat d' h'))) <= Rabs (d - d') + Rabs (h - h' - 360 * IZR k).
Proof.
  rewrite <- (sin_elev_turns lat d' h' k). set (h2 := h' + 360 * IZR k). replace (h - h' - 360 * IZR k) with (h - h2) by (unfold h2; ring).
  pose proof (zenith_move lat d h d' h2) as A. pose proof (zenith_move lat d' h2 d h) as B.
  rewrite !rad_abs in A, B. rewrite (Rabs_minus_sym d' d), (Rabs_minus_sym h2 h) in B.
  rewrite !asin_acos by apply sin_elev_bound.
  assert (E : forall x y, deg (PI / 2 - x) - deg (PI / 2 - y) = deg (y - x)) by (intros; unfold deg; ring). rewrite E.
  rewrite <- (deg_rad (Rabs (d - d') + Rabs (h - h2))), rad_plus.
  set (m := rad (Rabs (d - d')) + rad (Rabs (h - h2))) in *.
  apply Rabs_le. rewrite <- deg_opp. split; apply deg_le; unfold m; lra.
Qed.

(* asin: Hoelder at the ends, Lipschitz inside *)
Lemma sin_half t : 0 <= t <= PI -> t / PI <= sin (t / 2).
Proof.
  intros H. pose proof PI_RGT_0 as P. destruct (Req_dec t 0) as [->|N]; [replace (0 / 2) with 0 by field; rewrite sin_0; unfold Rdiv; lra|].
  (* concave: t/2 is between 0 and PI/2 *)
  assert (G : forall x, 0 <= x <= PI / 2 -> x * (2 / PI) <= sin x).
  { clear t H N. intros x Hx. set (f := fun x => sin x - x * (2 / PI)).
    assert (F0 : f 0 = 0) by (unfold f; rewrite sin_0; ring). assert (F1 : f (PI / 2) = 0) by (unfold f; rewrite sin_PI2; field; lra).
    apply Rnot_lt_le. intros Hlt. assert (FX : f x < 0) by (unfold f; lra).
    assert (D : forall c, derivable_pt_lim f c (cos c - 2 / PI)).
    { intros c. replace (cos c - 2 / PI) with (cos c - (1 * fct_cte (2 / PI) c + id c * 0)) by (unfold id, fct_cte; ring).
      apply (derivable_pt_lim_minus sin (id * fct_cte (2 / PI))%F); [apply derivable_pt_lim_sin|].
      apply derivable_pt_lim_mult; [apply derivable_pt_lim_id|apply derivable_pt_lim_const]. }
    assert (X0 : 0 < x) by (destruct (Req_dec x 0) as [->|]; lra). assert (X1 : x < PI / 2) by (destruct (Req_dec x (PI / 2)) as [->|]; lra).
    destruct (MVT_cor2 f (fun c => cos c - 2 / PI) 0 x X0 ltac:(intros; apply D)) as (c1 & E1 & R1).
    destruct (MVT_cor2 f (fun c => cos c - 2 / PI) x (PI / 2) X1 ltac:(intros; apply D)) as (c2 & E2 & R2).
    assert (cos c1 - 2 / PI < 0) by nra. assert (0 < cos c2 - 2 / PI) by nra.
    assert (cos c2 < cos c1) by (apply cos_decreasing_1; lra). lra. }
  replace (t / PI) with (t / 2 * (2 / PI)) by (field; lra). apply G. lra.
Qed.
Lemma asin_diff x y : -1 <= x <= 1 -> -1 <= y <= 1 ->
  Rabs (x - y) = 2 * sin (Rabs (asin x - asin y) / 2) * cos ((asin x + asin y) / 2).
Proof.
  intros Hx Hy. destruct (asin_bound x) as [X1 X2]. destruct (asin_bound y) as [Y1 Y2]. pose proof PI_RGT_0.
  rewrite <- (sin_asin x Hx), <- (sin_asin y Hy) at 1. set (a := asin x) in *. set (b := asin y) in *.
  assert (E : sin a - sin b = 2 * sin ((a - b) / 2) * cos ((a + b) / 2)) by (rewrite form4; ring). rewrite E.
  rewrite !Rabs_mult, (Rabs_pos_eq 2), (Rabs_pos_eq (cos _)) by (try lra; apply cos_ge_0; lra).
  f_equal. f_equal. unfold Rabs at 2. destruct (Rcase_abs (a - b)).
  - replace (- (a - b) / 2) with (- ((a - b) / 2)) by field. rewrite sin_neg. unfold Rabs. destruct (Rcase_abs _); [reflexivity|].
    assert (0 <= sin ((b - a) / 2)) by (apply sin_ge_0; lra). replace ((b - a) / 2) with (- ((a - b) / 2)) in * by field. rewrite sin_neg in *. lra.
  - apply Rabs_pos_eq. apply sin_ge_0; lra.
Qed.
Lemma asin_hoelder x y e : -1 <= x <= 1 -> -1 <= y <= 1 -> Rabs (x - y) <= 2 * (e * e) -> 0 <= e -> Rabs (asin x - asin y) <= PI * e.
Proof.
  intros Hx Hy He Pe. pose proof (asin_diff x y Hx Hy) as E. destruct (asin_bound x) as [X1 X2]. destruct (asin_bound y) as [Y1 Y2]. pose proof PI_RGT_0.
  set (t := Rabs (asin x - asin y)) in *. assert (T : 0 <= t <= PI) by (split; [apply Rabs_pos|unfold t; apply Rabs_le; lra]).
  pose proof (sin_half t T) as S.
  assert (C : sin (t / 2) <= cos ((asin x + asin y) / 2)).
  { rewrite <- cos_shift. assert (U : Rabs ((asin x + asin y) / 2) <= PI / 2 - t / 2).
    { unfold t. unfold Rabs. destruct (Rcase_abs ((asin x + asin y) / 2)), (Rcase_abs (asin x - asin y)); lra. }
    replace (cos ((asin x + asin y) / 2)) with (cos (Rabs ((asin x + asin y) / 2))); [|unfold Rabs; destruct (Rcase_abs _); [apply cos_neg|reflexivity]].
    pose proof (Rabs_pos ((asin x + asin y) / 2)). apply cos_decr_1; lra. }
  assert (P0 : 0 <= t / PI) by (apply Rle_mult_inv_pos; lra).
  assert (t / PI <= e).
  { apply Rnot_lt_le. intros N. rewrite E in He. assert (e < sin (t / 2)) by lra. set (s := sin (t / 2)) in *. set (c := cos _) in *. nra. }
  replace t with (PI * (t / PI)) by (field; lra). apply Rmult_le_compat_l; lra.
Qed.
Lemma asin_lip_inner x y m : -1 <= x <= 1 -> -1 <= y <= 1 -> 0 <= m < PI / 2 -> Rabs (asin x) <= m -> Rabs (asin y) <= m ->
  Rabs (asin x - asin y) <= PI / 2 * Rabs (x - y) / cos m.
Proof.
  intros Hx Hy Hm Ax Ay. pose proof (asin_diff x y Hx Hy) as E. pose proof PI_RGT_0. apply Rabs_le_inv in Ax, Ay.
  set (t := Rabs (asin x - asin y)) in *. assert (T : 0 <= t <= PI) by (split; [apply Rabs_pos|unfold t; apply Rabs_le; lra]).
  pose proof (sin_half t T) as S. assert (CM : 0 < cos m) by (apply cos_gt_0; lra).
  assert (C : cos m <= cos ((asin x + asin y) / 2)).
  { replace (cos ((asin x + asin y) / 2)) with (cos (Rabs ((asin x + asin y) / 2))); [|unfold Rabs; destruct (Rcase_abs _); [apply cos_neg|reflexivity]].
    assert (Rabs ((asin x + asin y) / 2) <= m) by (apply Rabs_le; lra). pose proof (Rabs_pos ((asin x + asin y) / 2)). apply cos_decr_1; lra. }
  assert (P0 : 0 <= t / PI) by (apply Rle_mult_inv_pos; lra).
  apply Rmult_le_reg_r with (cos m); [assumption|]. replace (PI / 2 * Rabs (x - y) / cos m * cos m) with (PI / 2 * Rabs (x - y)) by (field; lra).
  rewrite E. set (s := sin (t / 2)) in *. set (c := cos ((asin x + asin y) / 2)) in *.
  replace t with (PI * (t / PI)) at 1 by (field; lra). assert (t / PI * cos m <= s * c) by (apply Rmult_le_compat; lra). nra.
Qed.

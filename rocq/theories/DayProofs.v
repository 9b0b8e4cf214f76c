(* Day length: how the interval between sunrise and sunset changes with latitude and over the year. *)
From Coq Require Import Reals Lra Lia Psatz.
From Flocq Require Import Core.
From Coquelicot Require Import Coquelicot.
From Interval Require Import Tactic.
From Verif Require Import Py Num Cal TzCheck Clock Constants SolarTime Solar Util RInst RTac Trig SpaProofs SpecTime SpecDt SpecGeom SpecEng SunriseProofs Samples
  SpecB64 SpecRise B64 B64Lemmas B64Fast B64Sunrise.
Local Open Scope R_scope.

(* cosine of the hour angle at sunrise, in radians *)
Definition rise_cos (s f d : R) : R := (s - sin f * sin d) / (cos f * cos d).
Lemma cos_H_rise lat decl : -90 < lat < 90 -> -90 < decl < 90 -> cos_H lat decl = rise_cos (cosd 90.833) (rad lat) (rad decl).
Proof.
  intros Hl Hd. pose proof (cosd_pos lat Hl) as A. pose proof (cosd_pos decl Hd) as B. unfold cos_H, rise_cos.
  rewrite !tand_def, <- !cosd_rad, <- !sind_rad. field. lra.
Qed.
Lemma rise_sym s f d : rise_cos s f d = rise_cos s d f.
Proof. unfold rise_cos. rewrite (Rmult_comm (sin f)), (Rmult_comm (cos f)). reflexivity. Qed.

Lemma rise_derive s f d : 0 < cos f -> 0 < cos d ->
  is_derive (fun f => rise_cos s f d) f ((s * sin f - sin d) / (cos f * cos f * cos d)).
Proof.
  intros Hf Hd. unfold rise_cos. assert (cos f * cos d <> 0) by (apply Rmult_integral_contrapositive_currified; lra).
  auto_derive; [assumption|].
  pose proof (sin2_cos2 f) as E. unfold Rsqr in E.
  apply Rmult_eq_reg_r with (cos f * cos f * cos d * cos d); [|nra].
  field_simplify; [|lra|lra]. 
  replace (sin f ^ 2) with (1 - cos f * cos f) by (simpl; nra). ring.
Qed.

(* the cosine falls by at least g per radian *)
Lemma rise_falls s d f1 f2 g : Rabs s <= 1 -> - (PI / 2) < f1 -> f1 <= f2 -> f2 < PI / 2 -> 0 < cos d -> 0 <= g ->
  (forall f, f1 <= f <= f2 -> g <= sin d - s * sin f) ->
  g * (f2 - f1) <= rise_cos s f1 d - rise_cos s f2 d.
Proof.
  intros Hs H1 H12 H2 Hd Hg G.
  destruct (MVT_gen (fun f => rise_cos s f d) f1 f2 (fun f => (s * sin f - sin d) / (cos f * cos f * cos d))) as (c & HC & E).
  - intros f Hf. rewrite Rmin_left, Rmax_right in Hf by assumption. apply rise_derive; [apply cos_gt_0; lra|assumption].
  - intros f Hf. rewrite Rmin_left, Rmax_right in Hf by assumption.
    apply continuity_pt_filterlim, (ex_derive_continuous (fun f => rise_cos s f d) f). eexists. apply rise_derive; [apply cos_gt_0; lra|assumption].
  - rewrite Rmin_left, Rmax_right in HC by assumption. specialize (G c HC).
    assert (C : 0 < cos c) by (apply cos_gt_0; lra). pose proof (COS_bound c) as [_ C1]. pose proof (COS_bound d) as [_ C2].
    assert (K0 : 0 < cos c * cos c <= 1) by (split; nra). assert (K : 0 < cos c * cos c * cos d <= 1) by (split; [apply Rmult_lt_0_compat; lra|nra]).
    assert (I : g <= (sin d - s * sin c) / (cos c * cos c * cos d)).
    { apply Rle_div_r; [apply K|nra]. }
    replace (rise_cos s f1 d - rise_cos s f2 d) with ((sin d - s * sin c) / (cos c * cos c * cos d) * (f2 - f1)); [nra|].
    replace (rise_cos s f1 d - rise_cos s f2 d) with (- (rise_cos s f2 d - rise_cos s f1 d)) by ring. rewrite E. field. lra.
Qed.

(* hours from the cosine *)
Lemma hours_of_cos H1 H2 x1 x2 g : 0 <= H1 <= 12 -> 0 <= H2 <= 12 -> cosd (15 * H1) = x1 -> cosd (15 * H2) = x2 ->
  0 <= g -> rad g <= x1 - x2 -> g / 15 <= H2 - H1.
Proof.
  intros R1 R2 E1 E2 Hg G. pose proof PI_RGT_0 as P. rewrite cosd_rad in E1, E2.
  assert (G0 : 0 <= rad g) by (unfold rad; nra).
  assert (B : forall H, 0 <= H <= 12 -> 0 <= rad (15 * H) <= PI) by (intros H ?; unfold rad; nra).
  assert (L : rad (15 * H1) <= rad (15 * H2)).
  { destruct (Rle_lt_dec (rad (15 * H1)) (rad (15 * H2))) as [L|L]; [assumption|].
    pose proof (cos_decreasing_1 (rad (15 * H2)) (rad (15 * H1)) (proj1 (B H2 R2)) (proj2 (B H2 R2)) (proj1 (B H1 R1)) (proj2 (B H1 R1)) L). lra. }
  pose proof (cos_lip (rad (15 * H1)) (rad (15 * H2))) as C. rewrite (Rabs_minus_sym (rad (15 * H1))), (Rabs_pos_eq (_ - rad (15 * H1))) in C by lra.
  apply Rabs_le_inv in C. assert (D : rad g <= rad (15 * H2) - rad (15 * H1)) by lra. unfold rad in D. nra.
Qed.

Lemma rise_s : cosd 90.833 = - sind 0.833.
Proof. rewrite cosd_rad, sind_rad. replace (rad 90.833) with (PI / 2 + rad 0.833) by (unfold rad; lra). rewrite cos_plus, cos_PI2, sin_PI2. ring. Qed.
Lemma sind_833 : 0.0145 <= sind 0.833 <= 0.01454.
Proof. unfold sind. split; interval. Qed.
Lemma rad_open x : -90 < x < 90 -> - (PI / 2) < rad x < PI / 2.
Proof. intros H. pose proof PI_RGT_0. unfold rad. split; nra. Qed.
Lemma rises_mirror lat decl H : rises_at lat decl H -> rises_at (- lat) (- decl) H.
Proof.
  unfold rises_at, dot, equatorial, up. rewrite !cosd_rad, !sind_rad, !rad_opp, !cos_neg, !sin_neg. intros E. rewrite <- E. ring.
Qed.

Lemma longer_lat lat1 lat2 decl H1 H2 : -90 < lat1 -> lat1 <= lat2 -> lat2 < 90 -> -90 < decl < 90 ->
  0 <= H1 <= 12 -> 0 <= H2 <= 12 -> rises_at lat1 decl H1 -> rises_at lat2 decl H2 -> sind 0.833 <= sind decl ->
  (sind decl - sind 0.833) * (lat2 - lat1) / 15 <= H2 - H1.
Proof.
  intros L1 L12 L2 Hd R1 R2 E1 E2 G. apply rises_cos in E1; [|lra|assumption]. apply rises_cos in E2; [|lra|assumption].
  pose proof sind_833 as S8. pose proof PI_RGT_0 as P.
  apply (hours_of_cos _ _ _ _ _ R1 R2 E1 E2); [nra|]. rewrite !cos_H_rise by lra.
  replace (rad ((sind decl - sind 0.833) * (lat2 - lat1))) with ((sind decl - sind 0.833) * (rad lat2 - rad lat1)) by (unfold rad; lra).
  pose proof (rad_open lat1 ltac:(lra)). pose proof (rad_open lat2 ltac:(lra)).
  apply rise_falls; try lra.
  - rewrite rise_s, Rabs_Ropp, Rabs_pos_eq; lra.
  - unfold rad. nra.
  - rewrite <- cosd_rad. now apply cosd_pos.
  - intros f _. rewrite rise_s, <- sind_rad. pose proof (SIN_bound f). nra.
Qed.

Lemma longer_dec lat d1 d2 H1 H2 : -90 < lat < 90 -> -28 <= d1 -> d1 <= d2 -> d2 <= 28 ->
  0 <= H1 <= 12 -> 0 <= H2 <= 12 -> rises_at lat d1 H1 -> rises_at lat d2 H2 -> 0.007 <= sind lat ->
  (sind lat - 0.007) * (d2 - d1) / 15 <= H2 - H1.
Proof.
  intros Hl D1 D12 D2 R1 R2 E1 E2 G. apply rises_cos in E1; [|assumption|lra]. apply rises_cos in E2; [|assumption|lra].
  pose proof sind_833 as S8. pose proof PI_RGT_0 as P.
  apply (hours_of_cos _ _ _ _ _ R1 R2 E1 E2); [nra|]. rewrite !cos_H_rise by lra. rewrite !(rise_sym _ (rad lat)).
  replace (rad ((sind lat - 0.007) * (d2 - d1))) with ((sind lat - 0.007) * (rad d2 - rad d1)) by (unfold rad; lra).
  pose proof (rad_open d1 ltac:(lra)). pose proof (rad_open d2 ltac:(lra)).
  apply rise_falls; try lra.
  - rewrite rise_s, Rabs_Ropp, Rabs_pos_eq; lra.
  - unfold rad. nra.
  - rewrite <- cosd_rad. now apply cosd_pos.
  - intros f Hf. rewrite rise_s, <- sind_rad.
    assert (B : - 0.47 <= sin f <= 0.47).
    { assert (rad (-28) <= f <= rad 28) by (split; [eapply Rle_trans; [|apply Hf]|eapply Rle_trans; [apply Hf|]]; unfold rad; nra).
      unfold rad in *. split; interval with (i_bisect f). }
    nra.
Qed.

(* ---------------------------------------------------------------- C120 *)
Definition length_us (sr ss : datetime) : Z := (dt_local ss - dt_local sr)%Z.

Lemma poleward d u day h m lat1 lat2 lon sr1 ss1 tr1 sr2 ss2 tr2 :
  instant d u -> civil_clock (dt_local d) day h m -> -90 < lat1 -> lat1 <= lat2 -> lat2 < 90 ->
  get_sunrise_sunset_transit (N := MathR) (Fin lat1) (Fin lon) d = Ok (sr1, ss1, tr1) ->
  get_sunrise_sunset_transit (N := MathR) (Fin lat2) (Fin lon) d = Ok (sr2, ss2, tr2) ->
  let decl := fourier_declination (IZR day) in
  (sind 0.833 <= sind decl ->
    240000000 * (sind decl - sind 0.833) * (lat2 - lat1) - 1 <= IZR (dt_local sr1 - dt_local sr2) /\
    240000000 * (sind decl - sind 0.833) * (lat2 - lat1) - 1 <= IZR (dt_local ss2 - dt_local ss1)) /\
  (sind decl <= - sind 0.833 ->
    240000000 * (- sind decl - sind 0.833) * (lat2 - lat1) - 1 <= IZR (dt_local sr2 - dt_local sr1) /\
    240000000 * (- sind decl - sind 0.833) * (lat2 - lat1) - 1 <= IZR (dt_local ss1 - dt_local ss2)).
Proof.
  intros Hi Hc L1 L12 L2 G1 G2 decl.
  destruct (sunrise_solution d u day h m lat1 lon sr1 ss1 tr1 Hi Hc ltac:(lra) G1) as (H1 & R1 & E1 & _ & A1 & B1 & _).
  destruct (sunrise_solution d u day h m lat2 lon sr2 ss2 tr2 Hi Hc ltac:(lra) G2) as (H2 & R2 & E2 & _ & A2 & B2 & _).
  pose proof (fourier_declination_range (IZR day)) as F. fold decl in E1, E2, F. clearbody decl.
  set (noon := transit_hours _ _ _) in *. clearbody noon. unfold hours_after in *.
  apply Rabs_le_inv in A1. apply Rabs_le_inv in B1. apply Rabs_le_inv in A2. apply Rabs_le_inv in B2. rewrite !minus_IZR.
  split; intros G.
  - pose proof (longer_lat lat1 lat2 decl H1 H2 L1 L12 L2 ltac:(lra) R1 R2 E1 E2 G) as K. split; lra.
  - apply rises_mirror in E1. apply rises_mirror in E2.
    assert (G' : sind 0.833 <= sind (- decl)) by (rewrite (sind_rad (- decl)), rad_opp, sin_neg, <- sind_rad; lra).
    pose proof (longer_lat (- lat2) (- lat1) (- decl) H2 H1 ltac:(lra) ltac:(lra) ltac:(lra) ltac:(lra) R2 R1 E2 E1 G') as K.
    rewrite (sind_rad (- decl)), rad_opp, sin_neg, <- sind_rad in K. split; lra.
Qed.

Lemma lengthens d u day h m d' u' day' h' m' lat lon lon' sr ss tr sr' ss' tr' :
  instant d u -> civil_clock (dt_local d) day h m -> instant d' u' -> civil_clock (dt_local d') day' h' m' -> -90 < lat < 90 ->
  get_sunrise_sunset_transit (N := MathR) (Fin lat) (Fin lon) d = Ok (sr, ss, tr) ->
  get_sunrise_sunset_transit (N := MathR) (Fin lat) (Fin lon') d' = Ok (sr', ss', tr') ->
  let decl := fourier_declination (IZR day) in let decl' := fourier_declination (IZR day') in
  decl <= decl' ->
  (0.007 <= sind lat -> 480000000 * (sind lat - 0.007) * (decl' - decl) - 2 <= IZR (length_us sr' ss') - IZR (length_us sr ss)) /\
  (sind lat <= -0.007 -> 480000000 * (- sind lat - 0.007) * (decl' - decl) - 2 <= IZR (length_us sr ss) - IZR (length_us sr' ss')).
Proof.
  intros Hi Hc Hi' Hc' Hl G1 G2 decl decl' D.
  destruct (sunrise_solution d u day h m lat lon sr ss tr Hi Hc Hl G1) as (H1 & R1 & E1 & _ & A1 & B1 & _).
  destruct (sunrise_solution d' u' day' h' m' lat lon' sr' ss' tr' Hi' Hc' Hl G2) as (H2 & R2 & E2 & _ & A2 & B2 & _).
  pose proof (fourier_declination_range (IZR day)) as F. pose proof (fourier_declination_range (IZR day')) as F'.
  fold decl in E1, F. fold decl' in E2, F'. clearbody decl decl'.
  set (n1 := transit_hours _ _ _) in A1, B1. set (n2 := transit_hours _ _ _) in A2, B2. clearbody n1 n2. unfold hours_after in *.
  apply Rabs_le_inv in A1. apply Rabs_le_inv in B1. apply Rabs_le_inv in A2. apply Rabs_le_inv in B2. unfold length_us. rewrite !minus_IZR.
  split; intros G.
  - pose proof (longer_dec lat decl decl' H1 H2 Hl ltac:(lra) D ltac:(lra) R1 R2 E1 E2 G) as K. lra.
  - apply rises_mirror in E1. apply rises_mirror in E2.
    assert (G' : 0.007 <= sind (- lat)) by (rewrite (sind_rad (- lat)), rad_opp, sin_neg, <- sind_rad; lra).
    pose proof (longer_dec (- lat) (- decl') (- decl) H2 H1 ltac:(lra) ltac:(lra) ltac:(lra) ltac:(lra) R2 R1 E2 E1 G') as K.
    rewrite (sind_rad (- lat)), rad_opp, sin_neg, <- sind_rad in K. lra.
Qed.

(* the declination over the year *)
Lemma decl_derive t : is_derive fourier_declination t
  (2 * PI / 366 * (22.971 * sin (2 * PI * t / 366) + 2 * 0.357898 * sin (2 * (2 * PI * t / 366)) + 3 * 0.14398 * sin (3 * (2 * PI * t / 366))
   + 3.94638 * cos (2 * PI * t / 366) + 2 * 0.019334 * cos (2 * (2 * PI * t / 366)) + 3 * 0.05928 * cos (3 * (2 * PI * t / 366)))).
Proof.
  unfold fourier_declination, sind, cosd. auto_derive; [exact I|].
  replace (360 * t * / 366 * PI * / 180) with (2 * PI * t / 366) by field.
  replace (2 * (360 * t * / 366) * PI * / 180) with (2 * (2 * PI * t / 366)) by field.
  replace (3 * (360 * t * / 366) * PI * / 180) with (3 * (2 * PI * t / 366)) by field.
  field.
Qed.
Lemma decl_slope a b k : (forall t, a <= t <= b -> k <= 2 * PI / 366 * (22.971 * sin (2 * PI * t / 366) + 2 * 0.357898 * sin (2 * (2 * PI * t / 366)) + 3 * 0.14398 * sin (3 * (2 * PI * t / 366))
   + 3.94638 * cos (2 * PI * t / 366) + 2 * 0.019334 * cos (2 * (2 * PI * t / 366)) + 3 * 0.05928 * cos (3 * (2 * PI * t / 366)))) ->
  a <= b -> k * (b - a) <= fourier_declination b - fourier_declination a.
Proof.
  intros K H. destruct (MVT_gen fourier_declination a b _ (fun t _ => decl_derive t)) as (c & HC & E).
  - intros t _. apply continuity_pt_filterlim, (ex_derive_continuous fourier_declination t). eexists. apply decl_derive.
  - rewrite Rmin_left, Rmax_right in HC by assumption. specialize (K c HC). rewrite E. apply Rmult_le_compat_r; lra.
Qed.
Lemma decl_fall a b k : (forall t, a <= t <= b -> 2 * PI / 366 * (22.971 * sin (2 * PI * t / 366) + 2 * 0.357898 * sin (2 * (2 * PI * t / 366)) + 3 * 0.14398 * sin (3 * (2 * PI * t / 366))
   + 3.94638 * cos (2 * PI * t / 366) + 2 * 0.019334 * cos (2 * (2 * PI * t / 366)) + 3 * 0.05928 * cos (3 * (2 * PI * t / 366))) <= - k) ->
  a <= b -> k * (b - a) <= fourier_declination a - fourier_declination b.
Proof.
  intros K H. destruct (MVT_gen fourier_declination a b _ (fun t _ => decl_derive t)) as (c & HC & E).
  - intros t _. apply continuity_pt_filterlim, (ex_derive_continuous fourier_declination t). eexists. apply decl_derive.
  - rewrite Rmin_left, Rmax_right in HC by assumption. specialize (K c HC).
    replace (fourier_declination a - fourier_declination b) with (- (fourier_declination b - fourier_declination a)) by ring. rewrite E.
    rewrite Ropp_mult_distr_l. apply Rmult_le_compat_r; lra.
Qed.
Lemma decl_rises a b : 1 <= a -> a <= b -> b <= 172 -> 0.004 * (b - a) <= fourier_declination b - fourier_declination a.
Proof.
  intros A AB B. apply decl_slope; [|assumption]. intros t Ht. assert (T : 1 <= t <= 172) by lra. clear - T.
  interval with (i_bisect t, i_autodiff t, i_prec 40).
Qed.
Lemma decl_sinks a b : 174 <= a -> a <= b -> b <= 356 -> 0.004 * (b - a) <= fourier_declination a - fourier_declination b.
Proof.
  intros A AB B. apply decl_fall; [|assumption]. intros t Ht. assert (T : 174 <= t <= 356) by lra. clear - T.
  interval with (i_bisect t, i_autodiff t, i_prec 40).
Qed.
Lemma decl_summer t : 82 <= t <= 264 -> 0.84 <= fourier_declination t <= 23.45.
Proof. intros T. unfold fourier_declination, sind, cosd. split; interval with (i_bisect t, i_autodiff t, i_prec 40). Qed.
Lemma decl_winter t : 1 <= t <= 77 \/ 269 <= t <= 366 -> -23.49 <= fourier_declination t <= -0.84.
Proof. intros [T|T]; unfold fourier_declination, sind, cosd; split; interval with (i_bisect t, i_autodiff t, i_prec 40). Qed.
Lemma decl_year t : 1 <= t <= 366 -> -23.49 <= fourier_declination t <= 23.45.
Proof. intros T. unfold fourier_declination, sind, cosd. split; interval with (i_bisect t, i_autodiff t, i_prec 40). Qed.

Lemma rising_is_cos_H lat decl : -90 < lat < 90 -> -90 < decl < 90 -> rising_cosine lat decl = cos_H lat decl.
Proof.
  intros Hl Hd. rewrite cos_H_rise by assumption. unfold rising_cosine, rise_cos. rewrite rise_s, <- !cosd_rad, <- !sind_rad. f_equal. f_equal.
  unfold sind. rewrite <- sin_neg. f_equal. lra.
Qed.
Lemma rising_low lat t : -65 <= lat <= 65 -> 1 <= t <= 366 -> Rabs (rising_cosine lat (fourier_declination t)) <= 0.99.
Proof.
  intros Hl Ht. pose proof (decl_year t Ht) as D. revert D. generalize (fourier_declination t). clear Ht t. intros x D.
  assert (A : -2.145 <= tand lat <= 2.145) by (unfold tand; split; interval with (i_bisect lat)).
  assert (B : -0.435 <= tand x <= 0.435) by (unfold tand; split; interval with (i_bisect x)).
  assert (C : 0 <= sind 0.833 / (cosd lat * cosd x) <= 0.038).
  { pose proof sind_833 as S8. assert (0.4226 <= cosd lat) by (unfold cosd; interval with (i_bisect lat)). assert (0.917 <= cosd x) by (unfold cosd; interval with (i_bisect x)).
    assert (P : 0.387 <= cosd lat * cosd x) by nra. split; [apply Rle_mult_inv_pos; lra|]. apply Rle_div_l; [lra|]. nra. }
  rewrite rising_is_cos_H by lra. unfold cos_H. rewrite rise_s.
  replace (- sind 0.833 / (cosd lat * cosd x)) with (- (sind 0.833 / (cosd lat * cosd x))) by (unfold Rdiv; ring).
  apply Rabs_le. split; nra.
Qed.
Lemma day_R u day h m : civil_clock u day h m -> 1 <= IZR day <= 366.
Proof. intros H. apply yday_bounds in H as (D & _). split; apply IZR_le; lia. Qed.
Lemma rises_low d u day h m lat lon : instant d u -> civil_clock (dt_local d) day h m -> inside_calendar d -> -65 <= lat <= 65 -> -180 <= lon <= 180 ->
  exists r, get_sunrise_sunset_transit (N := MathR) (Fin lat) (Fin lon) d = Ok r.
Proof.
  intros Hi Hc Hin Hl Ho. pose proof (day_R _ _ _ _ Hc) as D. pose proof (rising_low lat _ Hl D) as B. pose proof (fourier_declination_range (IZR day)) as F.
  apply (sunrise_raises_iff d u day h m lat lon Hi Hc ltac:(lra) Ho Hin). apply has_solution; [lra..|]. apply asin_ok_iff.
  rewrite <- rising_is_cos_H by lra. apply Rabs_le_inv in B. lra.
Qed.

Lemma summer_poleward d u day h m lat1 lat2 lon sr1 ss1 tr1 sr2 ss2 tr2 :
  instant d u -> civil_clock (dt_local d) day h m -> -90 < lat1 -> lat1 < lat2 -> lat2 < 90 ->
  get_sunrise_sunset_transit (N := MathR) (Fin lat1) (Fin lon) d = Ok (sr1, ss1, tr1) ->
  get_sunrise_sunset_transit (N := MathR) (Fin lat2) (Fin lon) d = Ok (sr2, ss2, tr2) ->
  ((82 <= day <= 264)%Z -> (dt_local sr2 <= dt_local sr1 /\ dt_local ss1 <= dt_local ss2)%Z /\
    28000 * (lat2 - lat1) - 1 <= IZR (dt_local sr1 - dt_local sr2) /\ 28000 * (lat2 - lat1) - 1 <= IZR (dt_local ss2 - dt_local ss1)) /\
  ((day <= 77 \/ 269 <= day)%Z -> (dt_local sr1 <= dt_local sr2 /\ dt_local ss2 <= dt_local ss1)%Z /\
    28000 * (lat2 - lat1) - 1 <= IZR (dt_local sr2 - dt_local sr1) /\ 28000 * (lat2 - lat1) - 1 <= IZR (dt_local ss1 - dt_local ss2)).
Proof.
  intros Hi Hc L1 L12 L2 G1 G2. destruct (poleward d u day h m lat1 lat2 lon _ _ _ _ _ _ Hi Hc L1 (Rlt_le _ _ L12) L2 G1 G2) as (A & B).
  pose proof (day_R _ _ _ _ Hc) as D. clear Hi Hc G1 G2.
  assert (M : forall x, 0.84 <= x <= 23.49 -> sind 0.833 + 0.000121 <= sind x).
  { intros x Hx. assert (sind 0.833 + 0.000121 <= sind 0.84) by (unfold sind; interval).
    enough (sind 0.84 <= sind x) by lra. rewrite !sind_rad. apply sin_incr_1; unfold rad; pose proof PI_RGT_0; nra. }
  assert (Z1 : forall a, 28000 * (lat2 - lat1) - 1 <= IZR a -> (0 <= a)%Z).
  { intros a Ha. assert (H : IZR (-1) < IZR a) by (simpl; lra). apply lt_IZR in H. lia. }
  split; intros Hd.
  - assert (X : 82 <= IZR day <= 264) by (split; apply IZR_le; lia). pose proof (decl_summer _ X) as Y.
    specialize (M (fourier_declination (IZR day)) ltac:(lra)). destruct (A ltac:(lra)) as (A1 & A2).
    assert (K : 28000 * (lat2 - lat1) <= 240000000 * (sind (fourier_declination (IZR day)) - sind 0.833) * (lat2 - lat1)) by (apply Rmult_le_compat_r; lra).
    assert (A1' : 28000 * (lat2 - lat1) - 1 <= IZR (dt_local sr1 - dt_local sr2)) by lra.
    assert (A2' : 28000 * (lat2 - lat1) - 1 <= IZR (dt_local ss2 - dt_local ss1)) by lra.
    pose proof (Z1 _ A1'). pose proof (Z1 _ A2'). split; [split; lia|split; assumption].
  - assert (X : 1 <= IZR day <= 77 \/ 269 <= IZR day <= 366) by (destruct Hd; [left|right]; split; try lra; apply IZR_le; lia). pose proof (decl_winter _ X) as Y.
    specialize (M (- fourier_declination (IZR day)) ltac:(lra)).
    rewrite (sind_rad (- _)), rad_opp, sin_neg, <- sind_rad in M. destruct (B ltac:(lra)) as (A1 & A2).
    assert (K : 28000 * (lat2 - lat1) <= 240000000 * (- sind (fourier_declination (IZR day)) - sind 0.833) * (lat2 - lat1)) by (apply Rmult_le_compat_r; lra).
    assert (A1' : 28000 * (lat2 - lat1) - 1 <= IZR (dt_local sr2 - dt_local sr1)) by lra.
    assert (A2' : 28000 * (lat2 - lat1) - 1 <= IZR (dt_local ss1 - dt_local ss2)) by lra.
    pose proof (Z1 _ A1'). pose proof (Z1 _ A2'). split; [split; lia|split; assumption].
Qed.

(* k: seconds per day and unit of sine, 480 * 0.004 *)
Lemma season_lengthens d u day h m d' u' day' h' m' lat lon lon' sr ss tr sr' ss' tr' :
  instant d u -> civil_clock (dt_local d) day h m -> instant d' u' -> civil_clock (dt_local d') day' h' m' -> -90 < lat < 90 ->
  get_sunrise_sunset_transit (N := MathR) (Fin lat) (Fin lon) d = Ok (sr, ss, tr) ->
  get_sunrise_sunset_transit (N := MathR) (Fin lat) (Fin lon') d' = Ok (sr', ss', tr') ->
  (1 <= day < day' /\ day' <= 172 \/ 174 <= day' < day /\ day <= 356)%Z ->
  let growth := 1920000 * (Rabs (sind lat) - 0.007) * Rabs (IZR (day' - day)) - 2 in
  (0.007 <= sind lat -> growth <= IZR (length_us sr' ss' - length_us sr ss)) /\
  (sind lat <= -0.007 -> growth <= IZR (length_us sr ss - length_us sr' ss')).
Proof.
  intros Hi Hc Hi' Hc' Hl G1 G2 Hd growth.
  assert (D : 0.004 * Rabs (IZR (day' - day)) <= fourier_declination (IZR day') - fourier_declination (IZR day)).
  { destruct Hd as [((A & B) & C)|((A & B) & C)]; apply IZR_le in A; apply IZR_lt in B; apply IZR_le in C; rewrite minus_IZR.
    - rewrite Rabs_pos_eq by lra. apply decl_rises; lra.
    - rewrite Rabs_minus_sym, Rabs_pos_eq by lra. apply decl_sinks; lra. }
  pose proof (Rabs_pos (IZR (day' - day))) as P. 
  destruct (lengthens d u day h m d' u' day' h' m' lat lon lon' _ _ _ _ _ _ Hi Hc Hi' Hc' Hl G1 G2 ltac:(lra)) as (A & B).
  unfold growth. clear growth Hd. revert D P A B. generalize (Rabs (IZR (day' - day))). intros n D P A B.
  rewrite !(minus_IZR (length_us _ _)). split; intros S; [specialize (A S); clear B|specialize (B S); clear A].
  - rewrite Rabs_pos_eq by lra. nra.
  - rewrite Rabs_left by lra. nra.
Qed.

(* the equator *)
Lemma equator_length d u day h m lon sr ss tr : instant d u -> civil_clock (dt_local d) day h m ->
  get_sunrise_sunset_transit (N := MathR) (Fin 0) (Fin lon) d = Ok (sr, ss, tr) ->
  (43599000000 < length_us sr ss < 43637000000)%Z.
Proof.
  intros Hi Hc G. destruct (sunrise_solution d u day h m 0 lon sr ss tr Hi Hc ltac:(lra) G) as (H & R & E & _ & A & B & _).
  pose proof (decl_year _ (day_R _ _ _ _ Hc)) as D. apply rises_cos in E; [|lra..]. revert E D. generalize (fourier_declination (IZR day)). intros x E D.
  unfold cos_H in E. replace (tand 0) with 0 in E by (unfold tand; replace (0 * PI / 180) with 0 by lra; now rewrite tan_0).
  replace (cosd 0) with 1 in E by (unfold cosd; replace (0 * PI / 180) with 0 by lra; now rewrite cos_0).
  assert (C : 0.917 <= cosd x <= 1) by (split; [unfold cosd; interval with (i_bisect x)|apply COS_bound]). pose proof sind_833 as S8.
  set (y := cosd 90.833 / (1 * cosd x) - 0 * tand x) in E. assert (Ey : y * cosd x = - sind 0.833) by (unfold y; rewrite <- rise_s; field; lra). clearbody y.
  assert (Y : -0.01586 <= y <= - sind 0.833) by nra. pose proof PI_RGT_0 as P.
  assert (BB : 90.833 <= 15 * H <= 90.91).
  { rewrite cosd_rad in E. split; apply Rnot_lt_le; intros F.
    - pose proof (cos_decreasing_1 (rad (15 * H)) (rad 90.833) ltac:(unfold rad; nra) ltac:(unfold rad; nra) ltac:(unfold rad; nra) ltac:(unfold rad; nra) ltac:(unfold rad; nra)) as Q.
      rewrite <- cosd_rad, rise_s in Q. lra.
    - pose proof (cos_decreasing_1 (rad 90.91) (rad (15 * H)) ltac:(unfold rad; nra) ltac:(unfold rad; nra) ltac:(unfold rad; nra) ltac:(unfold rad; nra) ltac:(unfold rad; nra)) as Q.
      assert (cos (rad 90.91) < -0.01587) by (unfold rad; interval). lra. }
  unfold hours_after in A, B. apply Rabs_le_inv in A. apply Rabs_le_inv in B. unfold length_us. split; apply lt_IZR; rewrite minus_IZR; lra.
Qed.

(* ---------------------------------------------------------------- binary64 *)
Section F.
Variable L : libm. Hypothesis HL : accurate L.
Lemma rises64 d u day h m lat lon x xo : instant d u -> civil_clock (dt_local d) day h m -> inside_calendar d -> val x lat -> val xo lon ->
  -65 <= lat <= 65 -> -180 <= lon <= 180 ->
  exists a b t a' b' t', get_sunrise_sunset_transit (N := B64 L) x xo d = Ok (a, b, t) /\ get_sunrise_sunset_transit (N := MathR) (Fin lat) (Fin lon) d = Ok (a', b', t') /\
    apart 1 a a' /\ apart 1 b b'.
Proof.
  intros Hi Hc Hin Vx Vo Hl Ho. pose proof (rising_low lat _ Hl (day_R _ _ _ _ Hc)) as B.
  destruct (sunrise64_both L HL d u day h m Hi Hc Hin x xo lat lon Vx Vo ltac:(apply Rabs_le; lra) ltac:(apply Rabs_le; lra)) as (A & _).
  destruct (A ltac:(lra)) as (a & b & t & a' & b' & t' & G & G' & _ & _ & _ & C). destruct (C B). now exists a, b, t, a', b', t'.
Qed.
Lemma summer64 d u day h m lat1 lat2 lon x1 x2 xo : instant d u -> civil_clock (dt_local d) day h m -> inside_calendar d ->
  val x1 lat1 -> val x2 lat2 -> val xo lon -> -65 <= lat1 -> lat1 + 0.0002 <= lat2 -> lat2 <= 65 -> -180 <= lon <= 180 ->
  exists sr1 ss1 tr1 sr2 ss2 tr2,
    get_sunrise_sunset_transit (N := B64 L) x1 xo d = Ok (sr1, ss1, tr1) /\ get_sunrise_sunset_transit (N := B64 L) x2 xo d = Ok (sr2, ss2, tr2) /\
    ((82 <= day <= 264)%Z -> (dt_local sr2 < dt_local sr1 /\ dt_local ss1 < dt_local ss2)%Z) /\
    ((day <= 77 \/ 269 <= day)%Z -> (dt_local sr1 < dt_local sr2 /\ dt_local ss2 < dt_local ss1)%Z).
Proof.
  intros Hi Hc Hin V1 V2 Vo L1 L12 L2 Ho.
  destruct (rises64 d u day h m lat1 lon x1 xo Hi Hc Hin V1 Vo ltac:(lra) Ho) as (a & b & t & a' & b' & t' & G1 & G1' & (_ & X1) & (_ & Y1)).
  destruct (rises64 d u day h m lat2 lon x2 xo Hi Hc Hin V2 Vo ltac:(lra) Ho) as (e & f & g & e' & f' & g' & G2 & G2' & (_ & X2) & (_ & Y2)).
  exists a, b, t, e, f, g. split; [exact G1|]. split; [exact G2|].
  destruct (summer_poleward d u day h m lat1 lat2 lon _ _ _ _ _ _ Hi Hc ltac:(lra) ltac:(lra) ltac:(lra) G1' G2') as (A & B).
  assert (Z3 : forall z, 28000 * (lat2 - lat1) - 1 <= IZR z -> (3 < z)%Z) by (intros z Hz; apply lt_IZR; lra).
  split; intros D; [destruct (A D) as (_ & P & Q)|destruct (B D) as (_ & P & Q)]; apply Z3 in P; apply Z3 in Q; clear - P Q X1 X2 Y1 Y2; lia.
Qed.
Lemma season64 d u day h m d' u' day' h' m' lat lon lon' x xo xo' :
  instant d u -> civil_clock (dt_local d) day h m -> inside_calendar d -> instant d' u' -> civil_clock (dt_local d') day' h' m' -> inside_calendar d' ->
  val x lat -> val xo lon -> val xo' lon' -> -65 <= lat <= 65 -> -180 <= lon <= 180 -> -180 <= lon' <= 180 ->
  (1 <= day < day' /\ day' <= 172 \/ 174 <= day' < day /\ day <= 356)%Z ->
  exists sr ss tr sr' ss' tr',
    get_sunrise_sunset_transit (N := B64 L) x xo d = Ok (sr, ss, tr) /\ get_sunrise_sunset_transit (N := B64 L) x xo' d' = Ok (sr', ss', tr') /\
    (0.5 <= lat -> (length_us sr ss < length_us sr' ss')%Z) /\ (lat <= -0.5 -> (length_us sr' ss' < length_us sr ss)%Z).
Proof.
  intros Hi Hc Hin Hi' Hc' Hin' Vx Vo Vo' Hl Ho Ho' Hd.
  destruct (rises64 d u day h m lat lon x xo Hi Hc Hin Vx Vo Hl Ho) as (a & b & t & a' & b' & t' & G1 & G1' & (_ & X1) & (_ & Y1)).
  destruct (rises64 d' u' day' h' m' lat lon' x xo' Hi' Hc' Hin' Vx Vo' Hl Ho') as (e & f & g & e' & f' & g' & G2 & G2' & (_ & X2) & (_ & Y2)).
  exists a, b, t, e, f, g. split; [exact G1|]. split; [exact G2|].
  destruct (season_lengthens d u day h m d' u' day' h' m' lat lon lon' _ _ _ _ _ _ Hi Hc Hi' Hc' ltac:(lra) G1' G2' Hd) as (A & B).
  assert (N1 : 1 <= Rabs (IZR (day' - day))).
  { rewrite <- abs_IZR. apply IZR_le. lia. }
  revert N1 A B. generalize (Rabs (IZR (day' - day))). intros n N1 A B.
  assert (S : 0.008 <= Rabs (sind lat) -> 10 < 1920000 * (Rabs (sind lat) - 0.007) * n - 2).
  { intros S. assert (1920 <= 1920000 * (Rabs (sind lat) - 0.007)) by lra. nra. }
  split; intros Hs.
  - assert (Q : 0.008 <= sind lat) by (unfold sind; interval with (i_bisect lat)). rewrite Rabs_pos_eq in S, A by lra.
    specialize (A ltac:(lra)). specialize (S Q). assert (K : (10 < length_us e' f' - length_us a' b')%Z) by (apply lt_IZR; lra).
    unfold length_us in *. clear - K X1 Y1 X2 Y2. lia.
  - assert (Q : sind lat <= -0.008) by (unfold sind; interval with (i_bisect lat)). rewrite Rabs_left in S, B by lra.
    specialize (B ltac:(lra)). specialize (S ltac:(lra)). assert (K : (10 < length_us a' b' - length_us e' f')%Z) by (apply lt_IZR; lra).
    unfold length_us in *. clear - K X1 Y1 X2 Y2. lia.
Qed.
End F.

(* ---------------------------------------------------------------- cases *)
(* noon of 1 March 2020 and of 1 May 2021, on the clock of the sample *)
Definition march_dt : datetime := mk 2020 3 1 12 0 0 0 (Some sample_tz).
Definition spring_dt : datetime := mk 2021 5 1 12 0 0 0 (Some sample_tz).
Lemma march_instant : instant march_dt (midnight 2020 3 1 + 17 * 3600000000).
Proof. do 2 eexists. split; [reflexivity|]. split; [reflexivity|]. split; [reflexivity|]. vm_compute. reflexivity. Qed.
Lemma spring_instant : instant spring_dt (midnight 2021 5 1 + 17 * 3600000000).
Proof. do 2 eexists. split; [reflexivity|]. split; [reflexivity|]. split; [reflexivity|]. vm_compute. reflexivity. Qed.
Lemma march_clock : civil_clock (dt_local march_dt) 61 12 0.
Proof. split; [exists 2020%Z; vm_compute; intuition discriminate|lia]. Qed.
Lemma spring_clock : civil_clock (dt_local spring_dt) 121 12 0.
Proof. split; [exists 2021%Z; vm_compute; intuition discriminate|lia]. Qed.
Lemma march_inside : inside_calendar march_dt.
Proof. vm_compute. intuition discriminate. Qed.
Lemma spring_inside : inside_calendar spring_dt.
Proof. vm_compute. intuition discriminate. Qed.
Lemma day_case : exists sr1 ss1 tr1 sr2 ss2 tr2 sr3 ss3 tr3 sr4 ss4 tr4,
  get_sunrise_sunset_transit (N := MathR) (Fin 20) (Fin (-75)) sample_dt = Ok (sr1, ss1, tr1) /\
  get_sunrise_sunset_transit (N := MathR) (Fin 50) (Fin (-75)) sample_dt = Ok (sr2, ss2, tr2) /\
  get_sunrise_sunset_transit (N := MathR) (Fin 50) (Fin (-75)) march_dt = Ok (sr3, ss3, tr3) /\
  get_sunrise_sunset_transit (N := MathR) (Fin 50) (Fin (-75)) spring_dt = Ok (sr4, ss4, tr4).
Proof.
  destruct (rises_low _ _ _ _ _ 20 (-75) sample_instant sample_local_clock sample_inside ltac:(lra) ltac:(lra)) as (((sr1 & ss1) & tr1) & E1).
  destruct (rises_low _ _ _ _ _ 50 (-75) sample_instant sample_local_clock sample_inside ltac:(lra) ltac:(lra)) as (((sr2 & ss2) & tr2) & E2).
  destruct (rises_low _ _ _ _ _ 50 (-75) march_instant march_clock march_inside ltac:(lra) ltac:(lra)) as (((sr3 & ss3) & tr3) & E3).
  destruct (rises_low _ _ _ _ _ 50 (-75) spring_instant spring_clock spring_inside ltac:(lra) ltac:(lra)) as (((sr4 & ss4) & tr4) & E4).
  exists sr1, ss1, tr1, sr2, ss2, tr2, sr3, ss3, tr3, sr4, ss4, tr4. auto.
Qed.

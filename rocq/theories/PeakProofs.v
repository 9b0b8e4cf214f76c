(* The sun is highest at the computed transit; irradiance over the day. *)
From Coq Require Import Reals Qreals Lra Lia ZArith.
From Flocq Require Import Core.
From Coquelicot Require Import Coquelicot.
From Interval Require Import Tactic.
From Verif Require Import Py Num Cal TzCheck Clock Constants SolarTime Solar Util RInst RTac SpecTime SpecDt SpecGeom SpecDemo
  Trig GeoProofs PositionProofs SpaProofs TopoProofs AngleLip B64Ranges MoveProofs MotionProofs MotionLip CrossProofs RefractionProofs Samples SeasonProofs
  ApproxProofs SunProofs RefrOrder ClimbProofs SpecEng Radiation RadiationProofs.
Local Open Scope R_scope.

(* what the change of declination adds is less than what the turning of the sky takes away *)
Lemma peak_trade w : -3.16 <= w <= 3.16 -> 0.00132 * (Rabs w + 0.0102) - 0.091 * (1 - cos w) <= 2.4e-5.
Proof.
  assert (P : forall w, 0 <= w <= 3.16 -> 0.00132 * (w + 0.0102) - 0.091 * (1 - cos w) <= 2.4e-5).
  { clear w. intros w H. interval with (i_bisect w, i_taylor w, i_prec 50). }
  intros H. destruct (Rle_lt_dec 0 w) as [A|A].
  - rewrite Rabs_pos_eq by assumption. apply P. lra.
  - rewrite Rabs_left by assumption. rewrite <- cos_neg. apply P. lra.
Qed.

Lemma cosd_period x k : cosd (x + 360 * IZR k) = cosd x.
Proof. symmetry. apply same_angle_cos. exists (- k)%Z. rewrite opp_IZR. ring. Qed.
Lemma peak_sine lat dec ha dec' ha' (k k' : Z) D q p : -84 <= lat <= 84 -> -24.085 <= dec' <= 24.085 ->
  Rabs (ha - 360 * IZR k) <= 0.4471 -> Rabs (ha' - ha - 360 * D - 360 * IZR k') <= p -> 0 <= p <= 0.1349 -> Rabs D <= 0.5 ->
  Rabs (dec' - dec) <= 0.475 * Rabs D + q ->
  sin_elev lat dec' ha' <= sin_elev lat dec ha + 5.5e-5 + q * (PI / 180).
Proof.
  intros Hlat Hd' Hk Hk' Hp HD Hdd.
  assert (C1 : 0.1 <= cosd lat <= 1) by (split; [unfold cosd; interval with (i_bisect lat)|apply COS_bound]).
  assert (C2 : 0.91 <= cosd dec') by (unfold cosd; interval with (i_bisect dec')).
  pose proof (cosd_bound dec) as C3.
  (* the transit *)
  assert (T : sin_elev lat dec 0 - 3.05e-5 <= sin_elev lat dec ha).
  { unfold sin_elev. rewrite (cosd_rad 0). replace (rad 0) with 0 by (unfold rad; ring). rewrite cos_0.
    assert (E : cosd ha = cosd (ha - 360 * IZR k)) by (replace (ha - 360 * IZR k) with (ha + 360 * IZR (- k)) by (rewrite opp_IZR; ring); symmetry; apply cosd_period).
    rewrite E. apply Rabs_le_inv in Hk. revert Hk. generalize (ha - 360 * IZR k). intros t Ht.
    assert (1 - 3.05e-5 <= cosd t <= 1) by (split; [unfold cosd; interval with (i_bisect t, i_taylor t)|apply COS_bound]).
    assert (X : cosd lat * cosd dec <= 1) by nra. nra. }
  pose proof (sin_elev_dec lat dec' dec 0) as S. apply Rabs_le_inv in S.
  set (w := ha' - 360 * IZR (k + k')).
  assert (W : cosd ha' = cos (rad w)).
  { rewrite <- cosd_rad. unfold w. replace (ha' - 360 * IZR (k + k')) with (ha' + 360 * IZR (- (k + k'))) by (rewrite opp_IZR; ring). symmetry. apply cosd_period. }
  assert (W1 : Rabs (w - 360 * D) <= 0.582).
  { unfold w. rewrite plus_IZR. apply Rabs_le_inv in Hk. apply Rabs_le_inv in Hk'. apply Rabs_le. lra. }
  apply Rabs_le_inv in W1. apply Rabs_le_inv in HD.
  assert (W2 : -3.16 <= rad w <= 3.16). { assert (-180.6 <= w <= 180.6) by lra. unfold rad. split; interval. }
  pose proof (peak_trade _ W2) as PT.
  assert (DD : 360 * Rabs D <= Rabs w + 0.582) by (revert W1; unfold Rabs; destruct (Rcase_abs D), (Rcase_abs w); lra).
  assert (P : 0 < PI / 180) by (pose proof PI_RGT_0; lra).
  assert (RW : Rabs (rad w) = Rabs w * (PI / 180)) by (unfold rad; rewrite Rabs_mult, (Rabs_pos_eq (PI / 180)) by lra; reflexivity).
  assert (DR : 0.475 * Rabs D * (PI / 180) <= 0.00132 * (Rabs (rad w) + 0.0102)).
  { rewrite RW. assert (PB : PI / 180 <= 0.01746) by interval. pose proof (Rabs_pos w).
    assert (0.475 * Rabs D <= 0.00132 * (Rabs w + 0.582)) by lra.
    assert (0.475 * Rabs D * (PI / 180) <= 0.00132 * (Rabs w + 0.582) * (PI / 180)) by (apply Rmult_le_compat_r; lra). nra. }
  assert (X : sin_elev lat dec' ha' <= sin_elev lat dec' 0 - 0.091 * (1 - cos (rad w))).
  { unfold sin_elev. rewrite W, (cosd_rad 0). replace (rad 0) with 0 by (unfold rad; ring). rewrite cos_0.
    pose proof (COS_bound (rad w)). assert (0.091 <= cosd lat * cosd dec') by nra. nra. }
  assert (Y : Rabs (dec' - dec) * (PI / 180) <= (0.475 * Rabs D + q) * (PI / 180)) by (apply Rmult_le_compat_r; lra). lra.
Qed.

(* ---------------------------------------------------------------- C121 *)
Lemma sind_elev lat dec ha e : get_topocentric_elevation_angle (N := MathR) (Fin lat) (Fin dec) (Fin ha) = Ok (Fin e) ->
  sind e = sin_elev lat dec ha /\ -90 <= e <= 90.
Proof.
  intros E. rewrite elevation_val in E. apply Ok_inj in E. assert (V : e = deg (asin (sin_elev lat dec ha))) by (unfold sin_elev; congruence). clear E.
  subst e. split; [rewrite sind_rad, rad_deg; apply sin_asin, sin_elev_bound|].
  pose proof (asin_bound (sin_elev lat dec ha)). rewrite <- (deg_rad 90), <- (deg_rad (-90)). pose proof PI_RGT_0. split; apply deg_le; unfold rad; lra.
Qed.
Lemma sine_excess e e' x eps : 0 <= e <= 80 -> -90 <= e' <= 90 -> 0 <= x <= 1 -> sind e' <= sind e + eps ->
  eps < 2 * cos (rad (80 + x / 2)) * sin (rad (x / 2)) -> e' <= e + x.
Proof.
  intros He He' Hx S X. apply Rnot_lt_le. intros C. pose proof PI_RGT_0 as P.
  assert (A : sind (e + x) < sind e').
  { rewrite !sind_rad. apply sin_increasing_1; unfold rad; nra. }
  assert (B : sind (e + x) - sind e = 2 * cos (rad (e + x / 2)) * sin (rad (x / 2))).
  { rewrite !sind_rad, form4. replace ((rad (e + x) + rad e) / 2) with (rad (e + x / 2)) by (unfold rad; field). replace ((rad (e + x) - rad e) / 2) with (rad (x / 2)) by (unfold rad; field). ring. }
  assert (D : cos (rad (80 + x / 2)) <= cos (rad (e + x / 2))) by (apply cos_decr_1; unfold rad; nra).
  assert (F : 0 <= sin (rad (x / 2))) by (apply sin_ge_0; unfold rad; nra).
  assert (2 * cos (rad (80 + x / 2)) * sin (rad (x / 2)) <= 2 * cos (rad (e + x / 2)) * sin (rad (x / 2))) by (apply Rmult_le_compat_r; lra). lra.
Qed.

(* t: an instant at which the sun is near the meridian *)
Lemma peak_near t ut lat lon el d' u' dec ha e dec' ha' e' (k : Z) : instant t ut -> in_range ut = true -> -84 <= lat <= 84 -> -100000 <= el <= 100000 ->
  instant d' u' -> in_range u' = true -> (Z.abs (u' - ut) <= 43200000000)%Z -> Rabs (ha - 360 * IZR k) <= 0.4471 ->
  get_topocentric_position (N := MathR) (Fin lat) (Fin lon) t (Fin el) = Ok (Fin dec, Fin ha) ->
  get_topocentric_elevation_angle (N := MathR) (Fin lat) (Fin dec) (Fin ha) = Ok (Fin e) ->
  get_topocentric_position (N := MathR) (Fin lat) (Fin lon) d' (Fin el) = Ok (Fin dec', Fin ha') ->
  get_topocentric_elevation_angle (N := MathR) (Fin lat) (Fin dec') (Fin ha') = Ok (Fin e') ->
  sind e' <= sind e + 4.8e-4 /\ (same_month ut u' -> sind e' <= sind e + 6e-5).
Proof.
  intros Ht Hr Hlat Hel Hi' Hr' HU K E1 E2 E3 E4. assert (Hlat' : -90 <= lat <= 90) by lra.
  pose proof (dec_all _ _ _ _ _ _ _ Hi' Hr' Hlat' Hel E3) as B3.
  destruct (sind_elev _ _ _ _ E2) as (-> & _). destruct (sind_elev _ _ _ _ E4) as (-> & _).
  assert (HD : Rabs (IZR (u' - ut) / 86400000000) <= 0.5).
  { apply IZR_le in HU. rewrite abs_IZR in HU. unfold Rdiv. rewrite Rabs_mult, (Rabs_pos_eq (/ _)) by lra. lra. }
  pose proof (Rabs_pos (IZR (u' - ut) / 86400000000)) as HP. split.
  - destruct (motion t d' ut u' lat lon el el dec ha dec' ha' e e' Ht Hi' Hr Hr' Hlat' Hel Hel E1 E2 E3 E4) as ((k' & K') & M & _). unfold days in K', M.
    set (D := IZR (u' - ut) / 86400000000) in *. clearbody D.
    assert (K2 : Rabs (ha' - ha - 360 * D - 360 * IZR k') <= 0.1349) by lra.
    pose proof (peak_sine lat dec ha dec' ha' k k' D 0.024 0.1349 Hlat B3 K K2 ltac:(lra) HD ltac:(lra)) as Q. assert (PI / 180 <= 0.01746) by interval. lra.
  - intros SM. destruct (lipschitz t d' ut u' lat lon el dec ha dec' ha' e e' Ht Hi' Hr Hr' SM Hlat' Hel E1 E2 E3 E4) as ((k' & K') & M & _).
    set (D := IZR (u' - ut) / 86400000000) in *. clearbody D.
    pose proof (peak_sine lat dec ha dec' ha' k k' D 0 0.1349 Hlat B3 K ltac:(lra) ltac:(lra) HD ltac:(lra)) as Q. lra.
Qed.
Lemma peak d u lat lon el sr ss tr ut d' u' dec ha e dec' ha' e' : instant d u -> -84 <= lat <= 84 -> -180 <= lon <= 180 -> -100000 <= el <= 100000 ->
  (midnight 1901 1 1 <= dt_local d < midnight 2100 1 1)%Z ->
  get_sunrise_sunset_transit (N := MathR) (Fin lat) (Fin lon) d = Ok (sr, ss, tr) ->
  instant tr ut -> (dt_local tr - ut = dt_local d - u)%Z -> (midnight 1901 1 1 <= ut < midnight 2100 1 1)%Z ->
  instant d' u' -> in_range u' = true -> (Z.abs (u' - ut) <= 43200000000)%Z ->
  get_topocentric_position (N := MathR) (Fin lat) (Fin lon) tr (Fin el) = Ok (Fin dec, Fin ha) ->
  get_topocentric_elevation_angle (N := MathR) (Fin lat) (Fin dec) (Fin ha) = Ok (Fin e) ->
  get_topocentric_position (N := MathR) (Fin lat) (Fin lon) d' (Fin el) = Ok (Fin dec', Fin ha') ->
  get_topocentric_elevation_angle (N := MathR) (Fin lat) (Fin dec') (Fin ha') = Ok (Fin e') ->
  sind e' <= sind e + 4.8e-4 /\ (same_month ut u' -> sind e' <= sind e + 6e-5).
Proof.
  intros Hi Hlat Hlon Hel Hl Hs Ht Off Hut Hi' Hr' HU E1 E2 E3 E4.
  destruct (transit_true d u lat lon el sr ss tr ut Hi ltac:(lra) Hlon Hel Hl Hs Ht Off Hut) as (dec1 & ha1 & k & F & K).
  rewrite F in E1. apply Ok_inj in E1. injection E1 as -> ->. rename F into E1.
  exact (peak_near tr ut lat lon el d' u' dec ha e dec' ha' e' k Ht (modern_in_range _ Hut) Hlat Hel Hi' Hr' HU ltac:(lra) E1 E2 E3 E4).
Qed.

Lemma peak_altitude d u lat lon el sr ss tr ut d' u' dec ha e T P a a' : instant d u -> -84 <= lat <= 84 -> -180 <= lon <= 180 -> -100000 <= el <= 100000 ->
  180 <= T <= 340 -> 0 <= P <= 110000 ->
  (midnight 1901 1 1 <= dt_local d < midnight 2100 1 1)%Z ->
  get_sunrise_sunset_transit (N := MathR) (Fin lat) (Fin lon) d = Ok (sr, ss, tr) ->
  instant tr ut -> (dt_local tr - ut = dt_local d - u)%Z -> (midnight 1901 1 1 <= ut < midnight 2100 1 1)%Z ->
  instant d' u' -> in_range u' = true -> (Z.abs (u' - ut) <= 43200000000)%Z ->
  get_topocentric_position (N := MathR) (Fin lat) (Fin lon) tr (Fin el) = Ok (Fin dec, Fin ha) ->
  get_topocentric_elevation_angle (N := MathR) (Fin lat) (Fin dec) (Fin ha) = Ok (Fin e) -> 0 <= e <= 80 ->
  get_altitude (N := MathR) (Fin lat) (Fin lon) tr (Fin el) (Fin T) (Fin P) = Ok (Fin a) ->
  get_altitude (N := MathR) (Fin lat) (Fin lon) d' (Fin el) (Fin T) (Fin P) = Ok (Fin a') ->
  a' <= a + 0.17 /\ (same_month ut u' -> a' <= a + 0.021).
Proof.
  intros Hi Hlat Hlon Hel HT HP Hl Hs Ht Off Hut Hi' Hr' HU E1 E2 He A1 A2. assert (Hlat' : -90 <= lat <= 90) by lra.
  pose proof (modern_in_range _ Hut) as Hr.
  destruct (sky d' u' Hi' Hr') as (jd & j & o & s & _ & _ & _ & _ & _ & _ & S).
  destruct (S lat lon el Hlat' Hel) as (dec' & ha' & e' & _ & E3 & E4 & _). clear S.
  destruct (peak d u lat lon el sr ss tr ut d' u' dec ha e dec' ha' e' Hi Hlat Hlon Hel Hl Hs Ht Off Hut Hi' Hr' HU E1 E2 E3 E4) as [Q1 Q2].
  destruct (sind_elev _ _ _ _ E4) as (_ & B4).
  assert (M : forall x, 0 <= x -> e' <= e + x -> a' <= a + x).
  { intros x Hx X. destruct (Rtotal_order e e') as [O|[O|O]].
    - destruct (altitude_order T P lat lon tr el ut dec ha e a lat lon d' el u' dec' ha' e' a' HT HP Ht Hr Hlat' Hel Hi' Hr' Hlat' Hel E1 E2 E3 E4 A1 A2 O) as [_ U]. specialize (U ltac:(left; lra)). lra.
    - subst e'. apply (altitude_apparent _ _ _ _ ut T P dec ha e _ Ht ltac:(lra) E1 E2 B4) in A1.
      apply (altitude_apparent _ _ _ _ u' T P dec' ha' e _ Hi' ltac:(lra) E3 E4 B4) in A2.
      assert (F1 : a = apparent P T e) by congruence. assert (F2 : a' = apparent P T e) by congruence. lra.
    - destruct (altitude_order T P lat lon d' el u' dec' ha' e' a' lat lon tr el ut dec ha e a HT HP Hi' Hr' Hlat' Hel Ht Hr Hlat' Hel E3 E4 E1 E2 A2 A1 O) as [U _]. lra. }
  split.
  - apply M; [lra|]. apply (sine_excess e e' 0.17 4.8e-4 He B4 ltac:(lra) Q1). unfold rad. interval.
  - intros SM. apply M; [lra|]. apply (sine_excess e e' 0.021 6e-5 He B4 ltac:(lra) (Q2 SM)). unfold rad. interval.
Qed.

(* ---------------------------------------------------------------- C122 *)
Lemma beam_order d u d' u' day h m h' m' a a' : instant d u -> instant d' u' -> in_range u = true -> in_range u' = true ->
  civil_clock u day h m -> civil_clock u' day h' m' -> 0 < a -> a < a' -> a' <= 90 ->
  exists r r', get_radiation_direct (N := MathR) (C := clock_math MathR) d (Fin a) = Ok (Fin r) /\
    get_radiation_direct (N := MathR) (C := clock_math MathR) d' (Fin a') = Ok (Fin r') /\ 0 < r < r'.
Proof.
  intros Hi Hi' Hr Hr' Hc Hc' A AA A'.
  destruct (radiation_day d u day h m Hi Hr Hc) as [V M]. destruct (radiation_day d' u' day h' m' Hi' Hr' Hc') as [V' _].
  destruct (M a a' A AA A') as (ra & rb & E1 & E2 & O). destruct (V a' ltac:(lra)) as (r1 & f1 & F1 & _ & G1 & _).
  destruct (V a ltac:(lra)) as (r0 & f0 & F0 & _ & _ & P0 & _). destruct (V' a' ltac:(lra)) as (r2 & f2 & F2 & _ & G2 & _).
  rewrite F1 in E2. apply Ok_inj in E2. assert (r1 = rb) by congruence. rewrite F0 in E1. apply Ok_inj in E1. assert (r0 = ra) by congruence.
  exists ra, r2. split; [congruence|]. split; [exact F2|]. split; [lra|]. rewrite G2, <- G1. lra.
Qed.

Lemma radiation_climbs d u d' u' day h m h' m' lat lon el T P dec ha dec' ha' a a' : instant d u -> instant d' u' -> in_range u = true -> in_range u' = true ->
  same_month u u' -> (u < u' < u + 43200000000)%Z -> civil_clock u day h m -> civil_clock u' day h' m' ->
  -90 <= lat <= 90 -> -100000 <= el <= 100000 -> 180 <= T <= 340 -> 0 <= P <= 110000 ->
  get_topocentric_position (N := MathR) (Fin lat) (Fin lon) d (Fin el) = Ok (Fin dec, Fin ha) ->
  get_topocentric_position (N := MathR) (Fin lat) (Fin lon) d' (Fin el) = Ok (Fin dec', Fin ha') ->
  get_altitude (N := MathR) (Fin lat) (Fin lon) d (Fin el) (Fin T) (Fin P) = Ok (Fin a) ->
  get_altitude (N := MathR) (Fin lat) (Fin lon) d' (Fin el) (Fin T) (Fin P) = Ok (Fin a') ->
  0 < a <= 90 -> 0 < a' <= 90 ->
  exists r r', get_radiation_direct (N := MathR) (C := clock_math MathR) d (Fin a) = Ok (Fin r) /\
    get_radiation_direct (N := MathR) (C := clock_math MathR) d' (Fin a') = Ok (Fin r') /\
    (cosd lat * sind ha <= -0.0015 -> cosd lat * sind ha' <= -0.0015 -> r < r') /\
    (0.0015 <= cosd lat * sind ha -> 0.0015 <= cosd lat * sind ha' -> r' < r).
Proof.
  intros Hi Hi' Hr Hr' SM HU Hc Hc' Hlat Hel HT HP E1 E3 A1 A2 B1 B2.
  destruct (altitude_climbs d u d' u' lat lon el T P dec ha dec' ha' a a' 0.0015 Hi Hi' Hr Hr' SM HU Hlat Hel HT HP E1 E3 A1 A2 ltac:(lra)) as [C1 C2].
  assert (HD : 0 < IZR (u' - u) / 86400000000) by (rewrite minus_IZR; destruct HU as [U1 _]; apply IZR_lt in U1; lra).
  destruct (radiation_day d u day h m Hi Hr Hc) as [V _]. destruct (radiation_day d' u' day h' m' Hi' Hr' Hc') as [V' _].
  destruct (V a B1) as (r & f & R & _). destruct (V' a' B2) as (r' & f' & R' & _).
  exists r, r'. split; [exact R|]. split; [exact R'|]. split; intros S1 S2.
  - specialize (C1 ltac:(lra) ltac:(lra)). destruct (beam_order d u d' u' day h m h' m' a a' Hi Hi' Hr Hr' Hc Hc' ltac:(lra) ltac:(nra) ltac:(lra)) as (x & y & X & Y & O).
    rewrite R in X. rewrite R' in Y. apply Ok_inj in X, Y. assert (r = x) by congruence. assert (r' = y) by congruence. lra.
  - specialize (C2 S1 S2). destruct (beam_order d' u' d u day h' m' h m a' a Hi' Hi Hr' Hr Hc' Hc ltac:(lra) ltac:(nra) ltac:(lra)) as (x & y & X & Y & O).
    rewrite R in Y. rewrite R' in X. apply Ok_inj in X, Y. assert (r = y) by congruence. assert (r' = x) by congruence. lra.
Qed.

(* ---------------------------------------------------------------- cases *)
Lemma elev_mid dec ha e (k : Z) lo hi : get_topocentric_elevation_angle (N := MathR) (Fin 0) (Fin dec) (Fin ha) = Ok (Fin e) ->
  -24.085 <= dec <= 24.085 -> lo <= ha - 360 * IZR k <= hi -> -62 <= lo -> hi <= -28 -> 25 <= e <= 63.
Proof.
  intros E D K LO HI. destruct (sind_elev _ _ _ _ E) as (S & B). unfold sin_elev in S.
  assert (EH : cosd ha = cosd (ha - 360 * IZR k)) by (replace (ha - 360 * IZR k) with (ha + 360 * IZR (- k)) by (rewrite opp_IZR; ring); symmetry; apply cosd_period).
  rewrite EH, cosd_0 in S. replace (sind 0) with 0 in S by (symmetry; apply sind_0). revert K S. generalize (ha - 360 * IZR k). intros t K S.
  assert (0.91 <= cosd dec <= 1) by (split; [unfold cosd; interval with (i_bisect dec)|apply COS_bound]).
  assert (0.4694 <= cosd t <= 0.883) by (assert (T : -62 <= t <= -28) by lra; clear - T; split; unfold cosd; interval with (i_bisect t)).
  assert (S2 : 0.4271 <= sind e <= 0.883) by (clear - S H H0; revert S H H0; generalize (cosd dec) (cosd t) (sind e) (sind dec); intros x y z w S H H0; assert (E : z = x * y) by (rewrite S; ring); rewrite E; split; nra). clear - S2 B. pose proof PI_RGT_0 as P.
  split; apply Rnot_lt_le; intros C.
  - assert (sind e <= sind 25) by (rewrite !sind_rad; apply sin_incr_1; unfold rad; nra). assert (sind 25 <= 0.4227) by (unfold sind; interval). lra.
  - assert (sind 63 <= sind e) by (rewrite !sind_rad; apply sin_incr_1; unfold rad; nra). assert (0.89 <= sind 63) by (unfold sind; interval). lra.
Qed.
Lemma alt_mid d u lat lon el dec ha e : instant d u ->
  get_topocentric_position (N := MathR) (Fin lat) (Fin lon) d (Fin el) = Ok (Fin dec, Fin ha) ->
  get_topocentric_elevation_angle (N := MathR) (Fin lat) (Fin dec) (Fin ha) = Ok (Fin e) -> 25 <= e <= 63 ->
  exists a, get_altitude (N := MathR) (Fin lat) (Fin lon) d (Fin el) (Fin 288) (Fin 101325) = Ok (Fin a) /\ 25 <= a <= 64.
Proof.
  intros Hi E1 E2 He. exists (e + refraction_formula 101325 288 e). split.
  - unfold get_altitude. rewrite (instant_aware _ _ Hi), bind_Ok, E1, bind_Ok, E2, bind_Ok, refraction_above, bind_Ok, add_R by lra. reflexivity.
  - assert (0 <= refraction_formula 101325 288 e <= 1); [|lra]. clear - He. unfold refraction_formula, cosd, sind, refraction_argument. split; interval with (i_bisect e).
Qed.
Lemma morning_case : exists u u' day h m h' m' dec ha dec' ha' a a', (u < u' < u + 43200000000)%Z /\ same_month u u' /\ in_range u = true /\ in_range u' = true /\
  civil_clock u day h m /\ civil_clock u' day h' m' /\
  get_topocentric_position (N := MathR) (Fin 0) (Fin 0) (at_utc u) (Fin 0) = Ok (Fin dec, Fin ha) /\
  get_topocentric_position (N := MathR) (Fin 0) (Fin 0) (at_utc u') (Fin 0) = Ok (Fin dec', Fin ha') /\
  get_altitude (N := MathR) (Fin 0) (Fin 0) (at_utc u) (Fin 0) (Fin 288) (Fin 101325) = Ok (Fin a) /\
  get_altitude (N := MathR) (Fin 0) (Fin 0) (at_utc u') (Fin 0) (Fin 288) (Fin 101325) = Ok (Fin a') /\
  0 < a <= 90 /\ 0 < a' <= 90 /\ cosd 0 * sind ha <= -0.0015 /\ cosd 0 * sind ha' <= -0.0015.
Proof.
  destruct (passes 737000 0 0 0 (-45) ltac:(lia) ltac:(lra) ltac:(lra)) as (u & U & H).
  destruct (H (at_utc u) (at_utc_instant u)) as (dec & ha & e & k & P1 & P2 & _ & D1 & K).
  assert (Q : exists u', (737000 * 86400000000 <= u' < (737000 + 1) * 86400000000 /\ Z.abs (u' - u) = 3600000000)%Z).
  { destruct (Z.lt_ge_cases (u + 3600000000) ((737000 + 1) * 86400000000)); [exists (u + 3600000000)%Z|exists (u - 3600000000)%Z]; lia. }
  destruct Q as (u' & U' & A).
  assert (R : in_range u = true) by (apply (day_in_range 737000); lia). assert (R' : in_range u' = true) by (apply (day_in_range 737000); lia).
  pose proof (same_day_month 737000 u u' U U') as SM.
  destruct (sky (at_utc u') u' (at_utc_instant u') R') as (jd & jde & o & tt & _ & _ & _ & _ & _ & _ & S).
  destruct (S 0 0 0 ltac:(lra) ltac:(lra)) as (dec' & ha' & e' & k' & P3 & P4 & _).
  destruct (lipschitz _ _ u u' 0 0 0 dec ha dec' ha' e e' (at_utc_instant u) (at_utc_instant u') R R' SM ltac:(lra) ltac:(lra) P1 P2 P3 P4) as ((m & M) & _).
  assert (D3 : -24.085 <= dec' <= 24.085) by (eapply dec_all; [exact (at_utc_instant u')|exact R'| | |exact P3]; lra).
  apply Rabs_le_inv in K. assert (B : -45.3 <= ha - 360 * IZR k <= -44.7) by lra.
  assert (B' : -61 <= ha' - 360 * IZR (m + k) <= -29).
  { rewrite plus_IZR. assert (E : IZR (u' - u) / 86400000000 = 1 / 24 \/ IZR (u' - u) / 86400000000 = - (1 / 24)).
    { assert (C : (u' - u = 3600000000 \/ u' - u = -3600000000)%Z) by lia. destruct C as [-> | ->]; [left|right]; lra. }
    assert (E' : Rabs (IZR (u' - u) / 86400000000) = 1 / 24) by (destruct E as [-> | ->]; [apply Rabs_pos_eq; lra|rewrite Rabs_Ropp; apply Rabs_pos_eq; lra]).
    rewrite E' in M. apply Rabs_le_inv in M. destruct E as [E|E]; rewrite E in M; lra. }
  pose proof (elev_mid dec ha e k _ _ P2 D1 B ltac:(lra) ltac:(lra)) as X. pose proof (elev_mid dec' ha' e' (m + k) _ _ P4 D3 B' ltac:(lra) ltac:(lra)) as X'.
  destruct (alt_mid _ _ _ _ _ _ _ _ (at_utc_instant u) P1 P2 X) as (a & A1 & A2). destruct (alt_mid _ _ _ _ _ _ _ _ (at_utc_instant u') P3 P4 X') as (a' & A3 & A4).
  assert (SN : forall t (j : Z), -61 <= t - 360 * IZR j <= -29 -> sind t <= -0.4).
  { intros t j. replace (sind t) with (sind (t - 360 * IZR j)) by (apply same_angle_sin; exists (- j)%Z; rewrite opp_IZR; ring). generalize (t - 360 * IZR j). clear. intros t' B. unfold sind. interval with (i_bisect t'). }
  pose proof (SN ha k ltac:(lra)). pose proof (SN ha' _ B').
  destruct (FastProofs.civil_clock_exists u) as (day & h & mi & C). destruct (FastProofs.civil_clock_exists u') as (day' & h' & mi' & C').
  assert (ED : day' = day).
  { destruct (FastProofs.civil_clock_fields _ _ _ _ C) as (F & _). destruct (FastProofs.civil_clock_fields _ _ _ _ C') as (F' & _). rewrite <- F, <- F'.
    unfold fields_of_us, us_per_day. change (86400 * 1000000)%Z with 86400000000%Z. replace (u' / 86400000000)%Z with 737000%Z by (apply Z.div_unique with (u' - 737000 * 86400000000)%Z; lia).
    replace (u / 86400000000)%Z with 737000%Z by (apply Z.div_unique with (u - 737000 * 86400000000)%Z; lia). reflexivity. }
  subst day'. rewrite cosd_0. destruct (Z.lt_ge_cases u u').
  - exists u, u', day, h, mi, h', mi', dec, ha, dec', ha', a, a'. repeat (split; [assumption || lia || lra|]). lra.
  - exists u', u, day, h', mi', h, mi, dec', ha', dec, ha, a', a. split; [lia|]. split; [intros y mm Hm; symmetry; now apply SM|]. repeat (split; [assumption || lra|]). lra.
Qed.
Lemma peak_case : exists sr ss tr ut dec ha e a, get_sunrise_sunset_transit (N := MathR) (Fin 40) (Fin (-75)) sample_dt = Ok (sr, ss, tr) /\
  instant tr ut /\ (dt_local tr - ut = dt_local sample_dt - sample_u)%Z /\ (midnight 1901 1 1 <= ut < midnight 2100 1 1)%Z /\
  get_topocentric_position (N := MathR) (Fin 40) (Fin (-75)) tr (Fin 0) = Ok (Fin dec, Fin ha) /\
  get_topocentric_elevation_angle (N := MathR) (Fin 40) (Fin dec) (Fin ha) = Ok (Fin e) /\ 0 <= e <= 80 /\
  get_altitude (N := MathR) (Fin 40) (Fin (-75)) tr (Fin 0) (Fin 288) (Fin 101325) = Ok (Fin a).
Proof.
  destruct sunrise_case as (sr & ss & tr & G & _ & T). destruct (T tr ltac:(auto)) as (ut & Hi & Off & Y).
  assert (YD : (midnight 1901 1 1 <= dt_local sample_dt < midnight 2100 1 1)%Z) by (vm_compute; split; congruence).
  destruct (transit_true sample_dt sample_u 40 (-75) 0 sr ss tr ut sample_instant ltac:(lra) ltac:(lra) ltac:(lra) YD G Hi Off Y) as (dec & ha & k & E1 & K).
  pose proof (elevation_val 40 dec ha) as E2. set (e := deg _) in E2. clearbody e. destruct (sind_elev _ _ _ _ E2) as (S & B).
  assert (D : -24.085 <= dec <= 24.085) by (eapply dec_all; [exact Hi|exact (modern_in_range _ Y)| | |exact E1]; lra).
  assert (He : 0 <= e <= 80).
  { unfold sin_elev in S.
    assert (EH : cosd ha = cosd (ha - 360 * IZR k)) by (replace (ha - 360 * IZR k) with (ha + 360 * IZR (- k)) by (rewrite opp_IZR; ring); symmetry; apply cosd_period).
    rewrite EH in S. apply Rabs_le_inv in K. revert K S. generalize (ha - 360 * IZR k). intros t K S.
    assert (S2 : 0.1 <= sind e <= 0.97). { rewrite S. unfold sind, cosd. clear - D K. split; interval with (i_bisect dec, i_bisect t). }
    clear - S2 B. pose proof PI_RGT_0 as P. split; apply Rnot_lt_le; intros C.
    - assert (sind e <= sind 0) by (rewrite !sind_rad; apply sin_incr_1; unfold rad; nra). rewrite sind_0 in *. lra.
    - assert (sind 80 <= sind e) by (rewrite !sind_rad; apply sin_incr_1; unfold rad; nra). assert (0.98 <= sind 80) by (unfold sind; interval). lra. }
  exists sr, ss, tr, ut, dec, ha, e, (e + refraction_formula 101325 288 e). repeat (split; [assumption|]).
  unfold get_altitude. rewrite (instant_aware _ _ Hi), bind_Ok, E1, bind_Ok, E2, bind_Ok, refraction_above, bind_Ok, add_R by lra. reflexivity.
Qed.

(* Which way the sun is, from its hour angle. *)
From Coq Require Import Reals Lra Lia.
From Flocq Require Import Core.
From Interval Require Import Tactic.
From Verif Require Import Py Num Cal TzCheck Clock Constants SolarTime Solar Util RInst RTac SpecTime SpecDt SpecGeom SpecAstro SpecEng
  Trig GeoProofs PositionProofs SpaProofs SpanProofs TopoProofs AngleLip B64Ranges B64Final Samples ApproxProofs SunProofs MotionProofs.
Local Open Scope R_scope.

Lemma east_part dec ha : dot (equatorial dec ha) east = - (cosd dec * sind ha).
Proof. unfold dot, equatorial, east. ring. Qed.
Lemma north_part lat dec ha : dot (equatorial dec ha) (north lat) = - sind (lat - dec) + sind lat * cosd dec * (1 - cosd ha).
Proof. unfold dot, equatorial, north. rewrite sind_minus. ring. Qed.
Lemma up_part lat dec ha : dot (equatorial dec ha) (up lat) = cosd (lat - dec) - cosd lat * cosd dec * (1 - cosd ha).
Proof. unfold dot, equatorial, up. rewrite cosd_minus. ring. Qed.
Lemma turned ha (k : Z) : sind (ha - 360 * IZR k) = sind ha /\ cosd (ha - 360 * IZR k) = cosd ha.
Proof.
  assert (S : same_angle (ha - 360 * IZR k) ha) by (exists (- k)%Z; rewrite opp_IZR; ring).
  split; [apply same_angle_sin|apply same_angle_cos]; exact S.
Qed.

Lemma halves d u lat lon el dec ha az (k : Z) : instant d u -> in_range u = true -> -90 <= lat <= 90 -> -100000 <= el <= 100000 ->
  get_topocentric_position (N := MathR) (Fin lat) (Fin lon) d (Fin el) = Ok (Fin dec, Fin ha) ->
  get_azimuth (N := MathR) (Fin lat) (Fin lon) d (Fin el) = Ok (Fin az) ->
  (-180 < ha - 360 * IZR k < 0 -> 0 < az < 180) /\ (0 < ha - 360 * IZR k < 180 -> 180 < az < 360).
Proof.
  intros Hi Hr Hlat Hel E1 E2. destruct (azimuth_total lat lon d el u Hi Hr Hlat ltac:(lra)) as (dec' & ha' & az' & e & H1 & B & _ & H3 & (H4 & _) & H5 & H6).
  rewrite E1 in H1. apply Ok_inj in H1. injection H1 as <- <-. rewrite E2 in H3. apply Ok_inj in H3. injection H3 as <-.
  rewrite east_part in H4. destruct (turned ha k) as [TS _]. rewrite <- TS in H4. pose proof (cosd_pos dec B) as CD. pose proof (cosd_nonneg e H6) as CE.
  destruct (side az H5) as [S1 S2]. set (h := ha - 360 * IZR k) in *. split; intros Hh.
  - apply S1. assert (sind h < 0) by (pose proof (sind_pos (- h) ltac:(lra)) as P; rewrite sind_opp in P; lra).
    assert (0 < sind az * cosd e) by nra. nra.
  - split; [|lra]. apply S2. pose proof (sind_pos h Hh). assert (sind az * cosd e < 0) by nra. nra.
Qed.

Lemma due_south az e : 0 <= az < 360 -> 0 <= cosd e -> sind az * cosd e = 0 -> cosd az * cosd e < 0 -> az = 180.
Proof.
  intros Ha Ce S C. assert (cosd e <> 0) by (intros E; rewrite E in C; lra). assert (CA : cosd az < 0) by nra.
  assert (SA : sind az = 0) by (apply Rmult_integral in S; destruct S; [assumption|contradiction]).
  destruct (Rtotal_order az 180) as [L|[L|L]]; [|exact L|]; exfalso.
  - destruct (Rle_lt_or_eq_dec 0 az ltac:(lra)) as [P|P]; [pose proof (sind_pos az ltac:(lra)); lra|].
    rewrite <- P in CA. unfold cosd in CA. replace (0 * PI / 180) with 0 in CA by field. rewrite cos_0 in CA. lra.
  - pose proof (sind_pos (az - 180) ltac:(lra)) as P. rewrite sind_minus in P.
    replace (cosd 180) with (-1) in P by (unfold cosd; replace (180 * PI / 180) with PI by field; now rewrite cos_PI).
    replace (sind 180) with 0 in P by (unfold sind; replace (180 * PI / 180) with PI by field; now rewrite sin_PI). lra.
Qed.
Lemma due_north az e : 0 <= az < 360 -> 0 <= cosd e -> sind az * cosd e = 0 -> 0 < cosd az * cosd e -> az = 0.
Proof.
  intros Ha Ce S C. assert (cosd e <> 0) by (intros E; rewrite E in C; lra). assert (CA : 0 < cosd az) by nra.
  assert (SA : sind az = 0) by (apply Rmult_integral in S; destruct S; [assumption|contradiction]).
  destruct (Rle_lt_or_eq_dec 0 az ltac:(lra)) as [P|P]; [exfalso|now symmetry].
  destruct (Rtotal_order az 180) as [L|[L|L]].
  - pose proof (sind_pos az ltac:(lra)). lra.
  - rewrite L in CA. unfold cosd in CA. replace (180 * PI / 180) with PI in CA by field. rewrite cos_PI in CA. lra.
  - pose proof (sind_pos (az - 180) ltac:(lra)) as Q. rewrite sind_minus in Q.
    replace (cosd 180) with (-1) in Q by (unfold cosd; replace (180 * PI / 180) with PI by field; now rewrite cos_PI).
    replace (sind 180) with 0 in Q by (unfold sind; replace (180 * PI / 180) with PI by field; now rewrite sin_PI). lra.
Qed.
Lemma elevation_of_sine e D : -90 <= e <= 90 -> 0 <= D <= 180 -> sind e = cosd D -> e = 90 - D.
Proof.
  intros He HD E. assert (S : sind (90 - D) = cosd D).
  { rewrite sind_minus. replace (sind 90) with 1 by (unfold sind; replace (90 * PI / 180) with (PI / 2) by field; now rewrite sin_PI2).
    replace (cosd 90) with 0 by (unfold cosd; replace (90 * PI / 180) with (PI / 2) by field; now rewrite cos_PI2). ring. }
  rewrite <- S in E. destruct (Rtotal_order e (90 - D)) as [L|[L|L]]; [|exact L|]; exfalso.
  - pose proof (sind_incr e (90 - D) ltac:(lra) L ltac:(lra)). lra.
  - pose proof (sind_incr (90 - D) e ltac:(lra) L ltac:(lra)). lra.
Qed.

Lemma culminates d u lat lon el dec ha az e (k : Z) : instant d u -> (midnight 1901 1 1 <= u < midnight 2100 1 1)%Z -> -90 <= lat <= 90 -> -100000 <= el <= 100000 ->
  get_topocentric_position (N := MathR) (Fin lat) (Fin lon) d (Fin el) = Ok (Fin dec, Fin ha) ->
  get_azimuth (N := MathR) (Fin lat) (Fin lon) d (Fin el) = Ok (Fin az) ->
  get_topocentric_elevation_angle (N := MathR) (Fin lat) (Fin dec) (Fin ha) = Ok (Fin e) -> ha = 360 * IZR k ->
  e = 90 - Rabs (lat - dec) /\ (23.47 <= lat -> az = 180) /\ (lat <= -23.47 -> az = 0).
Proof.
  intros Hi Hu Hlat Hel E1 E2 E3 K. pose proof (modern_in_range u Hu) as Hr.
  destruct (tropics d u lat lon el dec ha e Hi Hu Hlat Hel E1 E3) as (TD & _ & _). apply Rabs_le_inv in TD.
  destruct (azimuth_total lat lon d el u Hi Hr Hlat ltac:(lra)) as (dec' & ha' & az' & e' & H1 & B & H2 & H3 & (X & Y & Z) & H5 & H6).
  rewrite E1 in H1. apply Ok_inj in H1. injection H1 as <- <-. rewrite E2 in H3. apply Ok_inj in H3. injection H3 as <-.
  rewrite E3 in H2. apply Ok_inj in H2. injection H2 as <-.
  rewrite east_part in X. rewrite north_part in Y. rewrite up_part in Z. destruct (turned ha k) as [TS TC].
  replace (ha - 360 * IZR k) with 0 in TS, TC by lra. rewrite <- TS, sind_0 in X. rewrite <- TC in Y, Z.
  replace (cosd 0) with 1 in Y, Z by (unfold cosd; replace (0 * PI / 180) with 0 by field; now rewrite cos_0).
  pose proof (cosd_nonneg e H6) as CE. split; [|split]; intros.
  - apply elevation_of_sine; [exact H6|unfold Rabs; destruct (Rcase_abs (lat - dec)); lra|].
    unfold Rabs. destruct (Rcase_abs (lat - dec)); [|lra]. replace (cosd (- (lat - dec))) with (cosd (lat - dec)); [lra|].
    unfold cosd. replace (- (lat - dec) * PI / 180) with (- ((lat - dec) * PI / 180)) by field. now rewrite cos_neg.
  - apply (due_south az e H5 CE); [lra|]. pose proof (sind_pos (lat - dec) ltac:(lra)). lra.
  - apply (due_north az e H5 CE); [lra|]. pose proof (sind_pos (- (lat - dec)) ltac:(lra)) as P. rewrite sind_opp in P. lra.
Qed.

(* ---------------------------------------------------------------- at the computed transit *)
Lemma small_angle h : -0.447 <= h <= 0.447 -> -0.0078016 <= sind h <= 0.0078016 /\ 0 <= 1 - cosd h <= 0.0000305.
Proof. intros H. unfold sind, cosd. split; split; [interval..| |interval]. pose proof (COS_bound (h * PI / 180)). lra. Qed.
Lemma sine_edge : 0.11377 <= sind 6.533.
Proof. unfold sind. interval. Qed.
Lemma sine_far D : 6.533 <= D <= 113.467 -> 0.11377 <= sind D.
Proof.
  intros H. destruct (Rle_dec D 90) as [L|L].
  - destruct (Rle_lt_or_eq_dec 6.533 D ltac:(lra)) as [Q|Q]; [pose proof (sind_incr 6.533 D ltac:(lra) Q L)|rewrite <- Q];
      pose proof sine_edge; lra.
  - rewrite <- sind_supp. destruct (Rle_lt_or_eq_dec 6.533 (180 - D) ltac:(lra)) as [Q|Q]; [pose proof (sind_incr 6.533 (180 - D) ltac:(lra) Q ltac:(lra))|rewrite <- Q];
      pose proof sine_edge; lra.
Qed.
Lemma within_four a : -180 <= a <= 180 -> 0 < cosd a -> - (0.0699 * cosd a) < sind a < 0.0699 * cosd a -> -4 <= a <= 4.
Proof.
  intros Ha C S. assert (K : 0.0699 * cosd 4 <= sind 4) by (apply Rminus_le; unfold sind, cosd; interval).
  assert (S4 : 0 < sind 4) by (apply sind_pos; lra). assert (C4 : 0 < cosd 4) by (apply cosd_pos; lra). split.
  - destruct (Rle_dec (-4) a) as [|N]; [assumption|exfalso]. assert (P : 0 <= sind (- a - 4)) by (apply sind_nonneg; lra). rewrite sind_minus, sind_opp in P.
    replace (cosd (- a)) with (cosd a) in P by (unfold cosd; replace (- a * PI / 180) with (- (a * PI / 180)) by field; now rewrite cos_neg). nra.
  - destruct (Rle_dec a 4) as [|N]; [assumption|exfalso]. assert (P : 0 <= sind (a - 4)) by (apply sind_nonneg; lra). rewrite sind_minus in P. nra.
Qed.
Lemma noon_side d u lat lon el sr ss tr ut : instant d u -> -90 < lat < 90 -> -180 <= lon <= 180 -> -100000 <= el <= 100000 ->
  (midnight 1901 1 1 <= dt_local d < midnight 2100 1 1)%Z ->
  get_sunrise_sunset_transit (N := MathR) (Fin lat) (Fin lon) d = Ok (sr, ss, tr) ->
  instant tr ut -> (dt_local tr - ut = dt_local d - u)%Z -> (midnight 1901 1 1 <= ut < midnight 2100 1 1)%Z ->
  exists az, get_azimuth (N := MathR) (Fin lat) (Fin lon) tr (Fin el) = Ok (Fin az) /\
    (30 <= lat -> Rabs (az - 180) <= 4) /\ (lat <= -30 -> 0 <= az <= 4 \/ 356 <= az < 360).
Proof.
  intros Hd Hlat Hlon Hel Hl Hs Hi Off Hu. destruct (transit_true d u lat lon el sr ss tr ut Hd Hlat Hlon Hel Hl Hs Hi Off Hu) as (dec & ha & k & E1 & K).
  pose proof (modern_in_range ut Hu) as Hr.
  destruct (azimuth_total lat lon tr el ut Hi Hr ltac:(lra) ltac:(lra)) as (dec' & ha' & az & e & H1 & B & H2 & H3 & (X & Y & Z) & H5 & H6).
  rewrite E1 in H1. apply Ok_inj in H1. injection H1 as <- <-.
  destruct (tropics tr ut lat lon el dec ha e Hi Hu ltac:(lra) Hel E1 H2) as (TD & _ & _). apply Rabs_le_inv in TD, K.
  exists az. split; [exact H3|]. destruct (turned ha k) as [TS TC]. destruct (small_angle (ha - 360 * IZR k) ltac:(lra)) as [S1 S2]. rewrite TS in S1. rewrite TC in S2.
  rewrite east_part in X. rewrite north_part in Y. pose proof (cosd_nonneg e H6) as CE.
  assert (CD : 0 < cosd dec <= 1) by (split; [apply cosd_pos; exact B|apply COS_bound]).
  assert (XB : -0.0078016 <= sind az * cosd e <= 0.0078016) by (rewrite <- X; split; nra).
  assert (SL : -1 <= sind lat <= 1) by apply SIN_bound.
  assert (W : -0.0000305 <= sind lat * cosd dec * (1 - cosd ha) <= 0.0000305).
  { assert (Q : -1 <= sind lat * cosd dec <= 1) by (split; nra). set (q := sind lat * cosd dec) in *. clearbody q. split; nra. }
  set (w := sind lat * cosd dec * (1 - cosd ha)) in *. clearbody w. split; intros L.
  - pose proof (sine_far (lat - dec) ltac:(lra)) as P.
    assert (A : -4 <= az - 180 <= 4); [|apply Rabs_le; lra].
    assert (C180 : cosd (az - 180) = - cosd az).
    { rewrite cosd_minus. replace (cosd 180) with (-1) by (unfold cosd; replace (180 * PI / 180) with PI by field; now rewrite cos_PI).
      replace (sind 180) with 0 by (unfold sind; replace (180 * PI / 180) with PI by field; now rewrite sin_PI). ring. }
    assert (S180 : sind (az - 180) = - sind az).
    { rewrite sind_minus. replace (cosd 180) with (-1) by (unfold cosd; replace (180 * PI / 180) with PI by field; now rewrite cos_PI).
      replace (sind 180) with 0 by (unfold sind; replace (180 * PI / 180) with PI by field; now rewrite sin_PI). ring. }
    assert (CE0 : 0 < cosd e) by (destruct (Rle_lt_or_eq_dec 0 (cosd e) CE) as [|N]; [assumption|rewrite <- N in Y; lra]).
    apply within_four; [lra|rewrite C180; nra|]. rewrite C180, S180.
    assert (NN : cosd az * cosd e <= -0.1137) by lra.
    split; apply (Rmult_lt_reg_r (cosd e)); try exact CE0; lra.
  - pose proof (sine_far (- (lat - dec)) ltac:(lra)) as P. rewrite sind_opp in P.
    assert (CE0 : 0 < cosd e) by (destruct (Rle_lt_or_eq_dec 0 (cosd e) CE) as [|N]; [assumption|rewrite <- N in Y; lra]).
    assert (NN : 0.1137 <= cosd az * cosd e) by lra.
    destruct (Rle_dec az 180) as [L2|L2].
    + left. assert (-4 <= az <= 4); [|lra]. apply within_four; [lra|nra|]. split; apply (Rmult_lt_reg_r (cosd e)); try exact CE0; lra.
    + right. destruct (turned az 1) as [T1 T2]. assert (-4 <= az - 360 * 1 <= 4); [|lra]. apply within_four; [lra|rewrite T2; nra|]. rewrite T1, T2.
      split; apply (Rmult_lt_reg_r (cosd e)); try exact CE0; lra.
Qed.
(* somewhere on every parallel the sun is on the meridian *)
Lemma meridian d u lat el : instant d u -> in_range u = true -> -90 <= lat <= 90 -> -100000 <= el <= 100000 ->
  exists lon dec az e, -180 <= lon < 180 /\ get_topocentric_position (N := MathR) (Fin lat) (Fin lon) d (Fin el) = Ok (Fin dec, Fin 0) /\
    get_azimuth (N := MathR) (Fin lat) (Fin lon) d (Fin el) = Ok (Fin az) /\
    get_topocentric_elevation_angle (N := MathR) (Fin lat) (Fin dec) (Fin 0) = Ok (Fin e).
Proof.
  intros Hi Hr Hlat Hel. destruct (jd_ok d u Hi Hr) as (jd & jde & Ejd & Ejde & B1 & B2).
  pose proof (cos_delta_bound jde B2) as C. pose proof (sin_par_bound jde B2) as P.
  destruct (choose_longitude (app_sid jd jde) (sun_alpha jde) 0 ltac:(lra)) as (lon & Hlon & EH).
  destruct (azimuth_total lat lon d el u Hi Hr Hlat ltac:(lra)) as (dec & ha & az & e & H1 & B & H2 & H3 & _).
  destruct (position_val lat lon d el u Hi Hr Hlat ltac:(lra)) as (x & y & jd' & jde' & x0 & y0 & E1 & E2 & _ & _ & EP & Ex & Ey & Epos & Bd).
  rewrite Ejd in E1. rewrite Ejde in E2. apply Ok_inj in E1, E2. injection E1 as <-. injection E2 as <-.
  destruct (observer_bounds lat el x0 y0 EP Hel) as [BX BY]. rewrite <- Ex in BX.
  rewrite H1 in Epos. apply Ok_inj in Epos. injection Epos as Ed Eh.
  assert (Z : ha = 0).
  { rewrite Eh. unfold topo_H, lib_H. rewrite EH. unfold lib_dalpha. rewrite sind_0, cosd_0.
    rewrite Ratan2_pos by nra. rewrite Rmult_0_r. unfold Rdiv. rewrite Rmult_0_l, atan_0, deg_0. ring. }
  subst ha. rewrite Z in *. exists lon, dec, az, e. auto.
Qed.
Lemma transit_case : exists sr ss tr ut, get_sunrise_sunset_transit (N := MathR) (Fin 40) (Fin (-75)) sample_dt = Ok (sr, ss, tr) /\
  instant tr ut /\ (dt_local tr - ut = dt_local sample_dt - sample_u)%Z /\ (midnight 1901 1 1 <= ut < midnight 2100 1 1)%Z.
Proof. destruct sunrise_case as (sr & ss & tr & E & _ & H). destruct (H tr (or_intror (or_intror eq_refl))) as (ut & A). exists sr, ss, tr, ut. auto. Qed.

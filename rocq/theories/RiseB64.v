(* Where the doubles put the sun at the sunrise, sunset and transit computed in doubles. *)
From Coq Require Import Reals Qreals Lra Lia List Psatz.
From Flocq Require Import Core.
From Interval Require Import Tactic.
From Verif Require Import Py Num Cal TzCheck Clock Tables Constants SolarTime Solar Util RInst RTac SpecTime SpecDt SpecGeom SpecAstro SpecEng SpecDemo SpecB64 SpecRise
  B64 B64Lemmas Trig GeoProofs SolarTimeProofs PositionProofs SpaProofs FastProofs SpanProofs TopoProofs AngleLip B64Ranges B64Lift B64Pos B64Horiz B64Sky B64Final SunriseProofs Samples
  B64Fast B64Sunrise ApproxNum ApproxProofs SunNum SunProofs RefrOrder ClimbProofs DayProofs PeakProofs.
Local Open Scope R_scope.

(* the direction of the sun at a reading within 1.5 microseconds of w hours from the transit *)
Lemma near_clock d u day h m lat lon el t ut w : instant d u -> civil_clock (dt_local d) day h m ->
  instant t ut -> (dt_local t - ut = dt_local d - u)%Z ->
  (midnight 1901 1 1 <= dt_local d < midnight 2100 1 1)%Z -> (midnight 1901 1 1 <= ut < midnight 2100 1 1)%Z ->
  -90 <= lat <= 90 -> -180 <= lon <= 180 -> -100000 <= el <= 100000 -> -11.99 <= w <= 11.99 ->
  Rabs (IZR (dt_local t) - (IZR (day_start (dt_local d)) + (transit_hours (dt_local d - u) lon (IZR day) + w) * 3600000000)) <= 3 / 2 ->
  exists dec ha (k : Z), get_topocentric_position (N := MathR) (Fin lat) (Fin lon) t (Fin el) = Ok (Fin dec, Fin ha) /\
    Rabs (dec - fourier_declination (IZR day)) <= 1.257 /\ Rabs (ha - 15 * w - 360 * IZR k) <= 0.44701.
Proof.
  intros Hd Hc Hi Off Hl Hu Hlat Hlon Hel Hw Ha. apply Rabs_le_inv in Ha.
  set (noon := transit_hours (dt_local d - u) lon (IZR day)) in *.
  set (w' := (IZR (dt_local t) - IZR (day_start (dt_local d))) / 3600000000 - noon).
  assert (A : hours_after (dt_local d) (noon + w') (dt_local t)).
  { unfold hours_after, w'. match goal with |- Rabs ?a <= _ => replace a with 0 by lra end. rewrite Rabs_R0. lra. }
  assert (W : Rabs (w' - w) <= 1e-9) by (apply Rabs_le; unfold w'; lra). apply Rabs_le_inv in W.
  destruct (sun_clock d u day h m lat lon el t ut w' Hd Hc Hi Off Hl Hu Hlat Hlon Hel ltac:(lra) A) as (dec & ha & k & E & D & K).
  exists dec, ha, k. split; [exact E|]. split; [exact D|]. apply Rabs_le_inv in K. apply Rabs_le. lra.
Qed.
Lemma near_direction' d h d' h' (k : Z) : Rabs (d - d') <= 1.257 -> Rabs (h - h' - 360 * IZR k) <= 0.44701 ->
  cosd 1.34 <= dot (equatorial d h) (equatorial d' h').
Proof.
  intros D H. apply Rabs_le_inv in D, H. rewrite dot_equatorial. pose proof (cosd_bound d) as B1. pose proof (cosd_bound d') as B2.
  assert (P : -1 <= cosd d * cosd d' <= 1) by (pose proof (prod_le (cosd d) (cosd d') 1 1 ltac:(lra) ltac:(lra)); lra).
  replace (cosd (h - h')) with (cosd (h - h' - 360 * IZR k)) by (apply same_angle_cos; exists (- k)%Z; rewrite opp_IZR; ring).
  set (a := d - d') in *. set (b := h - h' - 360 * IZR k) in *. clearbody a b. pose proof (cosd_bound b) as CB.
  assert (cosd 1.34 <= cosd a + cosd b - 1) by (unfold cosd; interval with (i_bisect a, i_prec 50)). nra.
Qed.
(* the hour angle at sunrise from its cosine *)
Lemma half_day lat decl H : -90 < lat < 90 -> -90 < decl < 90 -> rises_at lat decl H -> cosd (15 * H) = rising_cosine lat decl.
Proof.
  intros Hl Hd R. pose proof (cosd_pos lat Hl) as A. pose proof (cosd_pos decl Hd) as B. unfold rises_at, dot, equatorial, up in R. unfold rising_cosine.
  replace (-0.833) with (- (0.833)) by lra. rewrite <- R. field. lra.
Qed.
Lemma half_day_bounds lat decl H : -90 < lat < 90 -> -90 < decl < 90 -> rises_at lat decl H -> 0 <= H <= 12 -> Rabs (rising_cosine lat decl) <= 0.99 -> 0.5 <= H <= 11.5.
Proof.
  intros Hl Hd R HB C. rewrite <- (half_day _ _ _ Hl Hd R) in C. apply Rabs_le_inv in C. clear R. split; apply Rnot_lt_le; intros N.
  - assert (0.9914 <= cosd (15 * H)) by (unfold cosd; interval). lra.
  - assert (cosd (15 * H) <= -0.9914) by (unfold cosd; interval). lra.
Qed.

Section F.
Context (L : libm) (HL : accurate L).
Context (d : datetime) (u day h m : Z) (Hd : instant d u) (Hc : civil_clock (dt_local d) day h m).
Context (x xo xe : f64) (lat lon el : R) (Vx : val x lat) (Vo : val xo lon) (Ve : val xe el) (Hlat : -89 <= lat <= 89) (Hlon : -180 <= lon <= 180) (Hel : -100000 <= el <= 100000).
Context (Hl : (midnight 1901 1 1 <= dt_local d < midnight 2100 1 1)%Z).
Context (HR : Rabs (rising_cosine lat (fourier_declination (IZR day))) <= 0.99).
Let noon := transit_hours (dt_local d - u) lon (IZR day).

Lemma inside_1901 : inside_calendar d.
Proof. destruct Hl as [A B]. split; (eapply Z.le_trans; [|exact A]) || (eapply Z.lt_le_trans; [exact B|]); vm_compute; discriminate. Qed.
Lemma moments64 : exists sr ss tr H, get_sunrise_sunset_transit (N := B64 L) x xo d = Ok (sr, ss, tr) /\ 0.5 <= H <= 11.5 /\
  rises_at lat (fourier_declination (IZR day)) H /\
  Rabs (IZR (dt_local sr) - (IZR (day_start (dt_local d)) + (noon + - H) * 3600000000)) <= 3 / 2 /\
  Rabs (IZR (dt_local ss) - (IZR (day_start (dt_local d)) + (noon + H) * 3600000000)) <= 3 / 2 /\
  Rabs (IZR (dt_local tr) - (IZR (day_start (dt_local d)) + (noon + 0) * 3600000000)) <= 3 / 2.
Proof.
  destruct (sunrise64_both L HL d u day h m Hd Hc inside_1901 x xo lat lon Vx Vo ltac:(apply Rabs_le; lra) ltac:(apply Rabs_le; lra)) as (A & _).
  destruct (A ltac:(lra)) as (sr & ss & tr & sr' & ss' & tr' & G & G' & _ & _ & (_ & T3) & C). destruct (C HR) as ((_ & T1) & (_ & T2)). clear A C.
  destruct (sunrise_solution d u day h m lat lon sr' ss' tr' Hd Hc ltac:(lra) G') as (H & HB & R & _ & A1 & A2 & A3). cbv zeta in A1, A2, A3. fold noon in A1, A2, A3.
  pose proof (fourier_declination_range (IZR day)) as DR.
  exists sr, ss, tr, H. split; [exact G|]. split; [apply (half_day_bounds lat (fourier_declination (IZR day))); lra || assumption|]. split; [exact R|].
  unfold hours_after in *. apply IZR_le in T1, T2, T3. rewrite abs_IZR, minus_IZR in T1, T2, T3.
  apply Rabs_le_inv in A1, A2, A3, T1, T2, T3. repeat split; apply Rabs_le; lra.
Qed.

(* the elevation and azimuth of the doubles at w hours from the transit, w being sunrise or sunset *)
Lemma horizon64 t ut w : instant t ut -> (dt_local t - ut = dt_local d - u)%Z -> (midnight 1901 1 1 <= ut < midnight 2100 1 1)%Z ->
  -11.5 <= w <= 11.5 -> rises_at lat (fourier_declination (IZR day)) w ->
  Rabs (IZR (dt_local t) - (IZR (day_start (dt_local d)) + (noon + w) * 3600000000)) <= 3 / 2 ->
  (exists qd qh q e, get_topocentric_position (N := B64 L) x xo t xe = Ok (qd, qh) /\
    get_topocentric_elevation_angle (N := B64 L) x qd qh = Ok q /\ val q e /\ Rabs (e - -0.833) <= 1.341) /\
  (exists q a A (k : Z), get_azimuth (N := B64 L) x xo t xe = Ok q /\ val q a /\ Rabs (a - A - 360 * IZR k) <= 4e-7 /\ 0 <= A < 360 /\
    (w <= -0.5 -> 0.002 <= sind A) /\ (0.5 <= w -> sind A <= -0.002)).
Proof.
  intros Hi Off Hu Hw R Ha. pose proof (modern_in_range ut Hu) as Hr.
  assert (HM : (midnight 1834 1 1 <= ut < midnight 2106 1 1)%Z) by (destruct Hu as [U1 U2]; split; [eapply Z.le_trans; [|exact U1]|eapply Z.lt_le_trans; [exact U2|]]; vm_compute; discriminate).
  destruct (near_clock d u day h m lat lon el t ut w Hd Hc Hi Off Hl Hu ltac:(lra) Hlon Hel ltac:(lra) Ha) as (dec & ha & k & E & D & K).
  destruct (azimuth_total lat lon t el ut Hi Hr ltac:(lra) ltac:(lra)) as (dec' & ha' & az & e & F1 & F2 & F3 & F4 & F5 & F6 & F7).
  rewrite E in F1. apply Ok_inj in F1. injection F1 as <- <-.
  pose proof (near_direction' _ _ _ _ k D K) as C.
  assert (EB : Rabs (e - -0.833) <= 1.34).
  { apply (elevation_within (equatorial (fourier_declination (IZR day)) (15 * w)) (equatorial dec ha) (up lat) 1.34 e (-0.833) (dot_eq _ _) (dot_eq _ _) (dot_up lat)).
    + lra.
    + exact C.
    + exact F7.
    + lra.
    + symmetry. apply F5.
    + unfold rises_at in R. rewrite R. unfold sind. f_equal. lra. }
  apply Rabs_le_inv in EB as EB'. assert (E89 : Rabs e <= 89) by (apply Rabs_le; lra).
  assert (CE : 0.99 <= cosd e) by (assert (X : -2.2 <= e <= 0.6) by lra; clear - X; unfold cosd; interval with (i_bisect e)). split.
  - destruct (position64_modern L HL lat lon el x xo xe t ut Hi HM Vx Vo Ve ltac:(lra) ltac:(lra) Hel) as (qd & qh & d1 & h1 & d2 & h2 & k1 & Q & VD & VH & Q' & BD & _ & BH & D1 & D2).
    rewrite E in Q'. apply Ok_inj in Q'. injection Q' as <- <-.
    destruct (elev64 L HL x lat qd d1 qh h1 dec ha k1 _ _ Vx VD VH ltac:(lra) BD BH D1 D2 ltac:(lra)) as [EV EF]. cbv zeta in EV, EF.
    rewrite F3 in EV. apply Ok_inj in EV. injection EV as EV. rewrite <- EV in EF.
    destruct EF as [(q & e' & R1 & R2 & _ & R4)|[_ N]]; [|lra]. exists qd, qh, q, e'. split; [exact Q|]. split; [exact R1|]. split; [exact R2|].
    specialize (R4 E89). apply Rabs_le_inv in R4. apply Rabs_le. lra.
  - destruct (azimuth_accuracy64 L HL lat lon el x xo xe t ut dec ha e Hi Vx Vo Ve ltac:(lra) ltac:(lra) Hel E F3 ltac:(lra) 3.3e-7 (or_intror (conj HM eq_refl))) as (q & a & a' & k1 & Q & VA & Q' & DA).
    rewrite F4 in Q'. apply Ok_inj in Q'. injection Q' as <-. exists q, a, az, k1. split; [exact Q|]. split; [exact VA|]. split.
    { eapply Rle_trans; [exact DA|]. apply Rmult_le_reg_r with (cosd e); [lra|]. unfold Rdiv. rewrite Rmult_assoc, Rinv_l by lra. lra. }
    split; [exact F6|]. destruct F5 as (G & _). pose proof (fourier_declination_range (IZR day)) as DR.
    assert (G' : cosd e * sind az = - (cosd dec * sind ha)) by (rewrite (Rmult_comm (cosd e)), <- G; unfold dot, equatorial, east; ring).
    assert (CD : 0.85 <= cosd dec) by (assert (X : -30 <= dec <= 30) by (apply Rabs_le_inv in D; lra); clear - X; unfold cosd; interval with (i_bisect dec)).
    assert (CE1 : cosd e <= 1) by apply COS_bound.
    assert (SH : forall t, 7 <= t <= 173 -> 0.12 <= sind t).
    { clear. intros t T. destruct (Rle_lt_dec t 90) as [S|S]; [assert (sind 7 <= sind t) by (rewrite !sind_rad; pose proof PI_RGT_0; apply sin_incr_1; unfold rad; nra)|
        assert (sind 173 <= sind t) by (rewrite !sind_rad; pose proof PI_RGT_0; apply sin_decr_1; unfold rad; nra)];
      [assert (0.12 <= sind 7) by (unfold sind; interval)|assert (0.12 <= sind 173) by (unfold sind; interval)]; lra. }
    assert (PER : sind ha = sind (ha - 360 * IZR k)) by (symmetry; apply same_angle_sin; exists (- k)%Z; rewrite opp_IZR; ring).
    apply Rabs_le_inv in K. split; intros W.
    + assert (S : 0.12 <= sind (- (ha - 360 * IZR k))) by (apply SH; lra). rewrite sind_opp, <- PER in S. nra.
    + assert (S : 0.12 <= sind (ha - 360 * IZR k)) by (apply SH; lra). rewrite <- PER in S. nra.
Qed.
(* sunrise in the east, sunset in the west, both at the horizon *)
Lemma horizon_main64 : exists sr ss tr, get_sunrise_sunset_transit (N := B64 L) x xo d = Ok (sr, ss, tr) /\
  forall t ut, t = sr \/ t = ss -> instant t ut -> (dt_local t - ut = dt_local d - u)%Z -> (midnight 1901 1 1 <= ut < midnight 2100 1 1)%Z ->
  (exists qd qh q e, get_topocentric_position (N := B64 L) x xo t xe = Ok (qd, qh) /\
    get_topocentric_elevation_angle (N := B64 L) x qd qh = Ok q /\ val q e /\ Rabs (e - -0.833) <= 1.341) /\
  (atan2_in_range L -> exists q a, get_azimuth (N := B64 L) x xo t xe = Ok q /\ val q a /\ (t = sr -> 0 < a < 180) /\ (t = ss -> 180 < a < 360)).
Proof.
  destruct moments64 as (sr & ss & tr & H & G & HB & R & A1 & A2 & A3). exists sr, ss, tr. split; [exact G|].
  intros t ut Ht Hi Off Hu.
  assert (NE : sr <> ss). { intros N. rewrite N in A1. apply Rabs_le_inv in A1, A2. lra. }
  assert (TURN : forall q a A (k : Z), val q a -> on_circle q -> Rabs (a - A - 360 * IZR k) <= 4e-7 -> 0 <= A < 360 ->
    (0.002 <= sind A -> 0 < a < 180) /\ (sind A <= -0.002 -> 180 < a < 360)).
  { clear. intros q a A k V O D HA. destruct O as [N|(v & V' & B)].
    { destruct V as [V _]. destruct q; discriminate. }
    rewrite (val_unique _ _ _ V' V) in B. apply Rabs_le_inv in D.
    assert (K : sind (A + 360 * IZR k) = sind A) by (apply same_angle_sin; exists k; ring).
    pose proof (sind_lip a (A + 360 * IZR k)) as SL. rewrite K in SL.
    assert (DA : Rabs (a - (A + 360 * IZR k)) <= 4e-7) by (apply Rabs_le; lra).
    assert (P : 0 < PI / 180 <= 0.018) by (split; interval).
    assert (SB : Rabs (sind a - sind A) <= 1e-8) by (eapply Rle_trans; [exact SL|]; pose proof (Rabs_pos (a - (A + 360 * IZR k))); nra).
    apply Rabs_le_inv in SB. split; intros S.
    - apply (side a B). lra.
    - assert (S' : sind a < 0) by lra. pose proof (proj2 (side a B) S'). lra. }
  destruct Ht as [-> | ->].
  - destruct (horizon64 sr ut (- H) Hi Off Hu ltac:(lra) (rises_neg _ _ _ R) A1) as (E & q & a & A & k & Q & V & D & BA & S1 & _). split; [exact E|].
    intros AR. exists q, a. split; [exact Q|]. split; [exact V|].
    destruct (azimuths64 L AR) as (_ & AZ & _). destruct (TURN q a A k V (AZ _ _ _ _ _ Q) D BA) as [T _].
    split; [intros _; apply T, S1; lra|intros N; now destruct NE].
  - destruct (horizon64 ss ut H Hi Off Hu ltac:(lra) R A2) as (E & q & a & A & k & Q & V & D & BA & _ & S1). split; [exact E|].
    intros AR. exists q, a. split; [exact Q|]. split; [exact V|].
    destruct (azimuths64 L AR) as (_ & AZ & _). destruct (TURN q a A k V (AZ _ _ _ _ _ Q) D BA) as [_ T].
    split; [intros N; now destruct NE|intros _; apply T, S1; lra].
Qed.
(* the sun on the meridian at the transit, and nowhere higher within half a day *)
Lemma transit_main64 : exists sr ss tr, get_sunrise_sunset_transit (N := B64 L) x xo d = Ok (sr, ss, tr) /\
  forall ut, instant tr ut -> (dt_local tr - ut = dt_local d - u)%Z -> (midnight 1901 1 1 <= ut < midnight 2100 1 1)%Z ->
  exists qd qh ha (k : Z), get_topocentric_position (N := B64 L) x xo tr xe = Ok (qd, qh) /\ val qh ha /\ Rabs (ha - 360 * IZR k) <= 0.4471 /\
    (-84 <= lat <= 84 -> forall d' u' qd' qh' q q', instant d' u' -> in_range u' = true -> (Z.abs (u' - ut) <= 43200000000)%Z ->
      get_topocentric_elevation_angle (N := B64 L) x qd qh = Ok q ->
      get_topocentric_position (N := B64 L) x xo d' xe = Ok (qd', qh') -> get_topocentric_elevation_angle (N := B64 L) x qd' qh' = Ok q' ->
      exists e e', val q e /\ val q' e' /\ sind e' <= sind e + 4.81e-4 /\ (same_month ut u' -> sind e' <= sind e + 6.1e-5)).
Proof.
  destruct moments64 as (sr & ss & tr & H & G & HB & R & A1 & A2 & A3). exists sr, ss, tr. split; [exact G|].
  intros ut Hi Off Hu. pose proof (modern_in_range ut Hu) as Hr.
  assert (HM : (midnight 1834 1 1 <= ut < midnight 2106 1 1)%Z) by (destruct Hu as [U1 U2]; split; [eapply Z.le_trans; [|exact U1]|eapply Z.lt_le_trans; [exact U2|]]; vm_compute; discriminate).
  destruct (near_clock d u day h m lat lon el tr ut 0 Hd Hc Hi Off Hl Hu ltac:(lra) Hlon Hel ltac:(lra) A3) as (dec & ha & k & E & D & K).
  destruct (position64_modern L HL lat lon el x xo xe tr ut Hi HM Vx Vo Ve ltac:(lra) ltac:(lra) Hel) as (qd & qh & d1 & h1 & d2 & h2 & k1 & Q & VD & VH & Q' & BD & _ & BH & D1 & D2).
  rewrite E in Q'. apply Ok_inj in Q'. injection Q' as <- <-.
  exists qd, qh, h1, (k + k1)%Z. split; [exact Q|]. split; [exact VH|]. split.
  { rewrite plus_IZR. apply Rabs_le_inv in K, D2. apply Rabs_le. lra. }
  intros H84 d' u' qd' qh' q q' Hi' Hr' HU EQ Q3 EQ'.
  destruct (position64 L HL lat lon el x xo xe d' u' Hi' Hr' Vx Vo Ve ltac:(lra) ltac:(lra) Hel) as (rd & rh & d3 & h3 & d4 & h4 & k3 & Q4 & VD' & VH' & Q5 & BD' & _ & BH' & D3 & D4).
  rewrite Q3 in Q4. apply Ok_inj in Q4. injection Q4 as <- <-.
  destruct (elev64 L HL x lat qd d1 qh h1 dec ha k1 _ _ Vx VD VH ltac:(lra) BD BH D1 D2 ltac:(lra)) as [EV EF]. cbv zeta in EV, EF.
  destruct (elev64 L HL x lat qd' d3 qh' h3 d4 h4 k3 _ _ Vx VD' VH' ltac:(lra) BD' BH' D3 D4 ltac:(lra)) as [EV' EF']. cbv zeta in EV', EF'.
  destruct EF as [(q0 & e & R1 & R2 & R3 & _)|[N _]]; [|rewrite EQ in N; discriminate]. destruct EF' as [(q0' & e' & R1' & R2' & R3' & _)|[N _]]; [|rewrite EQ' in N; discriminate].
  rewrite EQ in R1. apply Ok_inj in R1. subst q0. rewrite EQ' in R1'. apply Ok_inj in R1'. subst q0'.
  exists e, e'. split; [exact R2|]. split; [exact R2'|].
  destruct (peak_near tr ut lat lon el d' u' dec ha _ d4 h4 _ k Hi Hr H84 Hel Hi' Hr' HU ltac:(replace (ha - 360 * IZR k) with (ha - 15 * 0 - 360 * IZR k) by ring; lra) E EV Q5 EV') as [P1 P2].
  set (E1 := deg (asin (sin_elev lat dec ha))) in *. set (E2 := deg (asin (sin_elev lat d4 h4))) in *. clearbody E1 E2.
  assert (P : 0 < PI / 180 <= 0.018) by (split; interval).
  assert (X1 : Rabs (sind e - sind E1) <= 2e-7) by (eapply Rle_trans; [apply sind_lip|]; pose proof (Rabs_pos (e - E1)); nra).
  assert (X2 : Rabs (sind e' - sind E2) <= 2e-7) by (eapply Rle_trans; [apply sind_lip|]; pose proof (Rabs_pos (e' - E2)); nra).
  apply Rabs_le_inv in X1, X2. split; [lra|]. intros SM. specialize (P2 SM). lra.
Qed.
End F.

(* ---------------------------------------------------------------- a case *)
Lemma rise64_case L : accurate L -> exists sr ss tr, get_sunrise_sunset_transit (N := B64 L) (flit 40) (flit (-75)) sample_dt = Ok (sr, ss, tr) /\
  forall t, t = sr \/ t = ss \/ t = tr -> exists ut, instant t ut /\ (dt_local t - ut = dt_local sample_dt - sample_u)%Z /\ (midnight 1901 1 1 <= ut < midnight 2100 1 1)%Z.
Proof.
  intros HL. destruct sunrise64_case as [HR _].
  assert (V1 : val (flit 40) 40) by (apply (val_int 40); vm_compute; discriminate). assert (V2 : val (flit (-75)) (-75)) by (apply (val_int (-75)); vm_compute; discriminate).
  assert (HY : (midnight 1901 1 1 <= dt_local sample_dt < midnight 2100 1 1)%Z) by (vm_compute; split; congruence).
  destruct (moments64 L HL sample_dt sample_u 173 12 0 sample_instant sample_local_clock _ _ 40 (-75) V1 V2 ltac:(lra) ltac:(lra) HY HR) as (sr & ss & tr & H & G & HB & _ & A1 & A2 & A3).
  exists sr, ss, tr. split; [exact G|].
  assert (TZ : forall t, t = sr \/ t = ss \/ t = tr -> dt_tz t = dt_tz sample_dt).
  { destruct (sunrise64_both L HL sample_dt sample_u 173 12 0 sample_instant sample_local_clock sample_inside _ _ 40 (-75) V1 V2 ltac:(apply Rabs_le; lra) ltac:(apply Rabs_le; lra)) as (A & _).
    destruct (A ltac:(lra)) as (a & b & t & a' & b' & t' & F & F' & (B1 & _) & (B2 & _) & (B3 & _) & _). rewrite G in F. apply Ok_inj in F. injection F as <- <- <-.
    pose proof (sunrise_ordered _ _ _ _ _ _ F') as (_ & _ & T1 & T2 & T3). intros t [-> | [-> | ->]]; congruence. }
  assert (W : forall t w, -11.5 <= w <= 11.5 -> dt_tz t = dt_tz sample_dt ->
    Rabs (IZR (dt_local t) - (IZR (day_start (dt_local sample_dt)) + (transit_hours (dt_local sample_dt - sample_u) (-75) (IZR 173) + w) * 3600000000)) <= 3 / 2 ->
    exists ut, instant t ut /\ (dt_local t - ut = dt_local sample_dt - sample_u)%Z /\ (midnight 1901 1 1 <= ut < midnight 2100 1 1)%Z).
  { intros t w Hw Ht Ha. apply Rabs_le_inv in Ha. set (noon := transit_hours _ _ _) in *.
    apply (sample_after t ((IZR (dt_local t) - IZR (day_start (dt_local sample_dt))) / 3600000000 - noon)); [|lra|exact Ht].
    fold noon. unfold hours_after. match goal with |- Rabs ?a <= _ => replace a with 0 by lra end. rewrite Rabs_R0. lra. }
  intros t [-> | [-> | ->]].
  - apply (W sr (- H)); [lra|auto|exact A1].
  - apply (W ss H); [lra|auto|exact A2].
  - apply (W tr 0); [lra|auto|exact A3].
Qed.

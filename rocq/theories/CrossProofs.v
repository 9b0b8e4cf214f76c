(* Consequences of continuity within a month: the sun passes every low elevation every day. *)
From Coq Require Import Reals Qreals Lra Lia ZArith.
From Flocq Require Import Core.
From Interval Require Import Tactic.
From Verif Require Import Py Num Cal TzCheck Clock Tables Constants SolarTime Solar Radiation RInst RTac SpecTime SpecDt SpecGeom SpecAstro SpecEng SpecDemo
  Trig GeoProofs SolarTimeProofs JulianProofs PositionProofs SpaProofs TopoProofs AngleLip B64Ranges Samples ApproxProofs MoveProofs MotionProofs MotionLip RadiationProofs RefractionProofs.
Local Open Scope R_scope.

Definition jd_of (u : Z) : R := jd_utc u + (Q2R (off_q (f_year (fields_of_us u)) (f_mon (fields_of_us u))) + 32.184) / 86400.
Definition jde_of (u : Z) : R := jd_utc u + (IZR (tai_minus_utc u) + 32.184) / 86400.
Lemma jd_of_range u : in_range u = true -> 1721425 < jd_of u < 5373485 /\ 1721425 < jde_of u < 5373485.
Proof.
  intros Hr. destruct (sky (at_utc u) u (at_utc_instant u) Hr) as (jd & j & o & s & _).
  pose proof (tai_range u) as [T1 T2]. apply IZR_le in T1, T2.
  pose proof (adj_ok (f_year (fields_of_us u)) (f_mon (fields_of_us u)) (fields_mon_range u)) as A.
  destruct (next_ym (f_year (fields_of_us u)) (f_mon (fields_of_us u))) as [y' m']. destruct A as (_ & A1 & A2).
  apply Qle_Rle in A1, A2. replace (Q2R (-34)) with (-34) in A1 by (unfold Q2R; simpl; lra). replace (Q2R (-30)) with (-30) in A2 by (unfold Q2R; simpl; lra).
  pose proof (jd_utc_range u Hr) as J. unfold jd_of, jde_of. lra.
Qed.
(* the observer once, then every instant *)
Lemma place lat el : -90 <= lat <= 90 -> -100000 <= el <= 100000 -> exists x y, -1.016 <= x <= 1.016 /\ -1.016 <= y <= 1.016 /\
  forall lon d u, instant d u -> in_range u = true ->
    get_topocentric_position (N := MathR) (Fin lat) (Fin lon) d (Fin el) = Ok (Fin (topo_dec lon x y (jd_of u) (jde_of u)), Fin (topo_H lon x (jd_of u) (jde_of u))).
Proof.
  intros Hlat Hel. destruct (projected_vals lat el Hlat) as (x0 & y0 & EP & Hx & Hy). destruct (observer_bounds lat el x0 y0 EP Hel) as [BX BY].
  exists (x0 + el / 6378140 * cosd lat), (y0 + el / 6378140 * sind lat). split; [exact BX|]. split; [exact BY|].
  intros lon d u Hi Hr. destruct (jd_of_range u Hr) as [_ B2].
  unfold get_topocentric_position. rewrite (instant_aware d u Hi), bind_Ok, Hx, bind_Ok, Hy, bind_Ok, (jd_off d u Hi Hr), bind_Ok, (jde_val d u Hi Hr), bind_Ok.
  fold (jd_of u) (jde_of u). apply position_at_val.
  - pose proof (sun_R_range _ B2). lra.
  - apply cosd_ne0. pose proof (sun_beta_range _ B2). lra.
Qed.
Lemma same_month_fields u u' : same_month u u' -> f_year (fields_of_us u) = f_year (fields_of_us u') /\ f_mon (fields_of_us u) = f_mon (fields_of_us u').
Proof.
  intros H. pose proof (fields_mon_range u) as M. pose proof (fields_mon_range u') as M'.
  assert (E : forall y m, (1 <= m <= 12)%Z -> (midnight y m 1 <=? u)%Z = (midnight y m 1 <=? u')%Z).
  { intros y m Hm. specialize (H y m Hm). destruct (Z.leb_spec (midnight y m 1) u), (Z.leb_spec (midnight y m 1) u'); lia. }
  pose proof (E (f_year (fields_of_us u)) (f_mon (fields_of_us u)) ltac:(lia)) as E1. pose proof (E (f_year (fields_of_us u')) (f_mon (fields_of_us u')) ltac:(lia)) as E2.
  rewrite !midnight_le in E1, E2 by lia. lia.
Qed.
Lemma same_day_month n u u' : (n * 86400000000 <= u < (n + 1) * 86400000000)%Z -> (n * 86400000000 <= u' < (n + 1) * 86400000000)%Z -> same_month u u'.
Proof. intros H H' y m Hm. unfold midnight. lia. Qed.
Lemma lipschitz d d' u u' lat lon el dec ha dec' ha' e e' : instant d u -> instant d' u' -> in_range u = true -> in_range u' = true -> same_month u u' ->
  -90 <= lat <= 90 -> -100000 <= el <= 100000 ->
  get_topocentric_position (N := MathR) (Fin lat) (Fin lon) d (Fin el) = Ok (Fin dec, Fin ha) ->
  get_topocentric_elevation_angle (N := MathR) (Fin lat) (Fin dec) (Fin ha) = Ok (Fin e) ->
  get_topocentric_position (N := MathR) (Fin lat) (Fin lon) d' (Fin el) = Ok (Fin dec', Fin ha') ->
  get_topocentric_elevation_angle (N := MathR) (Fin lat) (Fin dec') (Fin ha') = Ok (Fin e') ->
  (exists k : Z, Rabs (ha' - ha - 360 * (IZR (u' - u) / 86400000000) - 360 * IZR k) <= 0.19 * Rabs (IZR (u' - u) / 86400000000)) /\
  Rabs (dec' - dec) <= 0.475 * Rabs (IZR (u' - u) / 86400000000) /\ Rabs (e' - e) <= 360.67 * Rabs (IZR (u' - u) / 86400000000).
Proof.
  intros Hi Hi' Hr Hr' SM Hlat Hel E1 E2 E3 E4. destruct (place lat el Hlat Hel) as (x & y & BX & BY & P).
  rewrite (P lon d u Hi Hr) in E1. rewrite (P lon d' u' Hi' Hr') in E3. apply Ok_inj in E1, E3. injection E1 as D1 H1. injection E3 as D2 H2.
  rewrite elevation_val in E2, E4. apply Ok_inj in E2, E4. injection E2 as V1. injection E4 as V2.
  destruct (jd_of_range u Hr) as [B1 B2]. destruct (jd_of_range u' Hr') as [B3 B4]. destruct (same_month_fields u u' SM) as [FY FM].
  assert (EJ : jd_of u' - jd_of u = jde_of u' - jde_of u) by (unfold jd_of, jde_of; rewrite !tai_ym_spec, FY, FM; lra).
  assert (ED : jde_of u' - jde_of u = IZR (u' - u) / 86400000000).
  { change (IZR (u' - u) / 86400000000) with (days u' u). rewrite days_jd. unfold jde_of. rewrite !tai_ym_spec, FY, FM. lra. }
  destruct (topo_lip lon (jd_of u') (jd_of u) (jde_of u') (jde_of u) x y B3 B1 B4 B2 EJ BX BY) as ((k & K) & L). rewrite ED in K, L. rewrite H1, H2 in K. rewrite D1, D2 in L.
  split; [exists k; exact K|]. split; [exact L|]. set (D := Rabs (IZR (u' - u) / 86400000000)) in *. assert (D0 : 0 <= D) by apply Rabs_pos.
  rewrite <- V1, <- V2. eapply Rle_trans; [apply (elevation_lip lat dec' ha' dec ha k)|].
  assert (Rabs (ha' - ha - 360 * IZR k) <= 360.19 * D).
  { replace (ha' - ha - 360 * IZR k) with ((ha' - ha - 360 * (IZR (u' - u) / 86400000000) - 360 * IZR k) + 360 * (IZR (u' - u) / 86400000000)) by ring.
    eapply Rle_trans; [apply Rabs_triang|]. rewrite (Rabs_mult 360), (Rabs_pos_eq 360) by lra. fold D. lra. }
  lra.
Qed.

(* ---------------------------------------------------------------- intermediate values *)
Lemma steps (f : Z -> R) v s : forall n a, 0 <= s -> f a <= v -> v <= f (a + Z.of_nat n)%Z ->
  (forall u, (a <= u < a + Z.of_nat n)%Z -> Rabs (f (u + 1)%Z - f u) <= s) -> exists u, (a <= u <= a + Z.of_nat n)%Z /\ Rabs (f u - v) <= s.
Proof.
  induction n as [|n IH]; intros a Hs L H S.
  - exists a. split; [lia|]. replace (a + Z.of_nat 0)%Z with a in H by lia. apply Rabs_le. lra.
  - pose proof (S a ltac:(lia)) as S0. apply Rabs_le_inv in S0. destruct (Rle_lt_dec (f (a + 1)%Z) v) as [C|C].
    + destruct (IH (a + 1)%Z Hs C) as (u & Hu & K).
      * replace (a + 1 + Z.of_nat n)%Z with (a + Z.of_nat (Datatypes.S n))%Z by lia. exact H.
      * intros u Hu. apply S. lia.
      * exists u. split; [lia|exact K].
    + exists a. split; [lia|]. apply Rabs_le. lra.
Qed.
Lemma crossing (f : Z -> R) v s a b : 0 <= s -> f a <= v <= f b -> (forall u, (Z.min a b <= u < Z.max a b)%Z -> Rabs (f (u + 1)%Z - f u) <= s) ->
  exists u, (Z.min a b <= u <= Z.max a b)%Z /\ Rabs (f u - v) <= s.
Proof.
  intros Hs H S. destruct (Z_le_gt_dec a b) as [L|G].
  - destruct (steps f v s (Z.to_nat (b - a)) a Hs ltac:(lra)) as (u & Hu & K).
    + replace (a + Z.of_nat (Z.to_nat (b - a)))%Z with b by lia. lra.
    + intros u Hu. apply S. lia.
    + exists u. split; [lia|exact K].
  - destruct (steps (fun u => - f u) (- v) s (Z.to_nat (a - b)) b Hs ltac:(lra)) as (u & Hu & K).
    + replace (b + Z.of_nat (Z.to_nat (a - b)))%Z with a by lia. lra.
    + intros u Hu. replace (- f (u + 1)%Z - - f u) with (- (f (u + 1)%Z - f u)) by ring. rewrite Rabs_Ropp. apply S. lia.
    + exists u. split; [lia|]. replace (f u - v) with (- (- f u - - v)) by ring. now rewrite Rabs_Ropp.
Qed.
Lemma every_level (n : Z) lat lon el v : (0 <= n < 3652059)%Z -> -65 <= lat <= 65 -> -100000 <= el <= 100000 -> -0.7 <= v <= 0.7 ->
  exists u, (n * 86400000000 <= u < (n + 1) * 86400000000)%Z /\
    forall d, instant d u -> exists dec ha e, get_topocentric_position (N := MathR) (Fin lat) (Fin lon) d (Fin el) = Ok (Fin dec, Fin ha) /\
      get_topocentric_elevation_angle (N := MathR) (Fin lat) (Fin dec) (Fin ha) = Ok (Fin e) /\ Rabs (e - v) <= 0.0000000042.
Proof.
  intros Hn Hlat Hel Hv. assert (Hl : -90 <= lat <= 90) by lra. destruct (place lat el Hl Hel) as (x & y & BX & BY & P).
  set (f := fun u : Z => deg (asin (sin_elev lat (topo_dec lon x y (jd_of u) (jde_of u)) (topo_H lon x (jd_of u) (jde_of u))))).
  destruct (passes n lat lon el 0 Hn Hl Hel) as (b & Hb & PB). destruct (passes n lat lon el 180 Hn Hl Hel) as (a & Ha & PA).
  assert (FB : v <= f b).
  { destruct (PB (at_utc b) (at_utc_instant b)) as (dec & ha & e & k & E1 & E2 & V & B & K). rewrite (P lon _ b (at_utc_instant b) (day_in_range n b Hn Hb)) in E1. apply Ok_inj in E1. injection E1 as D1 H1.
    unfold f. rewrite D1, H1. rewrite <- V.
    pose proof (elevation_lip lat dec ha dec 0 k) as L. rewrite <- V, (proj1 (at_meridian lat dec ltac:(lra) ltac:(lra))) in L. replace (dec - dec) with 0 in L by ring. rewrite Rabs_R0 in L.
    assert (Rabs (lat - dec) <= 89.085) by (apply Rabs_le; lra). apply Rabs_le_inv in L. lra. }
  assert (FA : f a <= v).
  { destruct (PA (at_utc a) (at_utc_instant a)) as (dec & ha & e & k & E1 & E2 & V & B & K). rewrite (P lon _ a (at_utc_instant a) (day_in_range n a Hn Ha)) in E1. apply Ok_inj in E1. injection E1 as D1 H1.
    unfold f. rewrite D1, H1. rewrite <- V.
    pose proof (elevation_lip lat dec ha dec 180 k) as L. rewrite <- V, (proj2 (at_meridian lat dec ltac:(lra) ltac:(lra))) in L. replace (dec - dec) with 0 in L by ring. rewrite Rabs_R0 in L.
    assert (Rabs (lat + dec) <= 89.085) by (apply Rabs_le; lra). apply Rabs_le_inv in L. lra. }
  destruct (crossing f v 0.0000000042 a b ltac:(lra) (conj FA FB)) as (u & Hu & K).
  { intros u Hu. assert (H1 : (n * 86400000000 <= u < (n + 1) * 86400000000)%Z) by lia. assert (H2 : (n * 86400000000 <= u + 1 < (n + 1) * 86400000000)%Z) by lia.
    pose proof (day_in_range n u Hn H1) as R1. pose proof (day_in_range n (u + 1) Hn H2) as R2.
    destruct (lipschitz (at_utc u) (at_utc (u + 1)) u (u + 1) lat lon el _ _ _ _ _ _ (at_utc_instant u) (at_utc_instant (u + 1)) R1 R2 (same_day_month n _ _ H1 H2) Hl Hel
      (P lon _ _ (at_utc_instant u) R1) (elevation_val _ _ _) (P lon _ _ (at_utc_instant (u + 1)) R2) (elevation_val _ _ _)) as (_ & _ & L).
    unfold f. eapply Rle_trans; [exact L|]. replace (u + 1 - u)%Z with 1%Z by lia. rewrite Rabs_pos_eq by lra. lra. }
  assert (HU : (n * 86400000000 <= u < (n + 1) * 86400000000)%Z) by lia. exists u. split; [exact HU|].
  intros d Hi. eexists _, _, _. split; [apply (P lon d u Hi (day_in_range n u Hn HU))|]. split; [apply elevation_val|]. exact K.
Qed.

(* every day the direct irradiance of the reported altitude fails to evaluate *)
Lemma crash_band e : Rabs (e - -0.57) <= 0.0000000042 -> -0.011 <= e + refraction_formula 101325 288.15 e < 0.
Proof.
  intros H. apply Rabs_le_inv in H. assert (B : -0.5700000043 <= e <= -0.5699999957) by lra. unfold refraction_formula, refraction_argument, cosd, sind. split; interval.
Qed.
Lemma crash_each_day (n : Z) lat lon : (0 <= n < 3652059)%Z -> -65 <= lat <= 65 ->
  exists u, (n * 86400000000 <= u < (n + 1) * 86400000000)%Z /\
    forall d, instant d u -> exists alt,
      get_altitude (N := MathR) (Fin lat) (Fin lon) d (Fin 0) standard_temperature standard_pressure = Ok (Fin alt) /\ -0.011 <= alt < 0 /\
      get_radiation_direct (N := MathR) (C := clock_math MathR) d (Fin alt) = Err OverflowError.
Proof.
  intros Hn Hlat. destruct (every_level n lat lon 0 (-0.57) Hn Hlat ltac:(lra) ltac:(lra)) as (u & Hu & P). exists u. split; [exact Hu|].
  intros d Hi. destruct (P d Hi) as (dec & ha & e & E1 & E2 & B). pose proof (crash_band e B) as C. apply Rabs_le_inv in B.
  exists (e + refraction_formula 101325 288.15 e). split; [|split; [exact C|]].
  - unfold get_altitude. rewrite (instant_aware d u Hi), bind_Ok, E1, bind_Ok, E2, bind_Ok, std_P, std_T, refraction_above, bind_Ok by lra. now rewrite add_R.
  - apply (proj1 radiation_night_refuted d u); [exact Hi|now apply (day_in_range n)|exact C].
Qed.

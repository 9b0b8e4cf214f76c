(* Ranges of the results of the inverse functions in binary64. *)
From Coq Require Import Reals Qreals Lra Lia.
From Flocq Require Import Core IEEE754.BinarySingleNaN.
From Interval Require Import Tactic.
From Verif Require Import Py Num Cal TzCheck Clock Constants SolarTime Solar RInst B64 SpecB64 B64Lemmas B64Angles B64Witness Trig.
Local Open Scope R_scope.

Lemma pi64_val : B2R pi64 = 7074237752028440 / 2 ^ 51.
Proof. vm_compute B2R. unfold F2R; cbn. lra. Qed.
Lemma r2d_val : val rad_to_deg (B2R rad_to_deg) /\ 0 < B2R rad_to_deg <= 60.
Proof. split; [split; [vm_compute; reflexivity|reflexivity]|]. vm_compute B2R. unfold F2R; cbn. lra. Qed.
Lemma product180 : rnd (B2R pi64 * B2R rad_to_deg) = 180.
Proof.
  assert (W : val (Bmult mode_NE pi64 rad_to_deg) 180).
  { replace (Bmult mode_NE pi64 rad_to_deg) with (flit 180.0) by (apply B2SF_inj; vm_compute; reflexivity). apply v180. }
  eapply val_unique; [|exact W]. apply val_mul; [split; [vm_compute|]; reflexivity|apply r2d_val|].
  destruct r2d_val as [_ B]. rewrite pi64_val. rewrite Rabs_pos_eq by nra. apply Rle_trans with (bpow radix2 10); [change (bpow radix2 10) with 1024; nra|apply bpow_le; lia].
Qed.
Lemma product90 : rnd (B2R pi64 / 2 * B2R rad_to_deg) = 90.
Proof.
  assert (W : val (Bmult mode_NE (fl 7074237752028440 (-52)) rad_to_deg) 90).
  { replace (Bmult mode_NE _ rad_to_deg) with (flit 90) by (apply B2SF_inj; vm_compute; reflexivity). apply (val_int 90). lia. }
  assert (V : val (fl 7074237752028440 (-52)) (B2R pi64 / 2)).
  { rewrite pi64_val. replace (_ / 2) with (IZR 7074237752028440 * bpow radix2 (-52)) by (cbn; lra). apply val_fl; lia. }
  eapply val_unique; [|exact W]. apply val_mul; [exact V|apply r2d_val|].
  destruct r2d_val as [_ B]. rewrite pi64_val. rewrite Rabs_pos_eq by nra. apply Rle_trans with (bpow radix2 10); [change (bpow radix2 10) with 1024; nra|apply bpow_le; lia].
Qed.
Lemma rnd_int z : (Z.abs z <= 2 ^ 53)%Z -> rnd (IZR z) = IZR z.
Proof. intros H. apply rnd_id. now apply fmt_Z. Qed.
Lemma rnd_up z r : (Z.abs z <= 2 ^ 53)%Z -> r <= IZR z -> rnd r <= IZR z.
Proof. intros H B. rewrite <- (rnd_int z H). now apply rnd_le. Qed.
Lemma rnd_down z r : (Z.abs z <= 2 ^ 53)%Z -> IZR z <= r -> IZR z <= rnd r.
Proof. intros H B. rewrite <- (rnd_int z H). now apply rnd_le. Qed.
Lemma degrees_mono L x v lo hi : val x v -> lo <= v <= hi -> Rabs lo <= 4 -> Rabs hi <= 4 ->
  exists w, val (degrees (n := B64 L) x) w /\ rnd (lo * B2R rad_to_deg) <= w <= rnd (hi * B2R rad_to_deg).
Proof.
  intros V B A1 A2. destruct r2d_val as [Q PR]. apply Rabs_le_inv in A1, A2. eexists. split.
  - cbn [degrees B64]. apply val_mul; [exact V|exact Q|]. apply Rle_trans with (bpow radix2 10); [|apply bpow_le; lia].
    rewrite Rabs_mult. change (bpow radix2 10) with 1024. rewrite (Rabs_pos_eq (B2R rad_to_deg)) by lra.
    assert (Rabs v <= 4) by (apply Rabs_le; lra). pose proof (Rabs_pos v). nra.
  - split; apply rnd_le; nra.
Qed.
Lemma degrees_nan L x : is_nan x = true -> is_nan (degrees (n := B64 L) x) = true.
Proof. intros H. apply nan_is in H. subst x. vm_compute. reflexivity. Qed.
Lemma math_1_ok ex f x y : math_1 ex f x = Ok y -> y = f x.
Proof. unfold math_1. destruct (is_nan _ && _); [discriminate|]. destruct (is_inf _ && _); [discriminate|]. congruence. Qed.

Lemma Ok_inj {A} (a b : A) : Ok a = Ok b -> a = b.
Proof. congruence. Qed.
Section S.
Variable L : libm.
Notation N := (B64 L).

Lemma asin_degrees x y : asin_in_range L -> nasin (n := N) x = Ok y -> nan_or_within (-90) 90 (degrees (n := N) y).
Proof.
  intros H E. apply math_1_ok in E. subst y. destruct (H x) as [K|(v & V & B)]; [left; now apply degrees_nan|]. right.
  assert (A : Rabs (B2R pi64 / 2) <= 4) by (rewrite pi64_val, Rabs_pos_eq; lra).
  apply Rabs_le_inv in B. destruct (degrees_mono L _ v _ _ V B) as (w & W & Bw); [now rewrite Rabs_Ropp|exact A|].
  exists w. split; [exact W|]. rewrite product90 in Bw. rewrite <- Ropp_mult_distr_l, rnd_opp, product90 in Bw. lra.
Qed.
Lemma acos_degrees x y : acos_in_range L -> nacos (n := N) x = Ok y -> nan_or_within 0 180 (degrees (n := N) y).
Proof.
  intros H E. apply math_1_ok in E. subst y. destruct (H x) as [K|(v & V & B)]; [left; now apply degrees_nan|]. right.
  destruct (degrees_mono L _ v _ _ V B) as (w & W & Bw); [rewrite Rabs_R0; lra|rewrite pi64_val, Rabs_pos_eq; lra|].
  exists w. split; [exact W|]. now rewrite product180, Rmult_0_l, rnd_0 in Bw.
Qed.
Lemma elevation_range64 a b c r : asin_in_range L -> get_topocentric_elevation_angle (N := N) a b c = Ok r -> nan_or_within (-90) 90 r.
Proof.
  intros H. unfold get_topocentric_elevation_angle.
  repeat match goal with |- bind ?m _ = _ -> _ => destruct m as [?z|] eqn:?; [cbn [bind]|discriminate] end.
  intros K. apply Ok_inj in K. subst r. eapply asin_degrees; eassumption.
Qed.
Lemma incidence_range64 a b c d r : acos_in_range L -> get_incidence_angle (N := N) a b c d = Ok r -> nan_or_within 0 180 r.
Proof.
  intros H. unfold get_incidence_angle.
  repeat match goal with |- bind ?m _ = _ -> _ => destruct m as [?z|] eqn:?; [cbn [bind]|discriminate] end.
  intros K. apply Ok_inj in K. subst r. eapply acos_degrees; eassumption.
Qed.
Lemma altitude_fast_range64 lat lon d r : asin_in_range L ->
  get_altitude_fast (N := N) (C := clock_math N) lat lon d = Ok r -> nan_or_within (-90) 90 r.
Proof.
  intros H. unfold get_altitude_fast.
  repeat match goal with |- bind ?m _ = _ -> _ => destruct m as [?z|] eqn:?; [cbn [bind]|discriminate] end.
  intros K. apply Ok_inj in K. subst r. eapply asin_degrees; eassumption.
Qed.
Lemma azimuth_fast_range64 lat lon d r : asin_in_range L ->
  get_azimuth_fast (N := N) (C := clock_math N) lat lon d = Ok r -> nan_or_within 0 360 r.
Proof.
  intros H. unfold get_azimuth_fast.
  repeat match goal with |- bind ?m _ = _ -> _ => destruct m as [?z|] eqn:?; [cbn [bind]|discriminate] end.
  match goal with K : nasin _ = Ok ?z |- _ => rename K into HA; rename z into y end.
  intros K. apply Ok_inj in K. subst r.
  pose proof (val_int 180 ltac:(lia)) as V1. pose proof (val_int 360 ltac:(lia)) as V3.
  assert (BG : forall v, Rabs v <= 1000 -> Rabs v <= bpow radix2 1000).
  { intros v Hv. apply Rle_trans with (bpow radix2 10); [change (bpow radix2 10) with 1024; lra|apply bpow_le; lia]. }
  match type of HA with nasin ?q = _ => rename q into x end.
  match goal with |- nan_or_within 0 360 (where_ (le ?t2 ?p) _ _) => change (nan_or_within 0 360 (if Bleb t2 p then Bminus mode_NE (flit 180) (degrees (n := N) y)
    else Bplus mode_NE (degrees (n := N) y) (Bmult mode_NE (flit 360) (if Bltb y (flit 0) then one else B754_zero false)))) end.
  apply math_1_ok in HA. 
  destruct (H x) as [K|(v & V & B)]; rewrite <- HA in *.
  { left. apply nan_is in K. subst y. rewrite K. destruct (Bleb _ _); vm_compute; reflexivity. }
  apply Rabs_le_inv in B. assert (A : Rabs (B2R pi64 / 2) <= 4) by (rewrite pi64_val, Rabs_pos_eq; lra).
  assert (A' : Rabs (- (B2R pi64 / 2)) <= 4) by now rewrite Rabs_Ropp. assert (A0 : Rabs 0 <= 4) by (rewrite Rabs_R0; lra).
  assert (P90 : rnd (- (B2R pi64 / 2) * B2R rad_to_deg) = -90) by (rewrite <- Ropp_mult_distr_l, rnd_opp, product90; lra).
  right. destruct (Bleb _ _).
  - destruct (degrees_mono L _ v _ _ V B A' A) as (w & W & Bw). rewrite product90, P90 in Bw.
    exists (rnd (180 - w)). split; [apply val_sub; [exact V1|exact W|apply BG; apply Rabs_le; lra]|].
    split; [apply (rnd_down 0); [lia|lra]|apply (rnd_up 360); [lia|lra]].
  - change (flit 0) with (flit (inject_Z 0)). rewrite (val_lt _ _ _ _ V (val_int 0 ltac:(lia))). case Rlt_bool_spec; intros Sv.
    + destruct (degrees_mono L _ v _ 0 V ltac:(split; [apply B|lra]) A' A0) as (w & W & Bw). rewrite P90, Rmult_0_l, rnd_0 in Bw.
      replace (Bmult mode_NE (flit 360) one) with (flit 360) by (apply B2SF_inj; vm_compute; reflexivity).
      exists (rnd (w + 360)). split; [apply val_add; [exact W|exact V3|apply BG; apply Rabs_le; lra]|].
      split; [apply (rnd_down 0); [lia|lra]|apply (rnd_up 360); [lia|lra]].
    + destruct (degrees_mono L _ v 0 _ V ltac:(split; [lra|apply B]) A0 A) as (w & W & Bw). rewrite product90, Rmult_0_l, rnd_0 in Bw.
      replace (Bmult mode_NE (flit 360) (B754_zero false)) with (B754_zero false : f64) by (apply B2SF_inj; vm_compute; reflexivity).
      exists (rnd (w + 0)). split; [apply val_add; [exact W|split; reflexivity|apply BG; apply Rabs_le; lra]|].
      split; [apply (rnd_down 0); [lia|lra]|apply (rnd_up 360); [lia|lra]].
Qed.
End S.

(* the exact library has these ranges *)
Lemma rnd_pi : rnd PI = B2R pi64.
Proof.
  rewrite (rnd_dyadic 7074237752028440 (-51)); [rewrite pi64_val; cbn; lra|lia|lia|]. cbn [bpow Z.opp]. interval with (i_prec 120).
Qed.
Lemma rnd_pi2 : rnd (PI / 2) = B2R pi64 / 2.
Proof.
  rewrite (rnd_dyadic 7074237752028440 (-52)); [rewrite pi64_val; cbn; lra|lia|lia|]. cbn [bpow Z.opp]. interval with (i_prec 120).
Qed.
Lemma nearest_val r y : nearest r y -> Rabs r <= 4 -> val y (rnd r).
Proof.
  unfold nearest. intros H B. rewrite Rlt_bool_true in H; [exact H|].
  apply Rle_lt_trans with (bpow radix2 2); [apply rnd_bound; [lia|change (bpow radix2 2) with 4; exact B]|apply bpow_lt; lia].
Qed.
Lemma asin_range_cr L : correctly_rounded L -> asin_in_range L.
Proof.
  intros H x. destruct (is_finite x) eqn:F; [|left; apply (cr_inf L H (l_asin L)); [simpl; tauto|exact F]].
  destruct (Rle_lt_dec (Rabs (B2R x)) 1) as [B|B]; [|left; now apply (cr_asin_dom L H)]. right. exists (rnd (asin (B2R x))).
  pose proof (asin_bound (B2R x)) as A. pose proof PI_RGT_0. pose proof PI_4.
  split; [apply nearest_val; [now apply (cr_asin L H)|apply Rabs_le; lra]|]. apply Rabs_le.
  split; [rewrite <- rnd_pi2, <- rnd_opp|rewrite <- rnd_pi2]; apply rnd_le; lra.
Qed.
Lemma acos_range_cr L : correctly_rounded L -> acos_in_range L.
Proof.
  intros H x. destruct (is_finite x) eqn:F; [|left; apply (cr_inf L H (l_acos L)); [simpl; tauto|exact F]].
  destruct (Rle_lt_dec (Rabs (B2R x)) 1) as [B|B]; [|left; now apply (cr_acos_dom L H)]. right. exists (rnd (acos (B2R x))).
  pose proof (acos_bound (B2R x)) as A. pose proof PI_RGT_0. pose proof PI_4.
  split; [apply nearest_val; [now apply (cr_acos L H)|apply Rabs_le; lra]|].
  split; [rewrite <- rnd_0|rewrite <- rnd_pi]; apply rnd_le; lra.
Qed.
Lemma atan2_ieee_range y x : - PI <= atan2_ieee y x <= PI.
Proof.
  unfold atan2_ieee. pose proof PI_RGT_0. pose proof (atan2_range (B2R y) (B2R x)).
  destruct (Rcompare (B2R y) 0); [destruct (Bsign x); [destruct (Bsign y)|]| |]; lra.
Qed.
Lemma sign_val (x : f64) w : val x w -> w <> 0 -> Bsign x = Rlt_bool w 0.
Proof.
  intros [F <-] H. destruct x as [s|s| |s m e B]; cbn in *; try discriminate; [lra|]. unfold F2R; cbn.
  pose proof (bpow_gt_0 radix2 e). pose proof (IZR_lt 0 (Zpos m) eq_refl) as P. destruct s; cbn.
  - rewrite Rlt_bool_true; [reflexivity|]. change (Zneg m) with (- Zpos m)%Z. rewrite opp_IZR. nra.
  - rewrite Rlt_bool_false; [reflexivity|]. nra.
Qed.
Lemma atan2_ieee_turn y x v w : val y v -> val x w -> v <> 0 \/ w <> 0 -> exists j : Z, atan2_ieee y x = Ratan2 v w + IZR j * (2 * PI) /\ (0 < w -> j = 0%Z).
Proof.
  intros Vy Vx H. unfold atan2_ieee. rewrite (proj2 Vy), (proj2 Vx).
  destruct (Rcompare_spec v 0) as [C|C|C]; try (exists 0%Z; split; [ring|reflexivity]).
  subst v. destruct H as [H|H]; [now contradiction H|]. rewrite (sign_val x w Vx H). unfold Ratan2.
  destruct (Rsgn_cases w) as [[-> Hw]|[[-> Hw]|[-> Hw]]]; try lra.
  - rewrite Rlt_bool_false by lra. exists 0%Z. split; [|reflexivity]. replace (0 / w) with 0 by (field; lra). rewrite atan_0. ring.
  - rewrite Rlt_bool_true by lra. destruct (Rle_dec 0 0) as [_|N]; [|lra]. replace (0 / w) with 0 by (field; lra). rewrite atan_0.
    destruct (Bsign y); [exists (-1)%Z|exists 0%Z]; (split; [ring|lra]).
Qed.
Lemma atan2_ieee_pos y x v w : val y v -> val x w -> 0 < w -> atan2_ieee y x = Ratan2 v w.
Proof. intros Vy Vx H. destruct (atan2_ieee_turn y x v w Vy Vx ltac:(right; lra)) as (j & -> & J). rewrite (J H). ring. Qed.
Lemma atan2_range_exact : atan2_in_range exact_libm.
Proof.
  intros y x. cbn [l_atan2 exact_libm]. destruct (is_finite y && is_finite x); [right|now left]. exists (rnd (atan2_ieee y x)).
  pose proof (atan2_ieee_range y x) as A. pose proof PI_RGT_0. pose proof PI_4.
  split; [apply nearest_val; [apply b64_of_R_nearest|apply Rabs_le; lra]|]. apply Rabs_le.
  split; [rewrite <- rnd_pi, <- rnd_opp|rewrite <- rnd_pi]; apply rnd_le; lra.
Qed.

Lemma azimuths64 L : atan2_in_range L ->
  (forall ha lat dec r, get_topocentric_azimuth_angle (N := B64 L) ha lat dec = Ok r -> on_circle r) /\
  (forall lat lon d el r, get_azimuth (N := B64 L) lat lon d el = Ok r -> on_circle r) /\
  (forall lat lon d el t p az alt, get_position (N := B64 L) lat lon d el t p = Ok (az, alt) -> on_circle az).
Proof. intros H. split; [|split]; intros; [eapply azimuth64|eapply get_azimuth64|eapply get_position64]; eassumption. Qed.
Lemma reduced64 L :
  (forall jme r, get_geocentric_longitude (N := B64 L) jme = Ok r -> on_circle r) /\
  (forall jme r, get_heliocentric_longitude (N := B64 L) jme = Ok r -> on_closed_circle r) /\
  (forall a b c r, get_geocentric_sun_right_ascension (N := B64 L) a b c = Ok r -> on_closed_circle r) /\
  (forall a b c r, get_local_hour_angle (N := B64 L) a b c = Ok r -> on_closed_circle r) /\
  (forall jd r, get_mean_sidereal_time (N := B64 L) jd = Ok r -> on_closed_circle r).
Proof. repeat split; [apply geo_longitude64|apply helio_longitude64|apply right_ascension64|apply local_hour_angle64|apply mean_sidereal64]. Qed.
Lemma reduction_exact L x a : val x a -> 0 <= a ->
  exists r v, fmod (n := B64 L) x (lit 360) = Ok r /\ val r v /\ 0 <= v < 360 /\ exists k : Z, a = v + 360 * IZR k.
Proof.
  intros V P. destruct (fmod360 x a V) as (r & v & E & W & B & K & _). destruct (K P) as [K1 K2]. exists r, v. split; [exact E|].
  split; [exact W|]. split; [lra|]. rewrite K2. unfold Rfmod. eexists. ring_simplify. 
  match goal with |- _ = _ => idtac end. rewrite Rmult_comm. instantiate (1 := Zfloor (a / 360)). ring.
Qed.
Lemma elevations64 L : asin_in_range L -> 
  (forall lat dec ha r, get_topocentric_elevation_angle (N := B64 L) lat dec ha = Ok r -> nan_or_within (-90) 90 r) /\
  (forall lat lon d r, get_altitude_fast (N := B64 L) (C := clock_math (B64 L)) lat lon d = Ok r -> nan_or_within (-90) 90 r).
Proof. intros H. split; intros; [eapply elevation_range64|eapply altitude_fast_range64]; eassumption. Qed.
Lemma incidences64 L : acos_in_range L -> forall z s o a r,
  get_incidence_angle (N := B64 L) z s o a = Ok r -> nan_or_within 0 180 r.
Proof. intros. eapply incidence_range64; eassumption. Qed.
Lemma azimuths_fast64 L : asin_in_range L -> forall lat lon d r,
  get_azimuth_fast (N := B64 L) (C := clock_math (B64 L)) lat lon d = Ok r -> nan_or_within 0 360 r.
Proof. intros. eapply azimuth_fast_range64; eassumption. Qed.

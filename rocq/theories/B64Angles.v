(* Angles reduced with % 360 in binary64. *)
From Coq Require Import Reals Qreals Lra Lia.
From Flocq Require Import Core IEEE754.BinarySingleNaN.
From Interval Require Import Tactic.
From Verif Require Import Py Num TzCheck Constants SolarTime Solar RInst B64 SpecB64 B64Lemmas.
Local Open Scope R_scope.

Lemma v360 : val (flit 360) 360. Proof. apply (val_int 360). lia. Qed.
Lemma v180 : val (flit 180.0) 180. Proof. split; [vm_compute; reflexivity|]. replace (flit 180.0) with (flit 180).
  - apply (val_int 180). lia.
  - apply B2SF_inj. vm_compute. reflexivity.
Qed.
Lemma f_neg_val x a : val x a -> f_neg x = Rlt_bool a 0.
Proof. intros V. unfold f_neg. apply val_lt; [exact V|]. now split. Qed.

Lemma zero_val x a : val x a -> is_zero x = true <-> a = 0.
Proof.
  intros [F <-]. destruct x; try discriminate; cbn; split; intros; try reflexivity; try discriminate; try lra.
  exfalso. apply eq_0_F2R in H. destruct s; discriminate.
Qed.
Lemma nan_is x : is_nan x = true -> x = B754_nan :> f64.
Proof. now destruct x. Qed.
(* % 360 of a finite float: exact and below 360 when the argument is not negative; 360 is reached by
   rounding when a negative argument is tiny *)
Lemma fmod360 x a : val x a -> exists r v, py_fmod x (flit 360) = Ok r /\ val r v /\ 0 <= v <= 360 /\
  (0 <= a -> v < 360 /\ v = Rfmod a 360) /\ v = rnd (Rfmod a 360).
Proof.
  intros V. pose proof v360 as V3. unfold py_fmod. rewrite (val_nz _ _ V3) by lra.
  pose proof (cfmod_val _ _ _ _ V V3 ltac:(lra)) as C. set (m := cfmod x (flit 360)) in *.
  set (t := a - 360 * IZR (Ztrunc (a / 360))) in *.
  assert (BT : (0 <= a -> 0 <= t < 360 /\ t = Rfmod a 360) /\ (a < 0 -> -360 < t <= 0 /\ (t < 0 -> Rfmod a 360 = t + 360) /\ (t = 0 -> Rfmod a 360 = 0))).
  { unfold t, Rfmod. pose proof (Zfloor_lb (a / 360)). pose proof (Zfloor_ub (a / 360)). split; intros Ha.
    - rewrite Ztrunc_floor by lra. split; [|reflexivity]. lra.
    - rewrite Ztrunc_ceil by lra. pose proof (Zceil_ub (a / 360)). split; [|split].
      + assert (a / 360 > IZR (Zceil (a / 360)) - 1); [|lra].
        unfold Zceil. rewrite opp_IZR. pose proof (Zfloor_ub (- (a / 360))). lra.
      + intros Ht. assert (E : (Zceil (a / 360) = Zfloor (a / 360) + 1)%Z). { apply Zceil_floor_neq. intros K. assert (Q : Zceil (a / 360) = Zfloor (a / 360)) by (rewrite <- K at 1; apply Zceil_IZR). rewrite Q in Ht. lra. }
        rewrite E, plus_IZR. lra.
      + intros Ht. assert (K : a / 360 = IZR (Zceil (a / 360))) by lra. rewrite K, Zfloor_IZR. lra. }
  destruct BT as [BP BN].
  assert (ZT : is_zero m = true <-> t = 0).
  { now apply zero_val. }
  destruct (is_zero m) eqn:EZ.
  - assert (t = 0) by now apply ZT. do 2 eexists. split; [reflexivity|]. split; [split; [reflexivity|cbn; reflexivity]|].
    destruct (Rle_dec 0 a) as [P|P].
    + destruct (BP P). split; [lra|]. split; [intros _; split; lra|]. rewrite <- H1, H. symmetry. apply rnd_0.
    + destruct BN as (_ & _ & K); [lra|]. split; [lra|]. split; [intros; lra|]. rewrite (K H). symmetry. apply rnd_0.
  - assert (t <> 0) by (intros K; apply ZT in K; congruence).
    rewrite (f_neg_val _ _ V3), (f_neg_val _ _ C), (Rlt_bool_false 360 0) by lra. cbn [xorb].
    destruct (Rle_dec 0 a) as [P|P].
    + destruct (BP P) as [B E]. rewrite Rlt_bool_false by lra. do 2 eexists. split; [reflexivity|]. split; [exact C|].
      split; [lra|]. split; [intros _; split; [lra|exact E]|]. rewrite <- E. symmetry. now apply (rnd_val m).
    + destruct BN as (B & K & _); [lra|]. rewrite Rlt_bool_true by lra. do 2 eexists. split; [reflexivity|].
      rewrite K by lra. split; [apply val_add; [exact C|exact V3|]|].
      { rewrite Rabs_pos_eq by lra. apply Rle_trans with (bpow radix2 9); [change (bpow radix2 9) with 512; lra|apply bpow_le; lia]. }
      split; [|split; [intros; lra|reflexivity]]. split.
      * rewrite <- rnd_0. apply rnd_le. lra.
      * rewrite <- (rnd_val _ _ V3) at 2. apply rnd_le. lra.
Qed.
Lemma fmod360_nan x : is_finite x = false -> py_fmod x (flit 360) = Ok B754_nan.
Proof. destruct x as [s|s| |s m e H]; try discriminate; intros _; [destruct s|]; vm_compute; reflexivity. Qed.
Lemma fmod360_any x r : py_fmod x (flit 360) = Ok r -> on_closed_circle r.
Proof.
  destruct (is_finite x) eqn:F.
  - destruct (fmod360 x (B2R x)) as (r' & v & E & V & B & _); [now split|]. rewrite E. intros [= <-]. right. now exists v.
  - rewrite fmod360_nan by exact F. intros [= <-]. now left.
Qed.

Section Libm.
Variable L : libm.
Hypothesis HL : atan2_in_range L.

(* degrees(atan2(..)) lies in [-180, 180] *)
Lemma degrees_atan2 x v : val x v -> Rabs v <= B2R pi64 ->
  exists w, val (degrees (n := B64 L) x) w /\ Rabs w <= 180.
Proof.
  intros V B. assert (P : val pi64 (B2R pi64)) by (split; [vm_compute; reflexivity|reflexivity]).
  assert (Q : val rad_to_deg (B2R rad_to_deg)) by (split; [vm_compute; reflexivity|reflexivity]).
  assert (EP : B2R pi64 = 7074237752028440 / 2 ^ 51). { vm_compute B2R. unfold F2R; cbn. lra. }
  assert (EQ : B2R rad_to_deg = B2R rad_to_deg) by reflexivity.
  assert (E180 : rnd (B2R pi64 * B2R rad_to_deg) = 180).
  { assert (W : val (Bmult mode_NE pi64 rad_to_deg) 180).
    { replace (Bmult mode_NE pi64 rad_to_deg) with (flit 180.0) by (apply B2SF_inj; vm_compute; reflexivity). apply v180. }
    eapply val_unique; [|exact W]. apply val_mul; [exact P|exact Q|].
    apply Rle_trans with (bpow radix2 10); [|apply bpow_le; lia]. rewrite Rabs_mult.
    assert (Rabs (B2R pi64) <= 4) by (rewrite EP, Rabs_pos_eq; lra).
    assert (Rabs (B2R rad_to_deg) <= 60). { vm_compute B2R. unfold F2R; cbn. rewrite Rabs_pos_eq; lra. }
    change (bpow radix2 10) with 1024. pose proof (Rabs_pos (B2R pi64)). pose proof (Rabs_pos (B2R rad_to_deg)). nra. }
  assert (PR : 0 < B2R rad_to_deg <= 60). { vm_compute B2R. unfold F2R; cbn. lra. }
  assert (BP : B2R pi64 <= 4) by (rewrite EP; lra).
  eexists. split.
  - cbn [degrees B64]. apply val_mul; [exact V|exact Q|]. apply Rle_trans with (bpow radix2 10); [|apply bpow_le; lia].
    rewrite Rabs_mult. change (bpow radix2 10) with 1024. rewrite (Rabs_pos_eq (B2R rad_to_deg)) by lra. pose proof (Rabs_pos v). nra.
  - apply Rabs_le. apply Rabs_le_inv in B. split.
    + rewrite <- E180, <- rnd_opp. apply rnd_le. nra.
    + rewrite <- E180. apply rnd_le. nra.
Qed.

Lemma azimuth64 ha lat dec r : get_topocentric_azimuth_angle (N := B64 L) ha lat dec = Ok r -> on_circle r.
Proof.
  unfold get_topocentric_azimuth_angle.
  repeat match goal with |- bind ?m _ = _ -> _ => destruct m as [?z|] eqn:?; [cbn [bind]|discriminate] end.
  match goal with H : natan2 ?a ?b = Ok ?z |- _ => rename H into HA; rename z into t end.
  cbn [natan2 B64] in HA. unfold math_2 in HA.
  match type of HA with context [l_atan2 L ?a ?b] => destruct (HL a b) as [N|(v & V & Bv)]; set (w := l_atan2 L a b) in * end.
  - assert (t = w) as -> by (destruct (is_nan w && _ && _); [discriminate|]; destruct (is_inf w && _ && _); [discriminate|]; congruence).
    apply nan_is in N. clearbody w. subst w. cbn [degrees B64 add lit fmod]. rewrite fmod360_nan by (vm_compute; reflexivity).
    intros [= <-]. now left.
  - assert (t = w) as -> by (destruct (is_nan w && _ && _); [discriminate|]; destruct (is_inf w && _ && _); [discriminate|]; congruence).
    destruct (degrees_atan2 w v V Bv) as (d & Vd & Bd). apply Rabs_le_inv in Bd. cbn [fmod add lit B64].
    assert (VS : val (Bplus mode_NE (flit 180.0) (degrees (n := B64 L) w)) (rnd (180 + d))).
    { apply val_add; [apply v180|exact Vd|]. rewrite Rabs_pos_eq by lra. apply Rle_trans with (bpow radix2 9); [change (bpow radix2 9) with 512; lra|apply bpow_le; lia]. }
    destruct (fmod360 _ _ VS) as (r' & v' & E & V' & B' & K & _). change (T (B64 L)) with f64 in *. rewrite E. intros [= <-].
    right. exists v'. split; [exact V'|]. destruct K as [K _]; [|lra]. rewrite <- rnd_0. apply rnd_le. lra.
Qed.
Lemma get_azimuth64 lat lon d el r : get_azimuth (N := B64 L) lat lon d el = Ok r -> on_circle r.
Proof.
  unfold get_azimuth. destruct (aware d); [cbn [bind]|discriminate].
  destruct (get_topocentric_position lat lon d el) as [[x y]|]; [cbn [bind]|discriminate]. apply azimuth64.
Qed.
Lemma get_position64 lat lon d el t p r alt : get_position (N := B64 L) lat lon d el t p = Ok (r, alt) -> on_circle r.
Proof.
  unfold get_position. destruct (aware d); [cbn [bind]|discriminate].
  destruct (get_topocentric_position lat lon d el) as [[x y]|]; [cbn [bind]|discriminate].
  destruct (get_topocentric_elevation_angle lat x y); [cbn [bind]|discriminate].
  destruct (get_refraction_correction p t _); [cbn [bind]|discriminate].
  destruct (get_topocentric_azimuth_angle y lat x) eqn:E; [cbn [bind]|discriminate]. intros [= <- _]. now apply azimuth64 in E.
Qed.
End Libm.

(* the other angles *)
Lemma rmap_fmod_closed (m : res f64) (g : f64 -> f64) r :
  bind m (fun q => py_fmod (g q) (flit 360)) = Ok r -> on_closed_circle r.
Proof. destruct m; [cbn [bind]; apply fmod360_any|discriminate]. Qed.

Section Any.
Variable L : libm.
Notation N := (B64 L).
Lemma helio_longitude64 jme r : get_heliocentric_longitude (N := N) jme = Ok r -> on_closed_circle r.
Proof.
  unfold get_heliocentric_longitude. destruct (get_coeff jme _) as [c|]; [cbn [bind]|discriminate].
  destruct (div c (lit 1e8)); [cbn [bind]|discriminate]. apply fmod360_any.
Qed.
Lemma geo_longitude64 jme r : get_geocentric_longitude (N := N) jme = Ok r -> on_circle r.
Proof.
  unfold get_geocentric_longitude. destruct (get_heliocentric_longitude jme) as [h|] eqn:E; [cbn [bind]|discriminate].
  destruct (helio_longitude64 _ _ E) as [K|(v & V & Bv)].
  - apply nan_is in K. subst h. cbn [fmod add lit B64]. rewrite fmod360_nan by (vm_compute; reflexivity). intros [= <-]. now left.
  - cbn [fmod add lit B64]. pose proof (val_int 180 ltac:(lia)) as V1.
    assert (VS : val (Bplus mode_NE h (flit 180)) (rnd (v + 180))).
    { apply val_add; [exact V|exact V1|]. rewrite Rabs_pos_eq by lra.
      apply Rle_trans with (bpow radix2 10); [change (bpow radix2 10) with 1024; lra|apply bpow_le; lia]. }
    destruct (fmod360 _ _ VS) as (r' & v' & Er & V' & B' & K & _). change (T (B64 L)) with f64 in *. rewrite Er. intros [= <-].
    right. exists v'. split; [exact V'|]. destruct K as [K _]; [|lra]. rewrite <- rnd_0. apply rnd_le. lra.
Qed.
Lemma right_ascension64 a b c r : get_geocentric_sun_right_ascension (N := N) a b c = Ok r -> on_closed_circle r.
Proof.
  unfold get_geocentric_sun_right_ascension.
  repeat match goal with |- bind ?m _ = _ -> _ => destruct m as [?z|]; [cbn [bind]|discriminate] end. apply fmod360_any.
Qed.
Lemma local_hour_angle64 a b c r : get_local_hour_angle (N := N) a b c = Ok r -> on_closed_circle r.
Proof. apply fmod360_any. Qed.
Lemma mean_sidereal64 jd r : get_mean_sidereal_time (N := N) jd = Ok r -> on_closed_circle r.
Proof.
  unfold get_mean_sidereal_time.
  repeat match goal with |- bind ?m _ = _ -> _ => destruct m as [?z|]; [cbn [bind]|discriminate] end. apply fmod360_any.
Qed.
Lemma local_hour_angle_360 : exists r, get_local_hour_angle (N := N) (flit 0) (flit 0) (flit 1e-20) = Ok r /\ val r 360.
Proof.
  exists (flit 360). split; [|exact v360].
  assert (E : rmap (fun x => B2SF x) (get_local_hour_angle (N := N) (flit 0) (flit 0) (flit 1e-20)) = Ok (B2SF (flit 360))) by (vm_compute; reflexivity).
  destruct (get_local_hour_angle _ _ _) as [x|]; [|discriminate]. cbn in E. injection E as E. f_equal. now apply B2SF_inj.
Qed.
End Any.

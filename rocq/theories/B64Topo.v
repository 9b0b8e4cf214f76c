(* The topocentric position in binary64: declination and hour angle against exact arithmetic. *)
From Coq Require Import Reals Qreals Lra Lia List.
From Flocq Require Import Core IEEE754.BinarySingleNaN.
From Interval Require Import Tactic.
From Verif Require Import Py Num Cal SolarTime Solar Tables Constants RInst RTac SpecGeom Trig GeoProofs SpaProofs TopoProofs B64 SpecB64 B64Lemmas B64Near
  B64Angles B64Ranges Rel Absint AbsintSound B64Lift.
Import ListNotations.
Local Open Scope R_scope.

Lemma turn_zero z (j : Z) : Rabs z <= 3.2 -> Rabs (z - IZR j * (2 * PI)) <= 0.1 -> j = 0%Z.
Proof.
  intros A B. apply Rabs_le_inv in A, B. assert (P : 3 < PI) by interval.
  assert (J : -1 < IZR j < 1) by (split; apply Rnot_le_lt; intros Z; nra).
  destruct J as [J1 J2]. apply (lt_IZR (-1)) in J1. apply (lt_IZR _ 1) in J2. lia.
Qed.

(* ---- flattened latitude *)
Lemma half_pi64 : B2R (Bmult mode_NE (flit 90) deg_to_rad) = 7074237752028440 / 2 ^ 52.
Proof.
  assert (E : Bmult mode_NE (flit 90) deg_to_rad = fl 7074237752028440 (-52)) by (apply B2SF_inj; vm_compute; reflexivity). rewrite E.
  destruct (val_fl 7074237752028440 (-52)) as [_ V]; [reflexivity|lia|]. rewrite V. cbn. lra.
Qed.
Lemma rad_bound v : -90 <= v <= 90 -> Rabs (rnd (v * B2R deg_to_rad)) <= 7074237752028440 / 2 ^ 52.
Proof.
  intros H. destruct d2r_c as [C D]. assert (P : 0 < B2R deg_to_rad <= 1).
  { apply Rabs_le_inv in D. assert (zr d2r_e <= 0.001) by (unfold zr, SC, d2r_e; interval). assert (0.01 < PI / 180 < 0.1) by (split; interval). lra. }
  assert (B : Rabs (90 * B2R deg_to_rad) <= bpow radix2 1000).
  { apply Rle_trans with (bpow radix2 7); [|now apply bpow_le]. change (bpow radix2 7) with 128. rewrite Rabs_pos_eq; lra. }
  assert (E : rnd (90 * B2R deg_to_rad) = 7074237752028440 / 2 ^ 52).
  { rewrite <- half_pi64. destruct (val_mul (flit 90) deg_to_rad 90 _ (val_int 90 ltac:(lia)) C B) as [_ Q]. now rewrite <- Q. }
  assert (E' : rnd (-90 * B2R deg_to_rad) = - (7074237752028440 / 2 ^ 52)).
  { rewrite <- E. replace (-90 * B2R deg_to_rad) with (- (90 * B2R deg_to_rad)) by ring. apply rnd_opp. }
  apply Rabs_le. split; [rewrite <- E'|rewrite <- E]; apply rnd_le; nra.
Qed.
Lemma half_pi_gap : 5e-17 <= cos (7074237752028440 / 2 ^ 52) /\ 7074237752028440 / 2 ^ 52 < PI / 2.
Proof. split; interval with (i_prec 120). Qed.
Lemma cos_rad_pos t : Rabs t <= 7074237752028440 / 2 ^ 52 -> 5e-17 <= cos t.
Proof.
  intros H. destruct half_pi_gap as [G1 G2]. eapply Rle_trans; [exact G1|]. pose proof PI_RGT_0 as P.
  assert (E : cos t = cos (Rabs t)) by (unfold Rabs; destruct (Rcase_abs t); [now rewrite cos_neg|reflexivity]). rewrite E.
  pose proof (Rabs_pos t). apply cos_decr_1; lra.
Qed.
Lemma tan_rad_bound t : Rabs t <= 7074237752028440 / 2 ^ 52 -> Rabs (tan t) <= 2e16.
Proof.
  intros H. pose proof (cos_rad_pos t H) as C. unfold tan, Rdiv. rewrite Rabs_mult, Rabs_inv, (Rabs_pos_eq (cos t)) by lra.
  pose proof (SIN_bound t). assert (Rabs (sin t) <= 1) by (apply Rabs_le; lra). pose proof (Rabs_pos (sin t)).
  assert (0 < / cos t <= 2e16). { split; [apply Rinv_0_lt_compat; lra|]. replace 2e16 with (/ 5e-17) by lra. apply Rinv_le; lra. }
  nra.
Qed.

Lemma eps_small : 0 < bpow radix2 (-1074) <= 1e-20.
Proof.
  split; [apply bpow_gt_0|]. apply Rle_trans with (bpow radix2 (-80)); [apply bpow_le; lia|].
  change (bpow radix2 (-80)) with (/ 1208925819614629174706176). lra.
Qed.
Lemma tan_fits r : r <= 4e16 -> r <= bpow radix2 1000.
Proof.
  intros H. apply Rle_trans with (bpow radix2 60); [|now apply bpow_le]. change (bpow radix2 60) with 1152921504606846976. lra.
Qed.

(* the direction of (cos lat, c sin lat) *)
Lemma flattened_dir v : -90 <= v <= 90 -> get_flattened_latitude (N := MathR) (Fin v) = Ok (Fin (deg (Ratan2 (flat * sin (rad v)) (cos (rad v))))).
Proof.
  intros H. destruct (Req_dec v 90) as [->|N90]; [|destruct (Req_dec v (-90)) as [->|N9]].
  - replace 90 with (90 * 1) at 1 by ring. rewrite flattened_pole by auto. do 2 f_equal. rewrite <- sind_rad, <- cosd_rad, sind_90, cosd_90.
    unfold Ratan2. destruct (Rsgn_cases 0) as [[-> ?]|[[-> ?]|[-> ?]]]; try lra. pose proof flat_pos.
    destruct (Rsgn_cases (flat * 1)) as [[-> ?]|[[-> ?]|[-> ?]]]; try lra. rewrite deg_PI2. ring.
  - replace (-90) with (90 * -1) at 1 by ring. rewrite flattened_pole by auto. do 2 f_equal. rewrite <- sind_rad, <- cosd_rad.
    replace (-90) with (- (90)) by ring. rewrite sind_opp, cosd_opp, sind_90, cosd_90.
    unfold Ratan2. destruct (Rsgn_cases 0) as [[-> ?]|[[-> ?]|[-> ?]]]; try lra. pose proof flat_pos.
    destruct (Rsgn_cases (flat * - (1))) as [[-> ?]|[[-> ?]|[-> ?]]]; try lra. rewrite deg_opp, deg_PI2. ring.
  - pose proof (cosd_pos v ltac:(lra)) as C. rewrite flattened_val by lra. rewrite <- sind_rad, <- cosd_rad, Ratan2_pos by exact C.
    do 4 f_equal. rewrite tand_def. field. lra.
Qed.

Definition A90 : ab := Eval vm_compute in mkab (- (90 * SC)) (90 * SC) (90 * SC) 0 NoPer.
Definition Aatan : ab := Eval vm_compute in mkab (-2 * SC) (2 * SC) (2 * SC) (4 * SC / 10 ^ 15) NoPer.
Definition Aflat : abs_val := Eval vm_compute in a_degrees Aatan.

Section L.
Variable L : libm.
Hypothesis HL : accurate L.
Notation N := (B64 L).

Lemma sat_exact x v z : val x v -> Rabs v <= zr z -> sat (mkab (- z) z z 0 NoPer) x (Fin v).
Proof.
  intros V H. exists v, v, 0%Z. split; [exact V|]. split; [reflexivity|]. cbn [a_lo a_hi a_mag a_err a_per turn].
  rewrite zr_opp. split; [now apply Rabs_le_inv|]. split; [exact H|]. rewrite zr_0. replace (v - v - 0 * 0) with 0 by ring. rewrite Rabs_R0. lra.
Qed.

Lemma flattened_sound x v : val x v -> -90 <= v <= 90 ->
  exists q p, get_flattened_latitude (N := N) x = Ok q /\ get_flattened_latitude (N := MathR) (Fin v) = Ok p /\ satv Aflat q p.
Proof.
  intros V H. rewrite flattened_dir by exact H. set (A := Ratan2 (flat * sin (rad v)) (cos (rad v))). unfold get_flattened_latitude.
  destruct d2r_c as [C D]. set (k := B2R deg_to_rad) in *.
  assert (D' : Rabs (k - PI / 180) <= 1e-18) by (eapply Rle_trans; [exact D|unfold zr, SC, d2r_e; interval]).
  assert (P180 : 0.017 < PI / 180 < 0.018) by (split; interval). apply Rabs_le_inv in D'.
  assert (VK : Rabs (v * k) <= 2) by (apply Rabs_le; split; nra).
  assert (V1 : val (radians (n := N) x) (rnd (v * k))).
  { apply val_mul; [exact V|exact C|]. apply Rle_trans with (1 := VK). change 2 with (bpow radix2 1). now apply bpow_le. }
  pose proof (rad_bound v H) as B1. fold k in B1. set (t := rnd (v * k)) in *.
  assert (T1 : Rabs (t - rad v) <= 4e-16).
  { pose proof (rnd_rel (v * k)) as E. fold t in E. replace (t - rad v) with ((t - v * k) + v * (k - PI / 180)) by (unfold rad; ring).
    eapply Rle_trans; [apply Rabs_triang|]. assert (Rabs (v * (k - PI / 180)) <= 1e-16) by (apply Rabs_le; split; nra).
    change (bpow radix2 (-53)) with (/ 9007199254740992) in E. 
    pose proof eps_small. lra. }
  clearbody t. clear VK. pose proof (cos_rad_pos t B1) as CP. pose proof (tan_rad_bound t B1) as TB.
  pose proof eps_small as E1074.
  set (h := bpow radix2 (-1074)) in *.
  destruct (ac_tan L HL _ t V1) as (T & VT & ET).
  { apply tan_fits. lra. }
  fold h in ET. change (bpow radix2 (-52)) with (/ 4503599627370496) in ET.
  assert (CT : close (l_tan L (radians (n := N) x)) (tan t)) by (exists T; split; [exact VT|exact ET]).
  cbv zeta. assert (RT : ntan (n := N) (radians (n := N) x) = Ok (l_tan L (radians (n := N) x))) by exact (math1_close ValueError _ _ _ CT).
  rewrite RT, bind_Ok. clear RT.
  assert (VF : exists c, val (lit (n := N) 0.99664719) c /\ Rabs (c - flat) <= 2e-16).
  { exists (rnd (Q2R 0.99664719)). split; [apply val_lit; apply small_big; unfold Q2R; cbn; rewrite Rabs_pos_eq; lra|].
    replace (Q2R 0.99664719) with flat by (unfold flat, Q2R; cbn; lra). eapply Rle_trans; [apply rnd_rel|]. fold h.
    change (bpow radix2 (-53)) with (/ 9007199254740992). unfold flat. rewrite Rabs_pos_eq; lra. }
  destruct VF as (c & VC & EC). set (f := flat) in *. assert (FV : f = 0.99664719) by reflexivity. clearbody f.
  assert (BT : Rabs T <= 3e16). { replace T with (tan t + (T - tan t)) by ring. eapply Rle_trans; [apply Rabs_triang|]. lra. }
  assert (BCT : Rabs (c * T) <= 4e16).
  { rewrite Rabs_mult. pose proof (Rabs_pos T). assert (Rabs c <= 1) by (apply Rabs_le; apply Rabs_le_inv in EC; lra). pose proof (Rabs_pos c). nra. }
  assert (VM : val (mul (n := N) (lit (n := N) 0.99664719) (l_tan L (radians (n := N) x))) (rnd (c * T))).
  { apply val_mul; [exact VC|exact VT|]. now apply tan_fits. }
  pose proof (rnd_rel (c * T)) as EM. fold h in EM. change (bpow radix2 (-53)) with (/ 9007199254740992) in EM. set (m := rnd (c * T)) in *. clearbody m.
  pose proof (ac_atan L HL _ m VM) as CA. 
  assert (RT : natan (n := N) (mul (n := N) (lit (n := N) 0.99664719) (l_tan L (radians (n := N) x))) =
    Ok (l_atan L (mul (n := N) (lit (n := N) 0.99664719) (l_tan L (radians (n := N) x))))) by exact (math1_close ValueError _ _ _ CA).
  rewrite RT, bind_Ok. clear RT.
  exists (degrees (n := N) (l_atan L (mul (n := N) (lit (n := N) 0.99664719) (l_tan L (radians (n := N) x))))), (Fin (deg A)).
  split; [reflexivity|]. split; [reflexivity|].
  change Aflat with (a_degrees Aatan). change (Fin (deg A)) with (xdegrees (Fin A)). apply degrees_sound.
  (* m cos t is near f sin t *)
  assert (MC : Rabs (m * cos t - f * sin t) <= 1e-15).
  { replace (f * sin t) with (f * tan t * cos t) by (unfold tan; field; lra). rewrite <- Rmult_minus_distr_r, Rabs_mult, (Rabs_pos_eq (cos t)) by lra.
    assert (ST : Rabs (tan t) * cos t <= 1).
    { rewrite <- (Rabs_pos_eq (cos t)) by lra. rewrite <- Rabs_mult. unfold tan. replace (sin t / cos t * cos t) with (sin t) by (field; lra).
      apply Rabs_le. apply SIN_bound. }
    assert (CO : cos t <= 1) by apply COS_bound. pose proof (Rabs_pos (tan t)) as TP.
    assert (X1 : Rabs (c * T - f * tan t) <= 4.3e-16 * Rabs (tan t) + 2e-20).
    { replace (c * T - f * tan t) with (c * (T - tan t) + (c - f) * tan t) by ring. eapply Rle_trans; [apply Rabs_triang|]. rewrite !Rabs_mult.
      assert (Rabs c <= 1) by (apply Rabs_le; apply Rabs_le_inv in EC; lra). pose proof (Rabs_pos c). pose proof (Rabs_pos (T - tan t)). pose proof (Rabs_pos (c - f)). nra. }
    assert (X2 : Rabs (c * T) <= 1.1 * Rabs (tan t) + 1).
    { replace (c * T) with (f * tan t + (c * T - f * tan t)) by ring. eapply Rle_trans; [apply Rabs_triang|]. rewrite Rabs_mult, (Rabs_pos_eq f) by lra. nra. }
    assert (X3 : Rabs (m - f * tan t) <= 6e-16 * Rabs (tan t) + 3e-16).
    { replace (m - f * tan t) with ((m - c * T) + (c * T - f * tan t)) by ring. eapply Rle_trans; [apply Rabs_triang|]. lra. }
    apply Rle_trans with ((6e-16 * Rabs (tan t) + 3e-16) * cos t); [apply Rmult_le_compat_r; [lra|exact X3]|]. nra. }
  assert (AM : atan m = Ratan2 (m * cos t) (cos t)) by (rewrite Ratan2_pos by lra; f_equal; field; lra).
  destruct (atan2_near (cos (rad v)) (f * sin (rad v)) (cos t) (m * cos t) 0.99 1.9e-15) as (j & J).
  { lra. }
  { rewrite FV. pose proof (sin2_cos2 (rad v)) as S. unfold Rsqr in S. assert (0 <= sin (rad v) * sin (rad v)) by apply Rle_0_sqr. assert (0 <= cos (rad v) * cos (rad v)) by apply Rle_0_sqr. lra. }
  { assert (X : Rabs (cos t - cos (rad v)) <= 4e-16) by (eapply Rle_trans; [apply cos_lip|exact T1]).
    assert (Y : Rabs (m * cos t - f * sin (rad v)) <= 1.4e-15).
    { replace (m * cos t - f * sin (rad v)) with ((m * cos t - f * sin t) + f * (sin t - sin (rad v))) by ring. eapply Rle_trans; [apply Rabs_triang|].
      rewrite Rabs_mult, (Rabs_pos_eq f) by lra. assert (Rabs (sin t - sin (rad v)) <= 4e-16) by (eapply Rle_trans; [apply sin_lip|exact T1]).
      pose proof (Rabs_pos (sin t - sin (rad v))). set (z := Rabs (sin t - sin (rad v))) in *. assert (f * z <= z) by nra. lra. }
    apply Rabs_le_inv in X, Y. nra. }
  rewrite <- AM in J. fold A in J.
  assert (RA : - (PI / 2) <= A <= PI / 2).
  { assert (0 <= cos (rad v)). { rewrite <- cosd_rad. now apply cosd_nonneg. }
    unfold A, Ratan2. destruct (Rsgn_cases (cos (rad v))) as [[-> ?]|[[-> ?]|[-> ?]]]; try lra.
    - pose proof (atan_bound (f * sin (rad v) / cos (rad v))). lra.
    - pose proof PI_RGT_0. destruct (Rsgn_cases (f * sin (rad v))) as [[-> ?]|[[-> ?]|[-> ?]]]; lra. }
  pose proof (atan_bound m) as RM. assert (P4 : 3 < PI < 3.2) by (split; interval).
  assert (J0 : (j = 0)%Z).
  { apply turn_zero with (atan m - A); [apply Rabs_le; lra|]. eapply Rle_trans; [exact J|]. lra. }
  subst j. rewrite Rmult_0_l, Rminus_0_r in J. destruct CA as (w & VW & EW). fold h in EW. change (bpow radix2 (-52)) with (/ 4503599627370496) in EW.
  assert (AB : Rabs (atan m) <= 1.6) by (apply Rabs_le; lra).
  assert (E : Rabs (w - A) <= 3e-15).
  { replace (w - A) with ((w - atan m) + (atan m - A)) by ring. eapply Rle_trans; [apply Rabs_triang|].
    assert (1.9e-15 / (0.99 - 1.9e-15) <= 2e-15) by lra. lra. }
  exists w, A, 0%Z. split; [exact VW|]. split; [reflexivity|]. cbn [a_lo a_hi a_mag a_err a_per turn Aatan].
  assert (Z2 : zr 2923003274661805836407369665432566039311865085952 = 2) by (unfold zr, SC; lra).
  change (-2923003274661805836407369665432566039311865085952)%Z with (- (2923003274661805836407369665432566039311865085952))%Z. rewrite zr_opp, Z2.
  apply Rabs_le_inv in E as E'. split; [lra|]. split; [apply Rabs_le; lra|].
  replace (w - A - 0 * 0) with (w - A) by ring. eapply Rle_trans; [exact E|]. unfold zr, SC. lra.
Qed.

End L.

(* ---- the rest of the pipeline as functions of lists *)
Definition F_proj : lfun := fun N l => match l with
  | [fl; lat; el] =>
      c1 <- ncos (radians fl) ;; c2 <- ncos (radians lat) ;; q <- div (mul el c2) earth_radius ;;
      s1 <- nsin (radians fl) ;; s2 <- nsin (radians lat) ;; q' <- div (mul el s2) earth_radius ;;
      Ok [add c1 q; add (mul (lit 0.99664719) s1) q']
  | _ => Err Unmodelled
  end.
Definition F_sky : lfun := fun N l => match l with
  | [jd; jde] =>
      jce <- get_julian_ephemeris_century jde ;; jme <- get_julian_ephemeris_millennium jce ;;
      gb <- get_geocentric_latitude jme ;; gl <- get_geocentric_longitude jme ;; r <- get_sun_earth_distance jme ;;
      ac <- get_aberration_correction r ;; ehp <- get_equatorial_horizontal_parallax r ;; nut <- get_nutation jce ;;
      st <- get_apparent_sidereal_time jd jme nut ;; ob <- get_true_ecliptic_obliquity jme nut ;;
      let lam := get_apparent_sun_longitude gl nut ac in
      dec <- get_geocentric_sun_declination lam ob gb ;;
      Ok [ehp; st; dec; lam; ob; gb]
  | _ => Err Unmodelled
  end.
Definition F_ra1 : lfun := fun N l => match l with
  | [lam; ob; gb] =>
      s1 <- nsin (radians lam) ;; c1 <- ncos (radians ob) ;; t2 <- ntan (radians gb) ;; s2 <- nsin (radians ob) ;;
      c <- ncos (radians lam) ;; Ok [sub (mul s1 c1) (mul t2 s2); c]
  | _ => Err Unmodelled
  end.
Definition F_ra2 : lfun := fun N l => match l with
  | [alpha] => r <- fmod (degrees alpha) (lit 360) ;; Ok [r]
  | _ => Err Unmodelled
  end.
Definition F_topo : lfun := fun N l => match l with
  | [lon; prd; pad; ehp; st; dec; ra] =>
      lha <- get_local_hour_angle st lon ra ;; p <- get_parallax_sun_right_ascension prd ehp lha dec ;;
      d <- get_topocentric_sun_declination dec pad ehp p lha ;;
      Ok [d; get_topocentric_local_hour_angle lha p]
  | _ => Err Unmodelled
  end.

Create HintDb lrel discriminated.
#[export] Hint Resolve r_lit r_inf r_add r_sub r_mul r_neg r_div r_fmod r_powi r_powf r_sin r_cos r_tan
  r_asin r_acos r_atan r_atan2 r_exp r_radians r_degrees r_pi r_e
  get_julian_ephemeris_century_rel get_julian_ephemeris_millennium_rel get_geocentric_latitude_rel get_geocentric_longitude_rel
  get_sun_earth_distance_rel get_aberration_correction_rel get_equatorial_horizontal_parallax_rel get_nutation_rel
  get_apparent_sidereal_time_rel get_true_ecliptic_obliquity_rel get_apparent_sun_longitude_rel get_geocentric_sun_declination_rel
  get_local_hour_angle_rel get_parallax_sun_right_ascension_rel get_topocentric_sun_declination_rel get_topocentric_local_hour_angle_rel : lrel.
Ltac lrel_step := match goal with
  | |- relres _ (bind _ _) (bind _ _) => eapply relres_bind; [solve [eauto 20 with lrel nocore]|intros ? ? ?]
  | |- relres _ (Ok _) (Ok _) => apply relres_Ok
  | |- Forall2 _ (_ :: _) (_ :: _) => constructor; [solve [eauto 20 with lrel nocore]|]
  | |- Forall2 _ [] [] => constructor
  end.
Ltac lrel_tac F := intros N' M' R' l l' H; unfold F;
  repeat (match goal with H : Forall2 _ _ _ |- _ => inversion H; subst; clear H; try apply relres_Err end); cbv zeta; repeat lrel_step.
Lemma F_proj_rel : lrel F_proj. Proof. lrel_tac F_proj. Qed.
Lemma F_sky_rel : lrel F_sky. Proof. lrel_tac F_sky. Qed.
Lemma F_ra1_rel : lrel F_ra1. Proof. lrel_tac F_ra1. Qed.
Lemma F_ra2_rel : lrel F_ra2. Proof. lrel_tac F_ra2. Qed.
Lemma F_topo_rel : lrel F_topo. Proof. lrel_tac F_topo. Qed.

Ltac binv H := repeat (let x := fresh "v" in let E := fresh "E" in apply bind_eq_Ok in H as (x & E & H)).
Lemma proj_assemble (K : Num) (lat el fl prd pad : T K) : get_flattened_latitude lat = Ok fl -> F_proj K [fl; lat; el] = Ok [prd; pad] ->
  get_projected_radial_distance el lat = Ok prd /\ get_projected_axial_distance el lat = Ok pad.
Proof.
  intros F H. unfold F_proj in H. binv H. apply Ok_inj in H. injection H as <- <-.
  unfold get_projected_radial_distance, get_projected_axial_distance. rewrite F. cbv zeta. cbn [bind]. rewrite E, E0. cbn [bind]. rewrite E1. cbn [bind].
  rewrite E2, E3. cbn [bind]. rewrite E4. split; reflexivity.
Qed.
Lemma topo_assemble (K : Num) (lat lon el prd pad jd jde ehp st dec lam ob gb ra d h : T K) :
  F_sky K [jd; jde] = Ok [ehp; st; dec; lam; ob; gb] -> get_geocentric_sun_right_ascension lam ob gb = Ok ra ->
  F_topo K [lon; prd; pad; ehp; st; dec; ra] = Ok [d; h] ->
  topocentric_position_at lat lon el prd pad jd jde = Ok (d, h).
Proof.
  intros H R H'. unfold F_sky in H. binv H. apply Ok_inj in H. injection H as -> -> -> <- -> ->.
  unfold F_topo in H'. binv H'. apply Ok_inj in H'. injection H' as -> <-.
  unfold topocentric_position_at. rewrite E; cbn [bind]; rewrite E0; cbn [bind]; rewrite E1; cbn [bind]; rewrite E2; cbn [bind]; rewrite E3; cbn [bind];
  rewrite E4; cbn [bind]; rewrite E5; cbn [bind]; rewrite E6; cbn [bind]; rewrite E7; cbn [bind]; rewrite E8; cbn [bind]. cbv zeta.
  rewrite R; cbn [bind]; rewrite E9; cbn [bind]; rewrite E10; cbn [bind]; rewrite E11; cbn [bind]; rewrite E12; cbn [bind]. reflexivity.
Qed.
Lemma ra_assemble (K : Num) (lam ob gb y x al r : T K) : F_ra1 K [lam; ob; gb] = Ok [y; x] -> natan2 y x = Ok al -> F_ra2 K [al] = Ok [r] ->
  get_geocentric_sun_right_ascension lam ob gb = Ok r.
Proof.
  intros H A H'. unfold F_ra1 in H. binv H. apply Ok_inj in H. injection H as <- <-. unfold F_ra2 in H'. binv H'. apply Ok_inj in H'. injection H' as <-.
  unfold get_geocentric_sun_right_ascension. cbv zeta. rewrite E; cbn [bind]; rewrite E0; cbn [bind]; rewrite E1; cbn [bind]; rewrite E2; cbn [bind];
  rewrite E3; cbn [bind]; rewrite A; cbn [bind]. exact E4.
Qed.

Lemma F_ra1_R l o g : cos (rad g) <> 0 -> F_ra1 MathR [Fin l; Fin o; Fin g] =
  Ok [Fin (sin (rad l) * cos (rad o) - tan (rad g) * sin (rad o)); Fin (cos (rad l))].
Proof. intros H. unfold F_ra1. rewrite !radians_R, !nsin_R, !ncos_R, ntan_R by exact H. cbn [bind]. now rewrite !mul_R, sub_R. Qed.
Definition ra_in (e : Z) : abs_val := finish 2 (- (4 * SC)) (4 * SC) (4 * SC) (cdiv (e * SC) (9 * (SC / 10) - e)) Rad.
Lemma cdiv_up e m : (0 < m)%Z -> zr e / zr m <= zr (cdiv (e * SC) m).
Proof.
  intros H. unfold zr. pose proof SC_pos as S. pose proof (IZR_lt _ _ H) as H'.
  eapply Rle_trans; [|apply Rmult_le_compat_r; [left; apply Rinv_0_lt_compat, S|apply ceil_ge; exact H]].
  rewrite mult_IZR. apply Req_le. field. split; lra.
Qed.
Section L.
Variable L : libm.
Hypothesis HL : accurate L.
Notation N := (B64 L).
Lemma ra_sound al ao ag a b z xl yl xo yo xg yg : sat al xl yl -> sat ao xo yo -> sat ag xg yg -> F_ra1 AI [Ab al; Ab ao; Ab ag] = Ok [Ab a; Ab b] ->
  a_per al = Deg -> a_per ao = NoPer -> a_per ag = NoPer -> a_per a = NoPer -> a_per b = NoPer ->
  (20 * SC <= a_lo ao)%Z -> (a_hi ao <= 25 * SC)%Z -> (- SC <= 1000 * a_lo ag)%Z -> (1000 * a_hi ag <= SC)%Z -> (1000 * (a_err a + a_err b) <= SC)%Z ->
  F_ra2 AI [ra_in (a_err a + a_err b)] = Ok [z] ->
  exists q p, get_geocentric_sun_right_ascension (N := N) xl xo xg = Ok q /\ get_geocentric_sun_right_ascension (N := MathR) yl yo yg = Ok p /\ satv z q p.
Proof.
  intros Sl So Sg HF P1 P2 P3 P4 P5 B1 B2 B3 B4 B5 H2.
  destruct (transport L HL F_ra1 F_ra1_rel [Ab al; Ab ao; Ab ag] [xl; xo; xg] [yl; yo; yg] _ ltac:(repeat constructor; assumption) HF) as (lq & lp & E1 & E2 & A).
  inversion A as [|? x1 y1 ? ? ? S1 A1]; subst. inversion A1 as [|? x2 y2 ? ? ? S2 A2]; subst. inversion A2; subst. clear A A1 A2.
  destruct (sat0 _ _ _ P4 S1) as (v1 & r1 & V1 & -> & R1 & D1 & _ & _ & G1). destruct (sat0 _ _ _ P5 S2) as (v2 & r2 & V2 & -> & R2 & D2 & _ & _ & G2).
  destruct Sl as (vl & l & jl & Vl & -> & _). destruct (sat0 _ _ _ P2 So) as (vo & o & _ & -> & Ro & _). destruct (sat0 _ _ _ P3 Sg) as (vg & g & _ & -> & Rg & _).
  apply zr_le in B1, B2, B3, B4, B5. rewrite zr_int in B1, B2. rewrite zr_opp, zr_SC, zr_scale in B3.
  rewrite zr_SC, zr_scale in B4. rewrite zr_SC, zr_scale, zr_add in B5.
  assert (E2' := E2).
  assert (CG : cos (rad g) <> 0) by (rewrite <- cosd_rad; apply cosd_ne0; lra).
  rewrite (F_ra1_R l o g CG) in E2'. apply Ok_inj in E2'. injection E2' as K1 K2.
  assert (SO : 0.9 * 0.9 <= r2 * r2 + r1 * r1).
  { rewrite <- K1, <- K2. pose proof (sin2_cos2 (rad l)) as S. unfold Rsqr in S. 
    assert (CO : 0.905 <= cos (rad o)). { unfold rad. assert (20 <= o <= 25) by lra. interval. }
    assert (SI : 0 <= sin (rad o) <= 1). { unfold rad. assert (20 <= o <= 25) by lra. split; interval. }
    assert (TG : Rabs (tan (rad g)) <= 0.0001). { apply Rabs_le. unfold rad. assert (-0.001 <= g <= 0.001) by lra. split; unfold tan; interval. }
    apply Rabs_le_inv in TG. set (s := sin (rad l)) in *. set (c := cos (rad l)) in *. set (co := cos (rad o)) in *. set (si := sin (rad o)) in *. set (tg := tan (rad g)) in *.
    assert (co <= 1) by apply COS_bound. assert (Rabs s <= 1) by (apply Rabs_le; apply SIN_bound). apply Rabs_le_inv in H0.
    clearbody s c co si tg. assert (Rabs (tg * si) <= 0.0001) by (apply Rabs_le; split; nra). set (w := tg * si) in *. clearbody w. apply Rabs_le_inv in H1.
    assert (0 <= c * c) by apply Rle_0_sqr. assert (0 <= s * s) by apply Rle_0_sqr. 
    assert (s * co * w <= 0.0001). { assert (-1 <= s * co <= 1) by (split; nra). nra. }
    assert (0.819 * (s * s) <= s * co * (s * co)). { replace (s * co * (s * co)) with (co * co * (s * s)) by ring. apply Rmult_le_compat_r; [assumption|nra]. }
    assert (0 <= w * w) by apply Rle_0_sqr. replace ((s * co - w) * (s * co - w)) with (s * co * (s * co) - 2 * (s * co * w) + w * w) by ring. lra. }
  destruct (atan2_near_ieee r2 r1 x1 x2 v2 v1 0.9 (zr (a_err a) + zr (a_err b)) V1 V2) as (j & J); [lra|exact SO| |].
  { apply Rabs_le_inv in D1, D2. nra. }
  pose proof (ac_atan2 L HL x1 x2 v1 v2 V1 V2) as C.
  assert (RT : natan2 (n := N) x1 x2 = Ok (l_atan2 L x1 x2)) by exact (math2_close _ _ _ _ C).
  assert (SA : satv (ra_in (a_err a + a_err b)) (l_atan2 L x1 x2) (Fin (Ratan2 r1 r2))).
  { unfold ra_in. assert (P32 : PI < 4) by interval. pose proof (atan2_ieee_range x1 x2). pose proof (atan2_range r1 r2).
    apply finish_sound with (w := atan2_ieee x1 x2) (j := j); [lia|now apply approx_close'| | |].
    - rewrite zr_int. apply Rabs_le. lra.
    - rewrite zr_opp, zr_int. lra.
    - eapply Rle_trans; [exact J|]. assert (HB : (0 < 9 * (SC / 10) - (a_err a + a_err b))%Z).
      { apply lt_IZR. rewrite minus_IZR, mult_IZR. apply Rmult_lt_reg_r with (/ IZR SC); [apply Rinv_0_lt_compat, SC_pos|]. rewrite Rmult_0_l, Rmult_minus_distr_r.
        change (IZR (a_err a + a_err b) * / IZR SC) with (zr (a_err a + a_err b)). rewrite zr_add.
        assert (0.8 <= 9 * IZR (SC / 10) * / IZR SC) by (change (SC / 10)%Z with 146150163733090291820368483271628301965593254297%Z; unfold SC; lra). lra. }
      eapply Rle_trans; [|apply cdiv_up; exact HB]. rewrite zr_add. unfold Rdiv. apply Rmult_le_compat_l; [lra|].
      apply Rinv_le.
      + rewrite <- zr_0. now apply zr_lt.
      + rewrite zr_sub, zr_add. apply Rplus_le_compat_r. rewrite zr_scale. unfold zr. change (SC / 10)%Z with 146150163733090291820368483271628301965593254297%Z. unfold SC. lra. }
  destruct (transport L HL F_ra2 F_ra2_rel [ra_in (a_err a + a_err b)] [l_atan2 L x1 x2] [Fin (Ratan2 r1 r2)] _ ltac:(repeat constructor; assumption) H2) as (lq & lp & G3 & G4 & A).
  inversion A as [|? q p ? ? ? S3 A3]; subst. inversion A3; subst. exists q, p.
  split; [exact (ra_assemble N _ _ _ _ _ _ _ E1 RT G3)|]. split; [|exact S3]. exact (ra_assemble MathR _ _ _ _ _ _ _ E2 eq_refl G4).
Qed.
End L.

(* Calls that raise ValueError in binary64 although the exact formula is defined, for every correctly
   rounded C library. *)
From Coq Require Import Reals Qreals Lra Lia.
From Flocq Require Import Core IEEE754.BinarySingleNaN.
From Interval Require Import Tactic.
From Verif Require Import Py Num Cal TzCheck Clock Constants SolarTime Solar RInst B64 SpecB64 B64Lemmas B64Angles SpecTime SpecDt SpecEng GenProofs FastProofs.
Local Open Scope R_scope.

(* a real within half a unit of m*2^e rounds to it *)
Lemma rnd_dyadic (m e : Z) r : (2 ^ 52 < Z.abs m < 2 ^ 53)%Z -> (-1074 <= e)%Z ->
  Rabs (r * bpow radix2 (- e) - IZR m) < / 2 -> rnd r = IZR m * bpow radix2 e.
Proof.
  intros Hm He H. set (s := r * bpow radix2 (- e)) in *.
  assert (R1 : r = s * bpow radix2 e). { unfold s. rewrite Rmult_assoc, <- bpow_plus, Z.add_opp_diag_l. simpl. lra. }
  assert (Bm : IZR (2 ^ 52 + 1) <= Rabs (IZR m) <= IZR (2 ^ 53 - 1)). { rewrite <- abs_IZR. split; apply IZR_le; lia. }
  assert (Bs : IZR (2 ^ 52) <= Rabs s < IZR (2 ^ 53)).
  { rewrite plus_IZR in Bm. rewrite minus_IZR in Bm. apply Rabs_def2 in H.
    unfold Rabs in *. destruct (Rcase_abs s), (Rcase_abs (IZR m)); try lra. }
  assert (C : cexp radix2 (FLT_exp (-1074) 53) r = e).
  { unfold cexp, FLT_exp. rewrite (mag_unique radix2 r (e + 53)); [lia|].
    rewrite R1, Rabs_mult, (Rabs_pos_eq (bpow _ e)) by apply bpow_ge_0.
    replace (e + 53 - 1)%Z with (52 + e)%Z by lia. replace (e + 53)%Z with (53 + e)%Z by lia. rewrite !bpow_plus.
    change (bpow radix2 52) with (IZR (2 ^ 52)). change (bpow radix2 53) with (IZR (2 ^ 53)).
    pose proof (bpow_gt_0 radix2 e). split; [apply Rmult_le_compat_r|apply Rmult_lt_compat_r]; lra. }
  unfold rnd, round, F2R, scaled_mantissa. rewrite C. cbn [Fnum Fexp]. f_equal. fold s. f_equal.
  apply Znearest_imp. exact H.
Qed.
Lemma nearest_dyadic (m e : Z) r y : (2 ^ 52 < Z.abs m < 2 ^ 53)%Z -> (-1074 <= e <= 900)%Z ->
  Rabs (r * bpow radix2 (- e) - IZR m) < / 2 -> nearest r y -> y = fl m e.
Proof.
  intros Hm He H. unfold nearest. rewrite (rnd_dyadic m e r) by (assumption || lia).
  assert (V : val (fl m e) (IZR m * bpow radix2 e)) by (apply val_fl; lia).
  assert (A : Rabs (IZR m * bpow radix2 e) < bpow radix2 1024).
  { rewrite Rabs_mult, (Rabs_pos_eq (bpow _ _)) by apply bpow_ge_0. rewrite <- abs_IZR.
    apply Rlt_le_trans with (bpow radix2 53 * bpow radix2 e); [apply Rmult_lt_compat_r; [apply bpow_gt_0|]; change (bpow radix2 53) with (IZR (2 ^ 53)); apply IZR_lt; lia|].
    rewrite <- bpow_plus. apply bpow_le. lia. }
  rewrite Rlt_bool_true by exact A. intros W. eapply val_inj; [exact W|exact V|].
  apply Rmult_integral_contrapositive_currified; [apply IZR_neq; lia|]. pose proof (bpow_gt_0 radix2 e). lra.
Qed.
Lemma nearest_0 y : nearest 0 y -> exists s, y = B754_zero s.
Proof.
  unfold nearest. rewrite rnd_0, Rabs_R0, Rlt_bool_true by apply bpow_gt_0. intros V.
  pose proof (proj2 (zero_val y 0 V) eq_refl) as Z. destruct y; try discriminate. eauto.
Qed.
Lemma nearest_1 y : nearest 1 y -> y = flit 1.
Proof.
  unfold nearest. rewrite (rnd_val (flit 1) 1) by (apply (val_int 1); lia). rewrite Rabs_R1, Rlt_bool_true.
  - intros V. eapply val_inj; [exact V|apply (val_int 1); lia|lra].
  - change 1 with (bpow radix2 0). apply bpow_lt. lia.
Qed.
Lemma fl_finite m e : (Z.abs m < 2 ^ 53)%Z -> (-1074 <= e <= 900)%Z -> is_finite (fl m e) = true /\ B2R (fl m e) = IZR m * bpow radix2 e.
Proof. intros; now apply val_fl. Qed.

Section W.
Variable L : libm.
Hypothesis HL : correctly_rounded L.
Notation N := (B64 L).

Definition r8 := fl 5030569068109113 (-55).
Definition s8 := fl 5014239404989977 (-55).
Definition c8 := fl 8919541810762874 (-53).
Lemma math_fin ex (f : f64 -> f64) x y : f x = y -> is_nan y = false -> is_inf y = false -> math_1 ex f x = Ok y.
Proof. intros <- A B. unfold math_1. now rewrite A, B. Qed.

Lemma sin_fl m e m' e' : (Z.abs m < 2 ^ 53)%Z -> (-1074 <= e <= 900)%Z -> (2 ^ 52 < Z.abs m' < 2 ^ 53)%Z -> (-1074 <= e' <= 900)%Z ->
  Rabs (sin (IZR m * bpow radix2 e) * bpow radix2 (- e') - IZR m') < / 2 -> nsin (n := N) (fl m e) = Ok (fl m' e').
Proof.
  intros A B C D H. destruct (fl_finite m e A B) as [F E]. destruct (fl_finite m' e') as [F' _]; [lia|lia|].
  pose proof (cr_sin L HL _ F) as K. rewrite E in K. apply (nearest_dyadic m' e') in K; try assumption.
  apply math_fin; [exact K|..]; destruct (fl m' e'); now try discriminate.
Qed.
Lemma cos_fl m e m' e' : (Z.abs m < 2 ^ 53)%Z -> (-1074 <= e <= 900)%Z -> (2 ^ 52 < Z.abs m' < 2 ^ 53)%Z -> (-1074 <= e' <= 900)%Z ->
  Rabs (cos (IZR m * bpow radix2 e) * bpow radix2 (- e') - IZR m') < / 2 -> ncos (n := N) (fl m e) = Ok (fl m' e').
Proof.
  intros A B C D H. destruct (fl_finite m e A B) as [F E]. destruct (fl_finite m' e') as [F' _]; [lia|lia|].
  pose proof (cr_cos L HL _ F) as K. rewrite E in K. apply (nearest_dyadic m' e') in K; try assumption.
  apply math_fin; [exact K|..]; destruct (fl m' e'); now try discriminate.
Qed.
Lemma asin_fl m e m' e' : (Z.abs m < 2 ^ 53)%Z -> (-1074 <= e <= 900)%Z -> (2 ^ 52 < Z.abs m' < 2 ^ 53)%Z -> (-1074 <= e' <= 900)%Z ->
  Rabs (IZR m * bpow radix2 e) <= 1 ->
  Rabs (asin (IZR m * bpow radix2 e) * bpow radix2 (- e') - IZR m') < / 2 -> nasin (n := N) (fl m e) = Ok (fl m' e').
Proof.
  intros A B C D H1 H. destruct (fl_finite m e A B) as [F E]. destruct (fl_finite m' e') as [F' _]; [lia|lia|].
  pose proof (cr_asin L HL _ F) as K. rewrite E in K. specialize (K H1). apply (nearest_dyadic m' e') in K; try assumption.
  apply math_fin; [exact K|..]; destruct (fl m' e'); now try discriminate.
Qed.
Lemma sin_zero s : exists s', nsin (n := N) (B754_zero s) = Ok (B754_zero s').
Proof.
  pose proof (cr_sin L HL (B754_zero s) eq_refl) as K. cbn [B2R] in K. rewrite sin_0 in K.
  apply nearest_0 in K as [s' K]. exists s'. now apply math_fin.
Qed.
Lemma cos_zero s : ncos (n := N) (B754_zero s) = Ok (flit 1).
Proof.
  pose proof (cr_cos L HL (B754_zero s) eq_refl) as K. cbn [B2R] in K. rewrite cos_0 in K.
  apply nearest_1 in K. apply math_fin; [exact K|vm_compute; reflexivity..].
Qed.
Lemma above_one x : is_finite x = true -> Bltb (flit 1) (Babs x) = true -> 1 < Rabs (B2R x).
Proof.
  intros F H. assert (V1 : val (flit 1) 1) by (apply (val_int 1); lia).
  assert (V2 : val (Babs x) (Rabs (B2R x))). { split; [now rewrite is_finite_Babs|apply B2R_Babs]. }
  rewrite (val_lt _ _ _ _ V1 V2) in H. revert H. case Rlt_bool_spec; [trivial|discriminate].
Qed.
Lemma asin_big x : is_finite x = true -> Bltb (flit 1) (Babs x) = true -> nasin (n := N) x = Err ValueError.
Proof.
  intros F H. cbn [nasin B64]. unfold math_1. rewrite (cr_asin_dom L HL x F (above_one x F H)).
  destruct x; now try discriminate.
Qed.
Lemma acos_big x : is_finite x = true -> Bltb (flit 1) (Babs x) = true -> nacos (n := N) x = Err ValueError.
Proof.
  intros F H. cbn [nacos B64]. unfold math_1. rewrite (cr_acos_dom L HL x F (above_one x F H)).
  destruct x; now try discriminate.
Qed.

Lemma sin8 : nsin (n := N) r8 = Ok s8.
Proof. apply sin_fl; try lia. cbn [bpow Z.opp]. interval with (i_prec 140). Qed.
Lemma cos8 : ncos (n := N) r8 = Ok c8.
Proof. apply cos_fl; try lia. cbn [bpow Z.opp]. interval with (i_prec 140). Qed.
Lemma rad8 : radians (n := N) (flit 8) = r8.
Proof. apply B2SF_inj. vm_compute. reflexivity. Qed.
Lemma rad0 : radians (n := N) (flit 0) = B754_zero false.
Proof. apply B2SF_inj. vm_compute. reflexivity. Qed.

Lemma elevation_raises : get_topocentric_elevation_angle (N := N) (flit 8) (flit 8) (flit 0) = Err ValueError.
Proof.
  unfold get_topocentric_elevation_angle. rewrite rad8, rad0, sin8. cbn [bind]. rewrite cos8. cbn [bind]. rewrite cos_zero. cbn [bind].
  rewrite asin_big; [reflexivity|vm_compute; reflexivity..].
Qed.
Lemma incidence_raises : get_incidence_angle (N := N) (flit 8) (flit 8) (flit 0) (flit 180) = Err ValueError.
Proof.
  unfold get_incidence_angle. rewrite rad8, rad0, sin8. cbn [bind]. rewrite cos8. cbn [bind].
  assert (E : sub (n := N) (sub (n := N) (radians (n := N) (flit 180)) npi) (B754_zero false) = (B754_zero false : f64)) by (apply B2SF_inj; vm_compute; reflexivity).
  rewrite E, cos_zero. cbn [bind].
  rewrite acos_big; [reflexivity|vm_compute; reflexivity..].
Qed.

(* 00:05 UTC on 22 March (21 March in leap years), day 81, at latitude 0, longitude 0: the declination
   is zero, the sine of the azimuth comes out as -1.000000000000305 *)
Definition har := fl (-7099095837462651) (-51).
Lemma clock64 d u day h m : instant d u -> in_range u = true -> civil_clock u day h m ->
  aware d = Ok tt /\ tm_yday (clock_math N) d = Ok (flit (inject_Z day)) /\ tm_hour (clock_math N) d = Ok (flit (inject_Z h)) /\ tm_min (clock_math N) d = Ok (flit (inject_Z m)).
Proof.
  intros Hi Hr Hc. apply civil_clock_fields in Hc as (<- & <- & <-). split.
  - unfold aware. destruct Hi as (tz & o & -> & _). reflexivity.
  - cbn [clock_math tm_yday tm_hour tm_min]. unfold tm_yday_math, tm_hour_math, tm_min_math.
    rewrite (instant_utctimetuple d u Hi), Hr. auto.
Qed.
Lemma cos_har : ncos (n := N) har = Ok (fl (-9006650433187237) (-53)).
Proof. apply cos_fl; try lia. cbn [bpow Z.opp]. interval with (i_prec 140). Qed.
Lemma sin_har : nsin (n := N) har = Ok (fl 6363540621459097 (-59)).
Proof. apply sin_fl; try lia. cbn [bpow Z.opp]. interval with (i_prec 140). Qed.
Lemma asin_c : nasin (n := N) (fl (-9006650433187237) (-53)) = Ok (fl (-7024521581160034) (-52)).
Proof.
  apply asin_fl; try lia; cbn [bpow Z.opp]; [interval|]. rewrite asin_atan by (split; interval). interval with (i_prec 140).
Qed.
Lemma cos_alt : ncos (n := N) (fl (-7024521581160034) (-52)) = Ok (fl 6363540621457155 (-59)).
Proof. apply cos_fl; try lia. cbn [bpow Z.opp]. interval with (i_prec 140). Qed.

Lemma decl81 : exists s, get_declination (N := N) (flit (inject_Z 81)) = Ok (B754_zero s).
Proof.
  unfold get_declination. cbn [div B64].
  change (is_zero (lit (n := N) 365.0)) with false. cbn [bind]. 
  match goal with |- context [nsin ?x] => assert (E : x = (B754_zero false : f64)) by (apply B2SF_inj; vm_compute; reflexivity) end.
  rewrite E. destruct (sin_zero false) as [s ->]. cbn [bind]. exists s. f_equal. apply B2SF_inj. destruct s; vm_compute; reflexivity.
Qed.
Lemma eot81 : equation_of_time (N := N) (flit (inject_Z 81)) = Ok (flit (-7.53)).
Proof.
  unfold equation_of_time. cbn [div B64]. change (is_zero (lit (n := N) 364.0)) with false. cbn [bind]. 
  match goal with |- context [nsin ?x] => assert (E : x = (B754_zero false : f64)) by (apply B2SF_inj; vm_compute; reflexivity) end.
  rewrite E. destruct (sin_zero false) as [s ->]. cbn [bind]. clear E.
  match goal with |- context [ncos ?x] => assert (E : x = (B754_zero false : f64)) by (apply B2SF_inj; vm_compute; reflexivity) end.
  rewrite E, cos_zero. cbn [bind]. destruct (sin_zero false) as [s' ->]. cbn [bind]. f_equal. apply B2SF_inj. destruct s, s'; vm_compute; reflexivity.
Qed.
Lemma hour_angle81 d u : instant d u -> in_range u = true -> civil_clock u 81 0 5 ->
  get_hour_angle (N := N) (C := clock_math N) d (flit 0) = Ok (fl (-6355441091335946) (-45)).
Proof.
  intros Hi Hr Hc. destruct (clock64 _ _ _ _ _ Hi Hr Hc) as (A & Y & H & M).
  unfold get_hour_angle, get_solar_time. change (aware_check (clock_math N) d) with (aware d). rewrite A. cbn [bind].
  rewrite H, M, Y. cbn [bind]. rewrite eot81. cbn [bind].
  cbn [div B64]. change (is_zero (lit (n := N) 60)) with false. cbn [bind]. f_equal. apply B2SF_inj. vm_compute. reflexivity.
Qed.
Lemma azimuth_fast_raises d u : instant d u -> in_range u = true -> civil_clock u 81 0 5 ->
  get_azimuth_fast (N := N) (C := clock_math N) (flit 0) (flit 0) d = Err ValueError.
Proof.
  intros Hi Hr Hc. destruct (clock64 _ _ _ _ _ Hi Hr Hc) as (A & Y & _ & _).
  destruct decl81 as [s D].
  assert (RZ : radians (n := N) (B754_zero s) = B754_zero s) by (apply B2SF_inj; destruct s; vm_compute; reflexivity).
  assert (RH : radians (n := N) (fl (-6355441091335946) (-45)) = har) by (apply B2SF_inj; vm_compute; reflexivity).
  destruct (sin_zero false) as [s1 S1]. destruct (sin_zero s) as [s2 S2].
  assert (ALT : get_altitude_fast (N := N) (C := clock_math N) (flit 0) (flit 0) d = Ok (fl (-6288678745297402) (-46))).
  { unfold get_altitude_fast. change (aware_check (clock_math N) d) with (aware d). rewrite A. cbn [bind]. rewrite Y. cbn [bind].
    rewrite D. cbn [bind]. rewrite (hour_angle81 d u Hi Hr Hc). cbn [bind]. rewrite rad0, cos_zero. cbn [bind].
    rewrite RZ, cos_zero. cbn [bind]. rewrite RH, cos_har. cbn [bind]. rewrite S1. cbn [bind]. rewrite S2. cbn [bind].
    match goal with |- context [nasin ?x] => assert (E : x = fl (-9006650433187237) (-53)) by (apply B2SF_inj; destruct s1, s2; vm_compute; reflexivity) end.
    rewrite E, asin_c. cbn [bind]. f_equal. apply B2SF_inj. vm_compute. reflexivity. }
  unfold get_azimuth_fast. rewrite Y. cbn [bind]. rewrite D. cbn [bind]. rewrite (hour_angle81 d u Hi Hr Hc). cbn [bind].
  rewrite ALT. cbn [bind]. rewrite RZ, cos_zero. cbn [bind]. rewrite RH, sin_har. cbn [bind].
  assert (RA : radians (n := N) (fl (-6288678745297402) (-46)) = fl (-7024521581160034) (-52)) by (apply B2SF_inj; vm_compute; reflexivity).
  rewrite RA, cos_alt. cbn [bind]. cbn [div B64]. change (is_zero (fl 6363540621457155 (-59))) with false. cbn [bind].
  match goal with |- context [nasin ?x] => assert (E : x = fl (-4503599627371870) (-52)) by (apply B2SF_inj; vm_compute; reflexivity) end.
  rewrite E, asin_big; [reflexivity|vm_compute; reflexivity..].
Qed.
End W.

(* a correctly rounded C library exists *)
Definition b64_of_R (r : R) : f64 :=
  binary_normalize 53 1024 _ _ mode_NE (ZnearestE (scaled_mantissa radix2 (FLT_exp (-1074) 53) r)) (cexp radix2 (FLT_exp (-1074) 53) r) (Rlt_bool r 0).
Lemma b64_of_R_nearest r : nearest r (b64_of_R r).
Proof.
  unfold nearest, b64_of_R. pose proof (binary_normalize_correct 53 1024 _ _ mode_NE (ZnearestE (scaled_mantissa radix2 (FLT_exp (-1074) 53) r)) (cexp radix2 (FLT_exp (-1074) 53) r) (Rlt_bool r 0)) as K.
  cbn zeta in K. change (F2R _) with (rnd r) in K. change (round radix2 _ _ ?q) with (rnd q) in K.
  assert (E : rnd (rnd r) = rnd r). { apply rnd_id. apply generic_format_round; auto with typeclass_instances. }
  rewrite E in K. destruct (Rlt_bool (Rabs (rnd r)) _) eqn:EB.
  - destruct K as (K1 & K2 & _). now split.
  - revert EB. case Rlt_bool_spec; [discriminate|]. intros H _.
    apply B2SF_inj. rewrite K. cbn [B2SF]. unfold binary_overflow. cbn. f_equal.
    assert (rnd r <> 0). { intros Z. rewrite Z, Rabs_R0 in H. pose proof (bpow_gt_0 radix2 1024). lra. }
    assert (P : 0 <= r -> 0 <= rnd r) by (intros; rewrite <- rnd_0; apply rnd_le; lra).
    assert (Q : r <= 0 -> rnd r <= 0) by (intros; rewrite <- rnd_0; apply rnd_le; lra).
    destruct (Rlt_bool_spec (rnd r) 0), (Rlt_bool_spec r 0); try reflexivity; exfalso; lra.
Qed.
Definition dom1 (f : R -> R) (x : f64) : f64 := if is_finite x then (if Rle_bool (Rabs (B2R x)) 1 then b64_of_R (f (B2R x)) else B754_nan) else B754_nan.
Definition fun1 (f : R -> R) (x : f64) : f64 := if is_finite x then b64_of_R (f (B2R x)) else B754_nan.
Definition exact_libm : libm := {|
  l_sin := fun1 sin; l_cos := fun1 cos; l_tan := fun1 tan; l_asin := dom1 asin; l_acos := dom1 acos; l_atan := fun1 atan;
  l_atan2 y x := if is_finite y && is_finite x then b64_of_R (atan2_ieee y x) else B754_nan;
  l_exp := fun1 exp;
  l_pow x y := if is_finite x && is_finite y then b64_of_R (Rpower (B2R x) (B2R y)) else B754_nan |}.
Lemma exact_libm_correct : correctly_rounded exact_libm.
Proof.
  constructor; cbn; try (intros x F; unfold fun1, dom1; rewrite F; [|..]); try (now intros; apply b64_of_R_nearest);
    try (intros H; rewrite ?Rle_bool_true by exact H; apply b64_of_R_nearest).
  - intros H. rewrite Rle_bool_false by exact H. reflexivity.
  - intros H. rewrite Rle_bool_false by exact H. reflexivity.
  - intros y x F G. rewrite F, G. apply b64_of_R_nearest.
  - intros x y F G _. rewrite F, G. apply b64_of_R_nearest.
  - intros f x H F. unfold fun1, dom1 in H. intuition subst; now rewrite F.
  - intros f H. unfold fun1 in H. now intuition subst.
Qed.

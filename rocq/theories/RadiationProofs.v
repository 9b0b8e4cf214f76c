(* radiation.py over the reals (math back end). *)
From Coq Require Import Reals Qreals Lra Lia.
From Interval Require Import Tactic.
From Verif Require Import Py Num Cal TzCheck Clock Constants SolarTime Solar Radiation GenProofs
  RInst RTac Rel RelInst JulianProofs Trig GeoProofs FastProofs SpecTime SpecDt SpecGeom SpecEng.
Local Open Scope R_scope.

Lemma flux_val day : get_apparent_extraterrestrial_flux (N := MathR) (Fin day) = Ok (Fin (masters_flux day)).
Proof.
  unfold get_apparent_extraterrestrial_flux, masters_flux. rx. do 3 f_equal. f_equal. unfold sind. f_equal. field.
Qed.

Lemma depth_val day : get_optical_depth (N := MathR) (Fin day) = Ok (Fin (masters_depth day)).
Proof.
  unfold get_optical_depth, masters_depth. rx. do 3 f_equal. f_equal. unfold sind. f_equal. field.
Qed.

Lemma flux_range day : 1085 <= masters_flux day <= 1235.
Proof. unfold masters_flux. pose proof (sind_bound (360 / 365 * (day - 275))). lra. Qed.
Lemma depth_range day : 0.139 <= masters_depth day <= 0.209.
Proof. unfold masters_depth. pose proof (sind_bound (360 / 365 * (day - 100))). lra. Qed.

Lemma air_mass_val alt : sind alt <> 0 -> get_air_mass_ratio (N := MathR) (Fin alt) = Ok (Fin (1 / sind alt)).
Proof. intros H. unfold get_air_mass_ratio. rx. rewrite <- sind_rad. rx. reflexivity. Qed.

Lemma air_mass_0 alt : sind alt = 0 -> get_air_mass_ratio (N := MathR) (Fin alt) = Ok PInf.
Proof. intros H. unfold get_air_mass_ratio. rx. rewrite <- sind_rad, H, div_R0. reflexivity. Qed.

Section When.
Context (d : datetime) (u day h m : Z) (Hi : instant d u) (Hr : in_range u = true) (Hc : civil_clock u day h m).
Notation rad_direct alt := (get_radiation_direct (N := MathR) (C := clock_math MathR) d (Fin alt)).

Lemma overflow_pos : 1 < float_overflow.
Proof. unfold float_overflow. interval. Qed.

Lemma radiation_val alt : sind alt <> 0 ->
  rad_direct alt =
  (if Rbool_lt (exp (- (masters_depth (IZR day) / sind alt))) float_overflow
   then Ok (Fin (masters_beam (IZR day) alt * (if Rbool_lt 0 alt then 1 else 0)))
   else Err OverflowError).
Proof.
  intros Hs. unfold get_radiation_direct. destruct (clock_vals d u day h m Hi Hr Hc) as (E1 & _ & _).
  rewrite E1, bind_Ok, flux_val, bind_Ok, depth_val, bind_Ok, air_mass_val, bind_Ok by assumption. rx.
  replace (- (1) * masters_depth (IZR day) * (1 / sind alt)) with (- (masters_depth (IZR day) / sind alt)) by (field; assumption).
  cbn [nexp MathR]. destruct (Rbool_lt (exp _) float_overflow); [|reflexivity]. rx.
  unfold masters_beam. destruct (Rbool_lt 0 alt); reflexivity.
Qed.

Lemma radiation_0 alt : sind alt = 0 -> rad_direct alt = Ok (Fin 0).
Proof.
  intros Hs. unfold get_radiation_direct. destruct (clock_vals d u day h m Hi Hr Hc) as (E1 & _ & _).
  rewrite E1, bind_Ok, flux_val, bind_Ok, depth_val, bind_Ok, air_mass_0, bind_Ok by assumption. rx.
  pose proof (depth_range (IZR day)).
  assert (En : @mul MathR (Fin (- (1) * masters_depth (IZR day))) PInf = NInf).
  { cbn. unfold Rsgn. destruct (total_order_T _ 0) as [[L|L]|L]; try reflexivity; exfalso; lra. }
  rewrite En. cbn [nexp MathR]. rewrite bind_Ok. rx. do 2 f_equal. destruct (Rbool_lt 0 alt); cbn; rx; f_equal; lra.
Qed.

(* ---------------------------------------------------------------- by day (C34) *)
Lemma exp_neg_small x : 0 <= x -> exp (- x) <= 1.
Proof. intros H. rewrite <- exp_0. destruct H as [H| <-]; [left; apply exp_increasing; lra|right; f_equal; lra]. Qed.

Lemma day_val alt : 0 < alt <= 90 -> rad_direct alt = Ok (Fin (masters_beam (IZR day) alt)).
Proof.
  intros Ha. assert (Ps : 0 < sind alt) by (apply sind_pos; lra).
  pose proof (depth_range (IZR day)) as D. pose proof overflow_pos as O.
  rewrite radiation_val by lra.
  assert (exp (- (masters_depth (IZR day) / sind alt)) <= 1).
  { apply exp_neg_small. apply Rle_mult_inv_pos; lra. }
  rewrite !Rbool_lt_true by lra. do 2 f_equal. lra.
Qed.

Lemma beam_range alt : 0 < alt <= 90 -> 0 < masters_beam (IZR day) alt < masters_flux (IZR day).
Proof.
  intros Ha. assert (Ps : 0 < sind alt) by (apply sind_pos; lra).
  pose proof (depth_range (IZR day)) as D. pose proof (flux_range (IZR day)) as F.
  unfold masters_beam. split; [apply Rmult_lt_0_compat; [lra|apply exp_pos]|].
  rewrite <- (Rmult_1_r (masters_flux (IZR day))) at 2. apply Rmult_lt_compat_l; [lra|].
  rewrite <- exp_0. apply exp_increasing.
  assert (0 < masters_depth (IZR day) / sind alt) by (apply Rdiv_lt_0_compat; lra). lra.
Qed.

Lemma beam_incr a b : 0 < a -> a < b -> b <= 90 -> masters_beam (IZR day) a < masters_beam (IZR day) b.
Proof.
  intros H1 H2 H3. unfold masters_beam.
  assert (Pa : 0 < sind a) by (apply sind_pos; lra). assert (Lab : sind a < sind b) by (apply sind_incr; lra).
  pose proof (depth_range (IZR day)) as D. pose proof (flux_range (IZR day)) as F.
  apply Rmult_lt_compat_l; [lra|]. apply exp_increasing. apply Ropp_lt_contravar.
  apply Rmult_lt_compat_l; [lra|]. apply Rinv_lt_contravar; [|assumption]. apply Rmult_lt_0_compat; lra.
Qed.

Lemma radiation_day :
  (forall alt, 0 < alt <= 90 -> exists r f, rad_direct alt = Ok (Fin r) /\
     get_apparent_extraterrestrial_flux (N := MathR) (Fin (IZR day)) = Ok (Fin f) /\
     r = masters_beam (IZR day) alt /\ 0 < r < f /\ r < 1235) /\
  (forall a b, 0 < a -> a < b -> b <= 90 -> exists ra rb,
     rad_direct a = Ok (Fin ra) /\ rad_direct b = Ok (Fin rb) /\ ra < rb).
Proof.
  split.
  - intros alt Ha. do 2 eexists. split; [now apply day_val|]. split; [apply flux_val|]. split; [reflexivity|].
    pose proof (beam_range alt Ha). pose proof (flux_range (IZR day)). lra.
  - intros a b H1 H2 H3. do 2 eexists. split; [apply day_val; lra|]. split; [apply day_val; lra|]. now apply beam_incr.
Qed.

(* ---------------------------------------------------------------- by night (C33) *)
Lemma sind_neg alt : -90 <= alt < 0 -> sind alt < 0.
Proof. intros H. rewrite <- (Ropp_involutive alt), sind_opp. pose proof (sind_pos (- alt)). lra. Qed.

(* exactly when the call raises, and what it returns otherwise *)
Lemma radiation_night alt : -90 <= alt <= 0 ->
  (rad_direct alt = Err OverflowError <-> alt < 0 /\ float_overflow <= exp (masters_depth (IZR day) / sind (- alt))) /\
  (rad_direct alt = Ok (Fin 0) <-> alt = 0 \/ exp (masters_depth (IZR day) / sind (- alt)) < float_overflow).
Proof.
  intros Ha. destruct (Req_dec alt 0) as [->|Hn].
  - rewrite radiation_0 by apply sind_0. split; split; intros H; try discriminate; try lra; auto.
  - assert (Ns : sind alt < 0) by (apply sind_neg; lra). rewrite radiation_val by lra.
    replace (- (masters_depth (IZR day) / sind alt)) with (masters_depth (IZR day) / sind (- alt)) by (rewrite sind_opp; field; lra).
    rewrite (Rbool_lt_false 0 alt) by lra. rewrite Rmult_0_r.
    destruct (Rlt_dec (exp (masters_depth (IZR day) / sind (- alt))) float_overflow) as [L|L].
    + rewrite Rbool_lt_true by assumption. split; split; intros H; try discriminate; try lra; auto.
    + rewrite Rbool_lt_false by lra. split; split; intros H; try discriminate; try lra; auto.
Qed.

Lemma night_raises alt : -0.011 <= alt < 0 -> rad_direct alt = Err OverflowError.
Proof.
  intros Ha. apply radiation_night; [lra|]. split; [lra|].
  pose proof (depth_range (IZR day)) as D. set (k := masters_depth (IZR day)) in *. clearbody k.
  assert (Ps : 0 < sind (- alt)) by (apply sind_pos; lra).
  assert (Ls : sind (- alt) <= 0.000192).
  { apply Rle_trans with (sind 0.011).
    - destruct (Req_dec (- alt) 0.011) as [->|]; [lra|]. left. apply sind_incr; lra.
    - unfold sind. interval. }
  apply Rle_trans with (exp 720). { unfold float_overflow. interval with (i_prec 60). }
  assert (720 <= k / sind (- alt)) as L.
  { apply Rmult_le_reg_r with (sind (- alt)); [lra|]. replace (k / sind (- alt) * sind (- alt)) with k by (field; lra). lra. }
  destruct L as [L| <-]; [left; now apply exp_increasing|right; reflexivity].
Qed.

Lemma night_zero alt : -90 <= alt <= -0.017 \/ alt = 0 -> rad_direct alt = Ok (Fin 0).
Proof.
  intros [Ha| ->]; [|apply radiation_0, sind_0]. apply radiation_night; [lra|]. right.
  pose proof (depth_range (IZR day)) as D. set (k := masters_depth (IZR day)) in *. clearbody k.
  assert (Ls : 0.000296 <= sind (- alt)).
  { apply Rle_trans with (sind 0.017).
    - unfold sind. interval.
    - destruct (Req_dec (- alt) 0.017) as [->|]; [lra|]. left. apply sind_incr; lra. }
  apply Rle_lt_trans with (exp 707). 2: { unfold float_overflow. interval with (i_prec 60). }
  assert (k / sind (- alt) <= 707) as L.
  { apply Rmult_le_reg_r with (sind (- alt)); [lra|]. replace (k / sind (- alt) * sind (- alt)) with k by (field; lra). lra. }
  destruct L as [L| ->]; [left; now apply exp_increasing|right; reflexivity].
Qed.
End When.

(* in numpy mode the same call returns nan instead of raising *)
Lemma clock_vals_np d u day h m : instant d u -> whole_minute_offset d -> in_range u = true -> civil_clock u day h m ->
  tm_yday (clock_numpy NumpyR) d = Ok (mknx false (Fin (IZR day))).
Proof.
  intros Hi Hw Hr Hc. apply civil_clock_fields in Hc as (<- & _ & _).
  destruct (date_decompositions_agree d u Hi Hw Hr) as (y & _ & _ & E1 & E2 & _).
  cbn [clock_numpy tm_yday]. rewrite E2. unfold tm_yday_math in E1. rewrite (instant_utctimetuple d u Hi), Hr in E1.
  injection E1 as <-. cbn. now rewrite Q2R_inject.
Qed.

Lemma night_nan d u alt : instant d u -> whole_minute_offset d -> in_range u = true ->
  -0.011 <= alt < 0 ->
  exists x, get_radiation_direct (N := NumpyR) (C := clock_numpy NumpyR) d (mknx false (Fin alt)) = Ok x /\ vx x = NaN.
Proof.
  intros Hi Hw Hr Ha. destruct (civil_clock_exists u) as (day & h & m & Hc).
  pose proof (night_raises d u day h m Hi Hr Hc alt Ha) as Hm.
  apply (radiation_night d u day h m Hi Hr Hc) in Hm; [|lra]. destruct Hm as (_ & Hm).
  assert (Ns : sind alt < 0) by (apply sind_neg; lra).
  unfold get_radiation_direct. rewrite (clock_vals_np d u day h m Hi Hw Hr Hc), bind_Ok.
  destruct (get_apparent_extraterrestrial_flux_rel math_numpy (Fin (IZR day)) (mknx false (Fin (IZR day))) eq_refl _ (flux_val (IZR day))) as (f & -> & Ef).
  destruct (get_optical_depth_rel math_numpy (Fin (IZR day)) (mknx false (Fin (IZR day))) eq_refl _ (depth_val (IZR day))) as (k & -> & Ek).
  destruct (get_air_mass_ratio_rel math_numpy (Fin alt) (mknx false (Fin alt)) Logic.I eq_refl _ (air_mass_val alt ltac:(lra))) as (q & -> & Eq).
  rewrite !bind_Ok. destruct f as [f1 f], k as [k1 k], q as [q1 q]. simpl in Ef, Ek, Eq. subst f k q.
  cbn [nexp NumpyR]. unfold npf. rewrite bind_Ok. eexists. split; [reflexivity|].
  cbn [mul NumpyR lift2 vx neg lift1 lit of_bool lt xlt xneg xmul np_exp].
  replace (Q2R 1) with 1 by (unfold Q2R; simpl; lra). replace (Q2R 0) with 0 by (unfold Q2R; simpl; lra).
  replace (- (1) * masters_depth (IZR day) * (1 / sind alt)) with (masters_depth (IZR day) / sind (- alt)) by (rewrite sind_opp; field; lra).
  unfold Rexp_x. rewrite Rbool_lt_false by assumption. rewrite (Rbool_lt_false 0 alt) by lra.
  pose proof (flux_range (IZR day)).
  cbn [xmul xbool]. unfold Rsgn. destruct (total_order_T (masters_flux (IZR day)) 0) as [[L|L]|L]; try (exfalso; lra).
  cbn. unfold Rsgn. destruct (total_order_T 0 0) as [[L'|L']|L']; try (exfalso; lra). reflexivity.
Qed.

Lemma radiation_night_refuted :
  (forall d u alt, instant d u -> in_range u = true -> -0.011 <= alt < 0 ->
     get_radiation_direct (N := MathR) (C := clock_math MathR) d (Fin alt) = Err OverflowError) /\
  (forall d u alt, instant d u -> whole_minute_offset d -> in_range u = true -> -0.011 <= alt < 0 ->
     exists x, get_radiation_direct (N := NumpyR) (C := clock_numpy NumpyR) d (mknx false (Fin alt)) = Ok x /\ vx x = NaN).
Proof.
  split; [|exact night_nan]. intros d u alt Hi Hr Ha. destruct (civil_clock_exists u) as (day & h & m & Hc).
  now apply night_raises with u day h m.
Qed.

Lemma radiation_night_partial d u alt : instant d u -> in_range u = true ->
  (-90 <= alt <= -0.017 \/ alt = 0 ->
     get_radiation_direct (N := MathR) (C := clock_math MathR) d (Fin alt) = Ok (Fin 0)) /\
  (-90 <= alt <= 0 ->
     get_radiation_direct (N := MathR) (C := clock_math MathR) d (Fin alt) = Ok (Fin 0) \/
     get_radiation_direct (N := MathR) (C := clock_math MathR) d (Fin alt) = Err OverflowError).
Proof.
  intros Hi Hr. destruct (civil_clock_exists u) as (day & h & m & Hc). split; intros Ha.
  - now apply night_zero with u day h m.
  - destruct (radiation_night d u day h m Hi Hr Hc alt Ha) as (H1 & H2).
    rewrite H1, H2. destruct (Req_dec alt 0); [tauto|].
    destruct (Rlt_dec (exp (masters_depth (IZR day) / sind (- alt))) float_overflow); [tauto|]. right. split; lra.
Qed.
